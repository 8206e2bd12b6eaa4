(** C26-C31: KMS clients, envelope encryption and the KMS integrations. *)
From Coq Require Import Strings.Byte Strings.String List NArith ZArith Bool Lia.
From Verif Require Import M_Base M_Utf8 M_Base64 M_Proto M_Wire M_Prims M_PrimitiveSet M_Registry M_Kms
  M_KmsIntegrations S_Keyset S_Wire S_Kms S_KmsIntegrations L_Base L_Kms L_KmsIntegrations X_Toy L_Toy.
Import ListNotations.
Open Scope list_scope.

(** After any history of registrations and resets the lookup finds the earliest
    client registered since the last reset that supports the URI. *)
@thm C26_lookup kms_lookup

(** Keys made from a KMS template lead to the Aead of the client found for the URI. *)
@thm C26_kms_aead_key kms_aead_template_key
@thm C26_kms_envelope_key kms_envelope_template_key

(** Envelope ciphertexts have the documented layout, each with a fresh DEK; and every
    combination of DEK and ciphertexts that the collaborators produce can occur. *)
@thm C27_format envelope_encrypt_format
@thm C27_layout_unambiguous envelope_layout_unique
@thm C27_round_trip envelope_round_trip

(** Decryption succeeds exactly on well-formed ciphertexts whose parts decrypt. *)
@thm C28_decrypt_exact envelope_decrypt_iff
(** Without the announced bytes: TinkError, whatever the remote does. *)
@thm C28_too_short envelope_decrypt_too_short
@thm C28_only_tink_error envelope_decrypt_only_tink_error

@thm C29_supported_dek_types envelope_constructor
@thm C29_template_dek_types kms_envelope_template_dek_types
@thm C29_managers_check_type kms_managers_reject

@thm C30_aws_construction aws_client_construction
@thm C30_aws_serves aws_client_serves
@thm C30_aws_session_serves aws_session_client_serves
@thm C30_gcp_serves gcp_client_serves
@thm C30_vault_endpoint vault_endpoint_spec
@thm C30_vault_endpoint_injective vault_endpoint_inj
@thm C30_vault_aead vault_aead_spec
@thm C30_vault_round_trip vault_round_trip

@thm C31_aws_context encryption_context_spec
@thm C31_aws_context_injective encryption_context_inj
@thm C31_aws_binds_associated_data aws_binds_associated_data

(** Finding: a GCP key name with a trailing line break passes the format check. *)
Theorem C30_gcp_name_format_refuted :
  exists n, gcp_key_regex_match n = true /\ ~ gcp_key_name n.
Proof.
  exists (ulit "projects/p/locations/l/keyRings/r/cryptoKeys/k" ++ [10%N]). split; [vmr |].
  intros (p & l & r & k & E & _ & _ & _ & _ & (_ & Hk)).
  assert (A : forall (a b : pystr) d, last (a ++ b) d = last b (last a d)).
  { intros a b d. destruct b as [| c b _] using rev_ind; [rewrite app_nil_r; reflexivity |].
    rewrite app_assoc, !last_last. reflexivity. }
  pose proof (f_equal (fun x => last x 0%N) E) as L. cbv beta in L. rewrite !A in L.
  destruct k as [| c k _] using rev_ind; [discriminate L |].
  rewrite last_last in L. vm_compute in L. apply Forall_app in Hk. destruct Hk as (_ & Hk).
  inversion Hk; subst. apply gcp_name_char_spec in H1. discriminate.
Qed.

(** Finding: a Vault key path with a lone surrogate raises UnicodeEncodeError, which
    is not a TinkError. *)
Theorem C30_vault_only_tink_error_refuted :
  exists path client, vault_new_aead path client = Err UnicodeError.
Proof.
  exists (ulit "transit/keys/k" ++ [55296%N]), (mk_vault_client (fun _ _ _ _ => Err KeyError) (fun _ _ _ => Err KeyError)).
  vmr.
Qed.

(** ** Examples *)

Definition toy_client (id : N) (prefix : pystr) : kms_client :=
  mk_kms_client id (fun u => startswith u prefix) (fun u => Ok (toy_aead (map byte_of_N u))).
Definition toy_kms_ops : list kms_op :=
  [ KmsRegister (toy_client 1 (ulit "a://")); KmsReset; KmsRegister (toy_client 2 (ulit "b://"));
    KmsRegister (toy_client 3 (ulit "a://")); KmsRegister (toy_client 4 (ulit "a://")) ].
Example C26_found : first_supporting (since_reset toy_kms_ops) (ulit "a://k") (toy_client 3 (ulit "a://")).
Proof.
  exists [toy_client 2 (ulit "b://")], [toy_client 4 (ulit "a://")]. split; [reflexivity |].
  split; [vmr |]. intros d [<- | []]. vmr.
Qed.
Example C26_not_found : forall c, In c (since_reset toy_kms_ops) -> kc_does_support c (ulit "c://k") = false.
Proof. intros c [<- | [<- | [<- | []]]]; vmr. Qed.

Definition u_gcm : pystr := ulit "type.googleapis.com/google.crypto.tink.AesGcmKey".
Definition kms_registry : registry :=
  registry_run empty_registry
    [OpRegisterKeyManager (toy_km 1 u_gcm ClsAead (fun v => PrimAead (toy_aead v)) SYMMETRIC None) true].
Definition gcm_template : key_template := mk_key_template u_gcm (blit "size16") TINK.
Definition toy_remote : aead := toy_aead (blit "KEK").
Definition toy_env : aead :=
  mk_aead (envelope_encrypt kms_registry gcm_template toy_remote)
    (envelope_decrypt kms_registry gcm_template toy_remote).

Example C27_env_constructed : new_kms_envelope_aead kms_registry 0 gcm_template toy_remote = Ok toy_env.
Proof. vmr. Qed.
(** "KEK" and a zero byte in front of the DEK "size16" and a random byte: 11 bytes. *)
Example C27_ciphertext :
  aead_encrypt toy_env 0 (blit "secret") (blit "ad") =
  Ok ([x00; x00; x00; x0b] ++ (blit "KEK" ++ [x00] ++ blit "size16" ++ [x00])
      ++ (blit "size16" ++ [x00] ++ [x02] ++ blit "ad" ++ blit "secret")).
Proof. vmr. Qed.
Example C27_remote_round_trips : forall r m c,
  aead_encrypt toy_remote r m [] = Ok c -> aead_decrypt toy_remote c [] = Ok m.
Proof.
  intros r m c H. cbn in H. apply ok_inj in H. subst c. apply toy_open_seal.
Qed.
Lemma gcm_manager : dict_get str_eqb u_gcm (r_key_managers kms_registry) =
  Some (toy_km 1 u_gcm ClsAead (fun v => PrimAead (toy_aead v)) SYMMETRIC None, true).
Proof. reflexivity. Qed.
Example C27_deks_round_trip : forall r d, generates kms_registry r gcm_template d ->
  kd_type_url d = kt_type_url gcm_template /\ kd_key_material_type d = SYMMETRIC /\
  forall p, data_provides kms_registry d p -> forall r' m ad c,
    call_encrypt p r' m ad = Ok c -> call_decrypt p c ad = Ok m.
Proof.
  intros r d (km & Hk & Hd). change (kt_type_url gcm_template) with u_gcm in *.
  rewrite gcm_manager in Hk. apply some_inj in Hk. injection Hk as <-. apply ok_inj in Hd. subst d.
  split; [reflexivity |]. split; [reflexivity |].
  intros p (km & b & Hk & _ & Hp). cbn [kd_type_url] in Hk. rewrite gcm_manager in Hk.
  apply some_inj in Hk. injection Hk as <- _. cbn in Hp. apply ok_inj in Hp. subst p.
  intros r' m ad c H. cbn in H. apply ok_inj in H. subst c. cbn [call_decrypt aead_decrypt toy_aead].
  apply toy_open_seal.
Qed.
Example C27_round_trip_concrete :
  aead_decrypt toy_env ([x00; x00; x00; x0b] ++ (blit "KEK" ++ [x00] ++ blit "size16" ++ [x00])
      ++ (blit "size16" ++ [x00] ++ [x02] ++ blit "ad" ++ blit "secret")) (blit "ad") = Ok (blit "secret").
Proof. vmr. Qed.
Example C28_short_ciphertexts :
  too_short [x00; x00; x00] /\ too_short [x00; x00; x00; x02; x41] /\
  too_short [xff; xff; xff; xff; x41].
Proof.
  split; [left; cbn; lia |]. split; right.
  - exists x00, x00, x00, x02, [x41]. split; [reflexivity | cbn; lia].
  - exists xff, xff, xff, xff, [x41]. split; [reflexivity | cbn; lia].
Qed.
Example C28_remote_total : forall ct ad, tink_total (aead_decrypt toy_remote ct ad).
Proof. intros ct ad. cbn. unfold toy_open. destruct (strip _ ct); [exact I | reflexivity]. Qed.
Example C28_managers_total : forall km b,
  dict_get str_eqb (kt_type_url gcm_template) (r_key_managers kms_registry) = Some (km, b) ->
  km_primitive_class km = ClsAead ->
  forall d, kd_type_url d = kt_type_url gcm_template -> tink_total (km_primitive km d) /\
    forall p ct ad, km_primitive km d = Ok p -> tink_total (call_decrypt p ct ad).
Proof.
  intros km b H _ d _. change (kt_type_url gcm_template) with u_gcm in *. rewrite gcm_manager in H.
  apply some_inj in H. injection H as <- _. cbn [toy_km km_primitive].
  destruct (kd_value d) as [| c v]; split; try exact I; try reflexivity; intros p ct ad H; [discriminate |].
  apply ok_inj in H. subst p. cbn. unfold toy_open. destruct (strip _ ct); [exact I | reflexivity].
Qed.
Example C29_gcm_supported : In (kt_type_url gcm_template) dek_types /\
  exists d, generates kms_registry 0 gcm_template d.
Proof.
  split; [left; reflexivity |]. eexists. exists (toy_km 1 u_gcm ClsAead (fun v => PrimAead (toy_aead v)) SYMMETRIC None).
  split; [reflexivity | reflexivity].
Qed.
Example C29_hmac_unsupported :
  ~ In (ulit "type.googleapis.com/google.crypto.tink.HmacKey") dek_types.
Proof.
  intros H. apply is_supported_iff in H. vm_compute in H. discriminate.
Qed.
Lemma ascii_valid : forall s, forallb (fun c => (c <? 55296)%N) s = true -> valid_text s.
Proof. intros s H c Hc. rewrite forallb_forall in H. left. apply N.ltb_lt, H, Hc. Qed.
Example C26_template_hypotheses :
  valid_text (ulit "a://k") /\ wf_key_template gcm_template /\ In (kt_type_url gcm_template) dek_types /\
  proto_size (serialize_kek (mk_kms_envelope_aead_key 0
    (Some (mk_kms_envelope_aead_key_format (ulit "a://k") (Some gcm_template))))) /\
  proto_size (serialize_kak (mk_kms_aead_key 0 (Some (mk_kms_aead_key_format (ulit "a://k"))))).
Proof.
  split; [apply ascii_valid; vmr |]. split.
  { split; [apply ascii_valid; vmr |]. split; vm_compute; [discriminate | reflexivity]. }
  split; [left; reflexivity |]. split; vmr.
Qed.

Definition aws_uri_example : pystr :=
  ulit "aws-kms://arn:aws:kms:us-east-2:235739564943:key/3ee50705-5a82-4f5b-9753-05c4f473922f".
Example C30_aws_uri : aws_key_uri aws_uri_example.
Proof. apply has_aws_format_spec. vmr. Qed.
Example C30_aws_other_uris : ~ aws_key_uri (ulit "aws-kms://arn:aws:kms::1:key/2") /\
  ~ aws_key_uri (ulit "aws-kms://arn:aws:kms:US:1:key/2") /\ ~ aws_key_uri (ulit "gcp-kms://x").
Proof. split; [| split]; intros H; apply has_aws_format_spec in H; vm_compute in H; discriminate. Qed.
Definition toy_boto3 : boto3_client :=
  mk_boto3_client
    (fun _ arn x ctx => toy_seal (map byte_of_N arn) (map byte_of_N (concat (map snd ctx))) x)
    (fun arn x ctx => toy_open (map byte_of_N arn) x (map byte_of_N (concat (map snd ctx)))).
Definition check_client (r : result kms_client) (good bad : pystr) : bool :=
  match r with
  | Ok c => kc_does_support c good && negb (kc_does_support c bad) &&
            match kc_get_aead c good with Ok _ => true | Err _ => false end &&
            match kc_get_aead c bad with Ok _ => false | Err e => is_tink_error e end
  | Err _ => false
  end.
Example C30_aws_bound_client :
  check_client (aws_kms_client 1 (fun _ _ => toy_boto3) (fun _ => []) (Some aws_uri_example) None)
    aws_uri_example (aws_uri_example ++ ulit "x") = true.
Proof. vmr. Qed.
Example C31_context : aws_context [x41; xff] [(ulit "associatedData", ulit "41ff")].
Proof. apply encryption_context_spec. vmr. Qed.
(** A service with one key, message and context. *)
Definition one_context : list (pystr * pystr) := [(ulit "associatedData", ulit "41")].
Definition one_boto3 : boto3_client :=
  mk_boto3_client
    (fun _ arn x ctx =>
       if str_eqb arn (ulit "arn") && bytes_eqb x (blit "hi") &&
          list_eqb (fun a b => str_eqb (fst a) (fst b) && str_eqb (snd a) (snd b)) ctx one_context
       then Ok [x01] else Err ClientError)
    (fun arn ct ctx =>
       if str_eqb arn (ulit "arn") && bytes_eqb ct [x01] &&
          list_eqb (fun a b => str_eqb (fst a) (fst b) && str_eqb (snd a) (snd b)) ctx one_context
       then Ok (blit "hi") else Err ClientError).
Lemma context_eqb_spec : forall x y,
  list_eqb (fun a b => str_eqb (fst a) (fst b) && str_eqb (snd a) (snd b)) x y = true <-> x = y.
Proof.
  apply list_eqb_spec. intros [a b] [c d]. cbn. rewrite andb_true_iff, !str_eqb_spec.
  split; [intros (-> & ->); reflexivity | intros H; injection H as -> ->; auto].
Qed.
Example C31_service_hypothesis : forall r k x ctx ct, boto3_encrypt one_boto3 r k x ctx = Ok ct ->
  forall k' ctx' y, boto3_decrypt one_boto3 k' ct ctx' = Ok y <-> k' = k /\ ctx' = ctx /\ y = x.
Proof.
  intros r k x ctx ct H k' ctx' y. cbn [one_boto3 boto3_encrypt boto3_decrypt] in *.
  destruct (str_eqb k (ulit "arn") && bytes_eqb x (blit "hi") && _) eqn:E; [| discriminate].
  apply ok_inj in H. subst ct. rewrite !andb_true_iff, str_eqb_spec, bytes_eqb_spec, context_eqb_spec in E.
  destruct E as ((-> & ->) & ->).
  destruct (str_eqb k' (ulit "arn") && bytes_eqb [x01] [x01] && _) eqn:E.
  - rewrite !andb_true_iff, str_eqb_spec, context_eqb_spec in E. destruct E as ((-> & _) & ->).
    split; [intros H; apply ok_inj in H; auto | intros (_ & _ & ->); reflexivity].
  - split; [discriminate |]. intros (-> & -> & _). vm_compute in E. discriminate.
Qed.
Example C31_binding_aead : aws_aead_for one_boto3 (ulit "arn") (aws_kms_aead one_boto3 (ulit "arn")) /\
  aead_encrypt (aws_kms_aead one_boto3 (ulit "arn")) 0 (blit "hi") [x41] = Ok [x01].
Proof. split; [apply aws_kms_aead_for | vmr]. Qed.

Definition gcp_uri_example : pystr :=
  ulit "gcp-kms://projects/tink-test/locations/global/keyRings/unit-test/cryptoKeys/aead-key".
Example C30_gcp_client :
  check_client (gcp_kms_client 1 (fun _ => Ok (mk_gcp_service (fun _ _ x _ => Ok x) (fun _ x _ => Ok x))) None None)
    gcp_uri_example (ulit "gcp-kms://projects/p") = false /\
  check_client (gcp_kms_client 1 (fun _ => Ok (mk_gcp_service (fun _ _ x _ => Ok x) (fun _ x _ => Ok x)))
      (Some gcp_uri_example) None)
    gcp_uri_example (ulit "gcp-kms://projects/p") = true.
Proof. split; vmr. Qed.
Example C30_gcp_name : gcp_key_name (ulit "projects/tink-test/locations/global/keyRings/unit-test/cryptoKeys/aead-key").
Proof.
  exists (ulit "tink-test"), (ulit "global"), (ulit "unit-test"), (ulit "aead-key").
  split; [reflexivity |]. split; [discriminate |]. split.
  - intros H. vm_compute in H. repeat (destruct H as [H | H]; [discriminate |]). exact H.
  - rewrite !gcp_id_chars. repeat split; try discriminate; try (cbn; lia);
      apply Forall_forall; apply forallb_forall; vmr.
Qed.
Example C30_vault_path : vault_path (ulit "/teams/billing/keys/key-1") (ulit "teams/billing") (ulit "key-1").
Proof. apply path_match_spec. vmr. Qed.
Example C30_vault_paths :
  get_endpoint_paths (ulit "transit/keys/a b") = Ok (ulit "transit", ulit "a%20b") /\
  raises_tink (get_endpoint_paths (ulit "transit/keys/")) /\
  raises_tink (get_endpoint_paths (ulit "a//b/keys/k")) /\
  raises_tink (get_endpoint_paths (ulit "/keys/k")).
Proof. split; [vmr |]. repeat split; toy_raises. Qed.
Definition toy_vault : vault_client :=
  mk_vault_client (fun _ name x mount => Ok (ulit "vault:v1:" ++ map Byte.to_N x))
    (fun name text mount => Ok (map byte_of_N (skipn 9 text))).
Example C30_toy_vault_round_trips : forall r name x mount text,
  vault_encrypt toy_vault r name x mount = Ok text -> vault_decrypt toy_vault name text mount = Ok x.
Proof.
  intros r name x mount text H. apply ok_inj in H. subst text. cbn [toy_vault vault_decrypt].
  f_equal. change (skipn 9 (ulit "vault:v1:" ++ map Byte.to_N x)) with (map Byte.to_N x).
  rewrite map_map. erewrite map_ext; [apply map_id |]. intros b. apply byte_of_N_of_to_N.
Qed.
Example C30_toy_vault_aead : exists a, vault_new_aead (ulit "transit/keys/k") toy_vault = Ok a /\
  aead_encrypt a 0 (blit "hi") [] = Ok (blit "vault:v1:aGk=").
Proof. eexists. split; [reflexivity | vmr]. Qed.
