(** The managers of private keys of signatures. *)
From Coq Require Import Strings.Byte Strings.String List NArith ZArith Bool Lia.
From Verif Require Import M_Base L_Base M_Proto M_Utf8 M_Wire L_Wire S_Wire M_ProtoMsg S_ProtoMsg L_ProtoMsg M_KeyFormats M_Prims M_StreamTypes M_CcStream M_CcManagers M_CcAes
  M_CcStreamKeys M_CcModes M_CcSymmetric M_CcSymKeys M_CcEcies M_CcEciesKeys M_CcSignatures S_Config S_CcAes S_CcStreamKeys S_CcModes S_CcSymmetric S_CcSymKeys S_CcSymHandles
  S_CcEcies S_CcEciesKeys S_CcSignatures L_CcStreamKeys L_CcModes L_CcModes4 L_CcSymmetric L_CcSymmetric2 L_CcSymKeys L_CcSymKeys2 L_CcSymHandles L_CcEcies L_CcEcies2 L_CcEcies3 L_CcEciesKeys L_CcSigDer L_CcSignatures L_CcSigKeys.
Import ListNotations.
Open Scope string_scope.
Open Scope list_scope.
Open Scope nat_scope.

Definition validate_private (kd : sig_kind) : message -> option cc_status :=
  match kd with
  | Ecdsa => ecdsa_validate_private
  | Ed25519 => ed25519_validate_private
  | Pkcs1 => pkcs1_validate_private
  | Pss => pss_validate_private
  end.
Definition create_sign (ec : ec_crypto) (sg : sig_crypto) (self_test : coins) (kd : sig_kind) : message -> st_or cc_signer :=
  match kd with
  | Ecdsa => ecdsa_create_sign ec sg
  | Ed25519 => ed25519_create_sign sg
  | Pkcs1 => pkcs1_create_sign sg self_test
  | Pss => pss_create_sign sg self_test
  end.
Definition validate_format (kd : sig_kind) : message -> option cc_status :=
  match kd with
  | Ecdsa => ecdsa_validate_format
  | Ed25519 => ed25519_validate_format
  | Pkcs1 => rsa_validate_format pkcs1_validate_params RsaSsaPkcs1KeyFormat
  | Pss => rsa_validate_format pss_validate_params RsaSsaPssKeyFormat
  end.
Definition create_key (ec : ec_crypto) (sg : sig_crypto) (kd : sig_kind) : coins -> message -> st_or message :=
  match kd with
  | Ecdsa => ecdsa_create_key ec
  | Ed25519 => ed25519_create_key sg
  | Pkcs1 => rsa_create_key sg RsaSsaPkcs1KeyFormat RsaSsaPkcs1Params
  | Pss => rsa_create_key sg RsaSsaPssKeyFormat RsaSsaPssParams
  end.
Lemma sign_manager_is : forall ec sg self_test kd, sign_manager ec sg self_test kd =
  sign_manager_of (kind_name kd ++ "PrivateKey") (kind_name kd ++ "PublicKey") (private_schema kd) (public_schema kd) (format_schema kd) (validate_private kd) (validate_format kd)
    (create_sign ec sg self_test kd) (create_key ec sg kd).
Proof. intros ec sg self_test []; reflexivity. Qed.
(** The key at [m] is [k]. *)
Definition private_at (m : message) (k : sig_private) : Prop :=
  let fs := private_schema (private_kind k) in
  number fs m ["version"] 0%Z /\ public_at fs m ["public_key"] (public_of k) /\ secret_at fs m k.
Lemma private_validates : forall kd m, validate_private kd m = None <->
  validate_version (num_at (private_schema kd) m ["version"]) 0 = None /\ validate_public kd (private_schema kd) (cons "public_key") m = None /\
  match kd with Ed25519 => length (bytes_at Ed25519PrivateKey m ["key_value"]) = 32 | _ => True end.
Proof.
  intros kd m. destruct kd; cbn [validate_private private_schema validate_public].
  - unfold ecdsa_validate_private. rewrite and_then_none. tauto.
  - unfold ed25519_validate_private. rewrite !and_then_none, check_none, negb_false_iff, Nat.eqb_eq. tauto.
  - unfold pkcs1_validate_private. rewrite and_then_none. tauto.
  - unfold pss_validate_private. rewrite and_then_none. tauto.
Qed.
Lemma private_valid : forall k m, private_at m k -> (validate_private (private_kind k) m = None <-> valid_private k).
Proof.
  intros k m (V & P & S). rewrite private_validates, (version_zero _ _ _ V). unfold private_kind at 1, valid_private. rewrite (public_valid _ m (cons "public_key") ["public_key"] (fun q => eq_refl) (public_of k) P).
  destruct k as [c h enc X Y d | A a | h n e t | h g salt n e t]; cbn [public_of private_kind public_kind] in *; cbn [secret_at private_kind public_of public_kind private_schema] in S; try tauto.
  rewrite (bytes_at_content _ _ _ _ S). tauto.
Qed.
Lemma rsa_secret_read : forall fs m, holds_all fs m -> path_type (TMsg fs) ["d"] = Some TBytes -> path_type (TMsg fs) ["p"] = Some TBytes -> path_type (TMsg fs) ["q"] = Some TBytes ->
  path_type (TMsg fs) ["dp"] = Some TBytes -> path_type (TMsg fs) ["dq"] = Some TBytes -> path_type (TMsg fs) ["crt"] = Some TBytes -> exists t, rsa_secret_at fs m t.
Proof.
  intros fs m H A1 A2 A3 A4 A5 A6. destruct (read_octets _ _ _ H A1) as (d & D), (read_octets _ _ _ H A2) as (p & P), (read_octets _ _ _ H A3) as (q & Q), (read_octets _ _ _ H A4) as (dp & DP), (read_octets _ _ _ H A5) as (dq & DQ), (read_octets _ _ _ H A6) as (crt & CRT).
  exists (mk_rsa_secret d p q dp dq crt). unfold rsa_secret_at. cbn. auto 10.
Qed.
Lemma private_read : forall kd m, holds_all (private_schema kd) m -> validate_private kd m = None -> exists k, private_kind k = kd /\ private_at m k.
Proof.
  intros kd m HM V. apply private_validates in V. destruct V as (V & P & _).
  destruct (public_read (private_schema kd) m (cons "public_key") ["public_key"] (fun q => eq_refl) kd HM) as (p & K & PA); [intros q; destruct kd; reflexivity | exact P |].
  assert (V0 : number (private_schema kd) m ["version"] 0%Z) by (apply version_read; [exact HM | destruct kd; reflexivity | exact V]).
  unfold private_at. destruct p as [c h enc X Y | A | h n e | h g salt n e]; cbn [public_kind] in K; subst kd.
  - destruct (read_octets _ _ ["key_value"] HM eq_refl) as (d & D). exists (EcdsaPrivate c h enc X Y d). split; [reflexivity |]. split; [exact V0 |]. split; [exact PA | exact D].
  - destruct (read_octets _ _ ["key_value"] HM eq_refl) as (d & D). exists (Ed25519Private A d). split; [reflexivity |]. split; [exact V0 |]. split; [exact PA | exact D].
  - destruct (rsa_secret_read _ _ HM eq_refl eq_refl eq_refl eq_refl eq_refl eq_refl) as (t & T). exists (Pkcs1Private h n e t). split; [reflexivity |]. split; [exact V0 |]. split; [exact PA | exact T].
  - destruct (rsa_secret_read _ _ HM eq_refl eq_refl eq_refl eq_refl eq_refl eq_refl) as (t & T). exists (PssPrivate h g salt n e t). split; [reflexivity |]. split; [exact V0 |]. split; [exact PA | exact T].
Qed.
Lemma private_fun : forall m k k', private_at m k -> private_at m k' -> private_kind k = private_kind k' -> k = k'.
Proof.
  intros m k k' (_ & P & S) (_ & P' & S') K. rewrite <- K in P', S'. pose proof (public_fun _ m _ _ _ P P' K) as E.
  assert (RF : forall fs t t', rsa_secret_at fs m t -> rsa_secret_at fs m t' -> t = t').
  { intros fs [d p q dp dq crt] [d' p' q' dp' dq' crt'] (A1 & A2 & A3 & A4 & A5 & A6) (B1 & B2 & B3 & B4 & B5 & B6). cbn in *.
    rewrite (content_fun _ _ _ _ _ A1 B1), (content_fun _ _ _ _ _ A2 B2), (content_fun _ _ _ _ _ A3 B3), (content_fun _ _ _ _ _ A4 B4), (content_fun _ _ _ _ _ A5 B5), (content_fun _ _ _ _ _ A6 B6). reflexivity. }
  destruct k, k'; try discriminate E; cbn [public_of] in E; injection E; intros; subst; cbn [secret_at private_kind public_kind public_of] in S, S'; f_equal; try exact (content_fun _ _ _ _ _ S S'); exact (RF _ _ _ S S').
Qed.
Lemma private_created : forall ec sg self_test k m, private_at m k -> create_sign ec sg self_test (private_kind k) m = signer_of ec sg self_test k.
Proof.
  intros ec sg self_test k m (_ & P & S). destruct k as [c h enc X Y d | A a | h n e t | h g salt n e t]; cbn [private_kind public_kind public_of create_sign signer_of private_schema] in *; destruct P as (_ & H); cbn [secret_at] in S.
  - destruct H as (((zc & C1 & C2) & (zh & H1 & H2) & (ze & E1 & E2)) & HX & HY). unfold ecdsa_create_sign, ecdsa_curve, ecdsa_hash, ecdsa_encoding. cbn zeta. cbn [app] in *.
    rewrite (bytes_at_content _ _ _ _ HX), (bytes_at_content _ _ _ _ HY), (bytes_at_content _ _ _ _ S), (num_at_number _ _ _ _ C1), (num_at_number _ _ _ _ H1), (num_at_number _ _ _ _ E1).
    rewrite (proj1 (curve_number_subtle _ _ C2)), (proj1 (encoding_number_subtle _ _ E2)), (hash_number_known _ _ H2). reflexivity.
  - cbn [app] in H. unfold ed25519_create_sign. rewrite (bytes_at_content _ _ _ _ H), (bytes_at_content _ _ _ _ S). reflexivity.
  - destruct H as ((zh & H1 & H2) & HX & HY). destruct S as (S1 & S2 & S3 & S4 & S5 & S6). unfold pkcs1_create_sign, pkcs1_create_verify, rsa_public_of, rsa_key_of. cbn zeta. cbn [app] in *.
    rewrite (bytes_at_content _ _ _ _ HX), (bytes_at_content _ _ _ _ HY), (num_at_number _ _ _ _ H1), (hash_number_known _ _ H2).
    rewrite (bytes_at_content _ _ _ _ S1), (bytes_at_content _ _ _ _ S2), (bytes_at_content _ _ _ _ S3), (bytes_at_content _ _ _ _ S4), (bytes_at_content _ _ _ _ S5), (bytes_at_content _ _ _ _ S6), !bin2bn_num. reflexivity.
  - destruct H as (((zh & H1 & H2) & (zg & G1 & G2) & SA) & HX & HY). destruct S as (S1 & S2 & S3 & S4 & S5 & S6). unfold pss_create_sign, pss_create_verify, rsa_public_of, rsa_key_of. cbn zeta. cbn [app] in *.
    rewrite (bytes_at_content _ _ _ _ HX), (bytes_at_content _ _ _ _ HY), (num_at_number _ _ _ _ H1), (hash_number_known _ _ H2), (num_at_number _ _ _ _ G1), (hash_number_known _ _ G2), (num_at_number _ _ _ _ SA).
    rewrite (bytes_at_content _ _ _ _ S1), (bytes_at_content _ _ _ _ S2), (bytes_at_content _ _ _ _ S3), (bytes_at_content _ _ _ _ S4), (bytes_at_content _ _ _ _ S5), (bytes_at_content _ _ _ _ S6), !bin2bn_num. reflexivity.
Qed.
Lemma private_encoded : forall m k, private_at m k -> encoded_ok (public_of k).
Proof. intros m k (_ & P & _). exact (public_encoded _ _ _ _ P). Qed.
Lemma private_got_sig : forall ec sg self_test kd d s, cl_get_primitive (sign_manager ec sg self_test kd) d = StOk s ->
  exists k, private_kind k = kd /\ is_sig_private d k /\ valid_private k /\ encoded_ok (public_of k) /\ signer_of ec sg self_test k = StOk s.
Proof.
  intros ec sg self_test kd d s H. rewrite sign_manager_is in H. cbn [sign_manager_of cl_get_primitive] in H. apply parse_key_ok in H. destruct H as (U & m & E & V & C). rewrite url_is in U.
  destruct (private_read kd m (parse_holds _ _ _ E) V) as (k & K & P). subst kd. exists k. split; [reflexivity |]. split; [split; [exact U | exists m; split; [exact E | exact P]] |].
  split; [exact (proj1 (private_valid k m P) V) |]. split; [exact (private_encoded m k P) |]. rewrite <- (private_created ec sg self_test k m P). exact C.
Qed.
Lemma private_get_sig : forall ec sg self_test d k, is_sig_private d k -> valid_private k -> cl_get_primitive (sign_manager ec sg self_test (private_kind k)) d = signer_of ec sg self_test k /\ encoded_ok (public_of k).
Proof.
  intros ec sg self_test d k (U & m & E & P) V. split; [| exact (private_encoded m k P)]. rewrite sign_manager_is. cbn [sign_manager_of cl_get_primitive]. unfold parse_key. rewrite url_is, U, (proj2 (str_eqb_spec _ _) eq_refl). cbn [negb].
  rewrite E, (proj2 (private_valid k m P) V), (private_created ec sg self_test k m P). reflexivity.
Qed.
Lemma is_private_fun : forall d k k', is_sig_private d k -> is_sig_private d k' -> private_kind k = private_kind k' -> k = k'.
Proof.
  intros d k k' (_ & m & E & P) (_ & m' & E' & P') K. rewrite <- K in E'. rewrite E in E'. injection E' as <-. exact (private_fun m k k' P P' K).
Qed.
(** Signers are made exactly of the good keys. *)
Theorem sig_signer_made : forall ec sg self_test kd d, sig_laws ec sg ->
  ((exists s, cl_get_primitive (sign_manager ec sg self_test kd) d = StOk s) <-> (exists k, private_kind k = kd /\ is_sig_private d k /\ good_private ec sg k)).
Proof.
  intros ec sg self_test kd d L. split.
  - intros (s & H). destruct (private_got_sig ec sg self_test kd d s H) as (k & K & D & V & EO & C). exists k. split; [exact K |]. split; [exact D |]. apply (signer_made ec sg self_test k L V EO). exists s. exact C.
  - intros (k & <- & D & G). assert (V : valid_private k). { destruct G as ((GV & _) & G). split; [exact GV |]. destruct k; auto. }
    destruct (private_get_sig ec sg self_test d k D V) as (-> & EO). apply (signer_made ec sg self_test k L V EO), G.
Qed.
Theorem sig_signs : forall ec sg self_test d k s, sig_laws ec sg -> is_sig_private d k -> cl_get_primitive (sign_manager ec sg self_test (private_kind k)) d = StOk s ->
  forall rnd data, (exists x, cs_sign s rnd data = StOk x) /\ (forall x, cs_sign s rnd data = StOk x <-> signature_of sg k rnd data x).
Proof.
  intros ec sg self_test d k s L D H rnd data. destruct (private_got_sig ec sg self_test _ d s H) as (k' & K & D' & V & EO & C). rewrite <- (is_private_fun d k k' D D' (eq_sym K)) in *.
  pose proof (signer_signs ec sg self_test k s L V EO C rnd data) as S. split; [| exact S].
  destruct (signature_exists ec sg k rnd data L (proj1 (signer_made ec sg self_test k L V EO) (ex_intro _ s C)) EO) as (x & X). exists x. apply S, X.
Qed.
(** What a key signs is valid for its public key. *)
Theorem sig_round_trip : forall ec sg self_test d d' k, sig_laws ec sg -> is_sig_private d k -> is_sig_public d' (public_of k) -> good_private ec sg k -> matching ec sg k ->
  exists s v, cl_get_primitive (sign_manager ec sg self_test (private_kind k)) d = StOk s /\ cl_get_primitive (verify_manager ec sg (private_kind k)) d' = StOk v /\
    forall rnd data, exists x, cs_sign s rnd data = StOk x /\ cv_verify v x data = StOk tt.
Proof.
  intros ec sg self_test d d' k L D D' G M. destruct (proj2 (sig_signer_made ec sg self_test (private_kind k) d L)) as (s & S); [exists k; auto |].
  destruct (proj2 (sig_verifier_made ec sg (private_kind k) d')) as (v & V); [exists (public_of k); split; [reflexivity |]; split; [exact D' | apply G] |].
  exists s, v. split; [exact S |]. split; [exact V |]. intros rnd data. destruct (sig_signs ec sg self_test d k s L D S rnd data) as ((x & X) & E). exists x. split; [exact X |].
  apply (sig_verifies ec sg d' (public_of k) v L D' V). destruct (private_got_sig ec sg self_test _ d s S) as (k' & K & D'' & _ & EO & _). rewrite <- (is_private_fun d k k' D D'' (eq_sym K)) in EO.
  exact (signature_valid ec sg k rnd data x L G EO M (proj1 (E x) X)).
Qed.

(** ** Public keys *)
Lemma public_within : forall fs m pre fs' n k, path_type (TMsg fs) pre = Some (TMsg fs') -> get_path (TMsg fs) (Some (VMsg m)) pre = Some (VMsg n) ->
  (public_at fs m pre k <-> public_at fs' n [] k).
Proof.
  intros fs m pre fs' n k T H. unfold public_at, ecdsa_params_at, pkcs1_params_at, pss_params_at, number, octets. cbn [app].
  assert (E : forall q, get_path (TMsg fs) (Some (VMsg m)) (pre ++ q) = get_path (TMsg fs') (Some (VMsg n)) q) by (intros q; exact (get_path_app _ q _ _ _ _ T H)).
  assert (E' : forall a b, get_path (TMsg fs) (Some (VMsg m)) ((pre ++ [a]) ++ [b]) = get_path (TMsg fs') (Some (VMsg n)) [a; b]) by (intros a b; rewrite <- app_assoc; apply E).
  destruct k; repeat setoid_rewrite E'; repeat setoid_rewrite E; reflexivity.
Qed.
Lemma hash_number_set : forall h z, hash_number h z -> z <> 0%Z.
Proof. intros h z H. cbn in H. repeat match goal with K : _ \/ _ |- _ => destruct K as [K | K] | K : False |- _ => contradiction K end; injection H as _ <-; discriminate. Qed.
Lemma public_set : forall k m, private_at m k -> valid_private k -> has_at (private_schema (private_kind k)) m ["public_key"] = true.
Proof.
  intros k m (_ & P & _) (V & _). destruct P as (_ & H). destruct k as [c h enc X Y d | A a | h n e t | h g salt n e t]; cbn [public_of private_kind public_kind private_schema] in *.
  - destruct H as ((_ & (zh & H1 & H2) & _) & _). apply (is_set EcdsaPrivateKey m ["public_key"] ["params"; "hash_type"] EcdsaPublicKey (VNum zh) eq_refl H1). cbn. intros E. injection E as E. exact (hash_number_set h zh H2 (eq_sym E)).
  - apply (is_set Ed25519PrivateKey m ["public_key"] ["key_value"] Ed25519PublicKey (VBytes A) eq_refl H). cbn. intros E. injection E as <-. discriminate V.
  - destruct H as ((zh & H1 & H2) & _). apply (is_set RsaSsaPkcs1PrivateKey m ["public_key"] ["params"; "hash_type"] RsaSsaPkcs1PublicKey (VNum zh) eq_refl H1). cbn. intros E. injection E as E. exact (hash_number_set h zh H2 (eq_sym E)).
  - destruct H as (((zh & H1 & H2) & _) & _). apply (is_set RsaSsaPssPrivateKey m ["public_key"] ["params"; "sig_hash"] RsaSsaPssPublicKey (VNum zh) eq_refl H1). cbn. intros E. injection E as E. exact (hash_number_set h zh H2 (eq_sym E)).
Qed.
(** The public key of a private key, if the numbers of its public part are valid; no others have public keys. *)
Theorem sig_public_key : forall ec sg self_test d k, is_sig_private d k -> valid_private k ->
  exists get d', cl_public_key_data (sign_manager ec sg self_test (private_kind k)) = Some get /\ get (kd_value d) = StOk d' /\
    kd_type_url d' = type_url (kind_name (private_kind k) ++ "PublicKey") /\ kd_key_material_type d' = ASYMMETRIC_PUBLIC /\
    (proto_size (kd_value d') -> is_sig_public d' (public_of k)).
Proof.
  intros ec sg self_test d k (_ & m & E & P) V. rewrite sign_manager_is. cbn [sign_manager_of cl_public_key_data]. eexists. eexists. split; [reflexivity |]. cbv beta. rewrite E, (proj2 (private_valid k m P) V). cbn [checked]. split; [reflexivity |].
  cbn [kd_type_url kd_key_material_type kd_value]. rewrite url_is. split; [reflexivity |]. split; [reflexivity |].
  assert (T : path_type (TMsg (private_schema (private_kind k))) ["public_key"] = Some (TMsg (public_schema (private_kind k)))) by (destruct (private_kind k); reflexivity).
  destruct (read_message _ _ ["public_key"] _ (parse_holds _ _ _ E) T (public_set k m P V)) as (n & G & HN). rewrite G. cbn [message_or_empty]. intros PS.
  split; [reflexivity |]. cbn [kd_value]. exists n. split; [apply message_round_trip; [clear; destruct (private_kind k); reflexivity | exact HN | exact PS] |].
  exact (proj1 (public_within _ _ _ _ _ _ T G) (proj1 (proj2 P))).
Qed.
Theorem sig_public_only : forall ec sg self_test kd get x d, cl_public_key_data (sign_manager ec sg self_test kd) = Some get -> get x = StOk d ->
  exists k, private_kind k = kd /\ is_sig_private (mk_key_data (type_url (kind_name kd ++ "PrivateKey")) x ASYMMETRIC_PRIVATE) k /\ valid_private k.
Proof.
  intros ec sg self_test kd get x d G H. rewrite sign_manager_is in G. cbn [sign_manager_of cl_public_key_data] in G. injection G as <-. destruct (parse_message (private_schema kd) x) as [m |] eqn:E; [| discriminate H].
  apply checked_ok in H. destruct H as (V & _). destruct (private_read kd m (parse_holds _ _ _ E) V) as (k & <- & P). exists k. split; [reflexivity |]. split; [| exact (proj1 (private_valid k m P) V)].
  split; [reflexivity |]. exists m. split; [exact E | exact P].
Qed.
Theorem sig_no_new_public : forall ec sg kd rnd x, exists s, cl_new_key_data (verify_manager ec sg kd) rnd x = StErr s.
Proof. intros ec sg [] rnd x; eexists; reflexivity. Qed.

(** ** New keys *)
Lemma format_validates : forall f x, asks_for_sig (type_url (kind_name (format_kind f) ++ "PrivateKey")) x f ->
  exists m, parse_message (format_schema (format_kind f)) x = Some m /\ (validate_format (format_kind f) m = None <-> format_ok f).
Proof.
  intros f x (_ & m & E & H). exists m. split; [exact E |]. pose proof (parse_holds _ _ _ E) as HM. destruct f as [c h enc | | h bits e | h g salt bits e]; cbn [format_kind validate_format format_schema format_ok] in *.
  - unfold ecdsa_validate_format. rewrite and_then_none, (ecdsa_params_valid EcdsaKeyFormat m (cons "params") ["params"] (fun q => eq_refl) c h enc H).
    assert (S : has_at EcdsaKeyFormat m ["params"] = true).
    { destruct H as (_ & (zh & H1 & H2) & _). apply (is_set EcdsaKeyFormat m ["params"] ["hash_type"] EcdsaParams (VNum zh) eq_refl H1). cbn. intros K. injection K as K. exact (hash_number_set h zh H2 (eq_sym K)). }
    rewrite S. cbn. tauto.
  - unfold ed25519_validate_format. tauto.
  - destruct H as (P & B & X). unfold rsa_validate_format. rewrite (num_at_number _ _ _ _ B), (bytes_at_content _ _ _ _ X), bin2bn_num, !and_then_none, exponent_none, (pkcs1_params_valid RsaSsaPkcs1KeyFormat m (cons "params") ["params"] (fun q => eq_refl) h P).
    unfold validate_modulus_size. rewrite check_none, N.ltb_ge. destruct (read_number _ _ ["modulus_size_in_bits"] HM eq_refl) as (z & Hz & R). rewrite (number_fun _ _ _ _ _ B Hz) in *. unfold u32 in R.
    assert ((2048 <= Z.to_N z)%N <-> (2048 <= z)%Z) by lia. tauto.
  - destruct H as (P & B & X). unfold rsa_validate_format. rewrite (num_at_number _ _ _ _ B), (bytes_at_content _ _ _ _ X), bin2bn_num, !and_then_none, exponent_none, (pss_params_valid RsaSsaPssKeyFormat m (cons "params") ["params"] (fun q => eq_refl) h g salt P).
    unfold validate_modulus_size. rewrite check_none, N.ltb_ge. destruct (read_number _ _ ["modulus_size_in_bits"] HM eq_refl) as (z & Hz & R). rewrite (number_fun _ _ _ _ _ B Hz) in *. unfold u32 in R.
    assert ((2048 <= Z.to_N z)%N <-> (2048 <= z)%Z) by lia. tauto.
Qed.
