(** C63, C64, C65: the example programs: what happens to the user's files. *)
From Coq Require Import Strings.Byte Strings.String List NArith ZArith Bool Lia.
From Verif Require Import M_Base M_Utf8 M_Proto M_Wire M_Prims M_PrimitiveSet M_Registry M_KeysetHandle M_KeysetIO
  M_Wrappers M_Kms M_Json M_JsonKeyset M_JwtTypes M_StreamTypes M_CcStream M_CcManagers M_KeyFormats M_Templates M_Cli.
From Verif Require Import S_Keyset S_Wrappers S_Wire S_Base64 S_Json S_JsonKeyset S_Kms S_Config S_CcLaws S_Cli.
From Verif Require Import L_Base L_Utf8 L_Wire L_PrimitiveSet L_Wrappers L_Config L_Config2 L_Config4 L_Cli L_Cli2 L_Cli3 L_Cli4 L_Cli5 L_Cli6.
From Verif Require Import X_Toy X_Rt X_Config P_JsonKeyset P_Config.
Import ListNotations.
Open Scope string_scope.
Open Scope list_scope.

(** ** C63: which files a run changes *)
@thm C63_all_or_nothing programs_all_or_nothing
@thm C63_verifying_only_reads verifying_only_reads
@thm C63_jwt_verifying_only_reads jwt_verify_only_reads
@thm C63_may_empty programs_that_empty
@thm C63_generating generating_files
@thm C63_gcs_bad_path gcs_bad_path
@thm C63_gcs gcs_effects

(** ** C64: what is written, and that it can be read back *)
@thm C64_aead aead_cli_spec
@thm C64_daead daead_cli_spec
@thm C64_cleartext_keyset cleartext_cli_spec
@thm C64_encrypted_keyset encrypted_cli_spec
@thm C64_hybrid_encrypt hybrid_cli_encrypt_spec
@thm C64_hybrid_decrypt hybrid_cli_decrypt_spec
@thm C64_aead_round_trip aead_files_round_trip
@thm C64_daead_round_trip daead_files_round_trip
@thm C64_cleartext_round_trip cleartext_files_round_trip
@thm C64_encrypted_round_trip encrypted_files_round_trip
@thm C64_hybrid_round_trip hybrid_files_round_trip
@thm C64_envelope_round_trip envelope_files_round_trip
@thm C64_blob_path blob_path_spec
@thm C64_gcs_round_trip gcs_round_trip
@thm C64_keyset_file written_keyset_holds
@thm C64_cleartext_generate cleartext_generate_spec
@thm C64_encrypted_generate encrypted_generate_spec
@thm C64_cleartext_pipeline cleartext_pipeline
@thm C64_encrypted_pipeline encrypted_pipeline

(** ** C65: tags and signatures in files *)
@thm C65_tag_text tag_file_spec
@thm C65_mac_compute mac_cli_compute_spec
@thm C65_mac_verify mac_cli_verify_spec
@thm C65_signature_sign signature_cli_sign_spec
@thm C65_signature_verify signature_cli_verify_spec
@thm C65_mac_round_trip mac_files_round_trip
@thm C65_signature_round_trip signature_files_round_trip

(** ** Examples *)
Definition p (x : string) : pystr := ulit x.
Definition everywhere : os := mk_os (fun _ => true).
Definition same_bytes (x y : option bytes) : bool :=
  match x, y with Some a, Some b => bytes_eqb a b | None, None => true | _, _ => false end.
Definition exited (r : result Z) (n : Z) : bool := Z.eqb (exit_status r) n.

(** A keyset file with Windows line ends and odd spacing, of the two AES-GCM keys of
    [gcm_handle]. *)
Definition cr_lf : bytes := [x0d; x0a].
Definition json_key (url value material id prefix : string) : bytes :=
  blit ("{""keyData"": {""typeUrl"": ""type.googleapis.com/google.crypto.tink." ++ url ++ """, ""value"": """ ++ value
        ++ """, ""keyMaterialType"": """ ++ material ++ """}, ""status"" : ""ENABLED"", ""keyId"": " ++ id
        ++ ", ""outputPrefixType"": """ ++ prefix ++ """}").
Definition keyset_file : bytes :=
  blit "{ ""primaryKeyId"":42," ++ cr_lf ++ blit "  ""key"": [" ++
  json_key "AesGcmKey" "a2E=" "SYMMETRIC" "42" "TINK" ++ blit "," ++ cr_lf ++
  json_key "AesGcmKey" "a2I=" "SYMMETRIC" "43" "RAW" ++ blit "]" ++ cr_lf ++ blit "}".
Definition aead_flags (mode : crypt_mode) (input output : string) : crypt_flags :=
  mk_crypt_flags mode (p "keys.json") (p input) (p output) (Some (p "ad")).
Definition aead_run (mode : crypt_mode) (input output : string) : io Z :=
  aead_cli toy_world toy_env new_pb everywhere 0%N (aead_flags mode input output).
Definition disk : files := [(p "keys.json", keyset_file); (p "plain", blit "hello")].
Definition encrypted_disk : files := snd (aead_run Encrypt "plain" "cipher" disk).
Example C64_aead_run :
  exited (fst (aead_run Encrypt "plain" "cipher" disk)) 0 &&
  same_bytes (content encrypted_disk (p "cipher")) (Some ([x01; x00; x00; x00; x2a] ++ blit "ka" ++ [x02] ++ blit "adhello")) &&
  same_bytes (content encrypted_disk (p "plain")) (Some (blit "hello")) &&
  (* in place *)
  same_bytes (content (snd (aead_run Decrypt "cipher" "cipher" encrypted_disk)) (p "cipher")) (Some (blit "hello")) &&
  exited (fst (aead_run Decrypt "cipher" "cipher" encrypted_disk)) 0 &&
  (* a file that is no ciphertext *)
  exited (fst (aead_run Decrypt "plain" "plain" disk)) 1 &&
  same_bytes (content (snd (aead_run Decrypt "plain" "plain" disk)) (p "plain")) (Some (blit "hello")) = true.
Proof. vm_compute. reflexivity. Qed.

(** The hypotheses hold for the keys of [toy_world]. *)
Definition one (name : string) (v : bytes) (material : Z) (id : N) (prefix : Z) : key :=
  mk_key (Some (mk_key_data (type_url name) v material)) ENABLED id prefix.
Definition alone (k : key) : keyset := mk_keyset (k_key_id k) [k].
Definition checked_key (k : key) : bool :=
  let d := k_key_data k in
  forallb (fun c => (c <? 55296)%N) (kd_type_url d) && (N.of_nat (length (serialize_key_data d)) <? 2 ^ 31)%N
  && (- 2 ^ 31 <=? kd_key_material_type d)%Z && (kd_key_material_type d <? 2 ^ 31)%Z.
Lemma checked_cc_key : forall c pk name b k, In (name, c, b) (key_types pk) -> ~ In pk [JwtMac; JwtSignature] ->
  kd_type_url (k_key_data k) = type_url name -> checked_key k = true -> cc_key c (k_key_data k).
Proof.
  intros c pk name b k Hin Hp Hu H. unfold checked_key in H. rewrite !andb_true_iff in H.
  destruct H as (((H1 & H2) & H3) & H4). split; [split |].
  - intros x Hx. left. rewrite forallb_forall in H1. apply N.ltb_lt, H1, Hx.
  - split; [apply Z.leb_le, H3 | apply Z.ltb_lt, H4].
  - split; [apply N.ltb_lt, H2 |]. exists pk, name, b. auto.
Qed.
Lemma alone_valid : forall name v mat id prefix, prefix <> UNKNOWN_PREFIX -> valid_keyset (alone (one name v mat id prefix)).
Proof. intros name v mat id prefix H. apply (L_Handle.single_valid (mk_key_data (type_url name) v mat) id prefix). exact H. Qed.
Lemma alone_cc : forall P c pk name b v mat id prefix (lookup : pystr -> option (cc_lib_manager P)) m q,
  In (name, c, b) (key_types pk) -> ~ In pk [JwtMac; JwtSignature] -> checked_key (one name v mat id prefix) = true ->
  prefix <> UNKNOWN_PREFIX -> (exists x, has_prefix prefix id x) -> lookup (type_url name) = Some m ->
  cl_get_primitive m (mk_key_data (type_url name) v mat) = StOk q ->
  cc_keyset c lookup (alone (one name v mat id prefix)) [(one name v mat id prefix, q)].
Proof.
  intros P c pk name b v mat id prefix lookup m q Hin Hp Hc Hu Hx Hm Hq. split; [apply alone_valid; exact Hu |]. split.
  - split; [reflexivity |]. constructor; [| constructor]. split; [eapply checked_cc_key; eauto; reflexivity |].
    exists m. auto.
  - constructor; [exact Hx | constructor].
Qed.
Lemma alone_wf : forall name v mat id prefix, checked_key (one name v mat id prefix) = true -> uint32_range id ->
  int32_range prefix -> wf_keyset (alone (one name v mat id prefix)).
Proof.
  intros name v mat id prefix H Hi Hp. unfold checked_key in H. rewrite !andb_true_iff in H.
  destruct H as (((H1 & H2) & H3) & H4). split; [exact Hi |]. intros k [<- | []]. split; [| split; [| split]].
  - intros d Hd. apply some_inj in Hd. subst d. split.
    + intros x Hx. left. rewrite forallb_forall in H1. apply N.ltb_lt, H1, Hx.
    + split; [apply Z.leb_le, H3 | apply Z.ltb_lt, H4].
  - cbn. unfold int32_range, ENABLED. lia.
  - exact Hi.
  - exact Hp.
Qed.
Ltac one_file name v mat id prefix :=
  let x := fresh "x" in let t := fresh "t" in let Hx := fresh "Hx" in
  destruct (written_keyset_holds toy_rt (alone (one name v mat id prefix)) toy_limit
    (alone_wf name v mat id prefix ltac:(vm_compute; reflexivity) ltac:(reflexivity) ltac:(unfold int32_range, TINK, RAW, LEGACY; lia))
    (alone_valid name v mat id prefix ltac:(discriminate))) as (t & x & _ & _ & Hx).
Lemma tink_prefix : forall b, has_prefix TINK (Byte.to_N b) [x01; x00; x00; x00; b].
Proof.
  intro b. right. exists x01, x00, x00, x00, b. split; [reflexivity |]. split; [| left; auto].
  cbn. lia.
Qed.

Definition flags (mode : crypt_mode) : crypt_flags :=
  mk_crypt_flags mode (p "keys") (p "in") (p "out") (Some (p "ad")).
Definition drive (keys data : bytes) : files := [(p "keys", keys); (p "in", data)].
Ltac done_with := first [reflexivity | discriminate | apply toy_ready | assumption].
Example C64_aead_met : exists keys,
  writes (aead_cli toy_world toy_env new_pb everywhere 0%N (flags Encrypt) (drive keys (blit "hello")))
    (p "out") ([x01; x00; x00; x00; x07] ++ blit "ka" ++ [x02] ++ blit "adhello") (drive keys (blit "hello")).
Proof.
  one_file "AesGcmKey" (blit "ka") SYMMETRIC 7%N TINK. exists x.
  refine (proj1 (C64_aead_round_trip toy_world toy_env new_pb everywhere 0%N (flags Encrypt) (drive x (blit "hello"))
    _ _ (blit "ad") (blit "hello") (one "AesGcmKey" (blit "ka") SYMMETRIC 7 TINK) _ _ [x01; x00; x00; x00; x07]
    (toy_ready Aead)
    (alone_cc _ ClsAead Aead "AesGcmKey" false (blit "ka") SYMMETRIC 7 TINK (cw_aead toy_world) _ _
       (or_introl eq_refl) ltac:(intros [H | [H | []]]; discriminate) ltac:(vm_compute; reflexivity) ltac:(discriminate)
       (ex_intro _ _ (tink_prefix x07)) eq_refl eq_refl)
    (conj (or_introl eq_refl) eq_refl) (tink_prefix x07) eq_refl ltac:(discriminate) eq_refl _ eq_refl (Hx (drive x (blit "hello")) (p "keys") eq_refl) eq_refl eq_refl eq_refl)).
  intros k' q' body [E | []] Hk. exfalso. apply Hk. congruence.
Qed.
Example C64_daead_met : exists keys,
  writes (deterministic_aead_cli toy_world toy_env new_pb everywhere (flags Encrypt) (drive keys (blit "hello")))
    (p "out") (blit "ka" ++ [x02] ++ blit "adhello") (drive keys (blit "hello")).
Proof.
  one_file "AesSivKey" (blit "ka") SYMMETRIC 7%N RAW. exists x.
  refine (proj1 (C64_daead_round_trip toy_world toy_env new_pb everywhere (flags Encrypt) (drive x (blit "hello"))
    _ _ (blit "ad") (blit "hello") (one "AesSivKey" (blit "ka") SYMMETRIC 7 RAW) _ _ []
    (toy_ready Daead)
    (alone_cc _ ClsDaead Daead "AesSivKey" false (blit "ka") SYMMETRIC 7 RAW (cw_daead toy_world) _ _
       (or_introl eq_refl) ltac:(intros [H | [H | []]]; discriminate) ltac:(vm_compute; reflexivity) ltac:(discriminate)
       (ex_intro _ [] (or_introl (conj eq_refl eq_refl))) eq_refl eq_refl)
    (conj (or_introl eq_refl) eq_refl) (or_introl (conj eq_refl eq_refl)) eq_refl ltac:(discriminate) eq_refl _ eq_refl (Hx (drive x (blit "hello")) (p "keys") eq_refl) eq_refl eq_refl eq_refl)).
  intros k' q' body [E | []] Hk. exfalso. apply Hk. congruence.
Qed.
Example C64_hybrid_met : exists keys keys',
  let written := snd (hybrid_cli toy_world toy_env new_pb everywhere 0%N (flags Encrypt) (drive keys (blit "hello"))) in
  exists ct, content written (p "out") = Some ct /\
    writes (hybrid_cli toy_world toy_env new_pb everywhere 0%N (flags Decrypt) (drive keys' ct))
      (p "out") (blit "hello") (drive keys' ct).
Proof.
  one_file "HpkePublicKey" (blit "ka") ASYMMETRIC_PUBLIC 7%N TINK. exists x.
  one_file "HpkePrivateKey" (blit "ka") ASYMMETRIC_PRIVATE 7%N TINK. exists x0. cbv zeta.
  unshelve epose proof (C64_hybrid_round_trip toy_world toy_env new_pb everywhere 0%N (flags Encrypt) (drive x (blit "hello"))
    (alone (one "HpkePublicKey" (blit "ka") ASYMMETRIC_PUBLIC 7 TINK)) _
    (alone (one "HpkePrivateKey" (blit "ka") ASYMMETRIC_PRIVATE 7 TINK)) _ (blit "ad") (blit "hello")
    (one "HpkePublicKey" (blit "ka") ASYMMETRIC_PUBLIC 7 TINK) _ (one "HpkePrivateKey" (blit "ka") ASYMMETRIC_PRIVATE 7 TINK) _
    (blit "ka" ++ [x02] ++ blit "adhello") [x01; x00; x00; x00; x07]
    (toy_ready Hybrid)
    (alone_cc _ ClsHybridEncrypt Hybrid "HpkePublicKey" false (blit "ka") ASYMMETRIC_PUBLIC 7 TINK (cw_hybrid_encrypt toy_world) _ _
       _ ltac:(intros [H | [H | []]]; discriminate) ltac:(vm_compute; reflexivity) ltac:(discriminate)
       (ex_intro _ _ (tink_prefix x07)) eq_refl eq_refl)
    (conj (or_introl eq_refl) eq_refl)
    (alone_cc _ ClsHybridDecrypt Hybrid "HpkePrivateKey" true (blit "ka") ASYMMETRIC_PRIVATE 7 TINK (cw_hybrid_decrypt toy_world) _ _
       _ ltac:(intros [H | [H | []]]; discriminate) ltac:(vm_compute; reflexivity) ltac:(discriminate)
       (ex_intro _ _ (tink_prefix x07)) eq_refl eq_refl)
    (or_introl eq_refl) eq_refl eq_refl (tink_prefix x07) eq_refl ltac:(discriminate) eq_refl _ eq_refl (Hx (drive x (blit "hello")) (p "keys") eq_refl) eq_refl eq_refl eq_refl) as [W R].
  - cbn. tauto.
  - cbn. tauto.
  - intros k' q' body [E | []] Hk. exfalso. apply Hk. congruence.
  - destruct W as (_ & W & _). eexists. split; [exact W |]. apply R; try reflexivity.
    + apply Hx0. reflexivity.
    + symmetry. exact W.
Qed.
Definition tag_flags_of (mode : tag_mode) : tag_flags := mk_tag_flags mode (p "keys") (p "data") (p "tag").
Definition tagged (keys data tag : bytes) : files := [(p "keys", keys); (p "data", data); (p "tag", tag)].
Lemma legacy_prefix : forall b, has_prefix LEGACY (Byte.to_N b) [x00; x00; x00; x00; b].
Proof. intro b. right. exists x00, x00, x00, x00, b. split; [reflexivity |]. split; [cbn; lia | right; auto]. Qed.
Example C65_mac_met : exists keys tag,
  fst (mac_cli toy_world toy_env new_pb everywhere (tag_flags_of Verify) (tagged keys (blit "hello") tag)) = Ok 0%Z.
Proof.
  one_file "HmacKey" (blit "ka") SYMMETRIC 7%N LEGACY. exists x.
  unshelve epose proof (C65_mac_round_trip toy_world toy_env new_pb everywhere (tag_flags_of Produce) (tagged x (blit "hello") [])
    (alone (one "HmacKey" (blit "ka") SYMMETRIC 7 LEGACY)) _ (blit "hello")
    (one "HmacKey" (blit "ka") SYMMETRIC 7 LEGACY) _ (blit "tag:ka:hello" ++ [x00]) [x00; x00; x00; x00; x07]
    (toy_ready Mac)
    (alone_cc _ ClsMac Mac "HmacKey" false (blit "ka") SYMMETRIC 7 LEGACY (cw_mac toy_world) _ _
       (or_introl eq_refl) ltac:(intros [H | [H | []]]; discriminate) ltac:(vm_compute; reflexivity) ltac:(discriminate)
       (ex_intro _ _ (legacy_prefix x07)) eq_refl eq_refl)
    (conj (or_introl eq_refl) eq_refl) (legacy_prefix x07) eq_refl ltac:(discriminate) _ eq_refl eq_refl (Hx (tagged x (blit "hello") []) (p "keys") eq_refl) eq_refl eq_refl) as [W R].
  - cbn. lia.
  - destruct (content (snd (mac_cli toy_world toy_env new_pb everywhere (tag_flags_of Produce) (tagged x (blit "hello") []))) (p "tag"))
      as [tag |] eqn:E.
    + exists tag. apply R; try reflexivity; [apply Hx; reflexivity | symmetry; exact E].
    + exfalso. destruct (C65_mac_compute toy_world toy_env new_pb everywhere (tag_flags_of Produce) (tagged x (blit "hello") [])
        (alone (one "HmacKey" (blit "ka") SYMMETRIC 7 LEGACY)) _ (blit "hello") (toy_ready Mac) eq_refl (Hx (tagged x (blit "hello") []) (p "keys") eq_refl)
        (alone_cc _ ClsMac Mac "HmacKey" false (blit "ka") SYMMETRIC 7 LEGACY (cw_mac toy_world) _ _
           (or_introl eq_refl) ltac:(intros [H | [H | []]]; discriminate) ltac:(vm_compute; reflexivity) ltac:(discriminate)
           (ex_intro _ _ (legacy_prefix x07)) eq_refl eq_refl) eq_refl eq_refl) as (y & _ & _ & S).
      destruct y as [tag | e].
      * destruct S as (y & _ & _ & _ & S & _). cbn [tf_tag_path tag_flags_of] in S. congruence.
      * destruct S as (S & _). rewrite W in S. discriminate.
Qed.

Example C65_signature_met : exists keys keys' tag,
  fst (signature_cli toy_world toy_env new_pb everywhere 0%N (tag_flags_of Produce) (tagged keys (blit "hello") [])) = Ok 0%Z /\
  fst (signature_cli toy_world toy_env new_pb everywhere 0%N (tag_flags_of Verify) (tagged keys' (blit "hello") tag)) = Ok 0%Z /\
  fst (signature_cli toy_world toy_env new_pb everywhere 0%N (tag_flags_of Verify) (tagged keys' (blit "hellO") tag)) = Ok 1%Z.
Proof.
  one_file "EcdsaPrivateKey" (blit "ka") ASYMMETRIC_PRIVATE 7%N TINK. exists x.
  one_file "EcdsaPublicKey" (blit "ka") ASYMMETRIC_PUBLIC 7%N TINK. exists x0.
  pose proof (alone_cc _ ClsSign Signature "EcdsaPrivateKey" true (blit "ka") ASYMMETRIC_PRIVATE 7 TINK (cw_sign toy_world) _ _
    (or_introl eq_refl) ltac:(intros [H | [H | []]]; discriminate) ltac:(vm_compute; reflexivity) ltac:(discriminate)
    (ex_intro _ _ (tink_prefix x07)) eq_refl eq_refl) as C1.
  pose proof (alone_cc _ ClsVerify Signature "EcdsaPublicKey" false (blit "ka") ASYMMETRIC_PUBLIC 7 TINK (cw_verify toy_world) _ _
    (or_intror (or_introl eq_refl)) ltac:(intros [H | [H | []]]; discriminate) ltac:(vm_compute; reflexivity) ltac:(discriminate)
    (ex_intro _ _ (tink_prefix x07)) eq_refl eq_refl) as C2.
  destruct (C65_signature_sign toy_world toy_env new_pb everywhere 0%N (tag_flags_of Produce) (tagged x (blit "hello") [])
    _ _ (blit "hello") (toy_ready Signature) eq_refl (Hx (tagged x (blit "hello") []) (p "keys") eq_refl) C1 eq_refl eq_refl)
    as (y & Hy & _ & S).
  specialize (Hy _ _ (conj (or_introl eq_refl) eq_refl)).
  rewrite (prefixed_ok (one "EcdsaPrivateKey" (blit "ka") ASYMMETRIC_PRIVATE 7 TINK) _ (blit "tag:ka:hello") [x01; x00; x00; x00; x07] _ eq_refl (tink_prefix x07) Hy) in S.
  destruct S as (tag & Ht & _ & S0 & _). exists tag. split; [exact S0 |].
  pose proof (C65_signature_verify toy_world toy_env new_pb everywhere 0%N (tag_flags_of Verify) (tagged x0 (blit "hello") tag)
    _ _ (blit "hello") tag (toy_ready Signature) eq_refl (Hx0 (tagged x0 (blit "hello") tag) (p "keys") eq_refl) C2 eq_refl eq_refl)
    as (_ & _ & V).
  pose proof (C65_signature_verify toy_world toy_env new_pb everywhere 0%N (tag_flags_of Verify) (tagged x0 (blit "hellO") tag)
    _ _ (blit "hellO") tag (toy_ready Signature) eq_refl (Hx0 (tagged x0 (blit "hellO") tag) (p "keys") eq_refl) C2 eq_refl eq_refl)
    as (_ & [V' | V'] & V2); [exfalso | split; [| exact V']].
  - apply V2 in V'. destruct V' as (tag' & Ht' & A).
    apply tag_file_spec in Ht'. pose proof (proj2 (tag_file_spec _ _) (digits_tag _ _ Ht)) as Ht2.
    rewrite Ht2 in Ht'. apply some_inj in Ht'. subst tag'.
    destruct A as (_ & k & q & body & [E | []] & R & Hv). injection E as <- <-. destruct R as [[R _] | (pre & _ & L & R & _)]; [discriminate |].
    assert (body = blit "tag:ka:hello").
    { change (([x01; x00; x00; x00; x07] ++ blit "tag:ka:hello") = pre ++ body) in R.
      do 5 (destruct pre as [| ? pre]; [discriminate L |]). destruct pre; [| discriminate L].
      cbn in R. injection R as _ _ _ _ _ R. subst body. reflexivity. }
    subst body. vm_compute in Hv. discriminate.
  - apply V. eexists. split; [apply digits_tag; exact Ht |]. split; [cbn; lia |].
    do 3 eexists. split; [left; reflexivity |]. split; [right; eexists; split; [exact (tink_prefix x07) |];
      split; [reflexivity |]; split; [reflexivity | discriminate] |]. reflexivity.
Qed.

(** From a generated keyset to a decrypted file. *)
Lemma toy_data_key : forall (m : cc_lib_manager cc_aead) d q, cw_aead toy_world (type_url "AesGcmKey") = Some m ->
  kd_value d <> [] -> cl_get_primitive m d = StOk q ->
  forall rnd x ad c, ca_encrypt q rnd x ad = StOk c -> c <> [] /\ ca_decrypt q c ad = StOk x.
Proof.
  intros m d q Hm Hv Hq rnd x ad c Hc. injection Hm as <-. cbn [cl_get_primitive] in Hq.
  destruct (kd_value d) as [| b v]; [congruence |]. injection Hq as <-. cbn [ca_encrypt ca_decrypt] in *.
  unfold toy_seal in Hc. cbn [status] in Hc. injection Hc as <-. split; [discriminate |].
  change (b :: v ++ ?y) with ((b :: v) ++ y). rewrite L_Toy.toy_open_seal. reflexivity.
Qed.
Definition new_gcm_key (f : bytes) : key_data := mk_key_data (type_url "AesGcmKey") (blit "k" ++ f) SYMMETRIC.
Lemma new_gcm_key_wf : forall f, (N.of_nat (length (serialize_key_data (new_gcm_key f))) <? 2 ^ 31)%N = true ->
  wf_key_data (new_gcm_key f) /\ proto_size (serialize_key_data (new_gcm_key f)).
Proof.
  intros f H. split; [split |].
  - assert (B : forallb (fun c => (c <? 55296)%N) (type_url "AesGcmKey") = true) by (vm_compute; reflexivity).
    rewrite forallb_forall in B. intros c Hi. left. apply N.ltb_lt, B, Hi.
  - cbn. unfold int32_range, SYMMETRIC. lia.
  - apply N.ltb_lt. exact H.
Qed.
Example C64_pipeline_met : forall raw draws, exists generate,
  cleartext_keyset_generate toy_world toy_env everywhere 0%N (raw :: draws) (p "keys") = Some generate /\
  forall fs0, fst (generate fs0) = Ok 0%Z /\
  forall keys, content (snd (generate fs0)) (p "keys") = Some keys ->
  fst (cleartext_keyset_crypt toy_world toy_env new_pb everywhere 0%N (flags Encrypt) (drive keys (blit "hello"))) = Ok 0%Z.
Proof.
  intros raw draws. destruct (new_gcm_key_wf aes128_gcm_format ltac:(vm_compute; reflexivity)) as [W1 W2].
  destruct (C64_cleartext_pipeline toy_world toy_env new_pb everywhere 0%N raw draws (p "keys") _ (new_gcm_key aes128_gcm_format) _
    (toy_ready Aead) toy_limit eq_refl eq_refl eq_refl W1 W2 eq_refl) as (g & Hg & H).
  - intros rnd data c. apply (toy_data_key _ (new_gcm_key aes128_gcm_format) _ eq_refl); [discriminate | reflexivity].
  - reflexivity.
  - exists g. split; [exact Hg |]. intro fs0. destruct (H fs0) as [H0 R]. split; [exact H0 |]. intros keys Hk.
    refine (proj1 (R 0%N (flags Encrypt) (drive keys (blit "hello")) (blit "hello") _ eq_refl (eq_sym Hk) eq_refl eq_refl eq_refl)).
Qed.
Lemma toy_makes_data_keys : forall m, cw_aead toy_world (type_url "AesGcmKey") = Some m -> makes_data_keys m.
Proof.
  intros m Hm r. destruct (new_gcm_key_wf aes256_gcm_format ltac:(vm_compute; reflexivity)) as [W1 W2].
  exists (new_gcm_key aes256_gcm_format). split; [injection Hm as <-; reflexivity |]. split; [reflexivity |]. split; [reflexivity |].
  split; [exact W1 |]. split; [exact W2 |]. intros q Hq r' x ad c Hc.
  apply (toy_data_key m (new_gcm_key aes256_gcm_format) q Hm ltac:(discriminate) Hq r' x ad c Hc).
Qed.
Lemma toy_kms : kms_round_trip (toy_aead (blit "KEK")).
Proof. intros r m c H. cbn in H. injection H as <-. cbn [aead_decrypt toy_aead]. apply (L_Toy.toy_open_seal (blit "KEK") [] m). Qed.
Definition envelope_run (mode : crypt_mode) : io Z :=
  envelope_cli toy_world toy_env everywhere (Ok (toy_aead (blit "KEK"))) 0%N 0%N (flags mode).
Example C64_envelope_met :
  (exists m, cw_aead toy_world (type_url "AesGcmKey") = Some m /\ makes_data_keys m) /\
  exited (fst (envelope_run Encrypt (drive [] (blit "hello")))) 0 = true /\
  match content (snd (envelope_run Encrypt (drive [] (blit "hello")))) (p "out") with
  | Some ct => same_bytes (content (snd (envelope_run Decrypt (drive [] ct))) (p "out")) (Some (blit "hello"))
  | None => false
  end = true.
Proof.
  split; [eexists; split; [reflexivity | apply toy_makes_data_keys; reflexivity] |].
  split; vm_compute; reflexivity.
Qed.
Definition gcs_run (mode : crypt_mode) (path : string) (bs : blobs) (fs : files) :=
  gcs_envelope_cli toy_world toy_env everywhere (Ok (toy_aead (blit "KEK"))) (Ok tt) 0%N 0%N mode (p "in") (p path) bs fs.
Example C64_gcs_met :
  exited (fst (fst (gcs_run Encrypt "gs://b/x/y" [] (drive [] (blit "hello"))))) 0 = true /\
  same_bytes (content (snd (fst (gcs_run Decrypt "gs://b/x/y"
    (snd (gcs_run Encrypt "gs://b/x/y" [] (drive [] (blit "hello")))) (drive [] (blit "old"))))) (p "in")) (Some (blit "hello")) = true /\
  blob_path (p "gs://b/x/y") (p "b") (p "x/y").
Proof.
  split; [vm_compute; reflexivity |]. split; [vm_compute; reflexivity |]. split; [reflexivity |]. intros [H | []]. discriminate.
Qed.

(** ** What is not true *)

(** hybrid_cli opens its output before it decrypts: a file that is decrypted in place
    with the wrong context is lost. *)
Definition hybrid_keys : bytes :=
  blit "{""primaryKeyId"": 7, ""key"": [" ++ json_key "HpkePrivateKey" "a2E=" "ASYMMETRIC_PRIVATE" "7" "TINK" ++ blit "]}".
Theorem C63_hybrid_all_or_nothing_refuted : exists w env pb o rnd f fs ct,
  cf_mode f = Decrypt /\ cf_input_path f = cf_output_path f /\
  content fs (cf_input_path f) = Some ct /\ ct <> [] /\
  empties (hybrid_cli w env pb o rnd f fs) (cf_output_path f) fs /\
  exists g, cf_mode g = Decrypt /\ cf_keyset_path g = cf_keyset_path f /\ cf_input_path g = cf_input_path f /\
    writes (hybrid_cli w env pb o rnd g fs) (cf_output_path g) (blit "hello") fs.
Proof.
  pose (ct := [x01; x00; x00; x00; x07] ++ blit "ka" ++ [x02] ++ blit "adhello").
  exists toy_world, toy_env, new_pb, everywhere, 0%N, (mk_crypt_flags Decrypt (p "keys") (p "in") (p "in") (Some (p "xx"))),
    (drive hybrid_keys ct), ct.
  split; [reflexivity |]. split; [reflexivity |]. split; [reflexivity |]. split; [discriminate |]. split.
  - assert (M := proj1 (programs_that_empty toy_world toy_env new_pb everywhere 0%N
      (mk_crypt_flags Decrypt (p "keys") (p "in") (p "in") (Some (p "xx"))) 0%Z [] [] [] []) (drive hybrid_keys ct)).
    assert (E : exited (fst (hybrid_cli toy_world toy_env new_pb everywhere 0
      (mk_crypt_flags Decrypt (p "keys") (p "in") (p "in") (Some (p "xx"))) (drive hybrid_keys ct))) 1 &&
      same_bytes (content (snd (hybrid_cli toy_world toy_env new_pb everywhere 0
      (mk_crypt_flags Decrypt (p "keys") (p "in") (p "in") (Some (p "xx"))) (drive hybrid_keys ct))) (p "in")) (Some []) = true)
      by (vm_compute; reflexivity).
    apply andb_true_iff in E. destruct E as [E1 E2]. destruct M as [(_ & M) | [(x & M & _) | M]]; [| | exact M].
    + rewrite M in E2. vm_compute in E2. discriminate.
    + rewrite M in E1. discriminate.
  - exists (mk_crypt_flags Decrypt (p "keys") (p "in") (p "out") (Some (p "ad"))). split; [reflexivity |]. split; [reflexivity |].
    split; [reflexivity |].
    assert (M := proj1 (programs_that_empty toy_world toy_env new_pb everywhere 0%N
      (mk_crypt_flags Decrypt (p "keys") (p "in") (p "out") (Some (p "ad"))) 0%Z [] [] [] []) (drive hybrid_keys ct)).
    assert (E : exited (fst (hybrid_cli toy_world toy_env new_pb everywhere 0
      (mk_crypt_flags Decrypt (p "keys") (p "in") (p "out") (Some (p "ad"))) (drive hybrid_keys ct))) 0 &&
      same_bytes (content (snd (hybrid_cli toy_world toy_env new_pb everywhere 0
      (mk_crypt_flags Decrypt (p "keys") (p "in") (p "out") (Some (p "ad"))) (drive hybrid_keys ct))) (p "out")) (Some (blit "hello")) = true)
      by (vm_compute; reflexivity).
    apply andb_true_iff in E. destruct E as [E1 E2]. destruct M as [(M & _) | [(x & M & M1 & M2) | (M & _)]].
    + unfold exited in E1. rewrite M in E1. discriminate.
    + cbn [cf_output_path] in *. rewrite M1 in E2. cbn [same_bytes] in E2. apply bytes_eqb_spec in E2. subst x.
      split; [exact M | split; assumption].
    + unfold exited in E1. rewrite M in E1. discriminate.
Qed.
Print Assumptions C63_hybrid_all_or_nothing_refuted.
(** A failing KMS during 'generate' destroys the keyset that was there. *)
Definition failing_kms : aead := mk_aead (fun _ _ _ => Err (TinkError "no network")) (fun _ _ => Err (TinkError "no network")).
Theorem C63_generate_keeps_keyset_refuted : exists w env o remote ad rnd rnd' draws path run fs old,
  encrypted_keyset_generate w env o remote ad rnd rnd' draws path = Some run /\
  content fs path = Some old /\ old <> [] /\ empties (run fs) path fs.
Proof.
  destruct (new_gcm_key_wf aes128_gcm_format ltac:(vm_compute; reflexivity)) as [W1 W2].
  destruct (C64_encrypted_generate toy_world toy_env everywhere failing_kms [] 0%N 0%N 5%N [] (p "keys") _
    (toy_ready Aead) toy_limit eq_refl) as (run & Hr & H).
  - intros d Hd. injection Hd as <-. auto.
  - intros pt ct Hc. discriminate.
  - reflexivity.
  - exists toy_world, toy_env, everywhere, (Ok failing_kms), [], 0%N, 0%N, [5%N], (p "keys"), run, [(p "keys", blit "old keys")], (blit "old keys").
    split; [exact Hr |]. split; [reflexivity |]. split; [discriminate |].
    specialize (H [(p "keys", blit "old keys")]). cbn [cl_new_key_data] in H.
    destruct H as [((ct & pt & H & _) & _) | (_ & H)]; [discriminate | exact H].
Qed.
Print Assumptions C63_generate_keeps_keyset_refuted.
(** The same for a download from Google Cloud Storage that cannot be decrypted. *)
Theorem C63_gcs_all_or_nothing_refuted : exists w env o remote storage r0 rnd local path bs fs old,
  content fs local = Some old /\ old <> [] /\
  empties (fst (gcs_envelope_cli w env o remote storage r0 rnd Decrypt local path bs fs)) local fs.
Proof.
  exists toy_world, toy_env, everywhere, (Ok (toy_aead (blit "KEK"))), (Ok tt), 0%N, 0%N, (p "in"), (p "gs://b/x"),
    [((p "b", p "x"), blit "no ciphertext")], (drive [] (blit "old")), (blit "old").
  split; [reflexivity |]. split; [discriminate |].
  pose proof (C63_gcs toy_world toy_env everywhere (Ok (toy_aead (blit "KEK"))) (Ok tt) 0%N 0%N Decrypt (p "in") (p "gs://b/x") (p "b") (p "x")
    [((p "b", p "x"), blit "no ciphertext")] (drive [] (blit "old")) ltac:(split; [reflexivity | intros [H | []]; discriminate])) as M.
  assert (E : exited (fst (fst (gcs_run Decrypt "gs://b/x" [((p "b", p "x"), blit "no ciphertext")] (drive [] (blit "old"))))) 1 &&
    same_bytes (content (snd (fst (gcs_run Decrypt "gs://b/x" [((p "b", p "x"), blit "no ciphertext")] (drive [] (blit "old"))))) (p "in")) (Some []) = true)
    by (vm_compute; reflexivity).
  unfold gcs_run in E. destruct (gcs_envelope_cli _ _ _ _ _ _ _ _ _ _ _ _) as [[y fs'] bs']. cbn [fst snd] in *.
  apply andb_true_iff in E. destruct E as [E1 E2]. destruct M as [_ [(_ & M) | [(z & M & _) | M]]]; [| | exact M].
  - cbn [snd] in M. rewrite M in E2. vm_compute in E2. discriminate.
  - cbn [fst] in M. subst y. discriminate.
Qed.
Print Assumptions C63_gcs_all_or_nothing_refuted.
