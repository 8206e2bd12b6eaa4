(** C07-C12: DeterministicAead, Mac, signatures, hybrid encryption, PRF sets, and
    the exceptions of all of them. *)
From Coq Require Import Strings.Byte Strings.String List NArith ZArith Bool Lia.
From Verif Require Import M_Base M_Proto M_Prims M_PrimitiveSet M_Registry M_KeysetHandle
  M_Wrappers S_Keyset S_Wrappers S_Handle L_Base L_PrimitiveSet L_Keyset L_Wrappers L_Wrappers2
  L_Wrappers3 L_Handle X_Toy L_Toy.
Import ListNotations.
Open Scope Z_scope.

(** * C07 Deterministic AEAD. Encryption takes no random choices, so it is a
    function of plaintext and associated data by its type. *)
@thm C07_daead_law daead_handle_spec
@thm C07_daead_round_trip daead_round_trip
@thm C07_daead_rotation daead_rotation

Example C07_hypotheses_met :
  let k := toy_primary u_daead SYMMETRIC in
  let ct := x01 :: x00 :: x00 :: x00 :: x2a :: blit "ka" ++ x02 :: blit "adhello" in
  dict_get pclass_eqb ClsDaead (r_wrappers toy_registry) = Some daead_wrapper /\
  handle_primitive toy_registry (toy_handle u_daead SYMMETRIC) ClsDaead = Ok (PrimDaead w_daead) /\
  In k (enabled_keys (toy_keyset u_daead SYMMETRIC)) /\
  key_provides toy_registry ClsDaead k (PrimDaead (toy_daead (blit "ka"))) /\
  daead_encrypt w_daead (blit "hello") (blit "ad") = Ok ct /\
  (forall k' p' body, In k' (enabled_keys (toy_keyset u_daead SYMMETRIC)) -> k' <> k ->
     key_provides toy_registry ClsDaead k' (PrimDaead p') -> reaches k' ct body ->
     raises_tink (daead_decrypt p' body (blit "ad"))) /\
  daead_decrypt w_daead ct (blit "ad") = Ok (blit "hello").
Proof.
  cbv zeta. split; [vmr |]. split; [vmr |]. split; [left; vmr |].
  split; [apply registry_primitive_ok; vmr |].
  split; [vmr |]. split; [| vmr].
  apply (others_fail_ok _ _ PrimDaead _ _ _ _ (fun _ p b => daead_decrypt p b (blit "ad"))
           _ _ PrimDaead_inj toy_kw_daead). vmr.
Qed.

(** * C08 MAC *)
@thm C08_mac_law mac_handle_spec
@thm C08_mac_verify_iff mac_verify_iff
@thm C08_mac_round_trip mac_round_trip
@thm C08_mac_rotation mac_rotation

(** The toy Mac meets the hypotheses; tags of the TINK primary, of the LEGACY key
    (over data and a zero byte) and of the RAW key verify. *)
Example C08_hypotheses_met :
  handle_primitive toy_registry (toy_handle u_mac SYMMETRIC) ClsMac = Ok (PrimMac w_mac) /\
  (forall k p tag data, In k (enabled_keys (toy_keyset u_mac SYMMETRIC)) ->
     key_provides toy_registry ClsMac k (PrimMac p) -> tink_total (mac_verify p tag data)) /\
  mac_compute w_mac (blit "data") =
    Ok (x01 :: x00 :: x00 :: x00 :: x2a :: blit "tag:ka:data") /\
  mac_verify w_mac (x01 :: x00 :: x00 :: x00 :: x2a :: blit "tag:ka:data") (blit "data") = Ok tt /\
  mac_verify w_mac (x00 :: x00 :: x00 :: x01 :: x2c :: blit "tag:kd:data" ++ [x00]) (blit "data")
    = Ok tt /\
  mac_verify w_mac (blit "tag:kb:data") (blit "data") = Ok tt /\
  raises_tink (mac_verify w_mac (blit "tag:kc:data") (blit "data")).
Proof.
  split; [vmr |]. split.
  - intros k p tag data Hk Hp.
    assert (Hi : In (k, p) (toy_list toy_mac u_mac SYMMETRIC))
      by (apply (law_in _ _ _ _ _ PrimMac_inj toy_kw_mac); auto).
    destruct Hi as [E | [E | [E | []]]]; injection E as _ <-; apply toy_check_total.
  - repeat split; try vmr. toy_raises.
Qed.

(** * C09 Signatures *)
@thm C09_sign_law sign_handle_spec
@thm C09_verify_law verify_handle_spec
@thm C09_verify_iff signature_verify_iff
@thm C09_signature_round_trip signature_round_trip
@thm C09_verify_rotation verify_rotation

Lemma toy_tag_checks : forall k data s, toy_tag k data = Ok s ->
  k <> [] -> toy_check k s data = Ok tt /\ (5 < length s)%nat.
Proof.
  intros k data s E Hk. apply ok_inj in E. subst s. split.
  - unfold toy_check. rewrite bytes_eqb_refl. vmr.
  - unfold blit. cbn [list_byte_of_string app length]. rewrite !app_length. destruct k; [congruence |]. cbn. lia.
Qed.

Example C09_hypotheses_met :
  let k := toy_primary u_sign ASYMMETRIC_PRIVATE in
  let pk := toy_primary u_verify ASYMMETRIC_PUBLIC in
  public_keyset_handle toy_registry sign_handle = Ok sign_public_handle /\
  handle_primitive toy_registry sign_handle ClsSign = Ok (PrimSign w_signer) /\
  handle_primitive toy_registry sign_public_handle ClsVerify = Ok (PrimVerify w_verifier) /\
  (forall k p s data, In k (enabled_keys (kh_keyset sign_public_handle)) ->
     key_provides toy_registry ClsVerify k (PrimVerify p) -> tink_total (verify p s data)) /\
  In k (enabled_keys (kh_keyset sign_handle)) /\
  public_counterpart toy_registry k pk /\
  key_provides toy_registry ClsSign k (PrimSign (toy_signer (blit "ka"))) /\
  key_provides toy_registry ClsVerify pk (PrimVerify (toy_verifier (blit "ka"))) /\
  (forall r data s, sign (toy_signer (blit "ka")) r data = Ok s ->
     verify (toy_verifier (blit "ka")) s data = Ok tt /\ (5 < length s)%nat) /\
  sign w_signer 0%N (blit "m") = Ok (x01 :: x00 :: x00 :: x00 :: x2a :: blit "tag:ka:m").
Proof.
  cbv zeta. split; [vmr |]. split; [vmr |]. split; [vmr |]. split.
  { assert (Ek : kh_keyset sign_public_handle = toy_keyset u_verify ASYMMETRIC_PUBLIC) by vmr.
    rewrite Ek. intros k p s data Hk Hp.
    assert (Hi : In (k, p) (toy_list toy_verifier u_verify ASYMMETRIC_PUBLIC))
      by (apply (law_in _ _ _ _ _ PrimVerify_inj toy_kw_verify); auto).
    destruct Hi as [E | [E | [E | []]]]; injection E as _ <-; apply toy_check_total. }
  split; [left; vmr |]. split.
  { split; [| repeat split]. eexists. split; [vmr |]. split; [vmr |].
    exists km_sign, true. eexists. split; [vmr |]. split; vmr. }
  split; [apply registry_primitive_ok; vmr |].
  split; [apply registry_primitive_ok; vmr |].
  split; [intros r data s E; apply toy_tag_checks; [exact E | discriminate] | vmr].
Qed.

(** * C10 Hybrid encryption *)
@thm C10_hybrid_encrypt_law hybrid_encrypt_handle_spec
@thm C10_hybrid_decrypt_law hybrid_decrypt_handle_spec
@thm C10_hybrid_round_trip hybrid_round_trip
@thm C10_hybrid_rotation hybrid_rotation

Example C10_hypotheses_met :
  let k := toy_primary u_hd ASYMMETRIC_PRIVATE in
  let pk := toy_primary u_he ASYMMETRIC_PUBLIC in
  let ct := x01 :: x00 :: x00 :: x00 :: x2a :: blit "ka" ++ x02 :: blit "cihello" in
  public_keyset_handle toy_registry hybrid_handle = Ok hybrid_public_handle /\
  handle_primitive toy_registry hybrid_public_handle ClsHybridEncrypt = Ok (PrimHybridEncrypt w_he) /\
  handle_primitive toy_registry hybrid_handle ClsHybridDecrypt = Ok (PrimHybridDecrypt w_hd) /\
  In k (enabled_keys (kh_keyset hybrid_handle)) /\
  public_counterpart toy_registry k pk /\
  key_provides toy_registry ClsHybridEncrypt pk (PrimHybridEncrypt (toy_he (blit "ka"))) /\
  key_provides toy_registry ClsHybridDecrypt k (PrimHybridDecrypt (toy_hd (blit "ka"))) /\
  he_encrypt w_he 3%N (blit "hello") (blit "ci") = Ok ct /\
  (forall k' p' body, In k' (enabled_keys (kh_keyset hybrid_handle)) -> k' <> k ->
     key_provides toy_registry ClsHybridDecrypt k' (PrimHybridDecrypt p') -> reaches k' ct body ->
     raises_tink (hd_decrypt p' body (blit "ci"))) /\
  hd_decrypt w_hd ct (blit "ci") = Ok (blit "hello").
Proof.
  cbv zeta. split; [vmr |]. split; [vmr |]. split; [vmr |].
  split; [left; vmr |]. split.
  { split; [| repeat split]. eexists. split; [vmr |]. split; [vmr |].
    eexists. eexists. eexists. split; [vmr |]. split; vmr. }
  split; [apply registry_primitive_ok; vmr |].
  split; [apply registry_primitive_ok; vmr |].
  split; [vmr |]. split; [| vmr].
  assert (Ek : kh_keyset hybrid_handle = toy_keyset u_hd ASYMMETRIC_PRIVATE) by vmr.
  rewrite Ek.
  apply (others_fail_ok _ _ PrimHybridDecrypt _ _ _ _ (fun _ p b => hd_decrypt p b (blit "ci"))
           _ _ PrimHybridDecrypt_inj toy_kw_hd). vmr.
Qed.

(** * C11 PRF sets *)
@thm C11_prf_set_law prf_set_handle_spec
@thm C11_prf_set_needs_raw prf_set_refuses_prefixed

Example C11_hypotheses_met :
  exists pid all p, handle_primitive toy_registry toy_prf_handle ClsPrfSet
    = Ok (PrimPrfSet pid all p) /\
    pid = Ok 5%N /\ map fst all = [5%N; 6%N] /\ p = Ok (PrimPrf (toy_prf (blit "pa"))).
Proof. eexists. eexists. eexists. split; [vmr |]. repeat split. Qed.
Example C11_refusal_met :
  In (toy_primary u_prf SYMMETRIC) (enabled_keys (toy_keyset u_prf SYMMETRIC)) /\
  k_output_prefix_type (toy_primary u_prf SYMMETRIC) <> RAW.
Proof. split; [left; vmr | discriminate]. Qed.

(** * C12 Only TinkError *)
@thm C12_primitive_only_tink_errors handle_primitive_only_tink_errors
@thm C12_aead_only_tink_errors aead_only_tink_errors
@thm C12_daead_only_tink_errors daead_only_tink_errors
@thm C12_mac_only_tink_errors mac_only_tink_errors
@thm C12_sign_only_tink_errors sign_only_tink_errors
@thm C12_verify_only_tink_errors verify_only_tink_errors
@thm C12_hybrid_encrypt_only_tink_errors hybrid_encrypt_only_tink_errors
@thm C12_hybrid_decrypt_only_tink_errors hybrid_decrypt_only_tink_errors

Example C12_hypotheses_met :
  (forall k p, In k (enabled_keys (toy_keyset u_aead SYMMETRIC)) ->
     key_provides toy_registry ClsAead k (PrimAead p) ->
     (forall r pt ad, tink_total (aead_encrypt p r pt ad)) /\
     (forall ct ad, tink_total (aead_decrypt p ct ad))) /\
  raises_tink (aead_decrypt w_aead (blit "garbage") []).
Proof.
  split; [| toy_raises]. intros k p Hk Hp.
  assert (Hi : In (k, p) (toy_list toy_aead u_aead SYMMETRIC))
    by (apply (law_in _ _ _ _ _ PrimAead_inj toy_kw_aead); auto).
  destruct Hi as [E | [E | [E | []]]]; injection E as _ <-;
    (split; [intros; exact I | intros; apply toy_open_total]).
Qed.
