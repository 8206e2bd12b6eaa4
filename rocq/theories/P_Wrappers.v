(** C07-C12: DeterministicAead, Mac, signatures, hybrid encryption, PRF sets, and
    the exceptions of all of them. *)
From Coq Require Import Strings.Byte Strings.String List NArith ZArith Bool Lia.
From Verif Require Import M_Base M_Proto M_Prims M_PrimitiveSet M_Registry M_KeysetHandle
  M_Wrappers S_Keyset S_Wrappers S_Handle L_Base L_PrimitiveSet L_Keyset L_Wrappers L_Wrappers2
  L_Wrappers3 L_Handle X_Toy L_Toy.
Import ListNotations.
Open Scope Z_scope.

(** * C07 Deterministic AEAD. Encryption takes no random choices, so it is a
    function of plaintext and associated data by its type. *)
Theorem C07_daead_law : forall reg h a,
  dict_get pclass_eqb ClsDaead (r_wrappers reg) = Some daead_wrapper ->
  handle_primitive reg h ClsDaead = Ok (PrimDaead a) ->
  valid_keyset (kh_keyset h) /\ exists l, daead_spec reg (kh_keyset h) a l.
Proof. exact daead_handle_spec. Qed.
Print Assumptions C07_daead_law.
Theorem C07_daead_round_trip : forall reg h a,
  dict_get pclass_eqb ClsDaead (r_wrappers reg) = Some daead_wrapper ->
  handle_primitive reg h ClsDaead = Ok (PrimDaead a) ->
  forall k p, In k (enabled_keys (kh_keyset h)) ->
    k_key_id k = ks_primary_key_id (kh_keyset h) ->
    key_provides reg ClsDaead k (PrimDaead p) ->
  forall pt ad c ct,
    daead_encrypt p pt ad = Ok c -> c <> [] -> daead_decrypt p c ad = Ok pt ->
    daead_encrypt a pt ad = Ok ct ->
    (forall k' p' body, In k' (enabled_keys (kh_keyset h)) -> k' <> k ->
       key_provides reg ClsDaead k' (PrimDaead p') -> reaches k' ct body ->
       raises_tink (daead_decrypt p' body ad)) ->
    daead_decrypt a ct ad = Ok pt.
Proof. exact daead_round_trip. Qed.
Print Assumptions C07_daead_round_trip.
Theorem C07_daead_rotation : forall reg h1 h2 a1 a2 added,
  dict_get pclass_eqb ClsDaead (r_wrappers reg) = Some daead_wrapper ->
  handle_primitive reg h1 ClsDaead = Ok (PrimDaead a1) ->
  handle_primitive reg h2 ClsDaead = Ok (PrimDaead a2) ->
  interleave (enabled_keys (kh_keyset h1)) added (enabled_keys (kh_keyset h2)) ->
  forall ct ad,
  (forall k p body, In k added -> key_provides reg ClsDaead k (PrimDaead p) -> reaches k ct body ->
     raises_tink (daead_decrypt p body ad)) ->
  same_outcome (daead_decrypt a1 ct ad) (daead_decrypt a2 ct ad).
Proof. exact daead_rotation. Qed.
Print Assumptions C07_daead_rotation.

Example C07_hypotheses_met :
  let k := toy_primary u_daead SYMMETRIC in
  let ct := x01 :: x00 :: x00 :: x00 :: x2a :: blit "ka" ++ x02 :: blit "adhello" in
  dict_get pclass_eqb ClsDaead (r_wrappers toy_registry) = Some daead_wrapper /\
  handle_primitive toy_registry (toy_handle u_daead SYMMETRIC) ClsDaead = Ok (PrimDaead w_daead) /\
  In k (enabled_keys (toy_keyset u_daead SYMMETRIC)) /\
  key_provides toy_registry ClsDaead k (PrimDaead (toy_daead (blit "ka"))) /\
  daead_encrypt w_daead (blit "hello") (blit "ad") = Ok ct /\
  (forall k' p' body, In k' (enabled_keys (toy_keyset u_daead SYMMETRIC)) -> k' <> k ->
     key_provides toy_registry ClsDaead k' (PrimDaead p') -> reaches k' ct body ->
     raises_tink (daead_decrypt p' body (blit "ad"))) /\
  daead_decrypt w_daead ct (blit "ad") = Ok (blit "hello").
Proof.
  cbv zeta. split; [vmr |]. split; [vmr |]. split; [left; vmr |].
  split; [apply registry_primitive_ok; vmr |].
  split; [vmr |]. split; [| vmr].
  apply (others_fail_ok _ _ PrimDaead _ _ _ _ (fun _ p b => daead_decrypt p b (blit "ad"))
           _ _ PrimDaead_inj toy_kw_daead). vmr.
Qed.

(** * C08 MAC *)
Theorem C08_mac_law : forall reg h a,
  dict_get pclass_eqb ClsMac (r_wrappers reg) = Some mac_wrapper ->
  handle_primitive reg h ClsMac = Ok (PrimMac a) ->
  valid_keyset (kh_keyset h) /\ exists l, mac_spec reg (kh_keyset h) a l.
Proof. exact mac_handle_spec. Qed.
Print Assumptions C08_mac_law.
Theorem C08_mac_verify_iff : forall reg h a,
  dict_get pclass_eqb ClsMac (r_wrappers reg) = Some mac_wrapper ->
  handle_primitive reg h ClsMac = Ok (PrimMac a) ->
  (forall k p tag data, In k (enabled_keys (kh_keyset h)) -> key_provides reg ClsMac k (PrimMac p) ->
     tink_total (mac_verify p tag data)) ->
  forall tag data,
  tink_total (mac_verify a tag data) /\
  (mac_verify a tag data = Ok tt <->
   (5 < length tag)%nat /\
   exists k p body, In k (enabled_keys (kh_keyset h)) /\ key_provides reg ClsMac k (PrimMac p) /\
     reaches k tag body /\ mac_verify p body (legacy_data k data) = Ok tt).
Proof. exact mac_verify_iff. Qed.
Print Assumptions C08_mac_verify_iff.
Theorem C08_mac_round_trip : forall reg h a,
  dict_get pclass_eqb ClsMac (r_wrappers reg) = Some mac_wrapper ->
  handle_primitive reg h ClsMac = Ok (PrimMac a) ->
  (forall k p tag data, In k (enabled_keys (kh_keyset h)) -> key_provides reg ClsMac k (PrimMac p) ->
     tink_total (mac_verify p tag data)) ->
  forall k p, In k (enabled_keys (kh_keyset h)) ->
    k_key_id k = ks_primary_key_id (kh_keyset h) ->
    key_provides reg ClsMac k (PrimMac p) ->
    (forall data t, mac_compute p data = Ok t -> mac_verify p t data = Ok tt /\ (5 < length t)%nat) ->
  forall data tag, mac_compute a data = Ok tag -> mac_verify a tag data = Ok tt.
Proof. exact mac_round_trip. Qed.
Print Assumptions C08_mac_round_trip.
Theorem C08_mac_rotation : forall reg h1 h2 a1 a2 added,
  dict_get pclass_eqb ClsMac (r_wrappers reg) = Some mac_wrapper ->
  handle_primitive reg h1 ClsMac = Ok (PrimMac a1) ->
  handle_primitive reg h2 ClsMac = Ok (PrimMac a2) ->
  interleave (enabled_keys (kh_keyset h1)) added (enabled_keys (kh_keyset h2)) ->
  forall tag data,
  (forall k p body, In k added -> key_provides reg ClsMac k (PrimMac p) ->
     reaches k tag body -> raises_tink (mac_verify p body (legacy_data k data))) ->
  same_outcome (mac_verify a1 tag data) (mac_verify a2 tag data).
Proof. exact mac_rotation. Qed.
Print Assumptions C08_mac_rotation.

(** The toy Mac meets the hypotheses; tags of the TINK primary, of the LEGACY key
    (over data and a zero byte) and of the RAW key verify. *)
Example C08_hypotheses_met :
  handle_primitive toy_registry (toy_handle u_mac SYMMETRIC) ClsMac = Ok (PrimMac w_mac) /\
  (forall k p tag data, In k (enabled_keys (toy_keyset u_mac SYMMETRIC)) ->
     key_provides toy_registry ClsMac k (PrimMac p) -> tink_total (mac_verify p tag data)) /\
  mac_compute w_mac (blit "data") =
    Ok (x01 :: x00 :: x00 :: x00 :: x2a :: blit "tag:ka:data") /\
  mac_verify w_mac (x01 :: x00 :: x00 :: x00 :: x2a :: blit "tag:ka:data") (blit "data") = Ok tt /\
  mac_verify w_mac (x00 :: x00 :: x00 :: x01 :: x2c :: blit "tag:kd:data" ++ [x00]) (blit "data")
    = Ok tt /\
  mac_verify w_mac (blit "tag:kb:data") (blit "data") = Ok tt /\
  raises_tink (mac_verify w_mac (blit "tag:kc:data") (blit "data")).
Proof.
  split; [vmr |]. split.
  - intros k p tag data Hk Hp.
    assert (Hi : In (k, p) (toy_list toy_mac u_mac SYMMETRIC))
      by (apply (law_in _ _ _ _ _ PrimMac_inj toy_kw_mac); auto).
    destruct Hi as [E | [E | [E | []]]]; injection E as _ <-; apply toy_check_total.
  - repeat split; try vmr. toy_raises.
Qed.

(** * C09 Signatures *)
Theorem C09_sign_law : forall reg h a,
  dict_get pclass_eqb ClsSign (r_wrappers reg) = Some public_key_sign_wrapper ->
  handle_primitive reg h ClsSign = Ok (PrimSign a) ->
  valid_keyset (kh_keyset h) /\ exists l, sign_spec reg (kh_keyset h) a l.
Proof. exact sign_handle_spec. Qed.
Print Assumptions C09_sign_law.
Theorem C09_verify_law : forall reg h a,
  dict_get pclass_eqb ClsVerify (r_wrappers reg) = Some public_key_verify_wrapper ->
  handle_primitive reg h ClsVerify = Ok (PrimVerify a) ->
  valid_keyset (kh_keyset h) /\ exists l, verify_spec reg (kh_keyset h) a l.
Proof. exact verify_handle_spec. Qed.
Print Assumptions C09_verify_law.
Theorem C09_verify_iff : forall reg h a,
  dict_get pclass_eqb ClsVerify (r_wrappers reg) = Some public_key_verify_wrapper ->
  handle_primitive reg h ClsVerify = Ok (PrimVerify a) ->
  (forall k p sg data, In k (enabled_keys (kh_keyset h)) -> key_provides reg ClsVerify k (PrimVerify p) ->
     tink_total (verify p sg data)) ->
  forall sg data,
  tink_total (verify a sg data) /\
  (verify a sg data = Ok tt <->
   (5 < length sg)%nat /\
   exists k p body, In k (enabled_keys (kh_keyset h)) /\ key_provides reg ClsVerify k (PrimVerify p) /\
     reaches k sg body /\ verify p body (legacy_data k data) = Ok tt).
Proof. exact signature_verify_iff. Qed.
Print Assumptions C09_verify_iff.
Theorem C09_signature_round_trip : forall reg h ph sg vf,
  dict_get pclass_eqb ClsSign (r_wrappers reg) = Some public_key_sign_wrapper ->
  dict_get pclass_eqb ClsVerify (r_wrappers reg) = Some public_key_verify_wrapper ->
  public_keyset_handle reg h = Ok ph ->
  handle_primitive reg h ClsSign = Ok (PrimSign sg) ->
  handle_primitive reg ph ClsVerify = Ok (PrimVerify vf) ->
  (forall k p s data, In k (enabled_keys (kh_keyset ph)) ->
     key_provides reg ClsVerify k (PrimVerify p) -> tink_total (verify p s data)) ->
  forall k pk ps pv,
    In k (enabled_keys (kh_keyset h)) -> k_key_id k = ks_primary_key_id (kh_keyset h) ->
    public_counterpart reg k pk ->
    key_provides reg ClsSign k (PrimSign ps) ->
    key_provides reg ClsVerify pk (PrimVerify pv) ->
    (forall r data s, sign ps r data = Ok s -> verify pv s data = Ok tt /\ (5 < length s)%nat) ->
  forall r data s, sign sg r data = Ok s -> verify vf s data = Ok tt.
Proof. exact signature_round_trip. Qed.
Print Assumptions C09_signature_round_trip.
Theorem C09_verify_rotation : forall reg h1 h2 a1 a2 added,
  dict_get pclass_eqb ClsVerify (r_wrappers reg) = Some public_key_verify_wrapper ->
  handle_primitive reg h1 ClsVerify = Ok (PrimVerify a1) ->
  handle_primitive reg h2 ClsVerify = Ok (PrimVerify a2) ->
  interleave (enabled_keys (kh_keyset h1)) added (enabled_keys (kh_keyset h2)) ->
  forall sg data,
  (forall k p body, In k added -> key_provides reg ClsVerify k (PrimVerify p) ->
     reaches k sg body -> raises_tink (verify p body (legacy_data k data))) ->
  same_outcome (verify a1 sg data) (verify a2 sg data).
Proof. exact verify_rotation. Qed.
Print Assumptions C09_verify_rotation.

Lemma toy_tag_checks : forall k data s, toy_tag k data = Ok s ->
  k <> [] -> toy_check k s data = Ok tt /\ (5 < length s)%nat.
Proof.
  intros k data s E Hk. apply ok_inj in E. subst s. split.
  - unfold toy_check. rewrite bytes_eqb_refl. vmr.
  - unfold blit. cbn [list_byte_of_string app length]. rewrite !app_length. destruct k; [congruence |]. cbn. lia.
Qed.

Example C09_hypotheses_met :
  let k := toy_primary u_sign ASYMMETRIC_PRIVATE in
  let pk := toy_primary u_verify ASYMMETRIC_PUBLIC in
  public_keyset_handle toy_registry sign_handle = Ok sign_public_handle /\
  handle_primitive toy_registry sign_handle ClsSign = Ok (PrimSign w_signer) /\
  handle_primitive toy_registry sign_public_handle ClsVerify = Ok (PrimVerify w_verifier) /\
  (forall k p s data, In k (enabled_keys (kh_keyset sign_public_handle)) ->
     key_provides toy_registry ClsVerify k (PrimVerify p) -> tink_total (verify p s data)) /\
  In k (enabled_keys (kh_keyset sign_handle)) /\
  public_counterpart toy_registry k pk /\
  key_provides toy_registry ClsSign k (PrimSign (toy_signer (blit "ka"))) /\
  key_provides toy_registry ClsVerify pk (PrimVerify (toy_verifier (blit "ka"))) /\
  (forall r data s, sign (toy_signer (blit "ka")) r data = Ok s ->
     verify (toy_verifier (blit "ka")) s data = Ok tt /\ (5 < length s)%nat) /\
  sign w_signer 0%N (blit "m") = Ok (x01 :: x00 :: x00 :: x00 :: x2a :: blit "tag:ka:m").
Proof.
  cbv zeta. split; [vmr |]. split; [vmr |]. split; [vmr |]. split.
  { assert (Ek : kh_keyset sign_public_handle = toy_keyset u_verify ASYMMETRIC_PUBLIC) by vmr.
    rewrite Ek. intros k p s data Hk Hp.
    assert (Hi : In (k, p) (toy_list toy_verifier u_verify ASYMMETRIC_PUBLIC))
      by (apply (law_in _ _ _ _ _ PrimVerify_inj toy_kw_verify); auto).
    destruct Hi as [E | [E | [E | []]]]; injection E as _ <-; apply toy_check_total. }
  split; [left; vmr |]. split.
  { split; [| repeat split]. eexists. split; [vmr |]. split; [vmr |].
    exists km_sign, true. eexists. split; [vmr |]. split; vmr. }
  split; [apply registry_primitive_ok; vmr |].
  split; [apply registry_primitive_ok; vmr |].
  split; [intros r data s E; apply toy_tag_checks; [exact E | discriminate] | vmr].
Qed.

(** * C10 Hybrid encryption *)
Theorem C10_hybrid_encrypt_law : forall reg h a,
  dict_get pclass_eqb ClsHybridEncrypt (r_wrappers reg) = Some hybrid_encrypt_wrapper ->
  handle_primitive reg h ClsHybridEncrypt = Ok (PrimHybridEncrypt a) ->
  valid_keyset (kh_keyset h) /\ exists l, hybrid_encrypt_spec reg (kh_keyset h) a l.
Proof. exact hybrid_encrypt_handle_spec. Qed.
Print Assumptions C10_hybrid_encrypt_law.
Theorem C10_hybrid_decrypt_law : forall reg h a,
  dict_get pclass_eqb ClsHybridDecrypt (r_wrappers reg) = Some hybrid_decrypt_wrapper ->
  handle_primitive reg h ClsHybridDecrypt = Ok (PrimHybridDecrypt a) ->
  valid_keyset (kh_keyset h) /\ exists l, hybrid_decrypt_spec reg (kh_keyset h) a l.
Proof. exact hybrid_decrypt_handle_spec. Qed.
Print Assumptions C10_hybrid_decrypt_law.
Theorem C10_hybrid_round_trip : forall reg h ph enc dec,
  dict_get pclass_eqb ClsHybridEncrypt (r_wrappers reg) = Some hybrid_encrypt_wrapper ->
  dict_get pclass_eqb ClsHybridDecrypt (r_wrappers reg) = Some hybrid_decrypt_wrapper ->
  public_keyset_handle reg h = Ok ph ->
  handle_primitive reg ph ClsHybridEncrypt = Ok (PrimHybridEncrypt enc) ->
  handle_primitive reg h ClsHybridDecrypt = Ok (PrimHybridDecrypt dec) ->
  forall k pk pe pd,
    In k (enabled_keys (kh_keyset h)) -> k_key_id k = ks_primary_key_id (kh_keyset h) ->
    public_counterpart reg k pk ->
    key_provides reg ClsHybridEncrypt pk (PrimHybridEncrypt pe) ->
    key_provides reg ClsHybridDecrypt k (PrimHybridDecrypt pd) ->
  forall r pt ci c ct,
    he_encrypt pe r pt ci = Ok c -> c <> [] -> hd_decrypt pd c ci = Ok pt ->
    he_encrypt enc r pt ci = Ok ct ->
    (forall k' p' body, In k' (enabled_keys (kh_keyset h)) -> k' <> k ->
       key_provides reg ClsHybridDecrypt k' (PrimHybridDecrypt p') -> reaches k' ct body ->
       raises_tink (hd_decrypt p' body ci)) ->
    hd_decrypt dec ct ci = Ok pt.
Proof. exact hybrid_round_trip. Qed.
Print Assumptions C10_hybrid_round_trip.
Theorem C10_hybrid_rotation : forall reg h1 h2 a1 a2 added,
  dict_get pclass_eqb ClsHybridDecrypt (r_wrappers reg) = Some hybrid_decrypt_wrapper ->
  handle_primitive reg h1 ClsHybridDecrypt = Ok (PrimHybridDecrypt a1) ->
  handle_primitive reg h2 ClsHybridDecrypt = Ok (PrimHybridDecrypt a2) ->
  interleave (enabled_keys (kh_keyset h1)) added (enabled_keys (kh_keyset h2)) ->
  forall ct ci,
  (forall k p body, In k added -> key_provides reg ClsHybridDecrypt k (PrimHybridDecrypt p) ->
     reaches k ct body -> raises_tink (hd_decrypt p body ci)) ->
  same_outcome (hd_decrypt a1 ct ci) (hd_decrypt a2 ct ci).
Proof. exact hybrid_rotation. Qed.
Print Assumptions C10_hybrid_rotation.

Example C10_hypotheses_met :
  let k := toy_primary u_hd ASYMMETRIC_PRIVATE in
  let pk := toy_primary u_he ASYMMETRIC_PUBLIC in
  let ct := x01 :: x00 :: x00 :: x00 :: x2a :: blit "ka" ++ x02 :: blit "cihello" in
  public_keyset_handle toy_registry hybrid_handle = Ok hybrid_public_handle /\
  handle_primitive toy_registry hybrid_public_handle ClsHybridEncrypt = Ok (PrimHybridEncrypt w_he) /\
  handle_primitive toy_registry hybrid_handle ClsHybridDecrypt = Ok (PrimHybridDecrypt w_hd) /\
  In k (enabled_keys (kh_keyset hybrid_handle)) /\
  public_counterpart toy_registry k pk /\
  key_provides toy_registry ClsHybridEncrypt pk (PrimHybridEncrypt (toy_he (blit "ka"))) /\
  key_provides toy_registry ClsHybridDecrypt k (PrimHybridDecrypt (toy_hd (blit "ka"))) /\
  he_encrypt w_he 3%N (blit "hello") (blit "ci") = Ok ct /\
  (forall k' p' body, In k' (enabled_keys (kh_keyset hybrid_handle)) -> k' <> k ->
     key_provides toy_registry ClsHybridDecrypt k' (PrimHybridDecrypt p') -> reaches k' ct body ->
     raises_tink (hd_decrypt p' body (blit "ci"))) /\
  hd_decrypt w_hd ct (blit "ci") = Ok (blit "hello").
Proof.
  cbv zeta. split; [vmr |]. split; [vmr |]. split; [vmr |].
  split; [left; vmr |]. split.
  { split; [| repeat split]. eexists. split; [vmr |]. split; [vmr |].
    eexists. eexists. eexists. split; [vmr |]. split; vmr. }
  split; [apply registry_primitive_ok; vmr |].
  split; [apply registry_primitive_ok; vmr |].
  split; [vmr |]. split; [| vmr].
  assert (Ek : kh_keyset hybrid_handle = toy_keyset u_hd ASYMMETRIC_PRIVATE) by vmr.
  rewrite Ek.
  apply (others_fail_ok _ _ PrimHybridDecrypt _ _ _ _ (fun _ p b => hd_decrypt p b (blit "ci"))
           _ _ PrimHybridDecrypt_inj toy_kw_hd). vmr.
Qed.

(** * C11 PRF sets *)
Theorem C11_prf_set_law : forall reg h pid all prim0,
  dict_get pclass_eqb ClsPrfSet (r_wrappers reg) = Some prf_set_wrapper ->
  handle_primitive reg h ClsPrfSet = Ok (PrimPrfSet pid all prim0) ->
  exists l, prf_set_spec reg (kh_keyset h) pid all prim0 l.
Proof. exact prf_set_handle_spec. Qed.
Print Assumptions C11_prf_set_law.
Theorem C11_prf_set_needs_raw : forall reg h k,
  dict_get pclass_eqb ClsPrfSet (r_wrappers reg) = Some prf_set_wrapper ->
  In k (enabled_keys (kh_keyset h)) -> k_output_prefix_type k <> RAW ->
  forall Q, handle_primitive reg h ClsPrfSet <> Ok Q.
Proof. exact prf_set_refuses_prefixed. Qed.
Print Assumptions C11_prf_set_needs_raw.

Example C11_hypotheses_met :
  exists pid all p, handle_primitive toy_registry toy_prf_handle ClsPrfSet
    = Ok (PrimPrfSet pid all p) /\
    pid = Ok 5%N /\ map fst all = [5%N; 6%N] /\ p = Ok (PrimPrf (toy_prf (blit "pa"))).
Proof. eexists. eexists. eexists. split; [vmr |]. repeat split. Qed.
Example C11_refusal_met :
  In (toy_primary u_prf SYMMETRIC) (enabled_keys (toy_keyset u_prf SYMMETRIC)) /\
  k_output_prefix_type (toy_primary u_prf SYMMETRIC) <> RAW.
Proof. split; [left; vmr | discriminate]. Qed.

(** * C12 Only TinkError *)
Theorem C12_primitive_only_tink_errors : forall reg h c,
  (forall k, In k (ks_key (kh_keyset h)) -> (k_key_id k < 2 ^ 32)%N) ->
  (forall k km b, In k (enabled_keys (kh_keyset h)) ->
     dict_get str_eqb (kd_type_url (k_key_data k)) (r_key_managers reg) = Some (km, b) ->
     tink_total (km_primitive km (k_key_data k))) ->
  (forall w ps, dict_get pclass_eqb c (r_wrappers reg) = Some w -> tink_total (w_wrap w ps)) ->
  tink_total (handle_primitive reg h c).
Proof. exact handle_primitive_only_tink_errors. Qed.
Print Assumptions C12_primitive_only_tink_errors.
Theorem C12_aead_only_tink_errors : forall reg h a,
  dict_get pclass_eqb ClsAead (r_wrappers reg) = Some aead_wrapper ->
  handle_primitive reg h ClsAead = Ok (PrimAead a) ->
  (forall k p, In k (enabled_keys (kh_keyset h)) -> key_provides reg ClsAead k (PrimAead p) ->
     (forall r pt ad, tink_total (aead_encrypt p r pt ad)) /\
     (forall ct ad, tink_total (aead_decrypt p ct ad))) ->
  (forall r pt ad, tink_total (aead_encrypt a r pt ad)) /\
  (forall ct ad, tink_total (aead_decrypt a ct ad)).
Proof. exact aead_only_tink_errors. Qed.
Print Assumptions C12_aead_only_tink_errors.
Theorem C12_daead_only_tink_errors : forall reg h a,
  dict_get pclass_eqb ClsDaead (r_wrappers reg) = Some daead_wrapper ->
  handle_primitive reg h ClsDaead = Ok (PrimDaead a) ->
  (forall k p, In k (enabled_keys (kh_keyset h)) -> key_provides reg ClsDaead k (PrimDaead p) ->
     (forall pt ad, tink_total (daead_encrypt p pt ad)) /\
     (forall ct ad, tink_total (daead_decrypt p ct ad))) ->
  (forall pt ad, tink_total (daead_encrypt a pt ad)) /\
  (forall ct ad, tink_total (daead_decrypt a ct ad)).
Proof. exact daead_only_tink_errors. Qed.
Print Assumptions C12_daead_only_tink_errors.
Theorem C12_mac_only_tink_errors : forall reg h a,
  dict_get pclass_eqb ClsMac (r_wrappers reg) = Some mac_wrapper ->
  handle_primitive reg h ClsMac = Ok (PrimMac a) ->
  (forall k p, In k (enabled_keys (kh_keyset h)) -> key_provides reg ClsMac k (PrimMac p) ->
     (forall data, tink_total (mac_compute p data)) /\
     (forall tag data, tink_total (mac_verify p tag data))) ->
  (forall data, tink_total (mac_compute a data)) /\
  (forall tag data, tink_total (mac_verify a tag data)).
Proof. exact mac_only_tink_errors. Qed.
Print Assumptions C12_mac_only_tink_errors.
Theorem C12_sign_only_tink_errors : forall reg h a,
  dict_get pclass_eqb ClsSign (r_wrappers reg) = Some public_key_sign_wrapper ->
  handle_primitive reg h ClsSign = Ok (PrimSign a) ->
  (forall k p, In k (enabled_keys (kh_keyset h)) -> key_provides reg ClsSign k (PrimSign p) ->
     forall r data, tink_total (sign p r data)) ->
  forall r data, tink_total (sign a r data).
Proof. exact sign_only_tink_errors. Qed.
Print Assumptions C12_sign_only_tink_errors.
Theorem C12_verify_only_tink_errors : forall reg h a,
  dict_get pclass_eqb ClsVerify (r_wrappers reg) = Some public_key_verify_wrapper ->
  handle_primitive reg h ClsVerify = Ok (PrimVerify a) ->
  (forall k p, In k (enabled_keys (kh_keyset h)) -> key_provides reg ClsVerify k (PrimVerify p) ->
     forall s data, tink_total (verify p s data)) ->
  forall s data, tink_total (verify a s data).
Proof. exact verify_only_tink_errors. Qed.
Print Assumptions C12_verify_only_tink_errors.
Theorem C12_hybrid_encrypt_only_tink_errors : forall reg h a,
  dict_get pclass_eqb ClsHybridEncrypt (r_wrappers reg) = Some hybrid_encrypt_wrapper ->
  handle_primitive reg h ClsHybridEncrypt = Ok (PrimHybridEncrypt a) ->
  (forall k p, In k (enabled_keys (kh_keyset h)) ->
     key_provides reg ClsHybridEncrypt k (PrimHybridEncrypt p) ->
     forall r pt ci, tink_total (he_encrypt p r pt ci)) ->
  forall r pt ci, tink_total (he_encrypt a r pt ci).
Proof. exact hybrid_encrypt_only_tink_errors. Qed.
Print Assumptions C12_hybrid_encrypt_only_tink_errors.
Theorem C12_hybrid_decrypt_only_tink_errors : forall reg h a,
  dict_get pclass_eqb ClsHybridDecrypt (r_wrappers reg) = Some hybrid_decrypt_wrapper ->
  handle_primitive reg h ClsHybridDecrypt = Ok (PrimHybridDecrypt a) ->
  (forall k p, In k (enabled_keys (kh_keyset h)) ->
     key_provides reg ClsHybridDecrypt k (PrimHybridDecrypt p) ->
     forall ct ci, tink_total (hd_decrypt p ct ci)) ->
  forall ct ci, tink_total (hd_decrypt a ct ci).
Proof. exact hybrid_decrypt_only_tink_errors. Qed.
Print Assumptions C12_hybrid_decrypt_only_tink_errors.

Example C12_hypotheses_met :
  (forall k p, In k (enabled_keys (toy_keyset u_aead SYMMETRIC)) ->
     key_provides toy_registry ClsAead k (PrimAead p) ->
     (forall r pt ad, tink_total (aead_encrypt p r pt ad)) /\
     (forall ct ad, tink_total (aead_decrypt p ct ad))) /\
  raises_tink (aead_decrypt w_aead (blit "garbage") []).
Proof.
  split; [| toy_raises]. intros k p Hk Hp.
  assert (Hi : In (k, p) (toy_list toy_aead u_aead SYMMETRIC))
    by (apply (law_in _ _ _ _ _ PrimAead_inj toy_kw_aead); auto).
  destruct Hi as [E | [E | [E | []]]]; injection E as _ <-;
    (split; [intros; exact I | intros; apply toy_open_total]).
Qed.
