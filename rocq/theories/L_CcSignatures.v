(** Signers and verifiers. *)
From Coq Require Import Strings.Byte Strings.String List NArith ZArith Bool Lia.
From Verif Require Import M_Base L_Base M_Proto M_Utf8 M_Wire L_Wire S_Wire M_ProtoMsg S_ProtoMsg L_ProtoMsg M_KeyFormats M_Prims M_StreamTypes M_CcStream M_CcManagers M_CcAes
  M_CcStreamKeys M_CcModes M_CcSymmetric M_CcSymKeys M_CcEcies M_CcEciesKeys M_CcSignatures S_Config S_CcAes S_CcStreamKeys S_CcModes S_CcSymmetric S_CcSymKeys S_CcSymHandles
  S_CcEcies S_CcEciesKeys S_CcSignatures L_CcStreamKeys L_CcModes L_CcModes4 L_CcSymmetric L_CcSymmetric2 L_CcSymKeys L_CcSymKeys2 L_CcSymHandles L_CcEcies L_CcEcies2 L_CcEciesKeys L_CcSigDer.
Import ListNotations.
Open Scope string_scope.
Open Scope list_scope.
Open Scope nat_scope.

(** ** Checks *)
Lemma safe_hash_none : forall h, is_safe_for_signature h = None <-> safe_hash h.
Proof.
  intros h. unfold safe_hash. split.
  - destruct h; intros H; try discriminate H; cbn; auto.
  - intros [<- | [<- | [<- | []]]]; reflexivity.
Qed.
Lemma safe_known : forall h, safe_hash h -> evp_hash h = StOk h.
Proof. intros h [<- | [<- | [<- | []]]]; reflexivity. Qed.
Lemma safe_size : forall h, safe_hash h -> evp_md_size h = hash_size h.
Proof. intros h [<- | [<- | [<- | []]]]; reflexivity. Qed.
Lemma modulus_none : forall n, validate_modulus_size (N.size n) = None <-> modulus_ok n.
Proof.
  intros n. unfold validate_modulus_size, modulus_ok. rewrite check_none, N.ltb_ge, <- size_ge. lia.
Qed.
Lemma exponent_none : forall e, validate_exponent e = None <-> exponent_ok e.
Proof.
  intros e. unfold validate_exponent, exponent_ok. rewrite !and_then_none, !check_none, negb_false_iff, N.odd_spec, N.leb_gt, N.ltb_ge, size_lt.
  change (2 ^ 16)%N with 65536%N. tauto.
Qed.
Lemma checked_ok : forall A s (f : st_or A) x, checked s f = StOk x <-> s = None /\ f = StOk x.
Proof. intros A [s |] f x; cbn; split; intros H; try discriminate H; try (destruct H as (H & _); discriminate H); try tauto. Qed.
Lemma bind_st_ok : forall A B (a : st_or A) (f : A -> st_or B) y, bind_st a f = StOk y <-> exists x, a = StOk x /\ f x = StOk y.
Proof.
  intros A B [x | s] f y; cbn; split; intros H; try discriminate H.
  - exists x. auto.
  - destruct H as (x' & E & H). apply st_ok_inj in E. subst x'. exact H.
  - destruct H as (x' & E & _). discriminate E.
Qed.
Lemma ecdsa_ok_parts : forall c h, ecdsa_ok c h -> nist c /\ safe_hash h.
Proof.
  intros c h [E | [E | [E | [E | []]]]]; injection E as <- <-; unfold nist, safe_hash; cbn; auto.
Qed.

(** ** Objects *)
Definition verifier_of (ec : ec_crypto) (sg : sig_crypto) (k : sig_public) : st_or cc_verifier :=
  match k with
  | EcdsaPublic c h enc X Y => ecdsa_verifier ec sg c h enc X Y
  | Ed25519Public A => ed25519_verifier sg A
  | Pkcs1Public h n e => pkcs1_verifier sg (num n, num e) h
  | PssPublic h mgf1 salt n e => pss_verifier sg (num n, num e) h mgf1 salt
  end.
Definition signer_of (ec : ec_crypto) (sg : sig_crypto) (self_test : coins) (k : sig_private) : st_or cc_signer :=
  match k with
  | EcdsaPrivate c h enc X Y d => ecdsa_signer ec sg c h enc X Y d
  | Ed25519Private A a => ed25519_signer sg (a ++ A)
  | Pkcs1Private h n e t => tried self_test (pkcs1_signer sg (numbers n e t) h) (pkcs1_verifier sg (num n, num e) h)
  | PssPrivate h mgf1 salt n e t => tried self_test (pss_signer sg (numbers n e t) h mgf1 salt) (pss_verifier sg (num n, num e) h mgf1 salt)
  end.
(** The encodings are right. *)
Definition encoded_ok (k : sig_public) : Prop := match k with EcdsaPublic _ _ enc _ _ => enc <> UNKNOWN_ENCODING | _ => True end.

Lemma verifier_made : forall ec sg k, valid_public k -> ((exists v, verifier_of ec sg k = StOk v) <-> good_public ec k).
Proof.
  intros ec sg k V. unfold good_public. destruct k as [c h enc X Y | A | h n e | h g salt n e]; cbn [valid_public verifier_of] in *.
  - destruct (ecdsa_ok_parts _ _ V) as (N & S). unfold ecdsa_verifier, get_ec_point, point_from_coordinates. rewrite (nist_group c N). cbn [bind_st]. rewrite !bin2bn_num.
    rewrite (proj2 (safe_hash_none h) S), (safe_known h S). destruct (ec_on_curve ec c (num X, num Y)); cbn [bind_st checked].
    + split; [auto | intros _; eexists; reflexivity].
    + split; [intros (v & H); discriminate H | intros (_ & H); discriminate H].
  - split; [auto | intros _]. unfold ed25519_verifier. rewrite V. eexists. reflexivity.
  - split; [auto | intros _]. destruct V as (S & M & _). unfold pkcs1_verifier, rsa_public_key_to_rsa. cbn [fst]. rewrite (proj2 (safe_hash_none h) S), (safe_known h S), (proj2 (modulus_none _) M). eexists. reflexivity.
  - split; [auto | intros _]. destruct V as (S & -> & _ & M & _). unfold pss_verifier, rsa_public_key_to_rsa. cbn [fst]. rewrite (proj2 (safe_hash_none h) S), (safe_known h S). cbn [bind_st checked]. rewrite (proj2 (modulus_none _) M). eexists. reflexivity.
Qed.
Lemma coordinate_bound : forall c (r : N), nist c -> (r < 256 ^ N.of_nat (coordinate_size c))%N -> (r < 256 ^ 66)%N.
Proof.
  intros c r N H. eapply N.lt_le_trans; [exact H |]. apply N.pow_le_mono_r; [discriminate |]. destruct N as [<- | [<- | [<- | []]]]; cbn; lia.
Qed.
Lemma ECDSA_verify_spec : forall ec sg c Q x sig, sig_laws ec sg -> nist c ->
  (ECDSA_verify sg c Q x sig = true <-> exists r s, der_signature r s sig /\ ecdsa_do_verify sg c Q x (r, s) = true).
Proof.
  intros ec sg c Q x sig L N. unfold ECDSA_verify. split.
  - destruct (d2i_ECDSA_SIG sig) as [(r & s) |]; [| discriminate]. intros H. apply andb_prop in H. destruct H as (A & B). apply bytes_eqb_spec in A. exists r, s. split; [| exact B].
    destruct (law_ecdsa_verified _ _ L _ _ _ _ _ N B) as (HR & HS). apply i2d_iff; [exact (coordinate_bound c r N HR) | exact (coordinate_bound c s N HS) | exact A].
  - intros (r & s & D & B). rewrite (d2i_signature _ _ _ D). destruct (law_ecdsa_verified _ _ L _ _ _ _ _ N B) as (HR & HS).
    apply i2d_iff in D; [| exact (coordinate_bound c r N HR) | exact (coordinate_bound c s N HS)]. rewrite D, B. rewrite (proj2 (bytes_eqb_spec _ _) eq_refl). reflexivity.
Qed.
Lemma app_halves : forall n (a b : bytes) x, length a = n -> length b = n -> length x = n * 2 -> firstn n x = a -> skipn n x = b -> x = a ++ b.
Proof. intros n a b x _ _ _ <- <-. symmetry. apply firstn_skipn. Qed.
Lemma unit_ok : forall (b : bool) s, (if b then StOk tt else StErr s) = StOk tt <-> b = true.
Proof. intros [] s; split; intros H; try discriminate H; reflexivity. Qed.
Lemma verifier_verifies : forall ec sg k v data x, sig_laws ec sg -> valid_public k -> encoded_ok k -> verifier_of ec sg k = StOk v ->
  (cv_verify v x data = StOk tt <-> valid_signature sg k data x).
Proof.
  intros ec sg k v data x L V EO H. destruct k as [c h enc X Y | A | h n e | h g salt n e]; cbn [valid_public verifier_of encoded_ok valid_signature] in *.
  - destruct (ecdsa_ok_parts _ _ V) as (N & S). revert H. unfold ecdsa_verifier, get_ec_point, point_from_coordinates. rewrite (nist_group c N). cbn [bind_st]. rewrite !bin2bn_num.
    destruct (ec_on_curve ec c (num X, num Y)); [| intros H; discriminate H]. cbn [bind_st]. rewrite (proj2 (safe_hash_none h) S), (safe_known h S). cbn [bind_st checked]. intros H. apply st_ok_inj in H. subst v. cbn [cv_verify].
    destruct enc; [contradiction EO; reflexivity | |]; cbn [ecdsa_encoded].
    + unfold ieee_to_der. set (m := coordinate_size c) in *. destruct (Nat.eqb (length x) (m * 2)) eqn:LX; cbn [negb bind_st].
      * apply Nat.eqb_eq in LX. rewrite unit_ok, (ECDSA_verify_spec ec sg c _ _ _ L N). rewrite !bin2bn_num.
        assert (L1 : length (firstn m x) = m) by (rewrite firstn_length; lia). assert (L2 : length (skipn m x) = m) by (rewrite skipn_length; lia).
        pose proof (num_lt (firstn m x)) as B1. pose proof (num_lt (skipn m x)) as B2. rewrite L1 in B1. rewrite L2 in B2.
        pose proof (coordinate_bound c _ N B1) as C1. pose proof (coordinate_bound c _ N B2) as C2. split.
        -- intros (r & s & D & W). pose proof (d2i_signature _ _ _ D) as E. rewrite (der_round_trip _ _ C1 C2) in E. injection E as <- <-. exists (num (firstn m x)), (num (skipn m x)). split; [| exact W].
           split; [split; assumption |]. rewrite (be_bytes_back _ _ L1), (be_bytes_back _ _ L2). symmetry. apply firstn_skipn.
        -- intros (r & s & ((R1 & R2) & E) & W). exists (num (firstn m x)), (num (skipn m x)). split; [apply i2d_signature; assumption |].
           destruct (cut_app (be_bytes m r) (be_bytes m s) m (be_bytes_length _ _)) as (F1 & F2). rewrite E, F1, F2, !num_be_small by assumption. exact W.
      * apply Nat.eqb_neq in LX. split; [intros H; discriminate H |]. intros (r & s & (_ & E) & _). exfalso. apply LX. rewrite E, app_length, !be_bytes_length. lia.
    + cbn [bind_st]. rewrite unit_ok. apply (ECDSA_verify_spec ec sg c _ _ _ L N).
  - revert H. unfold ed25519_verifier. rewrite V. cbn [Nat.eqb negb]. intros H. apply st_ok_inj in H. subst v. cbn [cv_verify].
    destruct (Nat.eqb (length x) 64) eqn:LX; cbn [negb].
    + apply Nat.eqb_eq in LX. rewrite unit_ok. tauto.
    + apply Nat.eqb_neq in LX. split; [intros H; discriminate H | tauto].
  - destruct V as (S & M & _). revert H. unfold pkcs1_verifier, rsa_public_key_to_rsa. cbn [fst]. rewrite (proj2 (safe_hash_none h) S), (safe_known h S). cbn [bind_st checked]. rewrite (proj2 (modulus_none _) M). cbn [bind_st checked].
    intros H. apply st_ok_inj in H. subst v. cbn [cv_verify]. apply unit_ok.
  - destruct V as (S & -> & _ & M & _). revert H. unfold pss_verifier, rsa_public_key_to_rsa. cbn [fst]. rewrite (proj2 (safe_hash_none h) S), (safe_known h S). cbn [bind_st checked]. rewrite (proj2 (modulus_none _) M). cbn [bind_st checked].
    intros H. apply st_ok_inj in H. subst v. cbn [cv_verify]. unfold ssl_pss_verify. rewrite (safe_size h S), (law_digest _ _ L h data S), Nat.eqb_refl. cbn [negb fst].
    destruct (rsa_public_decrypt sg (num n, num e) x) as [EM |].
    + fold (modulus_size (num n)). change (BN_num_bytes (num n)) with (modulus_size (num n)). destruct (Nat.eqb (length EM) (modulus_size (num n))) eqn:LE; cbn [negb].
      * apply Nat.eqb_eq in LE. rewrite unit_ok. split; [intros P; exists EM; auto |]. intros (EM' & E & _ & P). injection E as <-. exact P.
      * apply Nat.eqb_neq in LE. split; [intros H; discriminate H |]. intros (EM' & E & P & _). injection E as <-. contradiction.
    + split; [intros H; discriminate H |]. intros (EM & E & _). discriminate E.
Qed.

(** ** Signers *)
Definition rsa_signer_made (sg : sig_crypto) (k : rsa_key) (s : st_or cc_signer) (f : coins -> bytes -> st_or bytes) : Prop :=
  s = if rsa_check sg k then StOk (mk_cc_signer f) else StErr (NotOk "Could not load RSA key").
Lemma pkcs1_signer_made : forall sg k h, safe_hash h -> modulus_ok (rsa_n k) -> exponent_ok (rsa_e k) -> rsa_signer_made sg k (pkcs1_signer sg k h)
  (fun _ data => match rsa_sign sg k h (evp_digest sg h data) with None => StErr (NotOk "Signing failed.") | Some signature => StOk signature end).
Proof.
  intros sg k h S M E. unfold rsa_signer_made, pkcs1_signer, rsa_private_key_to_rsa. rewrite (proj2 (safe_hash_none h) S), (safe_known h S). cbn [bind_st checked].
  rewrite (proj2 (modulus_none _) M), (proj2 (exponent_none _) E). cbn [and_then checked]. destruct (rsa_check sg k); reflexivity.
Qed.
Lemma pss_signer_made : forall sg k h salt, safe_hash h -> modulus_ok (rsa_n k) -> exponent_ok (rsa_e k) -> rsa_signer_made sg k (pss_signer sg k h h salt)
  (fun rnd data => match ssl_pss_sign sg k rnd (evp_digest sg h data) h h salt with StErr _ => StErr (NotOk "Signing failed.") | StOk signature => StOk signature end).
Proof.
  intros sg k h salt S M E. unfold rsa_signer_made, pss_signer, rsa_private_key_to_rsa. rewrite (proj2 (safe_hash_none h) S), (safe_known h S). cbn [bind_st checked].
  rewrite (proj2 (modulus_none _) M), (proj2 (exponent_none _) E). cbn [and_then checked]. destruct (rsa_check sg k); reflexivity.
Qed.
Lemma tried_ok : forall self_test s v x, tried self_test s v = StOk x <-> s = StOk x /\ exists w, v = StOk w /\ sign_and_verify self_test x w = StOk tt.
Proof.
  intros self_test s v x. unfold tried. rewrite bind_st_ok. split.
  - intros (s' & -> & H). apply bind_st_ok in H. destruct H as (w & -> & H). destruct (sign_and_verify self_test s' w) as [[] | e] eqn:E; [| discriminate H]. apply st_ok_inj in H. subst s'.
    split; [reflexivity |]. exists w. auto.
  - intros (-> & w & -> & H). exists x. split; [reflexivity |]. cbn [bind_st]. rewrite H. reflexivity.
Qed.
Lemma pss_signs : forall ec sg h salt n e t rnd data x, sig_laws ec sg -> safe_hash h ->
  (match ssl_pss_sign sg (numbers n e t) rnd (evp_digest sg h data) h h salt with StErr _ => StErr (NotOk "Signing failed.") | StOk signature => StOk signature end = StOk x <->
   signature_of sg (PssPrivate h h salt n e t) rnd data x).
Proof.
  intros ec sg h salt n e t rnd data x L S. unfold ssl_pss_sign. rewrite (safe_size h S), (law_digest _ _ L h data S), Nat.eqb_refl. cbn [negb signature_of numbers rsa_n].
  destruct (pss_add sg (num n) rnd (evp_digest sg h data) h h salt) as [EM |].
  - fold (numbers n e t). destruct (rsa_private_encrypt sg (numbers n e t) EM) as [y |] eqn:E.
    + split; [intros H; apply st_ok_inj in H; subst y; exists EM; auto |]. intros (EM' & A & B). injection A as <-. congruence.
    + split; [intros H; discriminate H |]. intros (EM' & A & B). injection A as <-. congruence.
  - split; [intros H; discriminate H |]. intros (EM & A & _). discriminate A.
Qed.
(** What a good key signs is valid if the keys match. *)
Lemma signature_valid : forall ec sg k rnd data x, sig_laws ec sg -> good_private ec sg k -> encoded_ok (public_of k) -> matching ec sg k ->
  signature_of sg k rnd data x -> valid_signature sg (public_of k) data x.
Proof.
  intros ec sg k rnd data x L (G & P) EO M H. destruct k as [c h enc X Y d | A a | h n e t | h g salt n e t]; cbn [public_of signature_of valid_signature good_public matching] in *; destruct G as (V & G); cbn [valid_public] in V.
  - destruct (ecdsa_ok_parts _ _ V) as (N & S). destruct H as (r & s & D & E). exists r, s. split; [exact E |]. exact (law_ecdsa _ _ L c (num d) _ rnd _ _ N P M D).
  - subst x A. apply (law_ed25519 _ _ L a data P).
  - destruct V as (S & MO & EX). destruct (law_pkcs1 _ _ L (numbers n e t) h (evp_digest sg h data) P MO EX S (law_digest _ _ L h data S)) as (y & E & W). rewrite E in H. injection H as <-. exact W.
  - destruct V as (S & -> & Z & MO & EX). destruct P as (P & F). destruct H as (EM & D & E).
    destruct (law_pss _ _ L (numbers n e t) rnd _ h salt EM P MO EX S (law_digest _ _ L h data S) Z D) as (LE & W & y & E' & R). rewrite E' in E. injection E as <-. exists EM. auto.
Qed.
Lemma signature_exists : forall ec sg k rnd data, sig_laws ec sg -> good_private ec sg k -> encoded_ok (public_of k) -> exists x, signature_of sg k rnd data x.
Proof.
  intros ec sg k rnd data L (G & P) EO. destruct k as [c h enc X Y d | A a | h n e t | h g salt n e t]; cbn [public_of signature_of good_public encoded_ok] in *; destruct G as (V & G); cbn [valid_public] in V.
  - destruct (ecdsa_ok_parts _ _ V) as (N & S). destruct (law_ecdsa_signs _ _ L c (num d) rnd (evp_digest sg h data) N P) as (r & s & D & B1 & B2).
    destruct enc; [contradiction EO; reflexivity | |]; cbn [ecdsa_encoded].
    + exists (be_bytes (coordinate_size c) r ++ be_bytes (coordinate_size c) s), r, s. auto.
    + exists (i2d_ECDSA_SIG (r, s)), r, s. split; [exact D |]. apply i2d_signature; [exact (coordinate_bound c r N B1) | exact (coordinate_bound c s N B2)].
  - eexists. reflexivity.
  - destruct V as (S & MO & EX). destruct (law_pkcs1 _ _ L (numbers n e t) h (evp_digest sg h data) P MO EX S (law_digest _ _ L h data S)) as (y & E & W). exists y. exact E.
  - destruct V as (S & -> & Z & MO & EX). destruct P as (P & F). destruct (proj2 (law_pss_fits _ _ L (num n) rnd _ h salt MO S (law_digest _ _ L h data S) Z) F) as (EM & D).
    destruct (law_pss _ _ L (numbers n e t) rnd _ h salt EM P MO EX S (law_digest _ _ L h data S) Z D) as (_ & _ & y & E & _). exists y, EM. auto.
Qed.
Lemma signer_signs : forall ec sg self_test k s, sig_laws ec sg -> valid_private k -> encoded_ok (public_of k) -> signer_of ec sg self_test k = StOk s ->
  forall rnd data x, cs_sign s rnd data = StOk x <-> signature_of sg k rnd data x.
Proof.
  intros ec sg self_test k s L (V & VP) EO H rnd data x. destruct k as [c h enc X Y d | A a | h n e t | h g salt n e t]; cbn [signer_of public_of valid_public encoded_ok] in *.
  - destruct (ecdsa_ok_parts _ _ V) as (N & S). revert H. unfold ecdsa_signer, get_ec_point, point_from_coordinates. rewrite (proj2 (safe_hash_none h) S), (safe_known h S), (nist_group c N). cbn [bind_st checked].
    destruct (ec_on_curve ec c _); [| intros H; discriminate H]. cbn [bind_st]. rewrite !bin2bn_num. destruct (ec_private_ok sg c (num d)) eqn:P; [| intros H; discriminate H]. cbn [negb]. intros H. apply st_ok_inj in H. subst s. cbn [cs_sign].
    unfold ECDSA_sign. cbn [signature_of]. destruct (law_ecdsa_signs _ _ L c (num d) rnd (evp_digest sg h data) N P) as (r & s & D & B1 & B2). rewrite D.
    pose proof (coordinate_bound c r N B1) as C1. pose proof (coordinate_bound c s N B2) as C2.
    destruct enc; [contradiction EO; reflexivity | |]; cbn [ecdsa_encoded].
    + unfold der_to_ieee. rewrite (der_round_trip r s C1 C2), !bn2binpad_be by assumption. cbn [bind_st]. split.
      * intros H. apply st_ok_inj in H. exists r, s. auto.
      * intros (r' & s' & E & _ & ->). injection E as <- <-. reflexivity.
    + split.
      * intros H. apply st_ok_inj in H. exists r, s. split; [reflexivity |]. apply i2d_iff; assumption.
      * intros (r' & s' & E & DS). injection E as <- <-. apply i2d_iff in DS; [| assumption | assumption]. congruence.
  - revert H. unfold ed25519_signer. rewrite app_length, V, VP. cbn [Nat.add Nat.eqb negb]. intros H. apply st_ok_inj in H. subst s. cbn [cs_sign signature_of].
    destruct (cut_app a A 32 VP) as (-> & _). split; [intros H; apply st_ok_inj in H; auto | intros ->; reflexivity].
  - destruct V as (S & MO & EX). apply tried_ok in H. destruct H as (H & _). rewrite (pkcs1_signer_made sg (numbers n e t) h S MO EX) in H. destruct (rsa_check sg (numbers n e t)); [| discriminate H]. apply st_ok_inj in H. subst s. cbn [cs_sign signature_of].
    destruct (rsa_sign sg (numbers n e t) h (evp_digest sg h data)) as [y |]; [| split; intros H; discriminate H]. split; [intros H; apply st_ok_inj in H; congruence | intros H; injection H as <-; reflexivity].
  - destruct V as (S & -> & Z & MO & EX). apply tried_ok in H. destruct H as (H & _). rewrite (pss_signer_made sg (numbers n e t) h salt S MO EX) in H. destruct (rsa_check sg (numbers n e t)); [| discriminate H]. apply st_ok_inj in H. subst s. cbn [cs_sign].
    apply (pss_signs ec); assumption.
Qed.
Lemma signer_made : forall ec sg self_test k, sig_laws ec sg -> valid_private k -> encoded_ok (public_of k) ->
  ((exists s, signer_of ec sg self_test k = StOk s) <-> good_private ec sg k).
Proof.
  intros ec sg self_test k L (V & VP) EO. unfold good_private, good_public. destruct k as [c h enc X Y d | A a | h n e t | h g salt n e t].
  - cbn [signer_of public_of valid_public] in *. destruct (ecdsa_ok_parts _ _ V) as (N & S). unfold ecdsa_signer, get_ec_point, point_from_coordinates.
    rewrite (proj2 (safe_hash_none h) S), (safe_known h S), (nist_group c N). cbn [bind_st checked]. rewrite !bin2bn_num.
    destruct (ec_on_curve ec c (num X, num Y)); cbn [bind_st]; [destruct (ec_private_ok sg c (num d)); cbn [negb] |].
    + split; [auto |]. intros _. eexists. reflexivity.
    + split; [intros (s & H); discriminate H | intros (_ & H); discriminate H].
    + split; [intros (s & H); discriminate H | intros ((_ & H) & _); discriminate H].
  - cbn [signer_of public_of valid_public] in *. split; [auto |]. intros _. unfold ed25519_signer. rewrite app_length, V, VP. eexists. reflexivity.
  - pose proof V as V0. cbn [public_of valid_public] in V. destruct V as (S & MO & EX). split.
    + intros (s & H). cbn [signer_of] in H. apply tried_ok in H. destruct H as (H & _). rewrite (pkcs1_signer_made sg (numbers n e t) h S MO EX) in H. destruct (rsa_check sg (numbers n e t)); [| discriminate H]. cbn [public_of]. auto.
    + intros (_ & P). cbn [signer_of]. destruct (proj2 (verifier_made ec sg (Pkcs1Public h n e) V0)) as (w & W); [unfold good_public; auto |].
      eexists. apply tried_ok. rewrite (pkcs1_signer_made sg (numbers n e t) h S MO EX), P. split; [reflexivity |]. exists w. split; [exact W |].
      unfold sign_and_verify. cbn [cs_sign]. destruct (law_pkcs1 _ _ L (numbers n e t) h (evp_digest sg h test_message) P MO EX S (law_digest _ _ L h _ S)) as (y & E & R). rewrite E. cbn [bind_st].
      apply (verifier_verifies ec sg (Pkcs1Public h n e) w test_message y L V0 I W). exact R.
  - pose proof V as V0. cbn [public_of valid_public] in V. destruct V as (S & -> & Z & MO & EX). split.
    + intros (s & H). cbn [signer_of] in H. apply tried_ok in H. destruct H as (H & w & W & T). rewrite (pss_signer_made sg (numbers n e t) h salt S MO EX) in H. destruct (rsa_check sg (numbers n e t)); [| discriminate H]. apply st_ok_inj in H. subst s.
      split; [cbn [public_of]; auto |]. split; [reflexivity |]. unfold sign_and_verify in T. apply bind_st_ok in T. destruct T as (y & T & _). cbn [cs_sign] in T. apply (pss_signs ec) in T; [| exact L | exact S]. destruct T as (EM & D & _).
      apply (law_pss_fits _ _ L (num n) self_test (evp_digest sg h test_message) h salt MO S (law_digest _ _ L h _ S) Z). exists EM. exact D.
    + intros (_ & P & F). cbn [signer_of]. destruct (proj2 (verifier_made ec sg (PssPublic h h salt n e) V0)) as (w & W); [unfold good_public; auto |].
      eexists. apply tried_ok. rewrite (pss_signer_made sg (numbers n e t) h salt S MO EX), P. split; [reflexivity |]. exists w. split; [exact W |].
      assert (G : good_private ec sg (PssPrivate h h salt n e t)). { split; [split; [exact V0 | exact I] |]. split; assumption. }
      unfold sign_and_verify. apply bind_st_ok. destruct (signature_exists ec sg (PssPrivate h h salt n e t) self_test test_message L G I) as (y & D). exists y. cbn [cs_sign].
      split; [apply (pss_signs ec); [exact L | exact S | exact D] |]. apply (verifier_verifies ec sg (PssPublic h h salt n e) w test_message y L V0 I W).
      exact (signature_valid ec sg (PssPrivate h h salt n e t) self_test test_message y L G I I D).
Qed.
