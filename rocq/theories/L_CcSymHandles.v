(** Proofs: the objects for symmetric keys in terms of the published algorithms. *)
From Coq Require Import Strings.Byte Strings.String List NArith ZArith Bool Lia.
From Verif Require Import M_Base M_Proto M_Wire M_ProtoMsg M_KeyFormats M_Prims M_PrimitiveSet M_Registry M_StreamTypes M_CcStream M_CcManagers M_CcAes
  M_CcStreamKeys M_CcModes M_CcSymmetric M_CcSymKeys S_Keyset S_Wrappers S_Wire S_Config S_CcAes S_CcStreamKeys S_CcModes S_CcSymmetric S_CcSymKeys
  S_CcSymHandles L_CcModes L_CcModes2 L_CcModes3 L_CcModes4 L_CcSymmetric L_CcSymmetric2.
Import ListNotations.
Open Scope string_scope.
Open Scope list_scope.
Open Scope nat_scope.

Lemma st_ok_inj : forall A (x y : A), StOk x = StOk y -> x = y.
Proof. intros A x y H. injection H as ->. reflexivity. Qed.
Lemma eax_sizes_dec : forall P ad, eax_sizes P ad \/ ~ eax_sizes P ad.
Proof.
  intros P ad. unfold eax_sizes. destruct (N.le_gt_cases (N.of_nat (length P)) (2 ^ 31)), (N.le_gt_cases (N.of_nat (length ad)) (2 ^ 31)).
  - left. auto.
  - right. intros (_ & H1). apply N.le_ngt in H1. auto.
  - right. intros (H1 & _). apply N.le_ngt in H1. auto.
  - right. intros (H1 & _). apply N.le_ngt in H1. auto.
Qed.
Lemma eax_fun : forall E nonce ad P C C', eax_ciphertext E nonce ad P C -> eax_ciphertext E nonce ad P C' -> C = C'.
Proof.
  intros E nonce ad P C C' (n & h & c & t & Hn & Hh & Hc & Ht & ->) (n' & h' & c' & t' & Hn' & Hh' & Hc' & Ht' & ->).
  rewrite (cmac_fun _ _ _ _ Hn' Hn) in *. rewrite (cmac_fun _ _ _ _ Hh' Hh). rewrite (ctr_mode_fun _ _ _ _ _ Hc' Hc) in *.
  rewrite (cmac_fun _ _ _ _ Ht' Ht). reflexivity.
Qed.
Lemma random_size : forall random rnd n, random_law random -> length (random rnd (Z.of_nat n)) = n.
Proof. intros random rnd n R. pose proof (R rnd (Z.of_nat n) ltac:(lia)). lia. Qed.

(** ** AEAD *)
Lemma aead_object_encrypts : forall lib random k cc, crypto_laws lib -> random_law random -> usable k -> for_aead k = true ->
  aead_object lib random k = StOk cc -> forall rnd P ad,
  (forall C, ca_encrypt cc rnd P ad = StOk C <-> aead_ciphertext lib k (random rnd (Z.of_nat (nonce_size k))) ad P C) /\
  (admits k P ad -> exists C, ca_encrypt cc rnd P ad = StOk C).
Proof.
  intros lib random k cc (LA & LE & LH & LC) RL U F O rnd P ad.
  assert (ONE : forall alg key, one_shot_new lib random alg key = StOk cc ->
    (forall C, ca_encrypt cc rnd P ad = StOk C <-> length (random rnd (Z.of_nat (alg_nonce_size alg))) = alg_nonce_size alg /\
       sealed_ciphertext lib alg key (random rnd (Z.of_nat (alg_nonce_size alg))) ad P C) /\
    (aead_sizes P ad -> exists C, ca_encrypt cc rnd P ad = StOk C)).
  { intros alg key H. pose proof (random_size random rnd (alg_nonce_size alg) RL) as R.
    destruct (one_shot_encrypts _ _ _ _ _ rnd P ad H (LE alg) R) as (A & B). split; [| exact B].
    intros C. rewrite A. split; [intros X; split; assumption | intros (_ & X); exact X]. }
  destruct k; try discriminate F; cbn [aead_object aead_ciphertext admits nonce_size] in *.
  - split.
    + intros C. split.
      * intros E. destruct (eax_sizes_dec P ad) as [S | S].
        -- destruct (aes_eax_encrypts _ _ _ _ _ rnd P ad LA O S) as (C' & E' & X). rewrite E in E'. apply st_ok_inj in E'. subst C'.
           split; [apply random_size, RL |]. split; assumption.
        -- rewrite (aes_eax_too_long _ _ _ _ _ rnd P ad LA O S) in E. discriminate.
      * intros (_ & S & X). destruct (aes_eax_encrypts _ _ _ _ _ rnd P ad LA O S) as (C' & E' & X'). rewrite (eax_fun _ _ _ _ _ _ X X'). exact E'.
    + intros S. destruct (aes_eax_encrypts _ _ _ _ _ rnd P ad LA O S) as (C' & E' & _). exists C'. exact E'.
  - exact (ONE _ _ O).
  - exact (ONE _ _ O).
  - exact (ONE _ _ O).
  - pose proof (random_size random rnd (iv_size k) RL) as R. split.
    + intros C. rewrite (ctr_hmac_encrypts _ _ _ _ rnd P ad C O LH R). tauto.
    + intros S. destruct (ctr_hmac_round_trip _ _ _ _ rnd P ad O LH R S) as (C & E & _). exists C. exact E.
Qed.
Lemma aead_object_decrypts : forall lib random k cc, crypto_laws lib -> usable k -> for_aead k = true ->
  aead_object lib random k = StOk cc -> forall C ad P,
  ca_decrypt cc C ad = StOk P <-> exists nonce, aead_ciphertext lib k nonce ad P C.
Proof.
  intros lib random k cc (LA & LE & LH & LC) U F O C ad P.
  destruct k; try discriminate F; cbn [aead_object aead_ciphertext] in *.
  - rewrite (aes_eax_decrypts _ _ _ _ _ C ad P LA O). split; [intros (S & nonce & N & X); exists nonce; tauto | intros (nonce & N & S & X); split; [exact S |]; exists nonce; tauto].
  - exact (one_shot_decrypts _ _ _ _ _ C ad P O (LE _)).
  - exact (one_shot_decrypts _ _ _ _ _ C ad P O (LE _)).
  - exact (one_shot_decrypts _ _ _ _ _ C ad P O (LE _)).
  - rewrite (ctr_hmac_decrypts _ _ _ _ P ad C O LH). split; [intros (S & nonce & N & X); exists nonce; tauto | intros (nonce & N & S & X); split; [exact S |]; exists nonce; tauto].
Qed.
Lemma usable_aes : forall n, In n [16; 32] -> In n [16; 24; 32].
Proof. intros n [<- | [<- | []]]; cbn; auto. Qed.
Lemma aead_ciphertext_length : forall lib k nonce ad P C, crypto_laws lib -> usable k -> aead_ciphertext lib k nonce ad P C ->
  length C = overhead k + length P.
Proof.
  intros lib k nonce ad P C (LA & LE & LH & LC) U X.
  assert (ONE : forall alg key, In (length key) (alg_key_sizes alg) -> length nonce = alg_nonce_size alg -> sealed_ciphertext lib alg key nonce ad P C ->
    length C = alg_nonce_size alg + 16 + length P).
  { intros alg key K N (c & S & ->). destruct (LE alg key nonce ad K N) as (_ & L & _). rewrite app_length, N, (L _ _ S). lia. }
  destruct k; try contradiction; cbn [aead_ciphertext overhead nonce_size usable] in *.
  - destruct X as (N & _ & X). rewrite (eax_ciphertext_length (aes_encrypt lib key) (LA _ (usable_aes _ (proj1 U))) _ _ _ _ X), N. unfold overhead, nonce_size. lia.
  - exact (ONE AesGcm key U (proj1 X) (proj2 X)).
  - exact (ONE AesGcmSiv key U (proj1 X) (proj2 X)).
  - exact (ONE XChaCha20Poly1305 key (or_introl (eq_sym U)) (proj1 X) (proj2 X)).
  - destruct X as (N & _ & c & X & ->). rewrite !app_length, N, (proj1 X), firstn_length_le; [unfold overhead, nonce_size; lia |]. rewrite LH. apply U.
Qed.
Lemma aead_ciphertext_plain : forall lib k nonce nonce' ad P P' C, crypto_laws lib -> usable k ->
  aead_ciphertext lib k nonce ad P C -> aead_ciphertext lib k nonce' ad P' C -> P = P'.
Proof.
  intros lib k nonce nonce' ad P P' C (LA & LE & LH & LC) U X X'.
  assert (ONE : forall alg key n, In (length key) (alg_key_sizes alg) -> n = alg_nonce_size alg ->
    length nonce = n /\ sealed_ciphertext lib alg key nonce ad P C -> length nonce' = n /\ sealed_ciphertext lib alg key nonce' ad P' C -> P = P').
  { intros alg key n K -> (N & S) (N' & S'). exact (proj2 (sealed_unambiguous lib alg key nonce nonce' ad P P' C (LE alg) K N N' S S')). }
  destruct k; try contradiction; cbn [aead_ciphertext usable] in *.
  - destruct X as (N & _ & X). destruct X' as (N' & _ & X').
    exact (proj2 (eax_unambiguous _ nonce nonce' ad P P' C (LA _ (usable_aes _ (proj1 U))) ltac:(congruence) X X')).
  - exact (ONE AesGcm key 12 U eq_refl X X').
  - exact (ONE AesGcmSiv key 12 U eq_refl X X').
  - exact (ONE XChaCha20Poly1305 key 24 (or_introl (eq_sym U)) eq_refl X X').
  - destruct X as (N & _ & X). destruct X' as (N' & _ & X').
    eapply (ctr_hmac_unambiguous lib k nonce nonce' ad P P' C); [congruence | exact LH | ..]; eauto.
Qed.

(** ** Deterministic AEAD *)
Lemma daead_object_encrypts : forall lib k cc, crypto_laws lib -> for_daead k = true -> daead_object lib k = StOk cc -> forall P ad,
  (forall C, cda_encrypt cc P ad = StOk C <-> daead_ciphertext lib k ad P C) /\ exists C, cda_encrypt cc P ad = StOk C.
Proof.
  intros lib k cc (LA & _) F O P ad. destruct k; try discriminate F. cbn [daead_object daead_ciphertext] in *. split.
  - intros C. exact (aes_siv_encrypts _ _ _ P ad C LA O).
  - destruct (aes_siv_round_trip _ _ _ P ad LA O) as (C & E & _). exists C. exact E.
Qed.
Lemma daead_object_decrypts : forall lib k cc, crypto_laws lib -> for_daead k = true -> daead_object lib k = StOk cc -> forall C ad P,
  cda_decrypt cc C ad = StOk P <-> daead_ciphertext lib k ad P C.
Proof.
  intros lib k cc (LA & _) F O C ad P. destruct k; try discriminate F. exact (aes_siv_decrypts _ _ _ P ad C LA O).
Qed.
Lemma daead_ciphertext_length : forall lib k ad P C, crypto_laws lib -> usable k -> daead_ciphertext lib k ad P C -> length C = 16 + length P.
Proof.
  intros lib k ad P C (LA & _) U X. destruct k; try contradiction. cbn [usable daead_ciphertext] in *.
  apply (siv_ciphertext_length (aes_encrypt lib (firstn 32 key)) (aes_encrypt lib (skipn 32 key))) in X; [exact X |].
  apply LA. rewrite firstn_length_le by lia. cbn. auto.
Qed.

(** ** MAC *)
Lemma prefix_firstn : forall (a rest : bytes) n, length a = n -> a = firstn n (a ++ rest).
Proof. intros a rest n <-. rewrite firstn_app, firstn_all, Nat.sub_diag. cbn. rewrite app_nil_r. reflexivity. Qed.
Lemma mac_object_works : forall lib k cc, crypto_laws lib -> usable k -> for_mac k = true -> mac_object lib k = StOk cc -> forall data,
  (forall T, cm_compute cc data = StOk T <-> mac_tag lib k data T) /\ (exists T, cm_compute cc data = StOk T) /\
  (forall T, cm_verify cc T data = StOk tt <-> mac_tag lib k data T) /\ (forall T, mac_tag lib k data T -> 10 <= length T).
Proof.
  intros lib k cc (LA & LE & LH & LC) U F O data. destruct k; try discriminate F; cbn [mac_object mac_tag usable] in *.
  - destruct (hmac_computes lib h tag_size key cc data O LH) as (T & C & L & (rest & R) & V).
    assert (ET : T = firstn tag_size (evp_hmac lib h key data)) by (rewrite <- R; apply prefix_firstn, L).
    rewrite <- ET. split; [| split; [exists T; exact C | split; [exact V |]]].
    + intros T'. rewrite C. split; [intros E; injection E as <-; reflexivity | intros ->; reflexivity].
    + intros T' ->. rewrite L. lia.
  - destruct (cmac_computes lib key tag_size cc data O LA LC) as (T & t & C & L & M & (rest & R) & V).
    assert (ET : T = firstn tag_size t) by (rewrite <- R; apply prefix_firstn, L).
    assert (Q : forall T', (exists t, cmac (aes_encrypt lib key) data t /\ T' = firstn tag_size t) <-> T' = T).
    { intros T'. split; [intros (t' & M' & ->) | intros ->; exists t; auto]. rewrite (cmac_fun _ _ _ _ M' M). symmetry. exact ET. }
    split; [| split; [exists T; exact C | split]].
    + intros T'. rewrite Q, C. split; [intros E; injection E as <-; reflexivity | intros ->; reflexivity].
    + intros T'. rewrite Q. apply V.
    + intros T' H. apply Q in H. subst T'. rewrite L. lia.
Qed.

(** ** PRF *)
Lemma firstn_prefix : forall (x o : bytes) n, n <= length x -> (length o = n /\ (exists rest, o ++ rest = x) <-> o = firstn n x).
Proof.
  intros x o n H. split.
  - intros (L & rest & <-). apply prefix_firstn, L.
  - intros ->. split; [apply firstn_length_le, H |]. exists (skipn n x). apply firstn_skipn.
Qed.
Lemma prf_object_works : forall lib k cc, crypto_laws lib -> usable k -> for_prf k = true -> prf_object lib k = StOk cc ->
  forall x n, (n < 2 ^ 31)%N ->
  (forall y, cp_compute cc x n = StOk y <-> prf_value lib k x (N.to_nat n) y) /\
  ((exists y, cp_compute cc x n = StOk y) <-> (n <= N.of_nat (max_output k))%N).
Proof.
  intros lib k cc (LA & LE & LH & LC) U F O x n Hn. destruct k; try discriminate F; cbn [prf_object prf_value usable max_output] in *.
  - apply st_ok_inj in O. subst cc.
    assert (Q : forall y, cp_compute (prf_from_stateful_mac (stateful_hmac lib h (hash_size h) key)) x n = StOk y <->
      N.to_nat n <= hash_size h /\ y = firstn (N.to_nat n) (evp_hmac lib h key x)).
    { intros y. rewrite (hmac_prf_output lib h key x n y (proj2 U) (proj1 U) LH). split.
      - intros (A & B). split; [lia |]. apply firstn_prefix; [rewrite LH; lia | exact B].
      - intros (A & B). split; [lia |]. apply firstn_prefix; [rewrite LH; lia | exact B]. }
    split; [exact Q |]. split; [intros (y & E); apply Q in E; lia |]. intros H. eexists. apply Q. split; [lia | reflexivity].
  - destruct (hkdf_prf_output lib h key salt cc x n O LH Hn) as (A & B & _). split; assumption.
  - apply st_ok_inj in O. subst cc.
    assert (K : In (length key) [16; 32]) by (rewrite U; cbn; auto).
    pose proof (LC key x K) as CM. pose proof (cmac_length _ _ _ (LA _ (usable_aes _ K)) CM) as CL.
    assert (Q : forall y, cp_compute (prf_from_stateful_mac (stateful_cmac lib 16 key)) x n = StOk y <->
      N.to_nat n <= 16 /\ exists t, cmac (aes_encrypt lib key) x t /\ y = firstn (N.to_nat n) t).
    { intros y. rewrite (cmac_prf_output lib key x n y K LA LC). split.
      - intros (A & B & rest & M). split; [lia |]. exists (y ++ rest). split; [exact M | apply prefix_firstn, B].
      - intros (A & t & M & ->). split; [lia |]. rewrite (cmac_fun _ _ _ _ M CM). split; [apply firstn_length_le; lia |].
        exists (skipn (N.to_nat n) (evp_cmac lib key x)). rewrite firstn_skipn. exact CM. }
    split; [exact Q |]. split; [intros (y & E); apply Q in E; lia |]. intros H. eexists. apply Q. split; [lia |]. eexists. split; [exact CM | reflexivity].
Qed.
