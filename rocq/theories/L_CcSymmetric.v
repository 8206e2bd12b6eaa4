(** AES-GCM, AES-GCM-SIV, XChaCha20-Poly1305 and AES-CTR-HMAC. *)
From Coq Require Import Strings.Byte Strings.String List NArith ZArith Bool Lia.
From Verif Require Import M_Base M_Prims M_StreamTypes M_CcStream M_CcManagers M_CcAes M_CcModes M_CcSymmetric
  S_CcAes S_CcModes S_CcSymmetric L_Base L_CcModes L_CcModes2 L_CcModes3 L_CcModes4.
Import ListNotations.
Open Scope string_scope.
Open Scope list_scope.
Open Scope nat_scope.

(** ** One-shot AEADs *)
Lemma cipher_for_key_size_spec : forall n, cipher_for_key_size n = true <-> In n [16; 32].
Proof. intros n. unfold cipher_for_key_size. rewrite size_two. cbn. intuition auto. Qed.
Lemma one_shot_new_spec : forall lib random alg key p, one_shot_new lib random alg key = StOk p <->
  In (length key) (alg_key_sizes alg) /\ p = one_shot_aead lib random alg (alg_nonce_size alg) key.
Proof.
  assert (X : forall (b : bool) (q p : cc_aead) e (Q : Prop), (b = true <-> Q) ->
    (if negb b then StErr e else StOk q) = StOk p <-> Q /\ p = q).
  { intros b q p e Q H. destruct b; cbn [negb].
    - split; [intros E; injection E as <-; split; [apply H | ]; reflexivity | intros (_ & ->); reflexivity].
    - split; [discriminate | intros (Hq & _); apply H in Hq; discriminate Hq]. }
  intros lib random alg key p. destruct alg; cbn [one_shot_new alg_key_sizes alg_nonce_size].
  - apply X, cipher_for_key_size_spec.
  - apply X, cipher_for_key_size_spec.
  - apply X. rewrite Nat.eqb_eq. cbn. intuition auto.
Qed.
Theorem one_shot_made : forall lib random alg key,
  (exists p, one_shot_new lib random alg key = StOk p) <-> In (length key) (alg_key_sizes alg).
Proof.
  intros. split.
  - intros (p & H). apply one_shot_new_spec in H. tauto.
  - intros H. eexists. apply one_shot_new_spec. split; [exact H | reflexivity].
Qed.
Theorem one_shot_encrypts : forall lib random alg key p rnd P ad,
  one_shot_new lib random alg key = StOk p -> aead_law lib alg ->
  length (random rnd (Z.of_nat (alg_nonce_size alg))) = alg_nonce_size alg ->
  (forall C, ca_encrypt p rnd P ad = StOk C <-> sealed_ciphertext lib alg key (random rnd (Z.of_nat (alg_nonce_size alg))) ad P C) /\
  (aead_sizes P ad -> exists C, ca_encrypt p rnd P ad = StOk C).
Proof.
  intros lib random alg key p rnd P ad H L R. apply one_shot_new_spec in H. destruct H as (K & ->). cbn [one_shot_aead ca_encrypt].
  destruct (L key _ ad K R) as (L1 & _ & _). unfold one_shot_encrypt, sealed_ciphertext. cbv zeta. split.
  - intros C. destruct (evp_seal lib alg key _ P ad) as [c |].
    + split; [intros E; injection E as <-; exists c; split; reflexivity | intros (c' & E & ->); injection E as <-; reflexivity].
    + split; [discriminate | intros (c' & E & _); discriminate E].
  - intros S. destruct (L1 P S) as (c & E). rewrite E. eexists; reflexivity.
Qed.
Theorem one_shot_decrypts : forall lib random alg key p C ad P,
  one_shot_new lib random alg key = StOk p -> aead_law lib alg ->
  (ca_decrypt p C ad = StOk P <->
   exists nonce, length nonce = alg_nonce_size alg /\ sealed_ciphertext lib alg key nonce ad P C).
Proof.
  intros lib random alg key p C ad P H L. apply one_shot_new_spec in H. destruct H as (K & ->). cbn [one_shot_aead ca_decrypt].
  unfold one_shot_decrypt, sealed_ciphertext. set (ns := alg_nonce_size alg). split.
  - destruct (Nat.ltb_spec (length C) (ns + 16)); [discriminate |]. rewrite skipn_length.
    destruct (Nat.ltb_spec (length C - ns) 16); [discriminate |]. intros D.
    exists (firstn ns C). assert (Ln : length (firstn ns C) = ns) by (apply firstn_length_le; lia). split; [exact Ln |].
    exists (skipn ns C). split; [| symmetry; apply firstn_skipn]. apply (L key _ ad K Ln).
    destruct (evp_open lib alg key (firstn ns C) (skipn ns C) ad) as [o |]; [injection D as ->; reflexivity | discriminate D].
  - intros (nonce & Ln & c & E & ->). pose proof (proj1 (proj2 (L key nonce ad K Ln)) _ _ E) as Lc.
    rewrite app_length. destruct (Nat.ltb_spec (length nonce + length c) (ns + 16)); [lia |].
    assert (S1 : skipn ns (nonce ++ c) = c) by (rewrite <- Ln, skipn_app, skipn_all, Nat.sub_diag; reflexivity).
    assert (S2 : firstn ns (nonce ++ c) = nonce) by (rewrite <- Ln, firstn_app, firstn_all, Nat.sub_diag; cbn; apply app_nil_r).
    rewrite S1, S2. destruct (Nat.ltb_spec (length c) 16); [lia |].
    apply (L key nonce ad K Ln) in E. rewrite E. reflexivity.
Qed.
Theorem one_shot_round_trip : forall lib random alg key p rnd P ad,
  one_shot_new lib random alg key = StOk p -> aead_law lib alg ->
  length (random rnd (Z.of_nat (alg_nonce_size alg))) = alg_nonce_size alg -> aead_sizes P ad ->
  exists C, ca_encrypt p rnd P ad = StOk C /\ length C = alg_nonce_size alg + length P + 16 /\ ca_decrypt p C ad = StOk P.
Proof.
  intros lib random alg key p rnd P ad H L R S. destruct (one_shot_encrypts lib random alg key p rnd P ad H L R) as (E & X).
  destruct (X S) as (C & EC). exists C. split; [exact EC |]. apply E in EC. split.
  - destruct EC as (c & Es & ->). apply one_shot_new_spec in H. destruct (L key _ ad (proj1 H) R) as (_ & L2 & _).
    rewrite app_length, (L2 _ _ Es), R. lia.
  - apply (one_shot_decrypts lib random alg key p C ad P H L). eexists. split; [exact R | exact EC].
Qed.
Theorem sealed_unambiguous : forall lib alg key nonce nonce' ad P P' C, aead_law lib alg ->
  In (length key) (alg_key_sizes alg) -> length nonce = alg_nonce_size alg -> length nonce' = alg_nonce_size alg ->
  sealed_ciphertext lib alg key nonce ad P C -> sealed_ciphertext lib alg key nonce' ad P' C -> nonce = nonce' /\ P = P'.
Proof.
  intros lib alg key nonce nonce' ad P P' C L K Ln Ln' (c & E & ->) (c' & E' & X).
  apply app_len_inj in X; [| lia]. destruct X as (<- & <-). split; [reflexivity |].
  apply (L key nonce ad K Ln) in E. apply (L key nonce ad K Ln) in E'. congruence.
Qed.

(** ** AES-CTR *)
Lemma evp_update_spec : forall E iv d c, evp_update E iv d = StOk c <->
  (N.of_nat (length d) < 2 ^ 31)%N /\ AesCtr128Crypt E d iv = c.
Proof.
  intros E iv d c. unfold evp_update. change (2 ^ 31)%N with 2147483648%N. destruct (N.ltb_spec 2147483647 (N.of_nat (length d))).
  - split; [discriminate | lia].
  - split; [intros X; injection X as <-; split; [lia | reflexivity] | intros (_ & ->); reflexivity].
Qed.
(** ** The MAC input *)
Lemma long_big_endian : forall k n, long_to_big_endian k n = be_bytes k n.
Proof.
  induction k as [| k IH]; intros n; [reflexivity |]. cbn [long_to_big_endian be_bytes]. rewrite IH. f_equal.
  - rewrite N.shiftr_div_pow2. reflexivity.
  - f_equal. change 255%N with (N.ones 8). rewrite N.land_ones. change (2 ^ 8)%N with 256%N. unfold byte_of_N.
    rewrite N.mod_mod by discriminate. reflexivity.
Qed.
Lemma ad_fits : forall ad, ad_too_long ad = false <-> (N.of_nat (length ad) < 2 ^ 61)%N.
Proof.
  intros ad. unfold ad_too_long, size_in_bits, u64. set (n := N.of_nat (length ad)). change (2 ^ 61)%N with 2305843009213693952%N.
  rewrite negb_false_iff, N.eqb_eq. split.
  - intros H. pose proof (N.mod_lt (n * 8) 18446744073709551616). rewrite <- H.
    apply N.div_lt_upper_bound; lia.
  - intros H. rewrite N.mod_small by lia. apply N.div_mul. discriminate.
Qed.
Lemma mac_input_spec : forall ad c, (N.of_nat (length ad) < 2 ^ 61)%N -> mac_input ad c = authenticated ad c.
Proof.
  intros ad c H. change (2 ^ 61)%N with 2305843009213693952%N in H. unfold mac_input, authenticated, size_in_bits, u64.
  rewrite long_big_endian, N.mod_small by lia. rewrite N.mul_comm. reflexivity.
Qed.

Lemma app_len_inj_r : forall (a b c d : bytes), length b = length d -> a ++ b = c ++ d -> a = c /\ b = d.
Proof.
  intros a b c d L E. apply app_len_inj; [| exact E]. apply (f_equal (@length byte)) in E. rewrite !app_length in E. unfold bytes in *. lia.
Qed.
Theorem authenticated_injective : forall ad c ad' c',
  (N.of_nat (length ad) < 2 ^ 61)%N -> (N.of_nat (length ad') < 2 ^ 61)%N ->
  authenticated ad c = authenticated ad' c' -> ad = ad' /\ c = c'.
Proof.
  intros ad c ad' c' H H' E. change (2 ^ 61)%N with 2305843009213693952%N in *. unfold authenticated in E. rewrite !app_assoc in E.
  apply app_len_inj_r in E; [| rewrite !be_bytes_length; reflexivity]. destruct E as (E & L).
  apply (f_equal num) in L. rewrite !num_be_bytes in L. change (256 ^ N.of_nat 8)%N with 18446744073709551616%N in L.
  rewrite !N.mod_small in L by lia. apply app_len_inj in E; [exact E | lia].
Qed.
(** ** Encrypt-then-MAC, for any cipher and MAC *)
Theorem eta_decrypts : forall cipher mac tag_size p C ad P, eta_new cipher mac tag_size = StOk p ->
  (ca_decrypt p C ad = StOk P <->
   (N.of_nat (length ad) < 2 ^ 61)%N /\ exists payload tag, C = payload ++ tag /\ length tag = tag_size /\
     cm_verify mac tag (authenticated ad payload) = StOk tt /\ ic_decrypt cipher payload = StOk P).
Proof.
  intros cipher mac tag_size p C ad P H. unfold eta_new in H. destruct (Nat.ltb tag_size 10); [discriminate |].
  injection H as <-. cbn [ca_decrypt]. split.
  - destruct (Nat.ltb_spec (length C) tag_size); [discriminate |].
    destruct (ad_too_long ad) eqn:A; [discriminate |]. apply ad_fits in A. rewrite (mac_input_spec _ _ A).
    destruct (cm_verify mac _ _) as [[] | s] eqn:V; [| discriminate]. intros D. split; [exact A |].
    exists (firstn (length C - tag_size) C), (skipn (length C - tag_size) C).
    split; [symmetry; apply firstn_skipn |]. split; [rewrite skipn_length; lia |]. split; assumption.
  - intros (A & payload & tag & -> & L & V & D). rewrite app_length. destruct (Nat.ltb_spec (length payload + length tag) tag_size); [lia |].
    rewrite (proj2 (ad_fits ad) A), (mac_input_spec _ _ A). replace (length payload + length tag - tag_size) with (length payload) by lia.
    assert (S1 : skipn (length payload) (payload ++ tag) = tag) by (rewrite skipn_app, skipn_all, Nat.sub_diag; reflexivity).
    assert (S2 : firstn (length payload) (payload ++ tag) = payload) by (rewrite firstn_app, firstn_all, Nat.sub_diag; cbn; apply app_nil_r).
    rewrite S1, S2, V. exact D.
Qed.

(** ** AES-CTR-HMAC *)
Lemma hash_size_md : forall h, evp_md_size h = match h with UNKNOWN_HASH => None | _ => Some (hash_size h) end.
Proof. intros []; reflexivity. Qed.
Lemma ctr_new_ok : forall lib random key n c, aes_ctr_new lib random key n = StOk c ->
  In (length key) [16; 32] /\ 12 <= n <= 16.
Proof.
  intros lib random key n c H. unfold aes_ctr_new in H. destruct (cipher_for_key_size (length key)) eqn:K; [| discriminate].
  apply cipher_for_key_size_spec in K. split; [exact K |]. cbn [negb] in H.
  destruct (Nat.ltb_spec n 12); [discriminate |]. destruct (Nat.ltb_spec 16 n); [discriminate |]. lia.
Qed.
Lemma hmac_new_ok : forall lib h ts key m, hmac_new lib h ts key = StOk m <->
  ts <= hash_size h /\ h <> UNKNOWN_HASH /\ 16 <= length key /\
  m = mk_cc_mac (fun data => StOk (firstn ts (evp_hmac lib h key data)))
          (fun mac data =>
             if negb (Nat.eqb (length mac) ts) then StErr (NotOk "incorrect tag size")
             else if negb (bytes_eqb (firstn ts (evp_hmac lib h key data)) mac)
             then StErr (NotOk "verification failed")
             else StOk tt).
Proof.
  intros lib h ts key m. unfold hmac_new. rewrite hash_size_md.
  assert (X : h = UNKNOWN_HASH \/ h <> UNKNOWN_HASH /\ match h with UNKNOWN_HASH => None | _ => Some (hash_size h) end = Some (hash_size h))
    by (destruct h; (left; reflexivity) || (right; split; [discriminate | reflexivity])).
  destruct X as [-> | (X & ->)]; [split; [discriminate | tauto] |].
  destruct (Nat.ltb_spec (hash_size h) ts); [split; [discriminate | lia] |].
  destruct (Nat.ltb_spec (length key) 16); [split; [discriminate | lia] |].
  split; [intros E; injection E as <-; repeat split; auto | intros (_ & _ & _ & ->); reflexivity].
Qed.
Lemma hash_size_le : forall h, hash_size h <= 64. Proof. intros []; cbn; lia. Qed.
Lemma ctr_hmac_inv : forall lib random k p, ctr_hmac_new lib random k = StOk p <->
  ctr_hmac_key_ok k /\ exists cipher mac, aes_ctr_new lib random (aes_key k) (iv_size k) = StOk cipher /\
    hmac_new lib (hmac_hash k) (hmac_tag_size k) (hmac_key k) = StOk mac /\ eta_new cipher mac (hmac_tag_size k) = StOk p.
Proof.
  intros lib random k p. unfold ctr_hmac_new, aes_ctr_hmac_new, ctr_hmac_key_ok. pose proof (hash_size_le (hmac_hash k)) as HS. split.
  - destruct (aes_ctr_new lib random (aes_key k) (iv_size k)) as [cipher |] eqn:C; [| discriminate].
    destruct (hmac_new lib (hmac_hash k) (hmac_tag_size k) (hmac_key k)) as [mac |] eqn:M; [| discriminate]. intros E.
    apply ctr_new_ok in C as K. apply hmac_new_ok in M as L. rewrite Nat.mod_small in E by lia.
    assert (T : 10 <= hmac_tag_size k) by (unfold eta_new in E; destruct (Nat.ltb_spec (hmac_tag_size k) 10); [discriminate | lia]).
    split; [split; [apply K |]; split; [apply K |]; split; [apply L | lia] |]. exists cipher, mac. auto.
  - intros ((_ & _ & _ & T) & cipher & mac & -> & -> & E). rewrite Nat.mod_small by lia. exact E.
Qed.
Theorem ctr_hmac_made : forall lib random k, (exists p, ctr_hmac_new lib random k = StOk p) <-> ctr_hmac_key_ok k.
Proof.
  intros lib random k. split; [intros (p & H); apply ctr_hmac_inv in H; apply H |]. intros K.
  assert (X : exists cipher, aes_ctr_new lib random (aes_key k) (iv_size k) = StOk cipher).
  { unfold aes_ctr_new. destruct K as (K & I & _). apply cipher_for_key_size_spec in K. rewrite K. cbn [negb].
    destruct (Nat.ltb_spec (iv_size k) 12); [lia |]. destruct (Nat.ltb_spec 16 (iv_size k)); [lia |]. eexists; reflexivity. }
  destruct X as (cipher & C).
  assert (Y : exists mac, hmac_new lib (hmac_hash k) (hmac_tag_size k) (hmac_key k) = StOk mac).
  { eexists. apply hmac_new_ok. destruct K as (_ & _ & A & B). split; [lia |]. split; [intros E; rewrite E in B; cbn in B; lia |]. split; [exact A | reflexivity]. }
  destruct Y as (mac & M).
  assert (Z : exists p, eta_new cipher mac (hmac_tag_size k) = StOk p).
  { unfold eta_new. destruct K as (_ & _ & _ & B). destruct (Nat.ltb_spec (hmac_tag_size k) 10); [lia | eexists; reflexivity]. }
  destruct Z as (p & Z). exists p. apply ctr_hmac_inv. split; [exact K |]. exists cipher, mac. auto.
Qed.
Lemma iv_block_length : forall n (iv : bytes), n <= 16 -> length iv = n -> length (iv ++ repeat x00 (16 - length iv)) = 16.
Proof. intros n iv L E. rewrite app_length, repeat_length. lia. Qed.
Lemma ctr_crypt_length : forall E P iv, length iv = 16 -> length (AesCtr128Crypt E P iv) = length P.
Proof. intros E P iv L. apply (ctr_crypt_spec E P iv L). Qed.
Theorem ctr_hmac_encrypts : forall lib random k p rnd P ad C, ctr_hmac_new lib random k = StOk p -> hmac_size_law lib ->
  length (random rnd (Z.of_nat (iv_size k))) = iv_size k ->
  (ca_encrypt p rnd P ad = StOk C <->
   ctr_hmac_sizes P ad /\ ctr_then_hmac lib k (random rnd (Z.of_nat (iv_size k))) ad P C).
Proof.
  intros lib random k p rnd P ad C H HL R. apply ctr_hmac_inv in H. destruct H as (K & cipher & mac & HC & HM & HE).
  unfold eta_new in HE. destruct (Nat.ltb (hmac_tag_size k) 10); [discriminate |]. injection HE as <-. cbn [ca_encrypt].
  apply hmac_new_ok in HM. destruct HM as (T & _ & _ & ->). cbn [cm_compute].
  assert (HC' : forall c, ic_encrypt cipher rnd P = StOk c <-> (N.of_nat (length P) < 2 ^ 31)%N /\
     exists c', ctr_mode (aes_encrypt lib (aes_key k)) (random rnd (Z.of_nat (iv_size k)) ++ repeat x00 (16 - length (random rnd (Z.of_nat (iv_size k))))) P c' /\
       c = random rnd (Z.of_nat (iv_size k)) ++ c').
  { intros c. destruct K as (_ & I & _). pose proof (iv_block_length (iv_size k) _ (proj2 I) R) as LB. unfold aes_ctr_new in HC.
    destruct (negb (cipher_for_key_size (length (aes_key k)))); [discriminate |].
    destruct (Nat.ltb (iv_size k) 12 || Nat.ltb 16 (iv_size k))%bool; [discriminate |]. injection HC as <-. cbn [ic_encrypt].
    set (iv := random rnd (Z.of_nat (iv_size k))) in *. split.
    - destruct (evp_update _ _ P) as [c' |] eqn:U; [| discriminate]. apply evp_update_spec in U. destruct U as (S & <-). intros X. injection X as <-.
      split; [exact S |]. eexists. split; [apply ctr_crypt_spec; exact LB | reflexivity].
    - intros (S & c' & X & ->). pose proof (ctr_mode_fun _ _ _ _ _ X (ctr_crypt_spec _ P _ LB)) as ->.
      rewrite (proj2 (evp_update_spec _ _ _ _) (conj S eq_refl)). reflexivity. }
  unfold ctr_hmac_sizes, ctr_then_hmac. set (iv := random rnd (Z.of_nat (iv_size k))) in *. split.
  - destruct (ad_too_long ad) eqn:A; [discriminate |]. apply ad_fits in A.
    destruct (ic_encrypt cipher rnd P) as [c |] eqn:EC; [| discriminate]. pose proof (proj1 (HC' c) eq_refl) as EC'. clear EC. rename EC' into EC. destruct EC as (S & c' & X & ->).
    rewrite firstn_length_le by (rewrite HL; exact T). rewrite Nat.eqb_refl. cbn [negb]. intros E. injection E as <-.
    split; [split; assumption |]. exists c'. split; [exact X |]. rewrite (mac_input_spec _ _ A), <- app_assoc. reflexivity.
  - intros ((S & A) & c' & X & ->). rewrite (proj2 (ad_fits ad) A).
    rewrite (proj2 (HC' (iv ++ c')) (conj S (ex_intro _ c' (conj X eq_refl)))).
    rewrite firstn_length_le by (rewrite HL; exact T). rewrite Nat.eqb_refl. cbn [negb].
    rewrite (mac_input_spec _ _ A), <- app_assoc. reflexivity.
Qed.
Theorem ctr_hmac_decrypts : forall lib random k p P ad C, ctr_hmac_new lib random k = StOk p -> hmac_size_law lib ->
  (ca_decrypt p C ad = StOk P <->
   ctr_hmac_sizes P ad /\ exists iv, length iv = iv_size k /\ ctr_then_hmac lib k iv ad P C).
Proof.
  intros lib random k p P ad C H HL. apply ctr_hmac_inv in H. destruct H as (K & cipher & mac & HC & HM & HE).
  rewrite (eta_decrypts _ _ _ _ _ _ _ HE). apply hmac_new_ok in HM. destruct HM as (T & _ & _ & ->). cbn [cm_verify].
  assert (HC' : forall c, ic_decrypt cipher c = StOk P <-> (N.of_nat (length P) < 2 ^ 31)%N /\
     exists iv c', length iv = iv_size k /\ ctr_mode (aes_encrypt lib (aes_key k)) (iv ++ repeat x00 (16 - length iv)) P c' /\ c = iv ++ c').
  { intros c. destruct K as (_ & I & _). unfold aes_ctr_new in HC.
    destruct (negb (cipher_for_key_size (length (aes_key k)))); [discriminate |].
    destruct (Nat.ltb (iv_size k) 12 || Nat.ltb 16 (iv_size k))%bool; [discriminate |]. injection HC as <-. cbn [ic_decrypt]. split.
    - destruct (Nat.ltb_spec (length c) (iv_size k)); [discriminate |]. intros U. apply evp_update_spec in U. destruct U as (S & <-).
      assert (Li : length (firstn (iv_size k) c) = iv_size k) by (apply firstn_length_le; lia).
      pose proof (iv_block_length (iv_size k) _ (proj2 I) Li) as LB. rewrite ctr_crypt_length by exact LB. split; [exact S |].
      exists (firstn (iv_size k) c), (skipn (iv_size k) c). split; [exact Li |]. split; [| symmetry; apply firstn_skipn].
      apply ctr_mode_sym, ctr_crypt_spec, LB.
    - intros (S & iv & c' & Li & X & ->). pose proof (iv_block_length (iv_size k) _ (proj2 I) Li) as LB.
      rewrite app_length. destruct (Nat.ltb_spec (length iv + length c') (iv_size k)); [lia |]. apply evp_update_spec.
      assert (S1 : skipn (iv_size k) (iv ++ c') = c') by (rewrite <- Li, skipn_app, skipn_all, Nat.sub_diag; reflexivity).
      assert (S2 : firstn (iv_size k) (iv ++ c') = iv) by (rewrite <- Li, firstn_app, firstn_all, Nat.sub_diag; cbn; apply app_nil_r).
      rewrite S1, S2. split; [rewrite (proj1 X); exact S |].
      exact (ctr_mode_fun _ _ _ _ _ (ctr_crypt_spec _ c' _ LB) (ctr_mode_sym _ _ _ _ X)). }
  unfold ctr_hmac_sizes, ctr_then_hmac. split.
  - intros (A & payload & tag & -> & Lt & V & D). apply HC' in D. destruct D as (S & iv & c' & Li & X & ->).
    split; [split; assumption |]. exists iv. split; [exact Li |]. exists c'. split; [exact X |]. rewrite <- app_assoc. do 2 f_equal.
    rewrite Lt, Nat.eqb_refl in V. cbn [negb] in V. destruct (bytes_eqb _ tag) eqn:B; [| discriminate V]. apply bytes_eqb_spec in B. symmetry. exact B.
  - intros ((S & A) & iv & Li & c' & X & ->). split; [exact A |].
    exists (iv ++ c'), (firstn (hmac_tag_size k) (evp_hmac lib (hmac_hash k) (hmac_key k) (authenticated ad (iv ++ c')))).
    split; [apply app_assoc |]. rewrite firstn_length_le by (rewrite HL; exact T). split; [reflexivity |].
    rewrite Nat.eqb_refl. cbn [negb]. rewrite (proj2 (bytes_eqb_spec _ _) eq_refl). split; [reflexivity |]. apply HC'. split; [exact S |].
    exists iv, c'. auto.
Qed.
Theorem ctr_hmac_round_trip : forall lib random k p rnd P ad, ctr_hmac_new lib random k = StOk p -> hmac_size_law lib ->
  length (random rnd (Z.of_nat (iv_size k))) = iv_size k -> ctr_hmac_sizes P ad ->
  exists C, ca_encrypt p rnd P ad = StOk C /\ length C = iv_size k + length P + hmac_tag_size k /\ ca_decrypt p C ad = StOk P.
Proof.
  intros lib random k p rnd P ad H HL R S. set (iv := random rnd (Z.of_nat (iv_size k))) in *.
  pose proof (proj1 (proj1 (ctr_hmac_inv lib random k p) H)) as (_ & I & _ & T).
  pose proof (iv_block_length (iv_size k) iv (proj2 I) R) as LB.
  set (c := AesCtr128Crypt (aes_encrypt lib (aes_key k)) P (iv ++ repeat x00 (16 - length iv))).
  set (tag := firstn (hmac_tag_size k) (evp_hmac lib (hmac_hash k) (hmac_key k) (authenticated ad (iv ++ c)))).
  assert (X : ctr_then_hmac lib k iv ad P (iv ++ c ++ tag)) by (exists c; split; [apply ctr_crypt_spec, LB | reflexivity]).
  exists (iv ++ c ++ tag). split; [apply (ctr_hmac_encrypts lib random k p rnd P ad _ H HL R); split; assumption |]. split.
  - rewrite !app_length. unfold tag, c. rewrite ctr_crypt_length by exact LB. rewrite firstn_length_le by (rewrite HL; lia). lia.
  - apply (ctr_hmac_decrypts lib random k p P ad _ H HL). split; [exact S |]. exists iv. split; assumption.
Qed.
Theorem ctr_hmac_unambiguous : forall lib k iv iv' ad P P' C, length iv = length iv' -> hmac_size_law lib ->
  ctr_then_hmac lib k iv ad P C -> ctr_then_hmac lib k iv' ad P' C -> iv = iv' /\ P = P'.
Proof.
  intros lib k iv iv' ad P P' C L HL (c & X & ->) (c' & X' & E). apply app_len_inj in E; [| exact L]. destruct E as (<- & E). split; [reflexivity |].
  assert (Lc : length c = length c').
  { apply (f_equal (@length byte)) in E. rewrite !app_length, !firstn_length, !HL in E. lia. }
  apply app_len_inj in E; [| exact Lc]. destruct E as (<- & _).
  exact (ctr_mode_fun _ _ _ _ _ (ctr_mode_sym _ _ _ _ X) (ctr_mode_sym _ _ _ _ X')).
Qed.
