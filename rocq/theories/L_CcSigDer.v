(** The encodings of ECDSA signatures. *)
From Coq Require Import Strings.Byte Strings.String List NArith ZArith Bool Lia.
From Verif Require Import M_Base L_Base M_Proto M_Wire M_ProtoMsg M_KeyFormats M_Prims M_StreamTypes M_CcStream M_CcManagers M_CcAes
  M_CcStreamKeys M_CcModes M_CcSymmetric M_CcSymKeys M_CcEcies M_CcSignatures S_Config S_CcAes S_CcStreamKeys S_CcModes S_CcSymmetric S_CcSymKeys S_CcSymHandles
  S_CcEcies S_CcEciesKeys S_CcSignatures L_CcModes L_CcSymmetric2 L_CcEcies.
Import ListNotations.
Open Scope list_scope.
Open Scope N_scope.

(** ** Sizes *)
Lemma size_lt : forall n k, N.size n <= k <-> n < 2 ^ k.
Proof.
  intros n k. split; intros H.
  - apply N.lt_le_trans with (2 ^ N.size n); [apply N.size_gt | apply N.pow_le_mono_r; [discriminate | exact H]].
  - destruct (N.eq_dec n 0) as [-> | NZ]; [cbn; lia |]. rewrite N.size_log2 by exact NZ.
    assert (N.log2 n < k) by (apply N.log2_lt_pow2; lia). lia.
Qed.
Lemma size_ge : forall n k, k < N.size n <-> 2 ^ k <= n.
Proof. intros n k. pose proof (size_lt n k). lia. Qed.
Lemma pow_256 : forall k, 256 ^ k = 2 ^ (8 * k).
Proof. intros k. rewrite N.pow_mul_r. reflexivity. Qed.
Lemma num_bytes_bounds : forall n, n < 256 ^ N.of_nat (BN_num_bytes n) /\ (0 < n -> 256 ^ N.of_nat (BN_num_bytes n - 1) <= n /\ (0 < BN_num_bytes n)%nat).
Proof.
  intros n. unfold BN_num_bytes. pose proof (N.div_mod' (N.size n + 7) 8) as D. pose proof (N.mod_lt (N.size n + 7) 8 ltac:(lia)) as M.
  remember ((N.size n + 7) / 8) as q eqn:Q. remember ((N.size n + 7) mod 8) as r eqn:R. clear Q R. split.
  - rewrite N2Nat.id, pow_256. apply size_lt. lia.
  - intros P. assert (0 < N.size n) by (destruct n; [lia | cbn; lia]).
    assert (0 < q) by lia. split; [| lia].
    rewrite Nat2N.inj_sub, N2Nat.id, pow_256. apply size_ge. change (N.of_nat 1) with 1. lia.
Qed.
Lemma bn2bin_be : forall n, BN_bn2bin n = be_bytes (BN_num_bytes n) n.
Proof. intros n. unfold BN_bn2bin. rewrite store_le_be, rev_involutive. reflexivity. Qed.
Lemma num_bn2bin : forall n, num (BN_bn2bin n) = n.
Proof. intros n. rewrite bn2bin_be. apply num_be_small, num_bytes_bounds. Qed.
Lemma be_bytes_zero : forall k n, n < 256 ^ N.of_nat k -> be_bytes (k + 1) n = x00 :: be_bytes k n.
Proof.
  intros k n H. apply be_bytes_eq; [cbn; rewrite be_bytes_length; lia |]. change (x00 :: be_bytes k n) with ([x00] ++ be_bytes k n).
  rewrite num_app, num_be_small by exact H. cbn. rewrite N.mod_small; [reflexivity |]. rewrite Nat2N.inj_add. cbn. rewrite N.pow_add_r. cbn. lia.
Qed.

(** ** What is written *)
Lemma marshal_integer : forall n, exists c, der_integer n c /\ bn_marshal n = add_asn1 x02 c.
Proof.
  intros n. unfold bn_marshal. destruct (N.size n mod 8 =? 0)%N eqn:Z.
  - apply N.eqb_eq in Z. pose proof (N.div_mod' (N.size n) 8) as D.
    assert (B : BN_num_bytes n = N.to_nat (N.size n / 8)).
    { unfold BN_num_bytes. f_equal. replace (N.size n + 7) with (7 + (N.size n / 8) * 8) by lia. rewrite N.div_add by lia. reflexivity. }
    exists (x00 :: BN_bn2bin n). split; [| reflexivity]. exists (BN_num_bytes n). destruct (num_bytes_bounds n) as (U & _).
    split; [rewrite bn2bin_be, be_bytes_zero by exact U; reflexivity |]. split; [lia |].
    destruct (N.eq_dec (N.size n) 0) as [E | NE]; [left; rewrite B, E; reflexivity | right].
    rewrite B, Nat2N.inj_sub, N2Nat.id, pow_256. change 128 with (2 ^ 7). rewrite <- N.pow_add_r. apply size_ge. change (N.of_nat 1) with 1. lia.
  - apply N.eqb_neq in Z. pose proof (N.div_mod' (N.size n) 8) as D. pose proof (N.mod_lt (N.size n) 8 ltac:(lia)) as M.
    assert (B : BN_num_bytes n = (N.to_nat (N.size n / 8) + 1)%nat).
    { unfold BN_num_bytes. replace (N.size n + 7) with ((N.size n mod 8 + 7) + (N.size n / 8) * 8) by lia. rewrite N.div_add by lia.
      remember (N.size n mod 8) as m eqn:Em. clear Em. replace ((m + 7) / 8) with 1; [lia |]. apply (N.div_unique _ _ _ (m - 1)); lia. }
    exists (BN_bn2bin n). split; [| reflexivity]. exists (N.to_nat (N.size n / 8)). rewrite bn2bin_be, B. split; [reflexivity |].
    rewrite N2Nat.id. remember (N.size n mod 8) as m eqn:Em. clear Em. remember (N.size n / 8) as q eqn:Eq. clear Eq. split.
    + rewrite pow_256. change 128 with (2 ^ 7). rewrite <- N.pow_add_r. apply size_lt. lia.
    + destruct (N.eq_dec q 0) as [E | NE]; [left; rewrite E; reflexivity | right].
      rewrite Nat2N.inj_sub, N2Nat.id, pow_256. change 128 with (2 ^ 7). rewrite <- N.pow_add_r. apply size_ge. change (N.of_nat 1) with 1. lia.
Qed.
Lemma be_one : forall n, be_bytes 1 n = [byte_of_N n].
Proof. reflexivity. Qed.
Lemma add_value : forall tag c, N.of_nat (length c) < 2 ^ 32 -> der_value tag c (add_asn1 tag c).
Proof.
  intros tag c H. unfold add_asn1, der_length. cbv beta delta [der_value]. set (l := N.of_nat (length c)) in *. cbv zeta. destruct (l <? 128)%N eqn:S.
  - apply N.ltb_lt in S. exists (be_bytes 1 l). split; [reflexivity |]. left. auto.
  - apply N.ltb_ge in S. destruct (num_bytes_bounds l) as (U & V). destruct (V ltac:(lia)) as (V1 & V2). exists (byte_of_N (128 + N.of_nat (length (BN_bn2bin l))) :: BN_bn2bin l). split; [reflexivity |].
    right. split; [exact S |]. exists (BN_num_bytes l). rewrite bn2bin_be, be_bytes_length, be_one. split; [reflexivity |]. split; [| split; assumption].
    assert (256 ^ N.of_nat (BN_num_bytes l - 1) < 256 ^ 4) as Q by (change (256 ^ 4) with (2 ^ 32); lia).
    apply N.pow_lt_mono_r_iff in Q; lia.
Qed.
(** ** It is determined. *)
Lemma power_between : forall n k k' a, 0 < a -> a * 256 ^ N.of_nat k <= n -> n < a * 256 ^ N.of_nat k' -> (k < k')%nat.
Proof.
  intros n k k' a P A B. assert (a * 256 ^ N.of_nat k < a * 256 ^ N.of_nat k') as Q by lia. apply N.mul_lt_mono_pos_l in Q; [| exact P].
  apply N.pow_lt_mono_r_iff in Q; lia.
Qed.
Lemma integer_fun : forall n x y, der_integer n x -> der_integer n y -> x = y.
Proof.
  intros n x y (k & -> & U & L) (k' & -> & U' & L'). destruct (Nat.lt_trichotomy k k') as [H | [-> | H]]; [| reflexivity |]; exfalso.
  - destruct L' as [-> | L']; [lia |]. pose proof (power_between _ _ _ 128 ltac:(lia) L' U). lia.
  - destruct L as [-> | L]; [lia |]. pose proof (power_between _ _ _ 128 ltac:(lia) L U'). lia.
Qed.
Lemma value_fun : forall tag c x y, der_value tag c x -> der_value tag c y -> x = y.
Proof.
  intros tag c x y (L & -> & HL) (L' & -> & HL'). f_equal. f_equal. set (l := N.of_nat (length c)) in *.
  destruct HL as [(A & ->) | (A & k & -> & _ & B)]; destruct HL' as [(A' & ->) | (A' & k' & -> & _ & B')]; try lia; [reflexivity |].
  replace k' with k; [reflexivity |]. destruct (Nat.lt_trichotomy k k') as [H | [-> | H]]; [| reflexivity |]; exfalso.
  - pose proof (power_between l (k' - 1) k 1 ltac:(lia) ltac:(lia) ltac:(lia)). lia.
  - pose proof (power_between l (k - 1) k' 1 ltac:(lia) ltac:(lia) ltac:(lia)). lia.
Qed.
Lemma signature_fun : forall r s x y, der_signature r s x -> der_signature r s y -> x = y.
Proof.
  intros r s x y (cr & cs & R & S & A & B & C & D & E) (cr' & cs' & R' & S' & A' & B' & C' & D' & E').
  rewrite <- (integer_fun _ _ _ A A') in C'. rewrite <- (integer_fun _ _ _ B B') in D'. rewrite <- (value_fun _ _ _ _ C C'), <- (value_fun _ _ _ _ D D') in E'.
  exact (value_fun _ _ _ _ E E').
Qed.
Lemma integer_length : forall n c, der_integer n c -> n < 256 ^ 66 -> (length c <= 67)%nat.
Proof.
  intros n c (k & -> & _ & L) H. rewrite be_bytes_length. destruct L as [-> | L]; [lia |].
  pose proof (power_between n (k - 1) 66 1 ltac:(lia) ltac:(lia) ltac:(change (N.of_nat 66) with 66; lia)). lia.
Qed.
Lemma add_asn1_length : forall tag c, (length c < 128)%nat -> length (add_asn1 tag c) = (length c + 2)%nat.
Proof. intros tag c H. unfold add_asn1, der_length. destruct (N.of_nat (length c) <? 128)%N eqn:S; [cbn; lia | apply N.ltb_ge in S; lia]. Qed.
Lemma i2d_signature : forall r s, r < 256 ^ 66 -> s < 256 ^ 66 -> der_signature r s (i2d_ECDSA_SIG (r, s)).
Proof.
  intros r s HR HS. destruct (marshal_integer r) as (cr & A & ER). destruct (marshal_integer s) as (cs & B & ES).
  pose proof (integer_length _ _ A HR) as LR. pose proof (integer_length _ _ B HS) as LS.
  exists cr, cs, (add_asn1 x02 cr), (add_asn1 x02 cs). split; [exact A |]. split; [exact B |].
  split; [apply add_value; change (2 ^ 32) with 4294967296; lia |]. split; [apply add_value; change (2 ^ 32) with 4294967296; lia |].
  unfold i2d_ECDSA_SIG. cbn [fst snd]. rewrite ER, ES. apply add_value. rewrite app_length, !add_asn1_length by lia. change (2 ^ 32) with 4294967296. lia.
Qed.
Lemma i2d_iff : forall r s x, r < 256 ^ 66 -> s < 256 ^ 66 -> (der_signature r s x <-> i2d_ECDSA_SIG (r, s) = x).
Proof.
  intros r s x HR HS. split; [| intros <-; apply i2d_signature; assumption]. intros H. exact (signature_fun _ _ _ _ (i2d_signature r s HR HS) H).
Qed.

(** ** It is read back. *)
Lemma take_app : forall c rest, take_content (N.of_nat (length c)) (c ++ rest) = Some (c, rest).
Proof.
  intros c rest. unfold take_content. rewrite app_length. replace (N.of_nat (length c + length rest) <? N.of_nat (length c))%N with false by (symmetry; apply N.ltb_ge; lia).
  rewrite Nat2N.id. destruct (cut_app c rest (length c) eq_refl) as (-> & ->). reflexivity.
Qed.
Lemma get_value : forall tag c x rest, der_value tag c x -> get_asn1 tag (x ++ rest) = Some (c, rest).
Proof.
  intros tag c x rest (L & -> & H). set (l := N.of_nat (length c)) in *. rewrite <- !app_assoc. cbn [app]. assert (T : Byte.eqb tag tag = true) by (apply Byte.byte_dec_lb; reflexivity).
  destruct H as [(A & ->) | (A & k & -> & K & B1 & B2)].
  - rewrite be_one. cbn [app get_asn1]. rewrite T. cbn [negb]. rewrite byte_of_N_to_N, N.mod_small by lia. apply N.ltb_lt in A. rewrite A. apply take_app.
  - rewrite be_one. cbn [app get_asn1]. rewrite T. cbn [negb]. rewrite byte_of_N_to_N, N.mod_small by lia.
    replace (128 + N.of_nat k <? 128)%N with false by (symmetry; apply N.ltb_ge; lia).
    replace (N.to_nat (128 + N.of_nat k - 128)) with k by lia.
    assert (K0 : (0 < k)%nat) by (destruct k; [cbn in B2; lia | lia]).
    replace (Nat.eqb k 0) with false by (symmetry; apply Nat.eqb_neq; lia). replace (Nat.ltb 4 k) with false by (symmetry; apply Nat.ltb_ge; lia).
    cbn [orb]. rewrite app_length, be_bytes_length. replace (Nat.ltb (k + length (c ++ rest)) k) with false by (symmetry; apply Nat.ltb_ge; lia).
    destruct (cut_app (be_bytes k l) (c ++ rest) k (be_bytes_length _ _)) as (-> & ->). rewrite bin2bn_num, num_be_small by exact B2.
    replace (l <? 128)%N with false by (symmetry; apply N.ltb_ge; exact A). cbn [orb].
    replace (l / 256 ^ N.of_nat (k - 1) =? 0)%N with false; [apply take_app |].
    symmetry. apply N.eqb_neq. intros Z. apply N.div_small_iff in Z; [lia |]. apply N.pow_nonzero. discriminate.
Qed.
Lemma parse_integer : forall n c x rest, der_integer n c -> der_value x02 c x -> bn_parse (x ++ rest) = Some (n, rest).
Proof.
  intros n c x rest (k & E & U & L) V. unfold bn_parse. rewrite (get_value _ _ _ _ V). assert (LC : length c = (k + 1)%nat) by (rewrite E; apply be_bytes_length).
  assert (NC : num c = n). { rewrite E. apply num_be_small. rewrite Nat2N.inj_add, N.pow_add_r. change (256 ^ N.of_nat 1) with 256. lia. }
  destruct c as [| b c]; [cbn in LC; lia |]. assert (LC' : length c = k) by (cbn in LC; lia). rewrite bin2bn_num, NC.
  assert (NB : n = Byte.to_N b * 256 ^ N.of_nat k + num c). { rewrite <- NC. change (b :: c) with ([b] ++ c). rewrite num_app, LC'. reflexivity. }
  pose proof (num_lt c) as LT. rewrite LC' in LT. assert (P : 0 < 256 ^ N.of_nat k) by (apply N.neq_0_lt_0, N.pow_nonzero; discriminate).
  replace (128 <=? Byte.to_N b)%N with false.
  2:{ symmetry. apply N.leb_gt. apply (N.mul_lt_mono_pos_r (256 ^ N.of_nat k)); lia. }
  replace (Byte.eqb b x00 && negb (Nat.eqb (length c) 0) && (Byte.to_N (hd x00 c) <? 128)%N)%bool with false; [reflexivity |].
  symmetry. destruct (Byte.eqb b x00) eqn:Z; [| reflexivity]. apply Byte.byte_dec_bl in Z. subst b. cbn [andb]. destruct c as [| b' c]; [reflexivity |].
  cbn [hd]. destruct L as [-> | L]; [cbn in LC'; lia |]. apply andb_false_iff. right. apply N.ltb_ge.
  change (Byte.to_N x00) with 0 in NB. change (b' :: c) with ([b'] ++ c) in NB. rewrite num_app in NB. change (num [b']) with (Byte.to_N b') in NB.
  assert (LC2 : length c = (k - 1)%nat) by (cbn in LC'; lia). pose proof (num_lt c) as LT2. rewrite LC2 in *.
  assert (P2 : 0 < 256 ^ N.of_nat (k - 1)) by (apply N.neq_0_lt_0, N.pow_nonzero; discriminate). nia.
Qed.
Lemma d2i_signature : forall r s x, der_signature r s x -> d2i_ECDSA_SIG x = Some (r, s).
Proof.
  intros r s x (cr & cs & R & S & A & B & C & D & E). unfold d2i_ECDSA_SIG. rewrite <- (app_nil_r x), (get_value _ _ _ [] E), (parse_integer r cr R S A C).
  rewrite <- (app_nil_r S), (parse_integer s cs S [] B D). reflexivity.
Qed.
Theorem der_round_trip : forall r s, r < 256 ^ 66 -> s < 256 ^ 66 -> d2i_ECDSA_SIG (i2d_ECDSA_SIG (r, s)) = Some (r, s).
Proof. intros r s HR HS. apply d2i_signature, i2d_signature; assumption. Qed.
