(** Proofs: bytes as numbers, and the arithmetic of blocks. *)
From Coq Require Import Strings.Byte Strings.String List NArith ZArith Bool Lia.
From Verif Require Import M_Base M_CcModes S_CcModes L_Base.
Import ListNotations.
Open Scope list_scope.
Open Scope nat_scope.

(** ** Bits *)
Lemma testbit_cat : forall k h l n, (l < 2 ^ k)%N ->
  N.testbit (h * 2 ^ k + l) n = if (n <? k)%N then N.testbit l n else N.testbit h (n - k).
Proof.
  intros k h l n Hl. destruct (n <? k)%N eqn:E.
  - apply N.ltb_lt in E. rewrite <- (N.mod_pow2_bits_low (h * 2 ^ k + l) k n E).
    rewrite N.add_comm, N.mod_add by (apply N.pow_nonzero; discriminate).
    rewrite N.mod_small by exact Hl. reflexivity.
  - apply N.ltb_ge in E. replace n with (n - k + k)%N at 1 by lia. rewrite <- N.div_pow2_bits.
    rewrite N.div_add_l by (apply N.pow_nonzero; discriminate). rewrite (N.div_small l) by exact Hl.
    rewrite N.add_0_r. reflexivity.
Qed.
Section Bitwise.
  Variable f : N -> N -> N.
  Variable op : bool -> bool -> bool.
  Hypothesis f_spec : forall a b n, N.testbit (f a b) n = op (N.testbit a n) (N.testbit b n).
  Hypothesis op_ff : op false false = false.
  Lemma bitwise_small : forall k a b, (a < 2 ^ k)%N -> (b < 2 ^ k)%N -> (f a b < 2 ^ k)%N.
  Proof.
    intros k a b Ha Hb. replace (f a b) with (f a b mod 2 ^ k)%N; [apply N.mod_lt, N.pow_nonzero; discriminate |].
    apply N.bits_inj. intros n. destruct (N.lt_ge_cases n k) as [L | L].
    - apply N.mod_pow2_bits_low. exact L.
    - rewrite N.mod_pow2_bits_high by exact L. rewrite f_spec.
      rewrite <- (N.mod_small a (2 ^ k)), <- (N.mod_small b (2 ^ k)) by assumption.
      rewrite !N.mod_pow2_bits_high by exact L. congruence.
  Qed.
  Lemma bitwise_cat : forall k h l h' l', (l < 2 ^ k)%N -> (l' < 2 ^ k)%N ->
    f (h * 2 ^ k + l) (h' * 2 ^ k + l') = (f h h' * 2 ^ k + f l l')%N.
  Proof.
    intros k h l h' l' H H'. apply N.bits_inj. intros n. rewrite f_spec.
    rewrite !testbit_cat by (try assumption; apply bitwise_small; assumption).
    destruct (n <? k)%N; rewrite f_spec; reflexivity.
  Qed.
  Definition fbyte (a b : byte) : byte := byte_of_N (f (Byte.to_N a) (Byte.to_N b)).
  Fixpoint fbytes (x y : bytes) : bytes :=
    match x, y with a :: x, b :: y => fbyte a b :: fbytes x y | _, _ => [] end.
  Lemma fbyte_N : forall a b, Byte.to_N (fbyte a b) = f (Byte.to_N a) (Byte.to_N b).
  Proof.
    intros a b. unfold fbyte. rewrite byte_of_N_to_N. apply N.mod_small.
    apply (bitwise_small 8); apply to_N_lt.
  Qed.
  Lemma num_fbytes_gen : forall x y n m, length x = length y ->
    f (fold_left (fun n c => n * 256 + Byte.to_N c)%N x n) (fold_left (fun n c => n * 256 + Byte.to_N c)%N y m) =
    fold_left (fun n c => n * 256 + Byte.to_N c)%N (fbytes x y) (f n m).
  Proof.
    induction x as [| a x IH]; intros [| b y] n m H; try discriminate; [reflexivity |].
    cbn [fold_left fbytes]. rewrite IH by (injection H as H; exact H). f_equal. rewrite fbyte_N.
    apply (bitwise_cat 8); apply to_N_lt.
  Qed.
  Lemma f00 : f 0 0 = 0%N.
  Proof. apply N.bits_inj. intros n. rewrite f_spec. cbn. exact op_ff. Qed.
  Lemma num_fbytes : forall x y, length x = length y -> num (fbytes x y) = f (num x) (num y).
  Proof. intros x y H. unfold num. rewrite num_fbytes_gen by exact H. rewrite f00. reflexivity. Qed.
  Lemma fbytes_length : forall x y, length (fbytes x y) = Nat.min (length x) (length y).
  Proof. induction x as [| a x IH]; intros [| b y]; cbn; auto. Qed.
  Lemma fbytes_app : forall x y x' y', length x = length y -> fbytes (x ++ x') (y ++ y') = fbytes x y ++ fbytes x' y'.
  Proof.
    induction x as [| a x IH]; intros [| b y] x' y' H; try discriminate; [reflexivity |].
    cbn. rewrite IH by (injection H as H; exact H). reflexivity.
  Qed.
  Lemma fbytes_rev : forall x y, length x = length y -> fbytes (rev x) (rev y) = rev (fbytes x y).
  Proof.
    induction x as [| a x IH]; intros [| b y] H; try discriminate; [reflexivity |].
    injection H as H. cbn [rev fbytes]. rewrite fbytes_app by (rewrite !rev_length; exact H). rewrite IH by exact H. reflexivity.
  Qed.
End Bitwise.

(** ** Numbers *)
Lemma num_snoc : forall x c, num (x ++ [c]) = (num x * 256 + Byte.to_N c)%N.
Proof. intros. unfold num. rewrite fold_left_app. reflexivity. Qed.
Lemma num_app : forall y x, num (x ++ y) = (num x * 256 ^ N.of_nat (length y) + num y)%N.
Proof.
  induction y as [| c y IH] using rev_ind; intros x.
  - rewrite app_nil_r. cbn. lia.
  - rewrite app_assoc, !num_snoc, IH, app_length. cbn [length]. rewrite Nat.add_1_r, Nat2N.inj_succ, N.pow_succ_r'. lia.
Qed.
Lemma num_lt : forall x, (num x < 256 ^ N.of_nat (length x))%N.
Proof.
  induction x as [| c x IH] using rev_ind; [reflexivity |]. rewrite num_snoc, app_length. cbn [length].
  rewrite Nat.add_1_r, Nat2N.inj_succ, N.pow_succ_r'. pose proof (to_N_lt c). lia.
Qed.
Lemma be_bytes_length : forall k n, length (be_bytes k n) = k.
Proof. induction k as [| k IH]; intros n; [reflexivity |]. cbn. rewrite app_length, IH. cbn. lia. Qed.
Lemma byte_of_N_mod : forall n m, byte_of_N (m * 256 + n) = byte_of_N n.
Proof. intros. unfold byte_of_N. rewrite N.add_comm, N.mod_add by discriminate. reflexivity. Qed.
Lemma be_bytes_num : forall x, be_bytes (length x) (num x) = x.
Proof.
  induction x as [| c x IH] using rev_ind; [reflexivity |].
  rewrite app_length. cbn [length]. rewrite Nat.add_1_r. cbn [be_bytes]. rewrite num_snoc.
  rewrite byte_of_N_mod, byte_of_N_of_to_N. rewrite N.div_add_l by discriminate.
  rewrite (N.div_small (Byte.to_N c)) by apply to_N_lt. rewrite N.add_0_r, IH. reflexivity.
Qed.
Lemma num_be_bytes : forall k n, num (be_bytes k n) = (n mod 256 ^ N.of_nat k)%N.
Proof.
  induction k as [| k IH]; intros n.
  - cbn. rewrite N.mod_1_r. reflexivity.
  - cbn [be_bytes]. rewrite num_snoc, IH, byte_of_N_to_N, Nat2N.inj_succ, N.pow_succ_r'.
    rewrite (N.mod_mul_r n 256) by (try discriminate; apply N.pow_nonzero; discriminate). lia.
Qed.
Lemma num_inj : forall x y, length x = length y -> num x = num y -> x = y.
Proof. intros x y L H. rewrite <- (be_bytes_num x), <- (be_bytes_num y), L, H. reflexivity. Qed.
Lemma be_bytes_eq : forall k n x, length x = k -> num x = (n mod 256 ^ N.of_nat k)%N -> be_bytes k n = x.
Proof. intros k n x L H. apply num_inj; [rewrite be_bytes_length; congruence |]. rewrite num_be_bytes. congruence. Qed.

(** ** Exclusive or *)
Lemma xor_spec : forall a b n, N.testbit (N.lxor a b) n = xorb (N.testbit a n) (N.testbit b n).
Proof. intros. apply N.lxor_spec. Qed.
Lemma xor_bytes_f : forall x y, xor_bytes x y = fbytes N.lxor x y.
Proof. induction x as [| a x IH]; intros [| b y]; cbn; try reflexivity. Qed.
Lemma xors_f : forall x y, xors x y = xor_bytes x y.
Proof. induction x as [| a x IH]; intros [| b y]; try reflexivity. unfold xors in *. cbn. rewrite IH. reflexivity. Qed.
Lemma xor_bytes_length : forall x y, length (xor_bytes x y) = Nat.min (length x) (length y).
Proof. intros. rewrite xor_bytes_f. apply fbytes_length. Qed.
Lemma xor_bytes_app : forall x y x' y', length x = length y -> xor_bytes (x ++ x') (y ++ y') = xor_bytes x y ++ xor_bytes x' y'.
Proof. intros. rewrite !xor_bytes_f. apply fbytes_app. assumption. Qed.
Lemma num_xor : forall x y, length x = length y -> num (xor_bytes x y) = N.lxor (num x) (num y).
Proof. intros. rewrite xor_bytes_f. apply (num_fbytes N.lxor xorb xor_spec eq_refl). assumption. Qed.
Lemma xor_byte_N : forall a b, Byte.to_N (xor_byte a b) = N.lxor (Byte.to_N a) (Byte.to_N b).
Proof. exact (fbyte_N N.lxor xorb xor_spec eq_refl). Qed.
Lemma xor_byte_comm : forall a b, xor_byte a b = xor_byte b a.
Proof. intros. unfold xor_byte. rewrite N.lxor_comm. reflexivity. Qed.
Lemma xor_byte_assoc : forall a b c, xor_byte (xor_byte a b) c = xor_byte a (xor_byte b c).
Proof. intros. apply to_N_inj. rewrite !xor_byte_N. apply N.lxor_assoc. Qed.
Lemma xor_byte_nilpotent : forall a, xor_byte a a = x00.
Proof. intros. apply to_N_inj. rewrite xor_byte_N, N.lxor_nilpotent. reflexivity. Qed.
Lemma xor_byte_0 : forall a, xor_byte a x00 = a.
Proof. intros. apply to_N_inj. rewrite xor_byte_N. apply N.lxor_0_r. Qed.
Lemma xor_byte_twice : forall a b, xor_byte (xor_byte a b) b = a.
Proof. intros. rewrite xor_byte_assoc, xor_byte_nilpotent, xor_byte_0. reflexivity. Qed.
Lemma xor_bytes_comm : forall x y, xor_bytes x y = xor_bytes y x.
Proof. induction x as [| a x IH]; intros [| b y]; cbn; try reflexivity. rewrite IH, xor_byte_comm. reflexivity. Qed.
Lemma xor_bytes_assoc : forall x y z, xor_bytes (xor_bytes x y) z = xor_bytes x (xor_bytes y z).
Proof. induction x as [| a x IH]; intros [| b y] [| c z]; cbn; try reflexivity. rewrite IH, xor_byte_assoc. reflexivity. Qed.
Lemma xor_bytes_0 : forall x n, length x <= n -> xor_bytes x (repeat x00 n) = x.
Proof.
  induction x as [| a x IH]; intros [| n] H; cbn in *; try reflexivity; [lia |]. rewrite IH by lia. rewrite xor_byte_0. reflexivity.
Qed.
Lemma xor_bytes_twice : forall x y, length x <= length y -> xor_bytes (xor_bytes x y) y = x.
Proof.
  induction x as [| a x IH]; intros [| b y] H; cbn in *; try reflexivity; [lia |]. rewrite IH by lia. rewrite xor_byte_twice. reflexivity.
Qed.

(** ** 64 bit words *)
Lemma load_le_num : forall x, load_le x = num (rev x).
Proof.
  induction x as [| c x IH]; [reflexivity |]. cbn [load_le rev]. rewrite num_snoc, IH. lia.
Qed.
Lemma store_le_be : forall k n, store_le k n = rev (be_bytes k n).
Proof. induction k as [| k IH]; intros n; [reflexivity |]. cbn [store_le be_bytes]. rewrite rev_app_distr, IH. reflexivity. Qed.
Lemma store_load : forall x, length x = 8 -> Store64 (num (rev x)) = x.
Proof.
  intros x H. unfold Store64. rewrite store_le_be. rewrite <- H, <- (rev_length x), be_bytes_num. apply rev_involutive.
Qed.
Lemma split8 : forall x : bytes, length x = 16 -> x = firstn 8 x ++ skipn 8 x /\ length (firstn 8 x) = 8 /\ length (skipn 8 x) = 8.
Proof. intros x H. rewrite firstn_skipn, firstn_length, skipn_length. rewrite H. auto. Qed.
Lemma skip8 : forall x : bytes, length x = 16 -> firstn 8 (skipn 8 x) = skipn 8 x.
Proof. intros x H. apply firstn_all2. rewrite skipn_length. lia. Qed.
Lemma eax_xor_block_spec : forall x y, length x = 16 -> length y = 16 -> eax_xor_block x y = xor_bytes x y.
Proof.
  intros x y Hx Hy. unfold eax_xor_block, Load64. rewrite !load_le_num.
  destruct (split8 x Hx) as (Ex & X1 & X2). destruct (split8 y Hy) as (Ey & Y1 & Y2).
  rewrite (skip8 x Hx), (skip8 y Hy).
  assert (G : forall a b, length a = 8 -> length b = 8 -> Store64 (N.lxor (num (rev a)) (num (rev b))) = xor_bytes a b).
  { intros a b Ha Hb. rewrite <- num_xor by (rewrite !rev_length; congruence).
    rewrite xor_bytes_f, fbytes_rev by congruence. rewrite <- xor_bytes_f. apply store_load. rewrite xor_bytes_length. lia. }
  rewrite !G by assumption. rewrite Ex at 3. rewrite Ey at 3. rewrite xor_bytes_app by congruence. reflexivity.
Qed.
Lemma load64_inj : forall a b, length a = 8 -> length b = 8 -> load_le a = load_le b -> a = b.
Proof.
  intros a b Ha Hb H. rewrite !load_le_num in H. apply num_inj in H; [| rewrite !rev_length; congruence].
  rewrite <- (rev_involutive a), <- (rev_involutive b), H. reflexivity.
Qed.
Lemma eax_equal_blocks_spec : forall x y, length x = 16 -> length y = 16 -> (eax_equal_blocks x y = true <-> x = y).
Proof.
  intros x y Hx Hy. unfold eax_equal_blocks, Load64. rewrite (skip8 x Hx), (skip8 y Hy).
  destruct (split8 x Hx) as (Ex & X1 & X2). destruct (split8 y Hy) as (Ey & Y1 & Y2).
  rewrite N.eqb_eq, N.lor_eq_0_iff, !N.lxor_eq_0_iff. split.
  - intros [H1 H2]. apply load64_inj in H1; [| assumption | assumption]. apply load64_inj in H2; [| assumption | assumption].
    rewrite Ex, Ey, H1, H2. reflexivity.
  - intros ->. auto.
Qed.

(** The byte swap *)
Lemma and_spec : forall a b n, N.testbit (N.land a b) n = andb (N.testbit a n) (N.testbit b n).
Proof. intros. apply N.land_spec. Qed.
Lemma or_spec : forall a b n, N.testbit (N.lor a b) n = orb (N.testbit a n) (N.testbit b n).
Proof. intros. apply N.lor_spec. Qed.
Lemma num_and : forall x y, length x = length y -> num (fbytes N.land x y) = N.land (num x) (num y).
Proof. intros. apply (num_fbytes N.land andb and_spec eq_refl). assumption. Qed.
Lemma num_or : forall x y, length x = length y -> num (fbytes N.lor x y) = N.lor (num x) (num y).
Proof. intros. apply (num_fbytes N.lor orb or_spec eq_refl). assumption. Qed.
Lemma and_ff : forall a, fbyte N.land a xff = a. Proof. destruct a; reflexivity. Qed.
Lemma and_00 : forall a, fbyte N.land a x00 = x00. Proof. destruct a; reflexivity. Qed.
Lemma or_00 : forall a, fbyte N.lor a x00 = a. Proof. destruct a; reflexivity. Qed.
Lemma or_00_l : forall a, fbyte N.lor x00 a = a. Proof. destruct a; reflexivity. Qed.
Lemma num_0 : forall x, num (x00 :: x) = num x. Proof. reflexivity. Qed.
Lemma shiftr_num : forall x y k, k = (8 * N.of_nat (length y))%N -> N.shiftr (num (x ++ y)) k = num x.
Proof.
  intros x y k ->. rewrite N.shiftr_div_pow2, num_app. rewrite N.pow_mul_r. change (2 ^ 8)%N with 256%N.
  rewrite N.div_add_l by (apply N.pow_nonzero; discriminate). rewrite N.div_small by apply num_lt. lia.
Qed.
Lemma shiftl_num : forall x n k, k = (8 * N.of_nat n)%N -> N.shiftl (num x) k = num (x ++ repeat x00 n).
Proof.
  intros x n k ->. rewrite N.shiftl_mul_pow2, num_app, repeat_length, N.pow_mul_r. change (2 ^ 8)%N with 256%N.
  assert (Z : num (repeat x00 n) = 0%N).
  { clear. unfold num. induction n as [| n IH]; [reflexivity |]. cbn. exact IH. }
  rewrite Z. lia.
Qed.
Ltac masks := repeat first [rewrite and_ff | rewrite and_00 | rewrite or_00 | rewrite or_00_l].
Lemma byte_swap_num : forall x, length x = 8 -> ByteSwap (num x) = num (rev x).
Proof.
  intros x H. destruct x as [| a [| b [| c [| d [| e [| f [| g [| h [| ? ?]]]]]]]]]; try discriminate. clear H.
  unfold ByteSwap. cbn zeta.
  change 0xffffffff00000000%N with (num [xff; xff; xff; xff; x00; x00; x00; x00]).
  change 0x00000000ffffffff%N with (num [x00; x00; x00; x00; xff; xff; xff; xff]).
  change 0xffff0000ffff0000%N with (num [xff; xff; x00; x00; xff; xff; x00; x00]).
  change 0x0000ffff0000ffff%N with (num [x00; x00; xff; xff; x00; x00; xff; xff]).
  change 0xff00ff00ff00ff00%N with (num [xff; x00; xff; x00; xff; x00; xff; x00]).
  change 0x00ff00ff00ff00ff%N with (num [x00; xff; x00; xff; x00; xff; x00; xff]).
  assert (S1 : N.lor (N.shiftr (N.land (num [a; b; c; d; e; f; g; h]) (num [xff; xff; xff; xff; x00; x00; x00; x00])) 32)
    (N.shiftl (N.land (num [a; b; c; d; e; f; g; h]) (num [x00; x00; x00; x00; xff; xff; xff; xff])) 32) =
    num [e; f; g; h; a; b; c; d]).
  { rewrite <- !num_and by reflexivity. cbn [fbytes]. masks.
    rewrite (shiftr_num [a; b; c; d] [x00; x00; x00; x00]) by reflexivity.
    rewrite (shiftl_num _ 4) by reflexivity. cbn [app repeat]. rewrite !num_0.
    change (num [a; b; c; d]) with (num [x00; x00; x00; x00; a; b; c; d]).
    rewrite <- num_or by reflexivity. cbn [fbytes]. masks. reflexivity. }
  rewrite S1. clear S1.
  assert (S2 : N.lor (N.shiftr (N.land (num [e; f; g; h; a; b; c; d]) (num [xff; xff; x00; x00; xff; xff; x00; x00])) 16)
    (N.shiftl (N.land (num [e; f; g; h; a; b; c; d]) (num [x00; x00; xff; xff; x00; x00; xff; xff])) 16) =
    num [g; h; e; f; c; d; a; b]).
  { rewrite <- !num_and by reflexivity. cbn [fbytes]. masks.
    rewrite (shiftr_num [e; f; x00; x00; a; b] [x00; x00]) by reflexivity.
    rewrite (shiftl_num _ 2) by reflexivity. cbn [app repeat]. rewrite !num_0.
    change (num [e; f; x00; x00; a; b]) with (num [x00; x00; e; f; x00; x00; a; b]).
    rewrite <- num_or by reflexivity. cbn [fbytes]. masks. reflexivity. }
  rewrite S2. clear S2.
  rewrite <- !num_and by reflexivity. cbn [fbytes]. masks.
  rewrite (shiftr_num [g; x00; e; x00; c; x00; a] [x00]) by reflexivity.
  rewrite (shiftl_num _ 1) by reflexivity. cbn [app repeat]. rewrite !num_0.
  change (num [g; x00; e; x00; c; x00; a]) with (num [x00; g; x00; e; x00; c; x00; a]).
  rewrite <- num_or by reflexivity. cbn [fbytes]. masks. reflexivity.
Qed.
Lemma be_load64 : forall x, length x = 8 -> BigEndianLoad64 x = num x.
Proof.
  intros x H. unfold BigEndianLoad64, Load64. rewrite firstn_all2 by lia. rewrite load_le_num, byte_swap_num by (rewrite rev_length; exact H).
  rewrite rev_involutive. reflexivity.
Qed.
Lemma be_store64 : forall n, (n < 2 ^ 64)%N -> BigEndianStore64 n = be_bytes 8 n.
Proof.
  intros n H. unfold BigEndianStore64. assert (E : n = num (be_bytes 8 n)).
  { rewrite num_be_bytes. symmetry. apply N.mod_small. exact H. }
  rewrite E at 1. rewrite byte_swap_num by apply be_bytes_length. apply store_load. apply be_bytes_length.
Qed.

(** ** Doubling *)
Lemma lxor_low : forall k h l c, (l < 2 ^ k)%N -> (c < 2 ^ k)%N -> N.lxor (h * 2 ^ k + l) c = (h * 2 ^ k + N.lxor l c)%N.
Proof.
  intros k h l c Hl Hc. replace c with (0 * 2 ^ k + c)%N at 1 by lia.
  rewrite (bitwise_cat N.lxor xorb xor_spec eq_refl) by assumption. rewrite N.lxor_0_r. reflexivity.
Qed.
Lemma lxor_small : forall k a b, (a < 2 ^ k)%N -> (b < 2 ^ k)%N -> (N.lxor a b < 2 ^ k)%N.
Proof. exact (bitwise_small N.lxor xorb xor_spec eq_refl). Qed.
Lemma num_16 : forall x, length x = 16 -> (num x < 2 ^ 128)%N.
Proof. intros x H. pose proof (num_lt x) as L. rewrite H in L. exact L. Qed.
Lemma block_of_num : forall x, length x = 16 -> block_of (num x) = x.
Proof. intros x H. unfold block_of. rewrite <- H. apply be_bytes_num. Qed.
Lemma block_of_length : forall n, length (block_of n) = 16.
Proof. intros. apply be_bytes_length. Qed.
Lemma dbl_length : forall x, length (dbl x) = 16.
Proof. intros. apply block_of_length. Qed.

Lemma small2 : forall n, (n < 2)%N -> (n = 0 \/ n = 1)%N.
Proof. intros n H. lia. Qed.
Lemma eax_dbl : forall x, length x = 16 -> eax_multiply_by_x x = dbl x.
Proof.
  intros x H. unfold eax_multiply_by_x. destruct (split8 x H) as (Ex & X1 & X2).
  assert (L1 : BigEndianLoad64 x = num (firstn 8 x)).
  { rewrite <- be_load64 by exact X1. unfold BigEndianLoad64, Load64. rewrite firstn_firstn. reflexivity. }
  rewrite L1, (be_load64 _ X2). set (h := num (firstn 8 x)). set (l := num (skipn 8 x)).
  assert (Hh : (h < 2 ^ 64)%N) by (pose proof (num_lt (firstn 8 x)) as L; rewrite X1 in L; exact L).
  assert (Hl : (l < 2 ^ 64)%N) by (pose proof (num_lt (skipn 8 x)) as L; rewrite X2 in L; exact L).
  assert (En : num x = (h * 2 ^ 64 + l)%N).
  { rewrite Ex, num_app, X2. reflexivity. }
  change 18446744073709551616%N with (2 ^ 64)%N in *. unfold u64. change 18446744073709551616%N with (2 ^ 64)%N.
  rewrite !N.shiftl_mul_pow2, !N.shiftr_div_pow2. change (2 ^ 1)%N with 2%N.
  assert (B1 : (h / 2 ^ 63 = 0 \/ h / 2 ^ 63 = 1)%N).
  { apply small2. apply N.div_lt_upper_bound; [discriminate | exact Hh]. }
  assert (B2 : (l / 2 ^ 63 = 0 \/ l / 2 ^ 63 = 1)%N).
  { apply small2. apply N.div_lt_upper_bound; [discriminate | exact Hl]. }
  assert (M : forall v, (v < 2 ^ 64)%N -> (v * 2 = (v / 2 ^ 63) * 2 ^ 64 + (v * 2) mod 2 ^ 64)%N).
  { intros v Hv. pose proof (N.div_mod (v * 2) (2 ^ 64) ltac:(discriminate)) as D.
    replace (v * 2 / 2 ^ 64)%N with (v / 2 ^ 63)%N in D; [lia |].
    change (2 ^ 64)%N with (2 ^ 63 * 2)%N. rewrite N.div_mul_cancel_r by discriminate. reflexivity. }
  assert (Ev : forall v, exists w, ((v * 2) mod 2 ^ 64 = w * 2 ^ 1 + 0)%N /\ (w < 2 ^ 63)%N).
  { intros v. exists (v mod 2 ^ 63)%N. change (2 ^ 64)%N with (2 ^ 63 * 2)%N.
    rewrite N.mul_mod_distr_r by discriminate. split; [lia | apply N.mod_lt; discriminate]. }
  assert (O : N.lxor ((h * 2) mod 2 ^ 64) (l / 2 ^ 63) = ((h * 2) mod 2 ^ 64 + l / 2 ^ 63)%N).
  { destruct (Ev h) as (w & -> & _). rewrite lxor_low; [| reflexivity | destruct B2 as [-> | ->]; reflexivity].
    rewrite N.lxor_0_l. lia. }
  rewrite O.
  assert (Oh : (h * 2 mod 2 ^ 64 + l / 2 ^ 63 < 2 ^ 64)%N).
  { destruct (Ev h) as (w & -> & Hw). change (2 ^ 1)%N with 2%N. change (2 ^ 64)%N with (2 ^ 63 * 2)%N. lia. }
  set (c := N.land 135 ((2 ^ 64 - h / 2 ^ 63) mod 2 ^ 64)).
  assert (C : c = if (num x <? 2 ^ 127)%N then 0%N else 135%N).
  { unfold c. destruct (num x <? 2 ^ 127)%N eqn:E.
    - apply N.ltb_lt in E. assert (h / 2 ^ 63 = 0)%N as ->; [| reflexivity].
      apply N.div_small. rewrite En in E. change (2 ^ 127)%N with (2 ^ 63 * 2 ^ 64)%N in E. nia.
    - apply N.ltb_ge in E. destruct B1 as [B1 | ->]; [| reflexivity]. exfalso.
      assert (h < 2 ^ 63)%N by (apply N.div_small_iff in B1; [exact B1 | discriminate]).
      rewrite En in E. change (2 ^ 127)%N with (2 ^ 63 * 2 ^ 64)%N in E. nia. }
  assert (Hc : (c < 2 ^ 64)%N) by (rewrite C; destruct (num x <? 2 ^ 127)%N; reflexivity).
  assert (L2 : (l * 2 mod 2 ^ 64 < 2 ^ 64)%N) by (apply N.mod_lt; discriminate).
  rewrite !be_store64 by (try exact Oh; apply lxor_small; assumption).
  symmetry. apply be_bytes_eq; [rewrite app_length, !be_bytes_length; reflexivity |].
  rewrite num_app, !num_be_bytes, be_bytes_length. change (256 ^ N.of_nat 8)%N with (2 ^ 64)%N.
  rewrite (N.mod_small _ _ Oh). rewrite (N.mod_small (N.lxor _ _)) by (apply lxor_small; assumption).
  rewrite <- lxor_low by assumption. rewrite <- C.
  assert (D : (2 * num x mod 2 ^ 128 = (h * 2 mod 2 ^ 64 + l / 2 ^ 63) * 2 ^ 64 + l * 2 mod 2 ^ 64)%N).
  { rewrite En. replace (2 * (h * 2 ^ 64 + l))%N with ((h * 2) * 2 ^ 64 + l * 2)%N by lia. rewrite (M l Hl) at 1.
    rewrite (M h Hh) at 1. set (r := (h * 2 mod 2 ^ 64)%N) in *.
    replace (((h / 2 ^ 63) * 2 ^ 64 + r) * 2 ^ 64 + (l / 2 ^ 63 * 2 ^ 64 + l * 2 mod 2 ^ 64))%N
      with (((r + l / 2 ^ 63) * 2 ^ 64 + l * 2 mod 2 ^ 64) + (h / 2 ^ 63) * 2 ^ 128)%N
      by (change (2 ^ 128)%N with (2 ^ 64 * 2 ^ 64)%N; lia).
    rewrite N.mod_add by discriminate. apply N.mod_small. change (2 ^ 128)%N with (2 ^ 64 * 2 ^ 64)%N. nia. }
  rewrite D. symmetry. apply N.mod_small. change (256 ^ N.of_nat 16)%N with (2 ^ 128)%N. apply lxor_small.
  - change (2 ^ 128)%N with (2 ^ 64 * 2 ^ 64)%N. nia.
  - rewrite C. destruct (num x <? 2 ^ 127)%N; reflexivity.
Qed.
