(** Proofs: counter mode, CMAC, EAX and SIV. *)
From Coq Require Import Strings.Byte Strings.String List NArith ZArith Bool Lia.
From Verif Require Import M_Base M_StreamTypes M_CcStream M_CcManagers M_CcModes S_CcModes L_Base L_CcModes.
Import ListNotations.
Open Scope list_scope.
Open Scope nat_scope.

(** ** Doubling by bytes *)
Lemma num_cons : forall c x, num (c :: x) = (Byte.to_N c * 256 ^ N.of_nat (length x) + num x)%N.
Proof. intros. change (c :: x) with ([c] ++ x). rewrite num_app. reflexivity. Qed.
Lemma shr7_cases : forall b, (shr7 b = x00 /\ Byte.to_N b / 128 = 0)%N \/ (shr7 b = x01 /\ Byte.to_N b / 128 = 1)%N.
Proof. destruct b; (left; split; reflexivity) || (right; split; reflexivity). Qed.
Lemma shl_or_0 : forall a, Byte.to_N (or_byte (shl1 a) x00) = ((2 * Byte.to_N a) mod 256)%N.
Proof. destruct a; reflexivity. Qed.
Lemma shl_or_1 : forall a, Byte.to_N (or_byte (shl1 a) x01) = ((2 * Byte.to_N a) mod 256 + 1)%N.
Proof. destruct a; reflexivity. Qed.
Lemma shl_or : forall a b, Byte.to_N (or_byte (shl1 a) (shr7 b)) = ((2 * Byte.to_N a) mod 256 + Byte.to_N b / 128)%N.
Proof. intros a b. destruct (shr7_cases b) as [[-> ->] | [-> ->]]; [rewrite shl_or_0; lia | apply shl_or_1]. Qed.
Lemma double_cons : forall a b x K, (num (b :: x) < 256 * K)%N -> K = (256 ^ N.of_nat (length x))%N ->
  ((2 * (Byte.to_N a * (256 * K) + num (b :: x))) mod (256 * (256 * K)) =
  ((2 * Byte.to_N a) mod 256 + Byte.to_N b / 128) * (256 * K) + (2 * num (b :: x)) mod (256 * K))%N.
Proof.
  intros a b x K H EK. assert (K0 : (0 < K)%N) by (subst K; apply N.neq_0_lt_0, N.pow_nonzero; discriminate).
  pose proof (num_lt x) as Hx. rewrite <- EK in Hx.
  assert (T : (2 * num (b :: x) = (Byte.to_N b / 128) * (256 * K) + (2 * num (b :: x)) mod (256 * K))%N).
  { rewrite N.mul_comm with (n := (Byte.to_N b / 128)%N).
    rewrite (N.div_mod (2 * num (b :: x)) (256 * K)) at 1 by lia. f_equal. f_equal.
    symmetry. rewrite num_cons, <- EK. pose proof (to_N_lt b) as Hb.
    pose proof (N.div_mod (Byte.to_N b) 128 ltac:(discriminate)) as D. pose proof (N.mod_lt (Byte.to_N b) 128 ltac:(discriminate)) as Dl.
    apply (N.div_unique _ _ _ (2 * (Byte.to_N b mod 128) * K + 2 * num x)%N); nia. }
  set (r := ((2 * num (b :: x)) mod (256 * K))%N) in *. assert (Hr : (r < 256 * K)%N) by (apply N.mod_lt; lia).
  set (q := (Byte.to_N b / 128)%N) in *.
  assert (Hq : (q <= 1)%N) by (destruct (shr7_cases b) as [[_ Q] | [_ Q]]; unfold q; rewrite Q; lia).
  pose proof (N.div_mod (2 * Byte.to_N a) 256 ltac:(discriminate)) as D.
  assert (Ev : ((2 * Byte.to_N a) mod 256 + 1 < 256)%N) by (destruct a; reflexivity).
  set (m := ((2 * Byte.to_N a) mod 256)%N) in *. set (d := (2 * Byte.to_N a / 256)%N) in *.
  replace (2 * (Byte.to_N a * (256 * K) + num (b :: x)))%N with (((m + q) * (256 * K) + r) + d * (256 * (256 * K)))%N by nia.
  rewrite N.mod_add by nia. apply N.mod_small. nia.
Qed.
Lemma siv_shift_length : forall c x, length (siv_shift c x) = length x.
Proof. induction x as [| a [| b x] IH]; try reflexivity. cbn [siv_shift length] in *. rewrite IH. reflexivity. Qed.
Lemma siv_shift_num : forall c x, x <> [] ->
  num (siv_shift c x) = N.lxor ((2 * num x) mod 256 ^ N.of_nat (length x)) (Byte.to_N c).
Proof.
  induction x as [| a [| b x] IH]; intros H; [congruence | |].
  - cbn [siv_shift]. unfold num. cbn [fold_left]. rewrite !N.add_0_l. rewrite xor_byte_N. unfold shl1. rewrite byte_of_N_to_N. reflexivity.
  - change (siv_shift c (a :: b :: x)) with (or_byte (shl1 a) (shr7 b) :: siv_shift c (b :: x)).
    rewrite num_cons, siv_shift_length, IH by discriminate. rewrite shl_or. rewrite (num_cons a).
    change (length (a :: b :: x)) with (S (S (length x))). change (length (b :: x)) with (S (length x)).
    rewrite !Nat2N.inj_succ, !N.pow_succ_r'. set (K := (256 ^ N.of_nat (length x))%N).
    pose proof (num_lt (b :: x)) as L. change (length (b :: x)) with (S (length x)) in L. rewrite Nat2N.inj_succ, N.pow_succ_r' in L. fold K in L.
    rewrite (double_cons a b x K L eq_refl).
    assert (P : exists k, (256 * K = 2 ^ k)%N /\ (8 <= k)%N).
    { exists (8 * N.succ (N.of_nat (length x)))%N. rewrite N.pow_mul_r. change (2 ^ 8)%N with 256%N. rewrite N.pow_succ_r'. split; [reflexivity | lia]. }
    destruct P as (k & -> & Hk). symmetry. apply lxor_low; [apply N.mod_lt, N.pow_nonzero; discriminate |].
    eapply N.lt_le_trans; [apply to_N_lt |]. change 256%N with (2 ^ 8)%N. apply N.pow_le_mono_r; [discriminate | exact Hk].
Qed.
Lemma siv_dbl : forall x, length x = 16 -> siv_multiply_by_x x = dbl x.
Proof.
  intros x H. symmetry. apply be_bytes_eq; [unfold siv_multiply_by_x; rewrite siv_shift_length; exact H |].
  unfold siv_multiply_by_x. rewrite siv_shift_num by (intros ->; discriminate). rewrite H.
  change (256 ^ N.of_nat 16)%N with (2 ^ 128)%N.
  destruct x as [| a x]; [discriminate |]. cbn [hd].
  assert (L : length x = 15) by (injection H as H; exact H).
  pose proof (num_lt x) as Hx. rewrite L in Hx. change (256 ^ N.of_nat 15)%N with (2 ^ 120)%N in Hx.
  assert (E : num (a :: x) = (Byte.to_N a * 2 ^ 120 + num x)%N) by (rewrite num_cons, L; reflexivity).
  assert (C : Byte.to_N (if Byte.eqb (shr7 a) x00 then x00 else x87) = if (num (a :: x) <? 2 ^ 127)%N then 0%N else 135%N).
  { destruct (shr7_cases a) as [[-> Q] | [-> Q]]; cbn [Byte.eqb].
    - apply N.div_small_iff in Q; [| discriminate]. replace (num (a :: x) <? 2 ^ 127)%N with true; [reflexivity |].
      symmetry. apply N.ltb_lt. rewrite E. change (2 ^ 127)%N with (128 * 2 ^ 120)%N. set (K := (2 ^ 120)%N) in *. nia.
    - replace (num (a :: x) <? 2 ^ 127)%N with false; [reflexivity |].
      symmetry. apply N.ltb_ge. rewrite E. change (2 ^ 127)%N with (128 * 2 ^ 120)%N. set (K := (2 ^ 120)%N) in *.
      assert (128 <= Byte.to_N a)%N. { pose proof (N.mul_div_le (Byte.to_N a) 128 ltac:(discriminate)) as D. rewrite Q in D. lia. }
      nia. }
  rewrite C. symmetry. apply N.mod_small. apply lxor_small; [apply N.mod_lt; discriminate |].
  destruct (num (a :: x) <? 2 ^ 127)%N; reflexivity.
Qed.

(** ** Counter mode *)
Lemma increment_le_length : forall x, length (increment_le x) = length x.
Proof. induction x as [| a x IH]; [reflexivity |]. cbn. destruct (Byte.eqb a xff); cbn; congruence. Qed.
Lemma increment_le_num : forall x, num (rev (increment_le x)) = ((num (rev x) + 1) mod 256 ^ N.of_nat (length x))%N.
Proof.
  induction x as [| a x IH]; [reflexivity |]. cbn [increment_le rev length]. rewrite Nat2N.inj_succ, N.pow_succ_r', num_snoc.
  pose proof (num_lt (rev x)) as Hx. rewrite rev_length in Hx. pose proof (to_N_lt a) as Ha. set (K := (256 ^ N.of_nat (length x))%N) in *.
  destruct (Byte.eqb a xff) eqn:E; cbn [rev]; rewrite num_snoc.
  - apply byte_eqb_spec in E. subst a. rewrite IH. change (Byte.to_N x00) with 0%N. change (Byte.to_N xff) with 255%N.
    replace (num (rev x) * 256 + 255 + 1)%N with ((num (rev x) + 1) * 256)%N by lia.
    rewrite (N.mul_comm 256 K). rewrite N.mul_mod_distr_r by lia. lia.
  - assert (Na : (Byte.to_N a < 255)%N).
    { assert (Byte.to_N a <> 255%N); [| lia]. intros X. change 255%N with (Byte.to_N xff) in X. apply to_N_inj in X. subst a. discriminate. }
    rewrite byte_of_N_to_N, (N.mod_small (Byte.to_N a + 1)) by lia. rewrite N.mod_small by nia. lia.
Qed.
Lemma increment_block : forall n, increment (block_of n) = block_of (n + 1).
Proof.
  intros n. symmetry. apply be_bytes_eq; [unfold increment; rewrite rev_length, increment_le_length, rev_length; apply block_of_length |].
  unfold increment. rewrite increment_le_num, rev_involutive, rev_length, block_of_length. unfold block_of. rewrite num_be_bytes.
  rewrite N.add_mod_idemp_l by discriminate. reflexivity.
Qed.
Definition keystream (E : bytes -> bytes) (s : N) (i : nat) : byte := nth (i mod 16) (E (block_of (s + N.of_nat (i / 16)))) x00.
Lemma aes_ctr128_nth : forall E data s p iv ecount,
  iv = block_of (s + N.of_nat ((p + 15) / 16)) ->
  (p mod 16 <> 0 -> ecount = E (block_of (s + N.of_nat (p / 16)))) ->
  length (aes_ctr128 E iv ecount (p mod 16) data) = length data /\
  forall i, i < length data -> nth i (aes_ctr128 E iv ecount (p mod 16) data) x00 = xor_byte (nth i data x00) (keystream E s (p + i)).
Proof.
  induction data as [| c data IH]; intros s p iv ecount Hiv He; cbn [aes_ctr128 length]; [split; [reflexivity | intros i H; lia] |].
  pose proof (Nat.div_mod p 16 ltac:(discriminate)) as D. pose proof (Nat.mod_upper_bound p 16 ltac:(discriminate)) as B.
  pose proof (Nat.div_mod (p + 15) 16 ltac:(discriminate)) as D15. pose proof (Nat.mod_upper_bound (p + 15) 16 ltac:(discriminate)) as B15.
  pose proof (Nat.div_mod (p + 1) 16 ltac:(discriminate)) as D1. pose proof (Nat.mod_upper_bound (p + 1) 16 ltac:(discriminate)) as B1.
  pose proof (Nat.div_mod (p + 1 + 15) 16 ltac:(discriminate)) as D16. pose proof (Nat.mod_upper_bound (p + 1 + 15) 16 ltac:(discriminate)) as B16.
  replace ((p mod 16 + 1) mod 16) with ((p + 1) mod 16) by (rewrite <- Nat.add_mod_idemp_l by discriminate; reflexivity).
  set (ecount' := if Nat.eqb (p mod 16) 0 then E iv else ecount). set (iv' := if Nat.eqb (p mod 16) 0 then increment iv else iv).
  assert (X : ecount' = E (block_of (s + N.of_nat (p / 16))) /\ iv' = block_of (s + N.of_nat ((p + 1 + 15) / 16))).
  { unfold ecount', iv'. destruct (Nat.eqb (p mod 16) 0) eqn:Z.
    - apply Nat.eqb_eq in Z. subst iv. replace ((p + 15) / 16) with (p / 16) by lia. split; [reflexivity |].
      rewrite increment_block. f_equal. replace ((p + 1 + 15) / 16) with (S (p / 16)) by lia. lia.
    - apply Nat.eqb_neq in Z. split; [apply He; exact Z |]. subst iv. f_equal. f_equal. f_equal. lia. }
  destruct X as [X1 X2].
  destruct (IH s (p + 1) iv' ecount' X2) as [I1 I2].
  { intros Z. rewrite X1. f_equal. f_equal. f_equal. f_equal. lia. }
  split; [rewrite I1; reflexivity |]. intros [| i] Hi; cbn [nth].
  - rewrite Nat.add_0_r. unfold keystream. rewrite X1. reflexivity.
  - rewrite I2 by lia. replace (p + S i) with (p + 1 + i) by lia. reflexivity.
Qed.
Lemma xors_one : forall a b, xors [a] [b] = [xor_byte a b].
Proof. reflexivity. Qed.
Theorem ctr_crypt_spec : forall E P iv, length iv = 16 -> ctr_mode E iv P (AesCtr128Crypt E P iv).
Proof.
  intros E P iv H. unfold AesCtr128Crypt, ctr_mode. change 0 with (0 mod 16).
  destruct (aes_ctr128_nth E P (num iv) 0 iv (repeat x00 16)) as [A B].
  - cbn. rewrite N.add_0_r. symmetry. apply block_of_num. exact H.
  - intros X. exfalso. apply X. reflexivity.
  - split; [exact A |]. intros i Hi. rewrite xors_one, B by exact Hi. reflexivity.
Qed.
Lemma ctr_mode_sym : forall E iv P C, ctr_mode E iv P C -> ctr_mode E iv C P.
Proof.
  intros E iv P C [L H]. split; [congruence |]. intros i Hi. rewrite xors_one. rewrite L in Hi. specialize (H i Hi). rewrite xors_one in H.
  injection H as H. rewrite H, xor_byte_twice. reflexivity.
Qed.
Lemma ctr_mode_fun : forall E iv P C C', ctr_mode E iv P C -> ctr_mode E iv P C' -> C = C'.
Proof.
  intros E iv P C C' [L H] [L' H']. apply (nth_ext _ _ x00 x00); [congruence |]. intros i Hi. rewrite L in Hi.
  specialize (H i Hi). specialize (H' i Hi). congruence.
Qed.

(** ** Blocks *)
Lemma skip_skip : forall (n m : nat) (l : bytes), skipn n (skipn m l) = skipn (n + m) l.
Proof.
  induction m as [| m IH]; intros l; [rewrite Nat.add_0_r; reflexivity |]. rewrite Nat.add_succ_r.
  destruct l as [| c l]; [cbn; apply skipn_nil | cbn [skipn]; apply IH].
Qed.
Lemma chunks : forall k (M : bytes), length M <= k -> exists full last, M = concat full ++ last /\ Forall (fun b => length b = 16) full /\
  length last <= 16 /\ (last = [] -> full = []) /\ length M = 16 * length full + length last.
Proof.
  induction k as [| k IH]; intros M H.
  - exists [], []. destruct M; [| cbn in H; lia]. split; [reflexivity |]. split; [constructor |]. cbn. split; [lia |]. split; [auto | reflexivity].
  - destruct (Nat.le_gt_cases (length M) 16) as [L | L].
    + exists [], M. split; [reflexivity |]. split; [constructor |]. split; [exact L |]. split; [auto | reflexivity].
    + destruct (IH (skipn 16 M)) as (full & last & E & F & Ll & Hn & Hl); [rewrite skipn_length; lia |].
      exists (firstn 16 M :: full), last. rewrite skipn_length in Hl. split; [cbn [concat]; rewrite <- app_assoc, <- E, firstn_skipn; reflexivity |].
      split; [constructor; [rewrite firstn_length; lia | exact F] |]. split; [exact Ll |]. split; [| cbn [length]; lia].
      intros ->. rewrite (Hn eq_refl) in Hl. cbn in Hl. lia.
Qed.
Lemma app_len_inj : forall (a b c d : bytes), length a = length c -> a ++ b = c ++ d -> a = c /\ b = d.
Proof.
  induction a as [| x a IH]; intros b [| y c] d L H; try discriminate; [auto |]. injection H as -> H. injection L as L.
  destruct (IH _ _ _ L H) as [-> ->]. auto.
Qed.
Lemma chunks_unique : forall full full' (last last' : bytes), concat full ++ last = concat full' ++ last' ->
  Forall (fun b => length b = 16) full -> Forall (fun b => length b = 16) full' -> length last <= 16 -> length last' <= 16 ->
  (last = [] -> full = []) -> (last' = [] -> full' = []) -> full = full' /\ last = last'.
Proof.
  induction full as [| b full IH]; intros [| b' full'] last last' E F F' L L' N N'; cbn [concat app] in E.
  - auto.
  - exfalso. apply Forall_inv in F'. pose proof (f_equal (@length byte) E) as X. rewrite <- app_assoc, !app_length in X.
    destruct last'; [discriminate (N' eq_refl) | cbn in X; lia].
  - exfalso. apply Forall_inv in F. pose proof (f_equal (@length byte) E) as X. rewrite <- app_assoc, !app_length in X.
    destruct last; [discriminate (N eq_refl) | cbn in X; lia].
  - rewrite <- !app_assoc in E. apply app_len_inj in E; [| rewrite (Forall_inv F), (Forall_inv F'); reflexivity]. destruct E as [-> E].
    destruct (IH full' last last' E (Forall_inv_tail F) (Forall_inv_tail F') L L') as [-> ->]; auto.
    + intros X. discriminate (N X).
    + intros X. discriminate (N' X).
Qed.
Theorem cmac_fun : forall E M T T', cmac E M T -> cmac E M T' -> T = T'.
Proof.
  intros E M T T' (full & last & E1 & F & L & N & ->) (full' & last' & E2 & F' & L' & N' & ->).
  destruct (chunks_unique full full' last last') as [-> ->]; auto. congruence.
Qed.

Lemma cbc_length : forall E blocks x, block_cipher E -> length x = 16 -> Forall (fun b => length b = 16) blocks ->
  length (fold_left (fun x m => E (xors x m)) blocks x) = 16.
Proof.
  induction blocks as [| b blocks IH]; intros x HE Hx F; [exact Hx |]. cbn [fold_left]. apply IH; [exact HE | | exact (Forall_inv_tail F)].
  apply HE. rewrite xors_f, xor_bytes_length, Hx, (Forall_inv F). reflexivity.
Qed.
Lemma cmac_length : forall E M T, block_cipher E -> cmac E M T -> length T = 16.
Proof.
  intros E M T HE (full & last & _ & F & L & _ & ->). apply HE. rewrite xors_f, xor_bytes_length.
  unfold cbc. rewrite cbc_length by (try assumption; reflexivity).
  destruct (Nat.eqb (length last) 16) eqn:X; rewrite xors_f, xor_bytes_length, dbl_length.
  - apply Nat.eqb_eq in X. rewrite X. reflexivity.
  - apply Nat.eqb_neq in X. unfold pad. rewrite app_length. cbn [length]. rewrite repeat_length. lia.
Qed.
Lemma pad_length : forall last, length last < 16 -> length (pad last) = 16.
Proof. intros last H. unfold pad. rewrite app_length. cbn [length]. rewrite repeat_length. lia. Qed.

(** ** EAX *)
Section EaxProofs.
  Variable E : bytes -> bytes.
  Hypothesis HE : block_cipher E.
  Let k1 := dbl (E zero_block).
  Let k2 := dbl k1.
  Lemma zero_len : length zero_block = 16. Proof. reflexivity. Qed.
  Lemma eax_B_spec : eax_B E = k1.
  Proof. unfold eax_B. apply eax_dbl. apply HE. reflexivity. Qed.
  Lemma eax_P_spec : eax_P E = k2.
  Proof. unfold eax_P. rewrite eax_B_spec. apply eax_dbl. apply dbl_length. Qed.
  Lemma eax_pad_spec : forall last, length last <= 16 ->
    eax_pad E last = (if Nat.eqb (length last) 16 then xors last k1 else xors (pad last) k2) /\ length (eax_pad E last) = 16.
  Proof.
    intros last L. unfold eax_pad, kBlockSize. rewrite eax_B_spec, eax_P_spec. destruct (Nat.eqb (length last) 16) eqn:X.
    - apply Nat.eqb_eq in X. rewrite X. cbn [Nat.sub repeat]. rewrite app_nil_r.
      rewrite eax_xor_block_spec by (try exact X; apply dbl_length). rewrite xor_bytes_comm, xors_f. split; [reflexivity |].
      rewrite xor_bytes_length, X. unfold k1. rewrite dbl_length. reflexivity.
    - apply Nat.eqb_neq in X.
      assert (P : firstn (length last) (last ++ repeat x00 (16 - length last)) ++ [x80] ++
                  skipn (length last + 1) (last ++ repeat x00 (16 - length last)) = pad last).
      { rewrite firstn_app, Nat.sub_diag, firstn_all. cbn [firstn]. rewrite app_nil_r. unfold pad. f_equal. cbn [app]. f_equal.
        replace (16 - length last) with (1 + (15 - length last)) by lia. cbn [repeat Nat.add].
        rewrite skipn_app. rewrite skipn_all2 by lia. replace (length last + 1 - length last) with 1 by lia. reflexivity. }
      rewrite P. rewrite eax_xor_block_spec by (try apply dbl_length; apply pad_length; lia). rewrite xor_bytes_comm, xors_f. split; [reflexivity |].
      rewrite xor_bytes_length, pad_length by lia. unfold k2. rewrite dbl_length. reflexivity.
  Qed.
  Lemma omac_loop_spec : forall full last fuel mac, Forall (fun b => length b = 16) full -> length last <= 16 -> (last = [] -> full = []) ->
    length mac = 16 -> length full <= fuel ->
    omac_loop E fuel mac (concat full ++ last) =
    E (xors (fold_left (fun x m => E (xors x m)) full mac) (if Nat.eqb (length last) 16 then xors last k1 else xors (pad last) k2)).
  Proof.
    induction full as [| b full IH]; intros last fuel mac F L Nl Hm Hf.
    - destruct (eax_pad_spec last L) as [P Pl].
      assert (G : E (eax_xor_block (eax_pad E last) mac) = E (xors mac (if Nat.eqb (length last) 16 then xors last k1 else xors (pad last) k2))).
      { rewrite eax_xor_block_spec by assumption. rewrite <- P, xor_bytes_comm, (xors_f mac). reflexivity. }
      cbn [concat app fold_left]. destruct fuel; cbn [omac_loop]; [exact G |].
      replace (Nat.ltb kBlockSize (length last)) with false by (symmetry; apply Nat.ltb_ge; exact L). exact G.
    - destruct fuel as [| fuel]; [cbn in Hf; lia |]. cbn [omac_loop concat]. rewrite <- app_assoc.
      pose proof (Forall_inv F) as Hb. cbn beta in Hb.
      assert (last <> []) by (intros ->; discriminate (Nl eq_refl)).
      replace (Nat.ltb kBlockSize (length (b ++ concat full ++ last))) with true.
      2: { symmetry. apply Nat.ltb_lt. unfold kBlockSize. rewrite !app_length, Hb. destruct last; [congruence | cbn; lia]. }
      assert (Ef : firstn kBlockSize (b ++ concat full ++ last) = b).
      { unfold kBlockSize. rewrite <- Hb, firstn_app, Nat.sub_diag, firstn_all. apply app_nil_r. }
      assert (Es : skipn kBlockSize (b ++ concat full ++ last) = concat full ++ last).
      { unfold kBlockSize. rewrite <- Hb, skipn_app, Nat.sub_diag, skipn_all. reflexivity. }
      rewrite Ef, Es. rewrite eax_xor_block_spec by assumption. rewrite xor_bytes_comm.
      cbn [fold_left]. rewrite (xors_f mac b). apply IH; [exact (Forall_inv_tail F) | exact L | congruence | | cbn in Hf; lia].
      apply HE. rewrite xor_bytes_length, Hm, Hb. reflexivity.
  Qed.
  Lemma tag_block : forall t, repeat x00 15 ++ [t] = block_of (Byte.to_N t).
  Proof. destruct t; reflexivity. Qed.
  Lemma eax_omac_spec : forall data t, cmac E (block_of (Byte.to_N t) ++ data) (eax_omac E data t).
  Proof.
    intros data t. unfold eax_omac. rewrite tag_block. set (b := block_of (Byte.to_N t)).
    assert (Lb : length b = 16) by apply block_of_length.
    destruct data as [| c data].
    - exists [], b. split; [apply app_nil_r |]. split; [constructor |]. split; [lia |]. split; [auto |]. cbv zeta.
      rewrite Lb. cbn [Nat.eqb]. fold k1. rewrite eax_B_spec. rewrite eax_xor_block_spec by (try exact Lb; apply dbl_length).
      rewrite !xors_f. unfold cbc. cbn [fold_left]. rewrite (xor_bytes_comm zero_block). unfold zero_block. rewrite xor_bytes_0.
      + rewrite xor_bytes_comm. reflexivity.
      + rewrite xor_bytes_length. lia.
    - set (d := c :: data) in *. destruct (chunks (length d) d (le_n _)) as (full & last & Ed & F & L & Nl & Hl).
      exists (b :: full), last. cbn [concat]. rewrite <- app_assoc, <- Ed. split; [reflexivity |]. split; [constructor; assumption |].
      split; [exact L |]. split.
      { intros ->. rewrite (Nl eq_refl) in Ed. discriminate. }
      cbv zeta. fold k1 k2. transitivity (omac_loop E (length d) (E b) (concat full ++ last)); [rewrite <- Ed; reflexivity |].
      rewrite omac_loop_spec; [| exact F | exact L | exact Nl | apply HE; exact Lb | lia].
      unfold cbc. cbn [fold_left]. rewrite (xors_f zero_block), (xor_bytes_comm zero_block). unfold zero_block. rewrite xor_bytes_0 by lia. reflexivity.
  Qed.

  Lemma omac_len : forall data t, length (eax_omac E data t) = 16.
  Proof. intros. eapply cmac_length; [exact HE | apply eax_omac_spec]. Qed.
  Lemma omac_defined_spec : forall a b, (omac_defined a && omac_defined b)%bool = true <-> eax_sizes b a.
  Proof. intros a b. unfold omac_defined, eax_sizes. rewrite andb_true_iff, !N.leb_le. change 2147483648%N with (2 ^ 31)%N. tauto. Qed.
  Let tag (nonce ad c : bytes) : bytes :=
    eax_xor_block (eax_omac E ad x01) (eax_xor_block (eax_omac E nonce x00) (eax_omac E c x02)).
  Lemma tag_spec : forall nonce ad c,
    tag nonce ad c = xors (xors (eax_omac E nonce x00) (eax_omac E ad x01)) (eax_omac E c x02) /\ length (tag nonce ad c) = 16.
  Proof.
    intros nonce ad c. unfold tag. rewrite (eax_xor_block_spec (eax_omac E nonce x00)) by apply omac_len.
    rewrite eax_xor_block_spec by (try apply omac_len; rewrite xor_bytes_length, !omac_len; reflexivity).
    rewrite !xors_f, <- xor_bytes_assoc, (xor_bytes_comm (eax_omac E ad x01)). split; [reflexivity |].
    rewrite !xor_bytes_length, !omac_len. reflexivity.
  Qed.
  Lemma eax_ciphertext_iff : forall nonce ad P C, eax_ciphertext E nonce ad P C <->
    C = nonce ++ AesCtr128Crypt E P (eax_omac E nonce x00) ++ tag nonce ad (AesCtr128Crypt E P (eax_omac E nonce x00)).
  Proof.
    intros nonce ad P C. split.
    - intros (n & h & c & t & Hn & Hh & Hc & Ht & ->).
      rewrite (cmac_fun _ _ _ _ Hn (eax_omac_spec nonce x00)) in *. rewrite (cmac_fun _ _ _ _ Hh (eax_omac_spec ad x01)) in *.
      rewrite (ctr_mode_fun _ _ _ _ _ Hc (ctr_crypt_spec E P _ (omac_len nonce x00))) in *.
      rewrite (cmac_fun _ _ _ _ Ht (eax_omac_spec _ x02)). rewrite (proj1 (tag_spec _ _ _)). reflexivity.
    - intros ->. eexists. eexists. eexists. eexists. split; [apply (eax_omac_spec nonce x00) |]. split; [apply (eax_omac_spec ad x01) |].
      split; [apply ctr_crypt_spec, omac_len |]. split; [apply (eax_omac_spec _ x02) |]. rewrite (proj1 (tag_spec _ _ _)). reflexivity.
  Qed.
  Theorem eax_encrypt_spec : forall nonce P ad,
    (eax_sizes P ad -> exists C, eax_encrypt E nonce P ad = StOk C /\ eax_ciphertext E nonce ad P C) /\
    (~ eax_sizes P ad -> eax_encrypt E nonce P ad = StErr Undefined).
  Proof.
    intros nonce P ad. unfold eax_encrypt. pose proof (omac_defined_spec ad P) as D.
    destruct (omac_defined ad && omac_defined P)%bool; cbn [negb]; split.
    - intros _. eexists. split; [reflexivity |]. apply eax_ciphertext_iff. reflexivity.
    - intros H. exfalso. apply H, D. reflexivity.
    - intros H. apply D in H. discriminate.
    - reflexivity.
  Qed.
  Theorem eax_decrypt_spec : forall ns C ad P,
    eax_decrypt E ns C ad = StOk P <-> eax_sizes P ad /\ exists nonce, length nonce = ns /\ eax_ciphertext E nonce ad P C.
  Proof.
    intros ns C ad P. unfold eax_decrypt, kTagSize. split.
    - destruct (Nat.ltb (length C) (ns + 16)) eqn:L; [discriminate |]. apply Nat.ltb_ge in L.
      set (nonce := firstn ns C). set (c := firstn (length C - 16 - ns) (skipn ns C)). set (t := skipn (length C - 16) C).
      destruct (omac_defined ad && omac_defined c)%bool eqn:D; cbn [negb]; [| discriminate].
      fold (tag nonce ad c). destruct (eax_equal_blocks (tag nonce ad c) t) eqn:Q; cbn [negb]; [| discriminate].
      intros H. injection H as H.
      assert (Lt : length t = 16) by (unfold t; rewrite skipn_length; lia).
      apply eax_equal_blocks_spec in Q; [| apply tag_spec | exact Lt].
      assert (Ln : length nonce = ns) by (unfold nonce; rewrite firstn_length; lia).
      assert (LP : length c = length P) by (rewrite <- H; symmetry; apply (ctr_crypt_spec E c _ (omac_len nonce x00))).
      split; [apply omac_defined_spec in D; unfold eax_sizes in *; rewrite <- LP; exact D |].
      exists nonce. split; [exact Ln |]. apply eax_ciphertext_iff.
      assert (X : AesCtr128Crypt E P (eax_omac E nonce x00) = c).
      { apply (ctr_mode_fun E (eax_omac E nonce x00) P); [apply ctr_crypt_spec, omac_len |]. apply ctr_mode_sym. rewrite <- H.
        apply ctr_crypt_spec, omac_len. }
      rewrite X, Q. transitivity (nonce ++ skipn ns C); [symmetry; apply firstn_skipn |]. f_equal.
      transitivity (c ++ skipn (length C - 16 - ns) (skipn ns C)); [symmetry; apply firstn_skipn |]. f_equal.
      unfold t. rewrite skip_skip. f_equal. lia.
    - intros (HS & nonce & Ln & HC). apply eax_ciphertext_iff in HC.
      set (c := AesCtr128Crypt E P (eax_omac E nonce x00)) in *.
      assert (Lc : length c = length P) by apply (proj1 (ctr_crypt_spec E P _ (omac_len nonce x00))).
      assert (LC : length C = ns + length c + 16).
      { rewrite HC, !app_length, (proj2 (tag_spec _ _ _)). lia. }
      replace (Nat.ltb (length C) (ns + 16)) with false by (symmetry; apply Nat.ltb_ge; lia).
      assert (E1 : firstn ns C = nonce).
      { rewrite HC, <- Ln, firstn_app, Nat.sub_diag, firstn_all. apply app_nil_r. }
      assert (E2 : skipn ns C = c ++ tag nonce ad c).
      { rewrite HC, <- Ln, skipn_app, Nat.sub_diag, skipn_all. reflexivity. }
      assert (E3 : firstn (length C - 16 - ns) (skipn ns C) = c).
      { rewrite E2. replace (length C - 16 - ns) with (length c) by lia. rewrite firstn_app, Nat.sub_diag, firstn_all. apply app_nil_r. }
      assert (E4 : skipn (length C - 16) C = tag nonce ad c).
      { replace (length C - 16) with (length c + ns) by lia. rewrite <- skip_skip, E2.
        rewrite skipn_app, Nat.sub_diag, skipn_all. reflexivity. }
      rewrite E1, E3, E4.
      assert (D : (omac_defined ad && omac_defined c)%bool = true).
      { apply omac_defined_spec. unfold eax_sizes in *. rewrite Lc. exact HS. }
      rewrite D. cbn [negb]. fold (tag nonce ad c).
      replace (eax_equal_blocks (tag nonce ad c) (tag nonce ad c)) with true by (symmetry; apply eax_equal_blocks_spec; try apply tag_spec; reflexivity).
      cbn [negb]. f_equal.
      apply (ctr_mode_fun E (eax_omac E nonce x00) c); [apply ctr_crypt_spec, omac_len |]. apply ctr_mode_sym. apply ctr_crypt_spec, omac_len.
  Qed.
  Lemma eax_ciphertext_length : forall nonce ad P C, eax_ciphertext E nonce ad P C -> length C = length nonce + length P + 16.
  Proof.
    intros nonce ad P C H. apply eax_ciphertext_iff in H. rewrite H, !app_length, (proj2 (tag_spec _ _ _)).
    rewrite (proj1 (ctr_crypt_spec E P _ (omac_len nonce x00))). lia.
  Qed.
End EaxProofs.
