(** num_to_bytes *)
From Coq Require Import Strings.Byte Strings.String List NArith ZArith Bool Lia.
From Verif Require Import M_Base L_Base M_BigInt S_BigInt.
Import ListNotations.
Open Scope list_scope.
Open Scope Z_scope.

Lemma pow256_pos : forall n, 0 < 256 ^ Z.of_nat n.
Proof. intros n. apply Z.pow_pos_nonneg; lia. Qed.

Lemma big_endian_app : forall x y, big_endian (x ++ y) = big_endian x * 256 ^ Z.of_nat (length y) + big_endian y.
Proof.
  induction x as [| b x IH]; intros y; cbn [app big_endian]; [lia |].
  rewrite IH, app_length, Nat2Z.inj_add, Z.pow_add_r by lia. ring.
Qed.

Lemma big_endian_bounds : forall x, 0 <= big_endian x < 256 ^ Z.of_nat (length x).
Proof.
  induction x as [| b x IH]; cbn [big_endian length]; [cbn; lia |].
  rewrite Nat2Z.inj_succ, Z.pow_succ_r by lia. pose proof (to_N_lt b). pose proof (pow256_pos (length x)).
  assert (Z.of_N (Byte.to_N b) <= 255) by lia. nia.
Qed.

Lemma be_digits_length : forall l n, length (be_digits l n) = l.
Proof. induction l as [| l IH]; intros n; cbn [be_digits]; [reflexivity |]. rewrite app_length, IH. cbn. lia. Qed.

Lemma be_digits_value : forall l n, (n < 256 ^ N.of_nat l)%N -> big_endian (be_digits l n) = Z.of_N n.
Proof.
  induction l as [| l IH]; intros n H; cbn [be_digits].
  - cbn in *. lia.
  - rewrite Nat2N.inj_succ, N.pow_succ_r in H by lia.
    rewrite big_endian_app, IH by (apply N.div_lt_upper_bound; lia). cbn [length big_endian].
    rewrite byte_of_N_to_N. change (256 ^ Z.of_nat 1) with 256. change (256 ^ Z.of_nat 0) with 1.
    rewrite N2Z.inj_div, N2Z.inj_mod. pose proof (Z.div_mod (Z.of_N n) 256). lia.
Qed.

Lemma big_endian_inj : forall x y, length x = length y -> big_endian x = big_endian y -> x = y.
Proof.
  induction x as [| b x IH]; intros [| c y] Hl H; try discriminate; [reflexivity |].
  injection Hl as Hl. cbn [big_endian] in H. rewrite <- Hl in H.
  pose proof (big_endian_bounds x). pose proof (big_endian_bounds y) as By. rewrite <- Hl in By.
  pose proof (pow256_pos (length x)).
  assert (E : Z.of_N (Byte.to_N b) = Z.of_N (Byte.to_N c)) by nia.
  f_equal; [apply to_N_inj; lia |]. apply IH; [exact Hl |]. rewrite E in H. lia.
Qed.

Lemma bit_length_bounds : forall p, let b := Z.of_N (bit_length (Zpos p)) in 2 ^ (b - 1) <= Zpos p < 2 ^ b.
Proof.
  intros p. cbn [bit_length]. cbv zeta. pose proof (N.size_gt (Npos p)) as H1. pose proof (N.size_le (Npos p)) as H2.
  assert (P : (0 < N.size (Npos p))%N).
  { cbn [N.size]. lia. }
  split.
  - assert (E : 2 ^ Z.of_N (N.size (Npos p)) = 2 * 2 ^ (Z.of_N (N.size (Npos p)) - 1)).
    { rewrite <- Z.pow_succ_r by lia. f_equal. lia. }
    assert (H3 : 2 ^ Z.of_N (N.size (Npos p)) <= Z.of_N (N.succ_double (Npos p))).
    { change 2 with (Z.of_N 2). rewrite <- N2Z.inj_pow. lia. }
    rewrite N.succ_double_spec in H3. rewrite E in H3.
    assert (0 < 2 ^ (Z.of_N (N.size (Npos p)) - 1)) by (apply Z.pow_pos_nonneg; lia). lia.
  - assert (Z.of_N (Npos p) < Z.of_N (2 ^ N.size (Npos p))) by lia. rewrite N2Z.inj_pow in H. exact H.
Qed.

Lemma size_bytes : forall p, let l := Z.of_N ((bit_length (Zpos p) + 7) / 8) in
  256 ^ (l - 1) <= Zpos p < 256 ^ l /\ 1 <= l.
Proof.
  intros p. cbv zeta. pose proof (bit_length_bounds p) as H. cbv zeta in H.
  set (b := bit_length (Z.pos p)) in *.
  assert (Pb : (1 <= b)%N).
  { destruct b eqn:E; [| lia]. cbn in H. lia. }
  rewrite N2Z.inj_div, N2Z.inj_add. change (Z.of_N 7) with 7. change (Z.of_N 8) with 8.
  set (l := (Z.of_N b + 7) / 8). assert (Hl : 8 * (l - 1) <= Z.of_N b - 1 /\ Z.of_N b <= 8 * l /\ 1 <= l).
  { unfold l. pose proof (Z.div_mod (Z.of_N b + 7) 8). pose proof (Z.mod_pos_bound (Z.of_N b + 7) 8). lia. }
  change 256 with (2 ^ 8). rewrite <- !Z.pow_mul_r by lia. split; [| lia]. split.
  - eapply Z.le_trans; [| apply H]. apply Z.pow_le_mono_r; lia.
  - eapply Z.lt_le_trans; [apply H |]. apply Z.pow_le_mono_r; lia.
Qed.

Theorem num_to_bytes_exact : forall n, 0 <= n ->
  exists x, num_to_bytes n = Ok x /\ x <> [] /\ big_endian x = n /\
    forall y, y <> [] -> big_endian y = n ->
      exists k, y = repeat x00 k ++ x.
Proof.
  intros n Hn. unfold num_to_bytes. destruct (Z.ltb_spec n 0); [lia |].
  assert (U : forall x, 0 < big_endian x -> 256 ^ (Z.of_nat (length x) - 1) <= big_endian x ->
    forall y, big_endian y = big_endian x -> exists k, y = repeat x00 k ++ x).
  { clear. intros x Hp Hx y Hy.
    assert (Hl : (length x <= length y)%nat).
    { pose proof (big_endian_bounds y) as [_ B]. rewrite Hy in B.
      assert (L : 256 ^ (Z.of_nat (length x) - 1) < 256 ^ Z.of_nat (length y)) by lia.
      apply Z.pow_lt_mono_r_iff in L; lia. }
    exists (length y - length x)%nat. apply big_endian_inj.
    - rewrite app_length, repeat_length. lia.
    - rewrite big_endian_app, Hy. assert (Z0 : forall k, big_endian (repeat x00 k) = 0).
      { induction k as [| k IH]; cbn [repeat big_endian]; [reflexivity |]. rewrite IH. cbn. reflexivity. }
      rewrite Z0. lia. }
  destruct (Z.eqb_spec n 0) as [-> | Hnz].
  - exists [x00]. split; [reflexivity |]. split; [discriminate |]. split; [reflexivity |].
    intros y Hy E. exists (length y - 1)%nat. apply big_endian_inj.
    + rewrite app_length, repeat_length. cbn [length]. destruct y; [congruence | cbn [length]; lia].
    + rewrite E, big_endian_app. assert (Z0 : forall k, big_endian (repeat x00 k) = 0).
      { induction k as [| k IH]; cbn [repeat big_endian]; [reflexivity |]. rewrite IH. cbn. reflexivity. }
      rewrite Z0. reflexivity.
  - destruct n as [| p | p]; [lia | | lia]. clear H Hnz. destruct (size_bytes p) as [[B1 B2] B3].
    set (l := ((bit_length (Z.pos p) + 7) / 8)%N) in *. unfold to_bytes_big. cbn [Z.ltb Z.compare Z.to_N].
    assert (Hlt : (Npos p < 256 ^ l)%N).
    { assert (Z.of_N (Npos p) < Z.of_N (256 ^ l)); [| lia]. rewrite N2Z.inj_pow. exact B2. }
    destruct (N.leb_spec (256 ^ l) (Npos p)); [lia |].
    assert (V : big_endian (be_digits (N.to_nat l) (Npos p)) = Zpos p).
    { rewrite be_digits_value; [reflexivity |]. rewrite N2Nat.id. exact Hlt. }
    eexists. split; [reflexivity |]. split; [| split; [exact V |]].
    + intros E. pose proof (be_digits_length (N.to_nat l) (Npos p)) as L. rewrite E in L. cbn in L. lia.
    + intros y _ Hy. apply U; [rewrite V; lia | | rewrite V; exact Hy].
      rewrite be_digits_length, V. replace (Z.of_nat (N.to_nat l)) with (Z.of_N l) by lia. exact B1.
Qed.

Theorem num_to_bytes_negative : forall n, n < 0 -> num_to_bytes n = Err OverflowError.
Proof. intros n H. unfold num_to_bytes. destruct (Z.ltb_spec n 0); [reflexivity | lia]. Qed.

Theorem num_to_bytes_injective : forall n m x, num_to_bytes n = Ok x -> num_to_bytes m = Ok x -> n = m.
Proof.
  intros n m x Hn Hm.
  assert (G : forall a, num_to_bytes a = Ok x -> big_endian x = a).
  { intros a Ha. destruct (Z.ltb_spec a 0) as [H | H]; [rewrite num_to_bytes_negative in Ha by exact H; discriminate |].
    destruct (num_to_bytes_exact a H) as (y & Hy & _ & E & _). rewrite Ha in Hy. apply ok_inj in Hy. congruence. }
  rewrite <- (G n Hn). apply G. exact Hm.
Qed.
