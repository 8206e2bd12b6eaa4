(** Proofs about base64. *)
From Coq Require Import Strings.Byte Strings.String List NArith ZArith Bool Lia.
From Verif Require Import M_Base M_Base64 S_Base64 L_Base.
Import ListNotations.
Open Scope list_scope.
Open Scope N_scope.

(** ** Enumerations *)

Definition below (n : nat) : list N := map N.of_nat (seq 0 n).
Lemma below_in : forall n d, d < N.of_nat n -> In d (below n).
Proof.
  intros n d H. unfold below. rewrite in_map_iff. exists (N.to_nat d). split; [lia |].
  apply in_seq. lia.
Qed.
Lemma all64 : forall f, forallb f (below 64) = true -> forall d, d < 64 -> f d = true.
Proof. intros f H d Hd. rewrite forallb_forall in H. apply H, below_in. exact Hd. Qed.
Lemma all64_2 : forall f, forallb (fun d => forallb (f d) (below 64)) (below 64) = true ->
  forall d e, d < 64 -> e < 64 -> f d e = true.
Proof. intros f H d e Hd He. apply (all64 (f d)); auto. apply (all64 (fun d => forallb (f d) (below 64))); auto. Qed.
Lemma all256 : forall f, forallb f (below 256) = true -> forall d, d < 256 -> f d = true.
Proof. intros f H d Hd. rewrite forallb_forall in H. apply H, below_in. exact Hd. Qed.
Lemma all256_2 : forall f, forallb (fun d => forallb (f d) (below 256)) (below 256) = true ->
  forall d e, d < 256 -> e < 256 -> f d e = true.
Proof. intros f H d e Hd He. apply (all256 (f d)); auto. apply (all256 (fun d => forallb (f d) (below 256))); auto. Qed.

Definition bl_eqb := list_eqb Bool.eqb.
Lemma bl_eqb_eq : forall x y, bl_eqb x y = true -> x = y.
Proof.
  intros x y. apply list_eqb_spec. intros a b. apply Bool.eqb_true_iff.
Qed.

Lemma dec_A : forall d e, d < 64 -> e < 64 ->
  bits 8 (Byte.to_N (byte_of_N (d * 4 + e / 16))) = bits 6 d ++ firstn 2 (bits 6 e).
Proof.
  intros. apply bl_eqb_eq. revert d e H H0.
  apply (all64_2 (fun d e => bl_eqb (bits 8 (Byte.to_N (byte_of_N (d * 4 + e / 16)))) (bits 6 d ++ firstn 2 (bits 6 e)))).
  vm_compute. reflexivity.
Qed.
Lemma dec_B : forall d e, d < 64 -> e < 64 ->
  bits 8 (Byte.to_N (byte_of_N (d mod 16 * 16 + e / 4))) = skipn 2 (bits 6 d) ++ firstn 4 (bits 6 e).
Proof.
  intros. apply bl_eqb_eq. revert d e H H0.
  apply (all64_2 (fun d e => bl_eqb (bits 8 (Byte.to_N (byte_of_N (d mod 16 * 16 + e / 4)))) (skipn 2 (bits 6 d) ++ firstn 4 (bits 6 e)))).
  vm_compute. reflexivity.
Qed.
Lemma dec_C : forall d e, d < 64 -> e < 64 ->
  bits 8 (Byte.to_N (byte_of_N (d mod 4 * 64 + e))) = skipn 4 (bits 6 d) ++ bits 6 e.
Proof.
  intros. apply bl_eqb_eq. revert d e H H0.
  apply (all64_2 (fun d e => bl_eqb (bits 8 (Byte.to_N (byte_of_N (d mod 4 * 64 + e)))) (skipn 4 (bits 6 d) ++ bits 6 e))).
  vm_compute. reflexivity.
Qed.
Lemma enc_1 : forall a, a < 256 -> bits 6 (a / 4) = firstn 6 (bits 8 a).
Proof.
  intros. apply bl_eqb_eq. revert a H.
  apply (all256 (fun a => bl_eqb (bits 6 (a / 4)) (firstn 6 (bits 8 a)))). vm_compute. reflexivity.
Qed.
Lemma bits_hi : forall k b, b < 256 -> k = 2%nat \/ k = 4%nat ->
  firstn k (bits 8 b) = bits k (b / 2 ^ N.of_nat (8 - k)).
Proof.
  intros k b H [-> | ->]; apply bl_eqb_eq; revert b H.
  - apply (all256 (fun b => bl_eqb (firstn 2 (bits 8 b)) (bits 2 (b / 64)))). vm_compute. reflexivity.
  - apply (all256 (fun b => bl_eqb (firstn 4 (bits 8 b)) (bits 4 (b / 16)))). vm_compute. reflexivity.
Qed.
Lemma bits_lo : forall k b, b < 256 -> k = 2%nat \/ k = 4%nat ->
  skipn (8 - k) (bits 8 b) = bits k (b mod 2 ^ N.of_nat k).
Proof.
  intros k b H [-> | ->]; apply bl_eqb_eq; revert b H.
  - apply (all256 (fun b => bl_eqb (skipn 6 (bits 8 b)) (bits 2 (b mod 4)))). vm_compute. reflexivity.
  - apply (all256 (fun b => bl_eqb (skipn 4 (bits 8 b)) (bits 4 (b mod 16)))). vm_compute. reflexivity.
Qed.
Lemma bits_join : forall x y,
  (x < 4 -> y < 16 -> bits 6 (x * 16 + y) = bits 2 x ++ bits 4 y) /\
  (x < 16 -> y < 4 -> bits 6 (x * 4 + y) = bits 4 x ++ bits 2 y).
Proof.
  intros x y. split; intros Hx Hy.
  - assert (A : forall d, d < 64 -> bl_eqb (bits 6 (d / 16 * 16 + d mod 16)) (bits 2 (d / 16) ++ bits 4 (d mod 16)) = true)
      by (apply all64; vm_compute; reflexivity).
    specialize (A (x * 16 + y)). rewrite N.div_add_l, N.add_comm, N.mod_add in A by lia.
    rewrite N.div_small, N.mod_small, N.add_0_r in A by lia. apply bl_eqb_eq, A. lia.
  - assert (A : forall d, d < 64 -> bl_eqb (bits 6 (d / 4 * 4 + d mod 4)) (bits 4 (d / 4) ++ bits 2 (d mod 4)) = true)
      by (apply all64; vm_compute; reflexivity).
    specialize (A (x * 4 + y)). rewrite N.div_add_l, N.add_comm, N.mod_add in A by lia.
    rewrite N.div_small, N.mod_small, N.add_0_r in A by lia. apply bl_eqb_eq, A. lia.
Qed.
Lemma enc_2 : forall a b, a < 256 -> b < 256 ->
  bits 6 (a mod 4 * 16 + b / 16) = skipn 6 (bits 8 a) ++ firstn 4 (bits 8 b).
Proof.
  intros a b Ha Hb. rewrite (proj1 (bits_join _ _)).
  - rewrite (bits_lo 2), (bits_hi 4) by auto. reflexivity.
  - apply N.mod_lt. lia.
  - apply N.div_lt_upper_bound; lia.
Qed.
Lemma enc_3 : forall a b, a < 256 -> b < 256 ->
  bits 6 (a mod 16 * 4 + b / 64) = skipn 4 (bits 8 a) ++ firstn 2 (bits 8 b).
Proof.
  intros a b Ha Hb. rewrite (proj2 (bits_join _ _)).
  - rewrite (bits_lo 4), (bits_hi 2) by auto. reflexivity.
  - apply N.mod_lt. lia.
  - apply N.div_lt_upper_bound; lia.
Qed.
Lemma enc_4 : forall a, a < 256 -> bits 6 (a mod 64) = skipn 2 (bits 8 a).
Proof.
  intros. apply bl_eqb_eq. revert a H.
  apply (all256 (fun a => bl_eqb (bits 6 (a mod 64)) (skipn 2 (bits 8 a)))). vm_compute. reflexivity.
Qed.
Lemma enc_2' : forall a, a < 256 -> bits 6 (a mod 4 * 16) = skipn 6 (bits 8 a) ++ [false; false; false; false].
Proof.
  intros. apply bl_eqb_eq. revert a H.
  apply (all256 (fun a => bl_eqb (bits 6 (a mod 4 * 16)) (skipn 6 (bits 8 a) ++ [false; false; false; false]))).
  vm_compute. reflexivity.
Qed.
Lemma enc_3' : forall a, a < 256 -> bits 6 (a mod 16 * 4) = skipn 4 (bits 8 a) ++ [false; false].
Proof.
  intros. apply bl_eqb_eq. revert a H.
  apply (all256 (fun a => bl_eqb (bits 6 (a mod 16 * 4)) (skipn 4 (bits 8 a) ++ [false; false]))).
  vm_compute. reflexivity.
Qed.
Definition of_bits (l : list bool) : N := fold_left (fun n (b : bool) => 2 * n + if b then 1 else 0) l 0.
Lemma bits8_inj : forall a b, bits 8 (Byte.to_N a) = bits 8 (Byte.to_N b) -> a = b.
Proof.
  intros a b H. apply to_N_inj.
  assert (A : forall d, d < 256 -> (of_bits (bits 8 d) =? d) = true)
    by (apply all256; vm_compute; reflexivity).
  apply (f_equal of_bits) in H.
  rewrite (proj1 (N.eqb_eq _ _) (A _ (to_N_lt a))), (proj1 (N.eqb_eq _ _) (A _ (to_N_lt b))) in H.
  exact H.
Qed.

Lemma bits_length : forall w n, length (bits w n) = w.
Proof. intros. unfold bits. rewrite map_length, seq_length. reflexivity. Qed.
Lemma bits_of_bytes_length : forall x, length (bits_of_bytes x) = (8 * length x)%nat.
Proof.
  unfold bits_of_bytes. induction x as [| b x IH]; [reflexivity |].
  cbn [map concat length]. rewrite app_length, bits_length, IH. lia.
Qed.
Lemma bits_of_sextets_length : forall x, length (bits_of_sextets x) = (6 * length x)%nat.
Proof.
  unfold bits_of_sextets. induction x as [| b x IH]; [reflexivity |].
  cbn [map concat length]. rewrite app_length, bits_length, IH. lia.
Qed.
Lemma app_eq_len : forall A (a b c d : list A), length a = length c -> a ++ b = c ++ d -> a = c /\ b = d.
Proof.
  induction a as [| x a IH]; intros b [| y c] d H E; try discriminate; auto.
  injection E as -> E. injection H as H. destruct (IH _ _ _ H E). subst. auto.
Qed.
Lemma bits_of_bytes_inj : forall x y, bits_of_bytes x = bits_of_bytes y -> x = y.
Proof.
  induction x as [| a x IH]; intros [| b y] E; auto.
  - apply (f_equal (@length bool)) in E. rewrite !bits_of_bytes_length in E. cbn in E. lia.
  - apply (f_equal (@length bool)) in E. rewrite !bits_of_bytes_length in E. cbn in E. lia.
  - unfold bits_of_bytes in E. cbn [map concat] in E. apply app_eq_len in E.
    + destruct E as [E1 E2]. apply bits8_inj in E1. apply IH in E2. congruence.
    + rewrite !bits_length. reflexivity.
Qed.

(** ** Characters *)

Definition translate (c : byte) : byte :=
  if Byte.eqb c x2d then x2b else if Byte.eqb c x5f then x2f else c.

Definition url_char (d : N) : byte := nth (N.to_nat d) url_alphabet x00.
Definition std_char (d : N) : byte := nth (N.to_nat d) std_alphabet x00.

Lemma url_char_spec : forall d, d < 64 -> b64_char x2d x5f d = url_char d.
Proof.
  intros d Hd. apply byte_eqb_spec. revert d Hd.
  apply (all64 (fun d => Byte.eqb (b64_char x2d x5f d) (url_char d))). vm_compute. reflexivity.
Qed.
Lemma std_char_spec : forall d, d < 64 -> b64_char x2b x2f d = std_char d.
Proof.
  intros d Hd. apply byte_eqb_spec. revert d Hd.
  apply (all64 (fun d => Byte.eqb (b64_char x2b x2f d) (std_char d))). vm_compute. reflexivity.
Qed.
Lemma url_char_translate : forall d, d < 64 -> translate (url_char d) = std_char d.
Proof.
  intros d Hd. apply byte_eqb_spec. revert d Hd.
  apply (all64 (fun d => Byte.eqb (translate (url_char d)) (std_char d))). vm_compute. reflexivity.
Qed.
Lemma std_char_value : forall d, d < 64 -> b64_value (std_char d) = Some d.
Proof.
  intros d Hd.
  assert (H : match b64_value (std_char d) with Some v => v =? d | None => false end = true).
  { revert d Hd. apply (all64 (fun d => match b64_value (std_char d) with Some v => v =? d | None => false end)).
    vm_compute. reflexivity. }
  destruct (b64_value (std_char d)); [| discriminate]. apply N.eqb_eq in H. congruence.
Qed.
Lemma std_char_not_pad : forall d, d < 64 -> Byte.eqb (std_char d) pad = false.
Proof.
  intros d Hd. apply negb_true_iff. revert d Hd.
  apply (all64 (fun d => negb (Byte.eqb (std_char d) pad))). vm_compute. reflexivity.
Qed.
Lemma url_char_not_pad : forall d, d < 64 -> Byte.eqb (url_char d) pad = false.
Proof.
  intros d Hd. apply negb_true_iff. revert d Hd.
  apply (all64 (fun d => negb (Byte.eqb (url_char d) pad))). vm_compute. reflexivity.
Qed.
Lemma url_char_valid : forall d, d < 64 -> is_valid_urlsafe_base64_char (url_char d) = true.
Proof. apply (all64 (fun d => is_valid_urlsafe_base64_char (url_char d))). vm_compute. reflexivity. Qed.

Lemma valid_char_url : forall c, is_valid_urlsafe_base64_char c = true ->
  exists d, d < 64 /\ c = url_char d.
Proof.
  intros c H.
  assert (E : existsb (fun d => Byte.eqb c (url_char d)) (below 64) = true).
  { revert H. rewrite <- (byte_of_N_of_to_N c). generalize (Byte.to_N c) (to_N_lt c).
    intros n Hn H.
    assert (Hi : negb (is_valid_urlsafe_base64_char (byte_of_N n)) ||
                 existsb (fun d => Byte.eqb (byte_of_N n) (url_char d)) (below 64) = true).
    { revert n Hn H. intros n Hn _. revert n Hn.
      apply (all256 (fun n => negb (is_valid_urlsafe_base64_char (byte_of_N n)) ||
                 existsb (fun d => Byte.eqb (byte_of_N n) (url_char d)) (below 64))).
      vm_compute. reflexivity. }
    rewrite H in Hi. exact Hi. }
  apply existsb_exists in E. destruct E as (d & Hd & E). exists d.
  unfold below in Hd. apply in_map_iff in Hd. destruct Hd as (n & <- & Hn). apply in_seq in Hn.
  split; [lia |]. apply byte_eqb_spec. exact E.
Qed.

Lemma valid_text_digits : forall s, forallb is_valid_urlsafe_base64_char s = true ->
  exists l, Forall (fun d => d < 64) l /\ s = map url_char l.
Proof.
  induction s as [| c s IH]; intros H.
  - exists []. split; [constructor | reflexivity].
  - cbn [forallb] in H. apply andb_true_iff in H. destruct H as [Hc Hs].
    destruct (valid_char_url _ Hc) as (d & Hd & ->). destruct (IH Hs) as (l & Hl & ->).
    exists (d :: l). split; [constructor; auto | reflexivity].
Qed.
Lemma digits_valid_text : forall l, Forall (fun d => d < 64) l ->
  forallb is_valid_urlsafe_base64_char (map url_char l) = true.
Proof.
  induction 1; [reflexivity |]. cbn [map forallb]. rewrite url_char_valid, IHForall by assumption.
  reflexivity.
Qed.

(** ** Decoding of digits *)

Fixpoint dec (l : list N) : option bytes :=
  match l with
  | [] => Some []
  | [d] => None
  | [d; e] => Some [byte_of_N (d * 4 + e / 16)]
  | [d; e; f] => Some [byte_of_N (d * 4 + e / 16); byte_of_N (e mod 16 * 16 + f / 4)]
  | d :: e :: f :: g :: r =>
      option_map (fun t => byte_of_N (d * 4 + e / 16) :: byte_of_N (e mod 16 * 16 + f / 4)
                             :: byte_of_N (f mod 4 * 64 + g) :: t) (dec r)
  end.

Lemma quads_ind : forall A (P : list A -> Prop),
  P [] -> (forall a, P [a]) -> (forall a b, P [a; b]) -> (forall a b c, P [a; b; c]) ->
  (forall a b c d r, P r -> P (a :: b :: c :: d :: r)) -> forall l, P l.
Proof.
  intros A P H0 H1 H2 H3 H4. fix IH 1. intros [| a [| b [| c [| d r]]]]; [apply H0 | apply H1 | apply H2 | apply H3 | apply H4, IH].
Qed.
Lemma triples_ind : forall A (P : list A -> Prop),
  P [] -> (forall a, P [a]) -> (forall a b, P [a; b]) ->
  (forall a b c r, P r -> P (a :: b :: c :: r)) -> forall l, P l.
Proof.
  intros A P H0 H1 H2 H3. fix IH 1. intros [| a [| b [| c r]]]; [apply H0 | apply H1 | apply H2 | apply H3, IH].
Qed.

Lemma go0 : forall l p d r, d < 64 -> a2b_go 0 l p (std_char d :: r) = a2b_go 1 d 0 r.
Proof. intros. cbn [a2b_go]. rewrite std_char_not_pad, std_char_value by assumption. reflexivity. Qed.
Lemma go1 : forall l p d r, d < 64 -> a2b_go 1 l p (std_char d :: r) =
  option_map (cons (byte_of_N (l * 4 + d / 16))) (a2b_go 2 (d mod 16) 0 r).
Proof. intros. cbn [a2b_go]. rewrite std_char_not_pad, std_char_value by assumption. reflexivity. Qed.
Lemma go2 : forall l p d r, d < 64 -> a2b_go 2 l p (std_char d :: r) =
  option_map (cons (byte_of_N (l * 16 + d / 4))) (a2b_go 3 (d mod 4) 0 r).
Proof. intros. cbn [a2b_go]. rewrite std_char_not_pad, std_char_value by assumption. reflexivity. Qed.
Lemma go3 : forall l p d r, d < 64 -> a2b_go 3 l p (std_char d :: r) =
  option_map (cons (byte_of_N (l * 64 + d))) (a2b_go 0 0 0 r).
Proof. intros. cbn [a2b_go]. rewrite std_char_not_pad, std_char_value by assumption. reflexivity. Qed.
Lemma go2_pads : forall l r, a2b_go 2 l 0 (pad :: pad :: r) = Some [].
Proof. reflexivity. Qed.
Lemma go3_pad : forall l r, a2b_go 3 l 0 (pad :: r) = Some [].
Proof. reflexivity. Qed.

(** [n] pad characters after the digits complete the group when there are enough. *)
Lemma a2b_go_digits : forall l tail, Forall (fun d => d < 64) l ->
  (tail = [pad; pad; pad] \/
   (Nat.modulo (length l) 4 = 0%nat /\ tail = []) \/
   (Nat.modulo (length l) 4 = 2%nat /\ tail = [pad; pad]) \/
   (Nat.modulo (length l) 4 = 3%nat /\ tail = [pad])) ->
  a2b_go 0 0 0 (map std_char l ++ tail) = dec l.
Proof.
  induction l as [| a | a b | a b c | a b c d r IH] using quads_ind; intros tail Hl Ht;
    repeat match goal with H : Forall _ (_ :: _) |- _ => inv H end; cbn [map app].
  - destruct Ht as [-> | [[_ ->] | [[H _] | [H _]]]]; try reflexivity; discriminate.
  - rewrite go0 by assumption.
    destruct Ht as [-> | [[H _] | [[H _] | [H _]]]]; try discriminate. reflexivity.
  - rewrite go0, go1 by assumption.
    destruct Ht as [-> | [[H _] | [[H ->] | [H _]]]]; try discriminate; rewrite go2_pads; reflexivity.
  - rewrite go0, go1, go2 by assumption.
    destruct Ht as [-> | [[H _] | [[H _] | [H ->]]]]; try discriminate; rewrite go3_pad; reflexivity.
  - rewrite go0, go1, go2, go3 by assumption. rewrite IH; auto.
    + cbn [dec]. destruct (dec r); reflexivity.
    + cbn [length] in Ht.
      replace (S (S (S (S (length r))))) with (length r + 1 * 4)%nat in Ht by lia.
      rewrite Nat.mod_add in Ht by lia. exact Ht.
Qed.

Lemma dec_bits : forall l x, Forall (fun d => d < 64) l -> dec l = Some x ->
  exists fill, bits_of_sextets l = bits_of_bytes x ++ fill /\ (length fill < 6)%nat.
Proof.
  induction l as [| a | a b | a b c | a b c d r IH] using quads_ind; intros x Hl Hd;
    repeat match goal with H : Forall _ (_ :: _) |- _ => inv H end; cbn [dec] in Hd.
  - apply some_inj in Hd. subst x. exists []. split; [reflexivity | cbn; lia].
  - discriminate.
  - apply some_inj in Hd. subst x. exists (skipn 2 (bits 6 b)).
    unfold bits_of_sextets, bits_of_bytes. cbn [map concat]. rewrite dec_A, !app_nil_r by assumption.
    split; [| rewrite skipn_length, bits_length; lia].
    rewrite <- app_assoc, firstn_skipn. reflexivity.
  - apply some_inj in Hd. subst x. exists (skipn 4 (bits 6 c)).
    unfold bits_of_sextets, bits_of_bytes. cbn [map concat].
    rewrite dec_A, dec_B, !app_nil_r by assumption.
    split; [| rewrite skipn_length, bits_length; lia].
    rewrite <- !app_assoc, firstn_skipn, (app_assoc (firstn 2 _)), firstn_skipn. reflexivity.
  - destruct (dec r) as [y |] eqn:Ey; [| discriminate]. apply some_inj in Hd. subst x.
    destruct (IH y) as (fill & E & Hf); auto. exists fill. split; [| exact Hf].
    unfold bits_of_sextets, bits_of_bytes in *. cbn [map concat].
    rewrite dec_A, dec_B, dec_C, E by assumption.
    rewrite <- !app_assoc, (app_assoc (firstn 4 _)), firstn_skipn, (app_assoc (firstn 2 _)), firstn_skipn.
    reflexivity.
Qed.

Lemma dec_none : forall l, dec l = None -> Nat.modulo (length l) 4 = 1%nat.
Proof.
  induction l as [| a | a b | a b c | a b c d r IH] using quads_ind; cbn [dec]; intros H;
    try discriminate; [reflexivity |].
  destruct (dec r); [discriminate |]. cbn [length].
  replace (S (S (S (S (length r))))) with (length r + 1 * 4)%nat by lia.
  rewrite Nat.mod_add by lia. auto.
Qed.

Lemma dec_complete : forall l x fill, Forall (fun d => d < 64) l ->
  bits_of_sextets l = bits_of_bytes x ++ fill -> (length fill < 6)%nat -> dec l = Some x.
Proof.
  intros l x fill Hl E Hf.
  pose proof (f_equal (@length bool) E) as El.
  rewrite app_length, bits_of_bytes_length, bits_of_sextets_length in El.
  destruct (dec l) as [y |] eqn:Ey.
  - destruct (dec_bits _ _ Hl Ey) as (fill' & E' & Hf').
    pose proof (f_equal (@length bool) E') as El'.
    rewrite app_length, bits_of_bytes_length, bits_of_sextets_length in El'.
    rewrite E in E'. apply app_eq_len in E'.
    + destruct E' as [E' _]. apply bits_of_bytes_inj in E'. congruence.
    + rewrite !bits_of_bytes_length. lia.
  - apply dec_none in Ey. exfalso.
    pose proof (Nat.div_mod (length l) 4). lia.
Qed.

(** ** Encoding *)

Fixpoint enc (x : bytes) : list N :=
  match x with
  | [] => []
  | [a] => let a := Byte.to_N a in [a / 4; a mod 4 * 16]
  | [a; b] => let a := Byte.to_N a in let b := Byte.to_N b in
      [a / 4; a mod 4 * 16 + b / 16; b mod 16 * 4]
  | a :: b :: c :: r =>
      let a := Byte.to_N a in let b := Byte.to_N b in let c := Byte.to_N c in
      a / 4 :: a mod 4 * 16 + b / 16 :: b mod 16 * 4 + c / 64 :: c mod 64 :: enc r
  end.

Lemma enc_range : forall x, Forall (fun d => d < 64) (enc x).
Proof.
  induction x as [| a | a b | a b c r IH] using triples_ind; cbn [enc]; cbv zeta;
    try pose proof (to_N_lt a); try pose proof (to_N_lt b); try pose proof (to_N_lt c);
    repeat (apply Forall_nil || apply Forall_cons || exact IH);
    cbv beta; zify; Z.to_euclidean_division_equations; lia.
Qed.

Lemma enc_bits : forall x, exists fill, bits_of_sextets (enc x) = bits_of_bytes x ++ fill /\
  (length fill < 6)%nat /\ Forall (fun b => b = false) fill.
Proof.
  induction x as [| a | a b | a b c r IH] using triples_ind; cbn [enc]; cbv zeta;
    try pose proof (to_N_lt a); try pose proof (to_N_lt b); try pose proof (to_N_lt c);
    unfold bits_of_sextets, bits_of_bytes in *; cbn [map concat].
  - exists []. split; [reflexivity |]. split; [cbn; lia | constructor].
  - exists [false; false; false; false]. split.
    + rewrite enc_1, enc_2', !app_nil_r, app_assoc, firstn_skipn by assumption. reflexivity.
    + split; [cbn; lia | repeat constructor].
  - exists [false; false]. split.
    + rewrite enc_1, enc_2, enc_3', !app_nil_r by assumption.
      rewrite !app_assoc, firstn_skipn, <- app_assoc, <- (app_assoc (bits 8 _)).
      rewrite (app_assoc (firstn 4 _)), firstn_skipn, app_assoc. reflexivity.
    + split; [cbn; lia | repeat constructor].
  - destruct IH as (fill & E & Hf). exists fill. split; [| exact Hf].
    rewrite enc_1, enc_2, enc_3, enc_4, E by assumption.
    rewrite <- !app_assoc.
    rewrite (app_assoc (firstn 2 (bits 8 (Byte.to_N c)))), firstn_skipn.
    rewrite (app_assoc (firstn 4 (bits 8 (Byte.to_N b)))), firstn_skipn.
    rewrite (app_assoc (firstn 6 (bits 8 (Byte.to_N a)))), firstn_skipn. reflexivity.
Qed.

Definition padding (x : bytes) : bytes :=
  match Nat.modulo (length x) 3 with 1%nat => [pad; pad] | 2%nat => [pad] | _ => [] end.

Lemma b64_encode_gen_spec : forall c62 c63 ch, (forall d, d < 64 -> b64_char c62 c63 d = ch d) ->
  forall padded x,
  b64_encode_gen c62 c63 padded x = map ch (enc x) ++ if padded then padding x else [].
Proof.
  intros c62 c63 ch Hch padded x.
  induction x as [| a | a b | a b c r IH] using triples_ind; cbn [enc b64_encode_gen]; cbv zeta;
    try pose proof (to_N_lt a); try pose proof (to_N_lt b); try pose proof (to_N_lt c).
  - destruct padded; reflexivity.
  - rewrite !Hch by (zify; Z.to_euclidean_division_equations; lia). destruct padded; reflexivity.
  - rewrite !Hch by (zify; Z.to_euclidean_division_equations; lia). destruct padded; reflexivity.
  - rewrite IH, !Hch by (zify; Z.to_euclidean_division_equations; lia).
    cbn [map app]. do 4 f_equal. destruct padded; auto.
    unfold padding. cbn [length]. replace (S (S (S (length r)))) with (length r + 1 * 3)%nat by lia.
    rewrite Nat.mod_add by lia. reflexivity.
Qed.

Lemma rstrip_pads : forall l p, Forall (fun c => Byte.eqb c pad = false) l ->
  Forall (fun c => c = pad) p -> rstrip_eq (l ++ p) = l.
Proof.
  intros l p Hl Hp. induction Hl; cbn [app rstrip_eq].
  - induction Hp; [reflexivity |]. cbn [rstrip_eq]. rewrite IHHp. subst. reflexivity.
  - rewrite IHHl. destruct l; [rewrite H |]; reflexivity.
Qed.
Lemma padding_pads : forall x, Forall (fun c => c = pad) (padding x).
Proof. intros. unfold padding. destruct (Nat.modulo _ 3) as [| [| [|]]]; repeat constructor. Qed.

Lemma base64_encode_digits : forall x, base64_encode x = map url_char (enc x).
Proof.
  intros x. unfold base64_encode, urlsafe_b64encode.
  rewrite (b64_encode_gen_spec _ _ url_char url_char_spec). apply rstrip_pads; [| apply padding_pads].
  pose proof (enc_range x) as H. induction H; cbn [map]; constructor; auto. apply url_char_not_pad. auto.
Qed.

Theorem base64_encode_text : forall x, base64_text url_alphabet x (base64_encode x).
Proof.
  intros x. destruct (enc_bits x) as (fill & E & Hf & Hz). exists (enc x), fill.
  split; [apply enc_range |]. split; [apply base64_encode_digits |]. auto.
Qed.

Lemma map_translate : forall l, Forall (fun d => d < 64) l ->
  map translate (map url_char l) = map std_char l.
Proof. induction 1; [reflexivity |]. cbn [map]. rewrite url_char_translate by assumption. congruence. Qed.

Lemma base64_decode_digits : forall l, Forall (fun d => d < 64) l ->
  base64_decode (map url_char l) =
  match dec l with Some x => Ok x | None => Err (JwtInvalidError "invalid base64 encoding") end.
Proof.
  intros l Hl. unfold base64_decode, urlsafe_b64decode, b64decode.
  rewrite digits_valid_text by assumption. cbn [negb]. rewrite map_app.
  change (map _ (map url_char l)) with (map translate (map url_char l)).
  rewrite map_translate by assumption.
  change (map _ [pad; pad; pad]) with [pad; pad; pad].
  rewrite a2b_go_digits; auto.
Qed.

Theorem base64_decode_iff : forall s x,
  base64_decode s = Ok x <-> base64_text_loose url_alphabet x s.
Proof.
  intros s x. split.
  - intros H.
    assert (Hv : forallb is_valid_urlsafe_base64_char s = true).
    { unfold base64_decode in H. destruct (forallb _ s); [reflexivity | discriminate]. }
    destruct (valid_text_digits _ Hv) as (l & Hl & ->). rewrite base64_decode_digits in H by assumption.
    destruct (dec l) as [y |] eqn:E; [| discriminate]. apply ok_inj in H. subst y.
    destruct (dec_bits _ _ Hl E) as (fill & Eb & Hf). exists l, fill. auto.
  - intros (l & fill & Hl & -> & E & Hf).
    change (map _ l) with (map url_char l). rewrite base64_decode_digits by assumption.
    rewrite (dec_complete _ _ _ Hl E Hf). reflexivity.
Qed.

Theorem base64_round_trip : forall x, base64_decode (base64_encode x) = Ok x.
Proof.
  intros x. apply base64_decode_iff. destruct (base64_encode_text x) as (l & f & H1 & H2 & H3 & H4 & _).
  exists l, f. auto.
Qed.

Theorem base64_decode_rejects : forall s,
  (exists c, In c s /\ ~ In c url_alphabet) \/ Nat.modulo (length s) 4 = 1%nat ->
  exists m, base64_decode s = Err (JwtInvalidError m).
Proof.
  intros s H. destruct (base64_decode s) as [x | e] eqn:E.
  - exfalso. apply base64_decode_iff in E. destruct E as (l & fill & Hl & -> & E & Hf).
    destruct H as [(c & Hc & Hn) | Hm].
    + apply in_map_iff in Hc. destruct Hc as (d & <- & Hd). apply Hn.
      rewrite Forall_forall in Hl. specialize (Hl d Hd). apply nth_In. cbn. lia.
    + rewrite map_length in Hm. apply (f_equal (@length bool)) in E.
      rewrite app_length, bits_of_bytes_length, bits_of_sextets_length in E.
      pose proof (Nat.div_mod (length l) 4). lia.
  - unfold base64_decode in E. destruct (negb _); [inv E; eauto |].
    destruct (urlsafe_b64decode _); inv E. eauto.
Qed.

Theorem base64_decode_total : forall s, match base64_decode s with
  | Ok _ => Forall (fun c => In c url_alphabet) s /\ Nat.modulo (length s) 4 <> 1%nat
  | Err e => is_jwt_invalid_error e = true /\
      ((exists c, In c s /\ ~ In c url_alphabet) \/ Nat.modulo (length s) 4 = 1%nat)
  end.
Proof.
  intros s. destruct (base64_decode s) as [x | e] eqn:E.
  - apply base64_decode_iff in E. destruct E as (l & fill & Hl & -> & E & Hf). split.
    + rewrite Forall_forall. intros c Hc. apply in_map_iff in Hc. destruct Hc as (d & <- & Hd).
      rewrite Forall_forall in Hl. specialize (Hl d Hd). apply nth_In. cbn. lia.
    + rewrite map_length. apply (f_equal (@length bool)) in E.
      rewrite app_length, bits_of_bytes_length, bits_of_sextets_length in E.
      pose proof (Nat.div_mod (length l) 4). lia.
  - destruct (forallb is_valid_urlsafe_base64_char s) eqn:Hv.
    + destruct (valid_text_digits _ Hv) as (l & Hl & ->). rewrite base64_decode_digits in E by assumption.
      destruct (dec l) eqn:Ed; [discriminate |]. inv E. split; [reflexivity |]. right.
      rewrite map_length. apply dec_none. assumption.
    + unfold base64_decode in E. rewrite Hv in E. cbn in E. inv E. split; [reflexivity |]. left.
      assert (Hx : exists c, In c s /\ is_valid_urlsafe_base64_char c = false).
      { clear -Hv. induction s as [| c s IH]; [discriminate |]. cbn in Hv.
        destruct (is_valid_urlsafe_base64_char c) eqn:Ec.
        - destruct (IH Hv) as (d & Hd & Hf). exists d. split; [right |]; auto.
        - exists c. split; [left |]; auto. }
      destruct Hx as (c & Hc & Hf). exists c. split; [assumption |]. intros Hi.
      apply In_nth with (d := x00) in Hi. destruct Hi as (n & Hn & <-).
      assert (is_valid_urlsafe_base64_char (url_char (N.of_nat n)) = true).
      { apply url_char_valid. change (length url_alphabet) with 64%nat in Hn. lia. }
      unfold url_char in H. rewrite Nnat.Nat2N.id in H. congruence.
Qed.

(** Standard alphabet with padding. *)
Theorem b64_round_trip : forall x, b64decode (b64encode x) = Some x.
Proof.
  intros x. unfold b64decode, b64encode. rewrite (b64_encode_gen_spec _ _ std_char std_char_spec).
  rewrite a2b_go_digits; [| apply enc_range |].
  - destruct (enc_bits x) as (fill & E & Hf & _). eapply dec_complete; eauto using enc_range.
  - right. unfold padding.
    assert (Hlen : forall y, exists k, length (enc y) = (4 * k + match Nat.modulo (length y) 3 with
        0 => 0 | S m => S (S m) end)%nat).
    { clear. induction y as [| a | a b | a b c r IH] using triples_ind;
        try (exists 0%nat; reflexivity).
      destruct IH as (k & Hk). exists (S k). cbn [enc length]. rewrite Hk.
      replace (S (S (S (length r)))) with (length r + 1 * 3)%nat by lia.
      rewrite Nat.mod_add by lia. lia. }
    destruct (Hlen x) as (k & ->).
    pose proof (Nat.mod_upper_bound (length x) 3).
    destruct (Nat.modulo (length x) 3) as [| [| [| m]]]; [left | right; left | right; right | lia];
      (split; [| reflexivity]); rewrite Nat.add_comm, Nat.mul_comm, Nat.mod_add by lia; reflexivity.
Qed.

Lemma base64_encode_ascii : forall x c, In c (base64_encode x) -> Byte.to_N c < 128 /\ c <> x2e /\ c <> x3d.
Proof.
  intros x c Hc. rewrite base64_encode_digits in Hc. apply in_map_iff in Hc.
  destruct Hc as (d & <- & Hd). pose proof (enc_range x) as Hr. rewrite Forall_forall in Hr.
  specialize (Hr d Hd).
  assert (E : forall d, d < 64 -> (Byte.to_N (url_char d) <? 128) && negb (Byte.eqb (url_char d) x2e)
                 && negb (Byte.eqb (url_char d) x3d) = true)
    by (apply (all64 (fun d => (Byte.to_N (url_char d) <? 128) && negb (Byte.eqb (url_char d) x2e)
                 && negb (Byte.eqb (url_char d) x3d))); vm_compute; reflexivity).
  specialize (E d Hr). apply andb_true_iff in E. destruct E as [E E3].
  apply andb_true_iff in E. destruct E as [E1 E2]. apply N.ltb_lt in E1. split; [assumption |].
  split; intros Ex; rewrite Ex in *; discriminate.
Qed.

(** A byte string has one text. *)
Lemma bits6_inj : forall a b, a < 64 -> b < 64 -> bits 6 a = bits 6 b -> a = b.
Proof.
  assert (A : forall d, d < 256 -> (of_bits (bits 6 d) =? d mod 64) = true)
    by (apply all256; vm_compute; reflexivity).
  intros a b Ha Hb H. pose proof (A a ltac:(lia)) as A1. pose proof (A b ltac:(lia)) as A2.
  rewrite H in A1. apply N.eqb_eq in A1, A2. rewrite A1 in A2. rewrite !N.mod_small in A2 by assumption. exact A2.
Qed.
Lemma bits_of_sextets_inj : forall x y, Forall (fun d => d < 64) x -> Forall (fun d => d < 64) y ->
  bits_of_sextets x = bits_of_sextets y -> x = y.
Proof.
  induction x as [| a x IH]; intros [| b y] Hx Hy E; auto.
  - apply (f_equal (@length bool)) in E. rewrite !bits_of_sextets_length in E. cbn in E. lia.
  - apply (f_equal (@length bool)) in E. rewrite !bits_of_sextets_length in E. cbn in E. lia.
  - unfold bits_of_sextets in E. cbn [map concat] in E. inv Hx. inv Hy.
    apply app_eq_len in E; [| rewrite !bits_length; reflexivity]. destruct E as [E1 E2].
    f_equal; [apply bits6_inj; assumption | apply IH; assumption].
Qed.
Lemma base64_text_fun : forall al x s t, base64_text al x s -> base64_text al x t -> s = t.
Proof.
  intros al x s t (d & f & Hd & -> & Ed & Lf & Zf) (d' & f' & Hd' & -> & Ed' & Lf' & Zf').
  f_equal. assert (L : length f = length f').
  { pose proof (f_equal (@length bool) Ed) as L1. pose proof (f_equal (@length bool) Ed') as L2.
    rewrite app_length, bits_of_sextets_length in L1, L2. lia. }
  assert (F : f = f').
  { clear - Zf Zf' L. revert f' L Zf'. induction Zf as [| b f Hb Zf IH]; intros [| b' f'] L Zf'; try discriminate; auto.
    inv Zf'. f_equal. apply IH; auto. }
  subst f'. apply bits_of_sextets_inj; auto. congruence.
Qed.
