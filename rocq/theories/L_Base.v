(** Lemmas about M_Base. *)
From Coq Require Import Strings.Byte List NArith ZArith Bool Lia.
From Verif Require Import M_Base.
Import ListNotations.

Ltac inv H := inversion H; subst; clear H.

(** Injectivity without the simplification done by [injection]. *)
Lemma some_inj : forall A (a b : A), Some a = Some b -> a = b.
Proof. congruence. Qed.
Lemma ok_inj : forall A (a b : A), Ok a = Ok b -> a = b.
Proof. congruence. Qed.

Lemma bind_ok : forall A B (r : result A) (f : A -> result B) b,
  bind r f = Ok b -> exists a, r = Ok a /\ f a = Ok b.
Proof. intros A B [a | e] f b H; simpl in H; [eauto | discriminate]. Qed.

Lemma bind_err : forall A B (r : result A) (f : A -> result B) e,
  bind r f = Err e -> r = Err e \/ exists a, r = Ok a /\ f a = Err e.
Proof. intros A B [a | e'] f e H; simpl in H; [right; eauto | left; congruence]. Qed.

Ltac bind_inv :=
  repeat match goal with
  | H : bind _ _ = Ok _ |- _ =>
      let a := fresh "v" in let H1 := fresh "Hb" in let H2 := fresh "Hk" in
      apply bind_ok in H; destruct H as [a [H1 H2]]
  end.

Lemma list_eqb_spec : forall A (eqb : A -> A -> bool),
  (forall x y, eqb x y = true <-> x = y) ->
  forall x y, list_eqb eqb x y = true <-> x = y.
Proof.
  intros A eqb He. induction x as [| a x IH]; destruct y as [| c y]; simpl;
    try (split; [discriminate | discriminate]); try tauto.
  rewrite andb_true_iff, He, IH. split; [intros [-> ->]; auto | intro H; inv H; auto].
Qed.

Lemma byte_eqb_spec : forall x y, Byte.eqb x y = true <-> x = y.
Proof. intros x y. split; [apply Byte.byte_dec_bl | apply Byte.byte_dec_lb]. Qed.

Lemma bytes_eqb_spec : forall x y, bytes_eqb x y = true <-> x = y.
Proof. apply list_eqb_spec, byte_eqb_spec. Qed.

Lemma str_eqb_spec : forall x y, str_eqb x y = true <-> x = y.
Proof. apply list_eqb_spec, N.eqb_eq. Qed.

Lemma option_eqb_spec : forall A (eqb : A -> A -> bool),
  (forall x y, eqb x y = true <-> x = y) ->
  forall x y, option_eqb eqb x y = true <-> x = y.
Proof.
  intros A eqb He [x |] [y |]; simpl; try (split; congruence).
  rewrite He. split; congruence.
Qed.

Lemma eqb_refl_of : forall A (eqb : A -> A -> bool),
  (forall x y, eqb x y = true <-> x = y) -> forall x, eqb x x = true.
Proof. intros. apply H. reflexivity. Qed.

Lemma bytes_eqb_refl : forall x, bytes_eqb x x = true.
Proof. apply eqb_refl_of, bytes_eqb_spec. Qed.
Lemma str_eqb_refl : forall x, str_eqb x x = true.
Proof. apply eqb_refl_of, str_eqb_spec. Qed.

Lemma eqb_false_of : forall A (eqb : A -> A -> bool),
  (forall x y, eqb x y = true <-> x = y) -> forall x y, eqb x y = false <-> x <> y.
Proof.
  intros A eqb He x y. specialize (He x y). destruct (eqb x y); split; intros; try congruence.
  - exfalso. apply H, He. reflexivity.
  - intro Hx. apply He in Hx. discriminate.
Qed.

Section Dict.
  Context {K V : Type} (eqb : K -> K -> bool).
  Hypothesis eqb_spec : forall x y, eqb x y = true <-> x = y.

  Lemma dict_get_set_same : forall k (v : V) d, dict_get eqb k (dict_set eqb k v d) = Some v.
  Proof.
    intros k v. induction d as [| [k' v'] d IH]; simpl.
    - rewrite (eqb_refl_of _ _ eqb_spec). reflexivity.
    - destruct (eqb k k') eqn:E; simpl; rewrite E; auto.
  Qed.

  Lemma dict_get_set_other : forall k k' (v : V) d,
    k <> k' -> dict_get eqb k (dict_set eqb k' v d) = dict_get eqb k d.
  Proof.
    intros k k' v d Hk. induction d as [| [k2 v2] d IH]; simpl.
    - apply (eqb_false_of _ _ eqb_spec) in Hk. rewrite Hk. reflexivity.
    - destruct (eqb k' k2) eqn:E; simpl.
      + apply eqb_spec in E. subst.
        apply (eqb_false_of _ _ eqb_spec) in Hk. rewrite Hk. reflexivity.
      + rewrite IH. reflexivity.
  Qed.

  Lemma dict_get_in : forall k (v : V) d, dict_get eqb k d = Some v -> In (k, v) d.
  Proof.
    intros k v. induction d as [| [k' v'] d IH]; simpl; [discriminate |].
    destruct (eqb k k') eqn:E; intros H.
    - apply eqb_spec in E. inv H. auto.
    - auto.
  Qed.

  Lemma dict_get_none : forall k (d : list (K * V)),
    dict_get eqb k d = None <-> ~ In k (map fst d).
  Proof.
    intros k. induction d as [| [k' v'] d IH]; simpl; [tauto |].
    destruct (eqb k k') eqn:E.
    - apply eqb_spec in E. subst. split; [discriminate | tauto].
    - apply (eqb_false_of _ _ eqb_spec) in E. rewrite IH.
      split; [intros H [H1 | H1]; congruence || tauto | tauto].
  Qed.

  Lemma in_dict_get : forall k (v : V) d,
    NoDup (map fst d) -> In (k, v) d -> dict_get eqb k d = Some v.
  Proof.
    intros k v. induction d as [| [k' v'] d IH]; simpl; [tauto |].
    intros Hn [H | H].
    - inv H. rewrite (eqb_refl_of _ _ eqb_spec). reflexivity.
    - inv Hn. destruct (eqb k k') eqn:E; auto.
      apply eqb_spec in E. subst. exfalso. apply H2.
      change k' with (fst (k', v)). apply in_map. assumption.
  Qed.

  Lemma dict_set_keys : forall k (v : V) d,
    map fst (dict_set eqb k v d) =
    if existsb (eqb k) (map fst d) then map fst d else map fst d ++ [k].
  Proof.
    intros k v. induction d as [| [k' v'] d IH]; simpl; [reflexivity |].
    destruct (eqb k k') eqn:E; simpl; [reflexivity |].
    rewrite IH. destruct (existsb (eqb k) (map fst d)); reflexivity.
  Qed.

  Lemma dict_set_new : forall k (v : V) d,
    dict_get eqb k d = None -> dict_set eqb k v d = d ++ [(k, v)].
  Proof.
    intros k v. induction d as [| [k' v'] d IH]; simpl; [reflexivity |].
    destruct (eqb k k'); [discriminate |]. intros H. rewrite IH; auto.
  Qed.

  Lemma existsb_eqb_in : forall k l, existsb (eqb k) l = true <-> In k l.
  Proof.
    intros k l. rewrite existsb_exists. split.
    - intros [x [Hi He]]. apply eqb_spec in He. congruence.
    - intros H. exists k. split; auto. apply (eqb_refl_of _ _ eqb_spec).
  Qed.

  Lemma dict_set_nodup : forall k (v : V) d,
    NoDup (map fst d) -> NoDup (map fst (dict_set eqb k v d)).
  Proof.
    intros k v d Hn. rewrite dict_set_keys.
    destruct (existsb (eqb k) (map fst d)) eqn:E; auto.
    assert (Hk : ~ In k (map fst d)).
    { intro H. apply existsb_eqb_in in H. congruence. }
    clear E. revert Hk. generalize dependent (map fst d). intros l Hl Hk.
    apply NoDup_rev in Hl. rewrite <- (rev_involutive (l ++ [k])).
    apply NoDup_rev. rewrite rev_app_distr. simpl. constructor; auto.
    rewrite <- in_rev. assumption.
  Qed.
End Dict.

Lemma byte_of_N_to_N : forall n, Byte.to_N (byte_of_N n) = (n mod 256)%N.
Proof.
  intros n. unfold byte_of_N.
  destruct (Byte.of_N (n mod 256)) as [b |] eqn:E.
  - apply Byte.to_of_N in E. assumption.
  - apply Byte.of_N_None_iff in E.
    pose proof (N.mod_lt n 256). lia.
Qed.

Lemma to_N_lt : forall b, (Byte.to_N b < 256)%N.
Proof. intros b. pose proof (Byte.to_N_bounded b). lia. Qed.

Lemma byte_of_N_of_to_N : forall b, byte_of_N (Byte.to_N b) = b.
Proof.
  intros b. unfold byte_of_N. rewrite N.mod_small by apply to_N_lt.
  rewrite Byte.of_to_N. reflexivity.
Qed.

Lemma to_N_inj : forall a b, Byte.to_N a = Byte.to_N b -> a = b.
Proof. intros a b H. rewrite <- (byte_of_N_of_to_N a), H. apply byte_of_N_of_to_N. Qed.


Lemma be32_bytes : forall n, (n < 2 ^ 32)%N ->
  exists b3 b2 b1 b0, be32 n = [b3; b2; b1; b0] /\
  (Byte.to_N b3 * 2 ^ 24 + Byte.to_N b2 * 2 ^ 16 + Byte.to_N b1 * 2 ^ 8 + Byte.to_N b0 = n)%N.
Proof.
  intros n H. unfold be32. do 4 eexists. split; [reflexivity |].
  rewrite !byte_of_N_to_N.
  change (2 ^ 32)%N with 4294967296%N in H.
  change (2 ^ 24)%N with 16777216%N. change (2 ^ 16)%N with 65536%N.
  change (2 ^ 8)%N with 256%N.
  assert (Hd1 : (n / 65536 = (n / 256) / 256)%N) by (rewrite N.div_div; [reflexivity | lia | lia]).
  assert (Hd2 : (n / 16777216 = (n / 65536) / 256)%N) by (rewrite N.div_div; [reflexivity | lia | lia]).
  pose proof (N.div_mod n 256). pose proof (N.div_mod (n / 256) 256).
  pose proof (N.div_mod (n / 65536) 256).
  assert (H4 : (n / 16777216 < 256)%N).
  { apply N.div_lt_upper_bound; lia. }
  rewrite (N.mod_small _ _ H4). rewrite Hd1 in *. rewrite Hd2 in *. lia.
Qed.

Lemma be32_unique : forall b3 b2 b1 b0 c3 c2 c1 c0,
  (Byte.to_N b3 * 2 ^ 24 + Byte.to_N b2 * 2 ^ 16 + Byte.to_N b1 * 2 ^ 8 + Byte.to_N b0 =
   Byte.to_N c3 * 2 ^ 24 + Byte.to_N c2 * 2 ^ 16 + Byte.to_N c1 * 2 ^ 8 + Byte.to_N c0)%N ->
  [b3; b2; b1; b0] = [c3; c2; c1; c0].
Proof.
  intros. change (2 ^ 24)%N with 16777216%N in H. change (2 ^ 16)%N with 65536%N in H.
  change (2 ^ 8)%N with 256%N in H.
  pose proof (to_N_lt b3). pose proof (to_N_lt b2). pose proof (to_N_lt b1).
  pose proof (to_N_lt b0). pose proof (to_N_lt c3). pose proof (to_N_lt c2).
  pose proof (to_N_lt c1). pose proof (to_N_lt c0).
  assert (Byte.to_N b3 = Byte.to_N c3) by lia.
  assert (Byte.to_N b2 = Byte.to_N c2) by lia.
  assert (Byte.to_N b1 = Byte.to_N c1) by lia.
  assert (Byte.to_N b0 = Byte.to_N c0) by lia.
  repeat f_equal; apply to_N_inj; assumption.
Qed.

Lemma for_each_ok : forall A (f : A -> result unit) l,
  for_each f l = Ok tt <-> Forall (fun x => f x = Ok tt) l.
Proof.
  induction l as [| x l IH]; simpl.
  - split; auto.
  - destruct (f x) as [[] | e] eqn:E; simpl.
    + rewrite IH. split; [intro; constructor; auto | intro H; inv H; auto].
    + split; [discriminate | intro H; inv H; congruence].
Qed.

Lemma for_each_err : forall A (f : A -> result unit) l e,
  for_each f l = Err e -> exists x, In x l /\ f x = Err e.
Proof.
  induction l as [| x l IH]; simpl; intros e H; [discriminate |].
  apply bind_err in H. destruct H as [H | [u [_ H]]].
  - eauto.
  - apply IH in H. destruct H as [y [Hi Hy]]. eauto.
Qed.

Lemma map_result_ok : forall A B (f : A -> result B) l m,
  map_result f l = Ok m <-> Forall2 (fun x y => f x = Ok y) l m.
Proof.
  induction l as [| x l IH]; simpl; intros m.
  - split; intro H; inv H; auto.
  - split; intro H.
    + bind_inv. inv Hk0. constructor; auto. apply IH. assumption.
    + inv H. rewrite H2. simpl. apply IH in H4. rewrite H4. reflexivity.
Qed.

Lemma map_result_err : forall A B (f : A -> result B) l e,
  map_result f l = Err e -> exists x, In x l /\ f x = Err e.
Proof.
  induction l as [| x l IH]; simpl; intros e H; [discriminate |].
  apply bind_err in H. destruct H as [H | [y [_ H]]]; [eauto |].
  apply bind_err in H. destruct H as [H | [ys [_ H]]]; [| discriminate].
  apply IH in H. destruct H as [z [Hi Hz]]. eauto.
Qed.

Lemma mem_N_spec : forall n l, mem_N n l = true <-> In n l.
Proof. intros. unfold mem_N. apply existsb_eqb_in, N.eqb_eq. Qed.
