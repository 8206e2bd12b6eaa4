(** Proofs about objects shared between the caller and the library. *)
From Coq Require Import Strings.Byte Strings.String List NArith ZArith Bool Arith Lia.
From Verif Require Import M_Base M_Proto M_Prims M_PrimitiveSet M_Registry M_KeysetHandle M_JwtTypes M_Json M_RawJwt M_Objects
  S_Objects L_Base L_Json2.
Import ListNotations.
Open Scope nat_scope.
Open Scope string_scope.
Open Scope list_scope.

(** [v] is the JSON value [j] and uses only objects that are not in [U]. *)
Inductive private (U : nat -> Prop) (h : heap) : pyval -> json -> Prop :=
| private_none : private U h VNone JNull
| private_bool : forall b, private U h (VBool b) (JBool b)
| private_int : forall z, private U h (VInt z) (JInt z)
| private_float : forall f, private U h (VFloat f) (JFloat f)
| private_str : forall x, private U h (VStr x) (JStr x)
| private_list : forall a l js, ~ U a -> nth_error h a = Some (OList l) -> Forall2 (private U h) l js ->
    private U h (VRef a) (JList js)
| private_dict : forall a l js, ~ U a -> nth_error h a = Some (ODict l) ->
    Forall2 (fun e f => fst e = fst f /\ private U h (snd e) (snd f)) l js -> private U h (VRef a) (JDict js).

Lemma nth_some_lt : forall (h : heap) a o, nth_error h a = Some o -> a < length h.
Proof. intros h a o H. apply nth_error_Some. congruence. Qed.
Lemma nth_app_old : forall (h x : heap) a o, nth_error h a = Some o -> nth_error (h ++ x) a = Some o.
Proof. intros h x a o H. rewrite nth_error_app1; [exact H | eapply nth_some_lt; eauto]. Qed.
Lemma nth_new : forall (h : heap) o, nth_error (h ++ [o]) (length h) = Some o.
Proof. intros. rewrite nth_error_app2, Nat.sub_diag by lia. reflexivity. Qed.

Lemma forall2_map : forall A B (P Q : A -> B -> Prop) l m, Forall2 P l m ->
  (forall a b, In b m -> P a b -> Q a b) -> Forall2 Q l m.
Proof.
  intros A B P Q l m H. induction H as [| a b l m Hab _ IH]; intros Hi; constructor.
  - apply Hi; [left; reflexivity | exact Hab].
  - apply IH. intros x y Hy. apply Hi. right. exact Hy.
Qed.

Lemma private_frame : forall (U U' : nat -> Prop) h h',
  (forall a o, ~ U a -> nth_error h a = Some o -> nth_error h' a = Some o) ->
  (forall a o, nth_error h a = Some o -> match o with OKeyset _ => False | _ => True end -> U' a -> U a) ->
  forall j v, private U h v j -> private U' h' v j.
Proof.
  intros U U' h h' Hh HU.
  induction j as [| b | z | f | x | l IH | l IH] using json_nested_ind; intros v H; inversion H; subst; try constructor.
  - econstructor; [| eapply Hh; eauto |].
    + intros Hu. eapply HU in Hu; [| eassumption | exact I]. auto.
    + rewrite Forall_forall in IH. eapply forall2_map; [eassumption |]. cbn beta. intros; apply IH; auto.
  - econstructor; [| eapply Hh; eauto |].
    + intros Hu. eapply HU in Hu; [| eassumption | exact I]. auto.
    + rewrite Forall_forall in IH. eapply forall2_map; [eassumption |]. cbn beta. intros a0 b Hb [E Hp].
      split; [exact E | apply (IH b Hb), Hp].
Qed.
Lemma private_shows : forall U h j v, private U h v j -> shows h v j.
Proof.
  intros U h. induction j as [| b | z | f | x | l IH | l IH] using json_nested_ind; intros v H; inversion H; subst; try constructor;
    rewrite Forall_forall in IH.
  - econstructor; [eassumption |]. eapply forall2_map; [eassumption |]. cbn beta. auto.
  - econstructor; [eassumption |]. eapply forall2_map; [eassumption |]. cbn beta. intros e f Hf [E Hp]. auto.
Qed.
Lemma forall2_same : forall A B (P : A -> B -> Prop) l m m', Forall2 P l m -> Forall2 P l m' ->
  (forall a b b', In b m -> P a b -> P a b' -> b = b') -> m = m'.
Proof.
  intros A B P l m m' H. revert m'. induction H as [| a b l m Hab _ IH]; intros m' H' Hs; inversion H'; subst; [reflexivity |].
  f_equal; [eapply Hs; eauto; left; reflexivity |]. apply IH; [assumption |]. intros x0 y0 z0 Hy. apply Hs. right. exact Hy.
Qed.
Lemma shows_same : forall h j v j', shows h v j -> shows h v j' -> j = j'.
Proof.
  intros h. induction j as [| b | z | f | x | l IH | l IH] using json_nested_ind; intros v j' H H';
    inversion H; subst; inversion H'; subst; try congruence; f_equal; rewrite Forall_forall in IH.
  - replace l1 with l0 in * by congruence. eapply forall2_same; [eassumption | eassumption |]. cbn beta. intros; eapply IH; eauto.
  - replace l1 with l0 in * by congruence. eapply forall2_same; [eassumption | eassumption |]. cbn beta.
    intros e [n y] [n' z] Hin [E1 S1] [E2 S2]. cbn [fst snd] in *. f_equal; [congruence |]. exact (IH _ Hin _ _ S1 S2).
Qed.

(** ** view *)
Lemma map_option_forall2 : forall A B (f : A -> option B) l m, map_option f l = Some m <-> Forall2 (fun a b => f a = Some b) l m.
Proof.
  intros A B f. induction l as [| a l IH]; intros m; cbn [map_option]; split; intros H.
  - injection H as <-. constructor.
  - inversion H. reflexivity.
  - destruct (f a) eqn:E; [| discriminate]. destruct (map_option f l) eqn:El; [| discriminate]. injection H as <-.
    constructor; [exact E | apply IH; reflexivity].
  - inversion H as [| a' b l' m' Ha Hl]; subst. rewrite Ha. apply IH in Hl. rewrite Hl. reflexivity.
Qed.
Lemma view_shows : forall n h v j, view n h v = Some j -> shows h v j.
Proof.
  induction n as [| n IH]; intros h [| b | z | f | x | a] j H; cbn [view] in H; try (injection H as <-; constructor); try discriminate.
  destruct (nth_error h a) as [[l | l | ks] |] eqn:E; try discriminate.
  - destruct (map_option (view n h) l) as [js |] eqn:El; [| discriminate]. injection H as <-.
    econstructor; [exact E |]. apply map_option_forall2 in El. eapply forall2_map; [exact El |]. cbn beta. auto.
  - destruct (map_option _ l) as [js |] eqn:El; [| discriminate]. injection H as <-.
    econstructor; [exact E |]. apply map_option_forall2 in El. eapply forall2_map; [exact El |]. cbn beta. intros e f _ Hf.
    destruct (view n h (snd e)) eqn:Ev; [| discriminate]. injection Hf as <-. cbn [fst snd]. auto.
Qed.

(** ** store *)
(** What [store] adds: new objects only, that refer to each other only. *)
Definition extends (h h' : heap) : Prop :=
  exists x, h' = h ++ x /\
    forall a o b, length h <= a -> nth_error h' a = Some o -> In b (refs o) -> length h <= b < length h'.
Definition fresh (h h' : heap) (a : nat) : Prop := length h <= a < length h'.
Lemma extends_refl : forall h, extends h h.
Proof.
  intros h. exists []. split; [rewrite app_nil_r; reflexivity |]. intros a o b Ha H. apply nth_some_lt in H. lia.
Qed.
Lemma extends_length : forall h h', extends h h' -> length h <= length h'.
Proof. intros h h' (x & -> & _). rewrite app_length. lia. Qed.
Lemma extends_old : forall h h' a o, extends h h' -> nth_error h a = Some o -> nth_error h' a = Some o.
Proof. intros h h' a o (x & -> & _). apply nth_app_old. Qed.
Lemma extends_back : forall h h' a, extends h h' -> a < length h -> nth_error h' a = nth_error h a.
Proof. intros h h' a (x & -> & _) Ha. apply nth_error_app1, Ha. Qed.
Lemma extends_trans : forall h1 h2 h3, extends h1 h2 -> extends h2 h3 -> extends h1 h3.
Proof.
  intros h1 h2 h3 E1 E2. pose proof (extends_length _ _ E1). pose proof (extends_length _ _ E2).
  pose proof E1 as (x & Ex & H1). pose proof E2 as (y & Ey & H2).
  exists (x ++ y). split; [subst; rewrite app_assoc; reflexivity |].
  intros a o b Ha Ho Hb. destruct (Nat.lt_ge_cases a (length h2)) as [Hl | Hl].
  - rewrite (extends_back _ _ _ E2 Hl) in Ho. specialize (H1 a o b Ha Ho Hb). lia.
  - specialize (H2 a o b Hl Ho Hb). lia.
Qed.
Lemma extends_put : forall h h' o, extends h h' -> (forall b, In b (refs o) -> fresh h h' b) -> extends h (h' ++ [o]).
Proof.
  intros h h' o E Ho. pose proof (extends_length _ _ E). destruct E as (x & -> & H1).
  exists (x ++ [o]). split; [rewrite app_assoc; reflexivity |].
  intros a o' b Ha Hn Hb. rewrite (app_length (h ++ x)). cbn [length].
  destruct (Nat.lt_ge_cases a (length (h ++ x))) as [Hl | Hl].
  - rewrite nth_error_app1 in Hn by exact Hl. specialize (H1 a o' b Ha Hn Hb). lia.
  - rewrite nth_error_app2 in Hn by exact Hl. destruct (a - length (h ++ x)) as [| n] eqn:En; [| destruct n; discriminate].
    injection Hn as <-. specialize (Ho b Hb). unfold fresh in Ho. lia.
Qed.

Definition store_list := (fix go (h : heap) (l : list json) : list pyval * heap :=
           match l with
           | [] => ([], h)
           | x :: r => let (v, h1) := store h x in let (vs, h2) := go h1 r in (v :: vs, h2)
           end).
Definition store_dict := (fix go (h : heap) (l : list (pystr * json)) : list (pystr * pyval) * heap :=
           match l with
           | [] => ([], h)
           | (n, x) :: r =>
               let (v, h1) := store h x in let (vs, h2) := go h1 r in ((n, v) :: vs, h2)
           end).
Definition val_refs (v : pyval) : list nat := match v with VRef a => [a] | _ => [] end.
(** [v] is new and shows [j]. *)
Definition made (h h' : heap) (v : pyval) (j : json) : Prop :=
  extends h h' /\ (forall a, In a (val_refs v) -> fresh h h' a) /\
  private (fun a => a < length h) h' v j.
Lemma private_more : forall h h' (U : nat -> Prop) v j k, private U h v j -> extends h h' -> (forall a, k <= a -> ~ U a) ->
  private U h' v j.
Proof. intros h h' U v j k H E _. eapply private_frame; [| | exact H]; [intros; eapply extends_old; eauto | auto]. Qed.

Lemma store_made : forall j h v h', store h j = (v, h') -> made h h' v j.
Proof.
  induction j as [| b | z | f | x | l IH | l IH] using json_nested_ind; intros h v h' E;
    try (injection E as <- <-; split; [apply extends_refl | split; [intros a [] | constructor]]).
  - change (store h (JList l)) with (let (vs, h1) := store_list h l in let (a, h2) := put h1 (OList vs) in (VRef a, h2)) in E.
    assert (L : forall l, Forall (fun j => forall h v h', store h j = (v, h') -> made h h' v j) l ->
      forall h vs h', store_list h l = (vs, h') ->
      extends h h' /\ (forall a, In a (concat (map val_refs vs)) -> fresh h h' a) /\
      Forall2 (private (fun a => a < length h) h') vs l).
    { clear. induction 1 as [| j l Hj _ IHl]; intros h vs h' E; cbn [store_list] in E.
      - injection E as <- <-. split; [apply extends_refl |]. split; [intros a [] | constructor].
      - destruct (store h j) as [v h1] eqn:E1. fold store_list in E. destruct (store_list h1 l) as [vs' h2] eqn:E2.
        injection E as <- <-. destruct (Hj _ _ _ E1) as (X1 & F1 & P1). destruct (IHl _ _ _ E2) as (X2 & F2 & P2).
        pose proof (extends_length _ _ X1). pose proof (extends_length _ _ X2).
        split; [eapply extends_trans; eauto |]. split.
        + intros a Ha. cbn [map concat] in Ha. apply in_app_iff in Ha. unfold fresh in *.
          destruct Ha as [Ha | Ha]; [specialize (F1 a Ha) | specialize (F2 a Ha)]; lia.
        + constructor.
          * eapply private_frame; [| | exact P1]; [intros; eapply extends_old; eauto | auto].
          * eapply forall2_map; [exact P2 |]. cbn beta. intros a b _ Hp.
            eapply private_frame; [| | exact Hp]; [auto | cbn beta; intros; lia]. }
    destruct (store_list h l) as [vs h1] eqn:El. cbn [put] in E. injection E as <- <-.
    destruct (L l IH _ _ _ El) as (X & F & P). pose proof (extends_length _ _ X).
    split; [apply extends_put; [exact X |]; exact F |]. split.
    + intros a [<- | []]. unfold fresh. rewrite app_length. cbn [length]. lia.
    + econstructor; [| apply nth_new |]; [lia |]. eapply forall2_map; [exact P |]. cbn beta. intros a b _ Hp.
      eapply private_frame; [| | exact Hp]; [intros; apply nth_app_old; auto | auto].
  - change (store h (JDict l)) with (let (vs, h1) := store_dict h l in let (a, h2) := put h1 (ODict vs) in (VRef a, h2)) in E.
    assert (L : forall l, Forall (fun kv : pystr * json => forall h v h', store h (snd kv) = (v, h') -> made h h' v (snd kv)) l ->
      forall h vs h', store_dict h l = (vs, h') ->
      extends h h' /\ (forall a, In a (concat (map (fun e => val_refs (snd e)) vs)) -> fresh h h' a) /\
      Forall2 (fun e f => fst e = fst f /\ private (fun a => a < length h) h' (snd e) (snd f)) vs l).
    { clear. induction 1 as [| [n j] l Hj _ IHl]; intros h vs h' E; cbn [store_dict] in E.
      - injection E as <- <-. split; [apply extends_refl |]. split; [intros a [] | constructor].
      - cbn [snd] in Hj. destruct (store h j) as [v h1] eqn:E1. fold store_dict in E. destruct (store_dict h1 l) as [vs' h2] eqn:E2.
        injection E as <- <-. destruct (Hj _ _ _ E1) as (X1 & F1 & P1). destruct (IHl _ _ _ E2) as (X2 & F2 & P2).
        pose proof (extends_length _ _ X1). pose proof (extends_length _ _ X2).
        split; [eapply extends_trans; eauto |]. split.
        + intros a Ha. cbn [map concat snd] in Ha. apply in_app_iff in Ha. unfold fresh in *.
          destruct Ha as [Ha | Ha]; [specialize (F1 a Ha) | specialize (F2 a Ha)]; lia.
        + constructor.
          * split; [reflexivity |]. cbn [snd]. eapply private_frame; [| | exact P1]; [intros; eapply extends_old; eauto | auto].
          * eapply forall2_map; [exact P2 |]. cbn beta. intros a b _ [Hf Hp]. split; [exact Hf |].
            eapply private_frame; [| | exact Hp]; [auto | cbn beta; intros; lia]. }
    destruct (store_dict h l) as [vs h1] eqn:El. cbn [put] in E. injection E as <- <-.
    destruct (L l IH _ _ _ El) as (X & F & P). pose proof (extends_length _ _ X).
    split; [apply extends_put; [exact X |]; exact F |]. split.
    + intros a [<- | []]. unfold fresh. rewrite app_length. cbn [length]. lia.
    + econstructor; [| apply nth_new |]; [lia |]. eapply forall2_map; [exact P |]. cbn beta. intros a b _ [Hf Hp]. split; [exact Hf |].
      eapply private_frame; [| | exact Hp]; [intros; apply nth_app_old; auto | auto].
Qed.
