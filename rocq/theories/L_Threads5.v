(** Threads that are run finish. *)
From Coq Require Import List Arith Lia.
From Verif Require Import M_Base M_Prims M_PrimitiveSet M_Registry M_KeysetHandle M_CcManagers M_Threads S_Registry S_Threads L_Threads.
Import ListNotations.

Lemma access_nth_other : forall A (l : list (prog A)) i j r, i <> j ->
  nth_error (snd (access_nth i l r)) j = nth_error l j.
Proof.
  induction l as [| p l IH]; intros i j r H; [destruct i; reflexivity |].
  destruct i as [| i]; cbn [access_nth].
  - destruct (access p r). destruct j; [lia | reflexivity].
  - destruct (access_nth i l r) as [r' l'] eqn:E. destruct j as [| j]; [reflexivity |]. cbn [snd nth_error].
    rewrite <- (IH i j r) by lia. rewrite E. reflexivity.
Qed.
Lemma access_nth_same : forall A (l : list (prog A)) i r p, nth_error l i = Some p ->
  nth_error (snd (access_nth i l r)) i = Some (snd (access p r)).
Proof.
  induction l as [| q l IH]; intros i r p H; [destruct i; discriminate |].
  destruct i as [| i]; cbn [access_nth nth_error] in *.
  - injection H as ->. destruct (access p r). reflexivity.
  - specialize (IH i r p H). destruct (access_nth i l r). exact IH.
Qed.
(** The state after the first [n] accesses of an endless schedule. *)
Lemma pool_run_snoc : forall A l i (s : pool A), pool_run (l ++ [i]) s = pool_step (pool_run l s) i.
Proof. intros. unfold pool_run. rewrite fold_left_app. reflexivity. Qed.

Lemma finished_stays : forall A (a : A) schedule i s, nth_error (snd s) i = Some (Ret a) ->
  nth_error (snd (pool_run schedule s)) i = Some (Ret a).
Proof.
  intros A a. induction schedule as [| j l IH]; intros i s H; [exact H |]. apply IH. unfold pool_step.
  destruct (Nat.eq_dec j i) as [-> | Hn].
  - rewrite (access_nth_same _ _ _ _ _ H). reflexivity.
  - rewrite access_nth_other by exact Hn. exact H.
Qed.
Lemma access_smaller : forall A (P : prog A -> Prop),
  (forall a, P (Ret a)) -> (forall p, (forall r, P (snd (access p r))) -> P p) -> forall p, P p.
Proof.
  intros A P H0 H. induction p; try (apply H; intros r; cbn [access snd]; auto).
Qed.

Theorem fair_threads_finish : forall A (run : nat -> nat) (i : nat),
  (forall n : nat, exists m, (n <= m)%nat /\ run m = i) -> forall (s : pool A), (i < length (snd s))%nat ->
  exists n a, forall m, (n <= m)%nat -> nth_error (snd (pool_run (map run (seq 0 m)) s)) i = Some (Ret a).
Proof.
  intros A run i F s Hi.
  assert (Main : forall p n, nth_error (snd (pool_run (map run (seq 0 n)) s)) i = Some p ->
    exists m a, nth_error (snd (pool_run (map run (seq 0 m)) s)) i = Some (Ret a)).
  { induction p as [a | p IH] using access_smaller; intros n Hn; [eauto |].
    destruct (F n) as (m & Hm & Hr).
    (* the first time from [n] on that the thread runs *)
    assert (W : exists k r, nth_error (snd (pool_run (map run (seq 0 k)) s)) i = Some (snd (access p r))).
    { remember (m - n) as d eqn:Ed. revert n Hn Hm Ed. induction d as [d IHd] using lt_wf_ind. intros n Hn Hm Ed.
      assert (St : forall q, nth_error (snd (pool_run (map run (seq 0 n)) s)) i = Some q ->
        run n = i -> nth_error (snd (pool_run (map run (seq 0 (S n))) s)) i =
          Some (snd (access q (fst (pool_run (map run (seq 0 n)) s))))).
      { intros q Hq Hrun. rewrite seq_S, map_app, Nat.add_0_l. cbn [map]. rewrite pool_run_snoc. unfold pool_step. rewrite Hrun.
        apply access_nth_same, Hq. }
      destruct (Nat.eq_dec (run n) i) as [Hrun | Hrun]; [eauto |].
      assert (n <> m) by congruence.
      apply (IHd (m - S n)) with (n := S n); [lia | | lia | reflexivity].
      rewrite seq_S, map_app, Nat.add_0_l. cbn [map]. rewrite pool_run_snoc. unfold pool_step.
      rewrite access_nth_other by exact Hrun. exact Hn. }
    destruct W as (k & r & Hk). exact (IH r k Hk). }
  destruct (nth_error (snd s) i) as [p |] eqn:E; [| apply nth_error_None in E; lia].
  destruct (Main p 0 E) as (n & a & Hn). exists n, a. intros m Hm.
  replace m with (n + (m - n)) by lia. rewrite seq_app, map_app. unfold pool_run in *. rewrite fold_left_app.
  apply (finished_stays A a). exact Hn.
Qed.

(** A program that has all the turns does what it does alone. *)
Lemma one_thread : forall A (p : prog A) r, exists n,
  forall m, n <= m -> pool_run (repeat 0 m) (r, [p]) = (fst (alone p r), [Ret (snd (alone p r))]).
Proof.
  intros A. induction p; intros r; cbn [alone].
  - exists 0. intros m _. induction m as [| m IH]; [reflexivity |]. exact IH.
  - destruct (H (is_some (dict_get str_eqb url (r_key_managers r))) r) as (n & Hn). exists (S n).
    intros [| m] Hm; [lia |]. apply (Hn m). lia.
  - destruct (H (dict_get str_eqb url (r_key_managers r)) r) as (n & Hn). exists (S n).
    intros [| m] Hm; [lia |]. apply (Hn m). lia.
  - destruct (IHp (mk_registry (dict_set str_eqb url v (r_key_managers r)) (r_wrappers r))) as (n & Hn). exists (S n).
    intros [| m] Hm; [lia |]. apply (Hn m). lia.
  - destruct (H (is_some (dict_get pclass_eqb c (r_wrappers r))) r) as (n & Hn). exists (S n).
    intros [| m] Hm; [lia |]. apply (Hn m). lia.
  - destruct (H (dict_get pclass_eqb c (r_wrappers r)) r) as (n & Hn). exists (S n).
    intros [| m] Hm; [lia |]. apply (Hn m). lia.
  - destruct (IHp (mk_registry (r_key_managers r) (dict_set pclass_eqb c w (r_wrappers r)))) as (n & Hn). exists (S n).
    intros [| m] Hm; [lia |]. apply (Hn m). lia.
Qed.
Theorem single_thread : forall w env calls r, exists n, forall m, (n <= m)%nat ->
  pool_run (repeat 0 m) (r, map (thread_prog w env) [calls]) =
    (fst (calls_alone w env calls r), [Ret (snd (calls_alone w env calls r))]).
Proof. intros w env calls r. rewrite <- alone_thread. apply one_thread. Qed.
