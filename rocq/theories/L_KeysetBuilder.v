(** Histories of calls on a KeysetBuilder. *)
From Coq Require Import Strings.Byte Strings.String List NArith ZArith Bool Lia.
From Verif Require Import M_Base L_Base M_Proto M_Wire L_Wire M_Prims M_PrimitiveSet M_Registry M_KeysetHandle
  M_KeysetIO M_KeysetBuilder S_Wire S_Keyset S_Handle L_Keyset L_Wrappers L_Handle S_KeysetBuilder.
Import ListNotations.
Open Scope list_scope.

Lemma builder_fresh : forall draws ks id, builder_generate_unused_key_id draws ks = Some id ->
  (1 <= id <= 4294967295)%N /\ ~ In id (map k_key_id (ks_key ks)).
Proof.
  induction draws as [| raw draws IH]; intros ks id H; [discriminate |].
  cbn [builder_generate_unused_key_id] in H.
  destruct (mem_N (randint 1 BUILDER_MAX_INT32 raw) (map k_key_id (ks_key ks))) eqn:E; cbn [negb] in H; [auto |].
  apply some_inj in H. subst id. split.
  - apply randint_range. unfold BUILDER_MAX_INT32. lia.
  - intro Hi. apply mem_N_spec in Hi. congruence.
Qed.

Lemma builder_draw : forall ks id, (1 <= id <= 4294967295)%N -> ~ In id (map k_key_id (ks_key ks)) ->
  builder_generate_unused_key_id [(id - 1)%N] ks = Some id.
Proof.
  intros ks id Hr Hn. cbn [builder_generate_unused_key_id]. rewrite randint_surj by exact Hr.
  destruct (mem_N id (map k_key_id (ks_key ks))) eqn:E; [| reflexivity]. apply mem_N_spec in E. contradiction.
Qed.

Lemma find_cases : forall id l,
  (find (fun k => (Z.of_N (k_key_id k) =? id)%Z) l = None /\ Forall (fun k => ~ has_id id k) l) \/
  (exists before k after, find (fun k => (Z.of_N (k_key_id k) =? id)%Z) l = Some k /\
     l = before ++ k :: after /\ has_id id k /\ Forall (fun k' => ~ has_id id k') before).
Proof.
  intros id. induction l as [| k l IH]; [left; split; [reflexivity | constructor] |]. cbn [find].
  destruct (Z.eqb_spec (Z.of_N (k_key_id k)) id) as [E | E].
  - right. exists [], k, l. repeat split; [exact E | constructor].
  - destruct IH as [(F & A) | (b & k' & a & F & -> & Hi & Hb)].
    + left. split; [exact F | constructor; assumption].
    + right. exists (k :: b), k', a. repeat split; [exact F | exact Hi | constructor; assumption].
Qed.

Lemma set_status_none : forall id s l, Forall (fun k => ~ has_id id k) l -> set_status id s l = None.
Proof.
  intros id s l H. induction H as [| k l Hk H IH]; [reflexivity |]. cbn [set_status].
  destruct (Z.eqb_spec (Z.of_N (k_key_id k)) id); [contradiction |]. rewrite IH. reflexivity.
Qed.
Lemma set_status_some : forall id s before k after, Forall (fun k' => ~ has_id id k') before -> has_id id k ->
  set_status id s (before ++ k :: after) = Some (before ++ with_status s k :: after).
Proof.
  intros id s before k after H Hk. induction H as [| k' l Hk' H IH]; cbn [app set_status].
  - unfold has_id in Hk. rewrite Hk, Z.eqb_refl. reflexivity.
  - destruct (Z.eqb_spec (Z.of_N (k_key_id k')) id); [contradiction |]. rewrite IH. reflexivity.
Qed.
Lemma remove_first_at : forall id before k after, Forall (fun k' => ~ has_id id k') before -> has_id id k ->
  remove_first k (before ++ k :: after) = before ++ after.
Proof.
  intros id before k after H Hk. induction H as [| k' l Hk' H IH]; cbn [app remove_first].
  - rewrite (proj2 (key_eqb_spec k k) eq_refl). reflexivity.
  - destruct (key_eqb k' k) eqn:E; [apply key_eqb_spec in E; subst k'; contradiction |]. rewrite IH. reflexivity.
Qed.

Lemma builder_find_key : forall id ks,
  (find_key id ks = None /\ unknown_id id ks) \/
  (exists before k after, find_key id ks = Some k /\ first_with id ks before k after).
Proof.
  intros id ks. destruct (find_cases id (ks_key ks)) as [H | (b & k & a & F & H)]; [left; exact H |].
  right. exists b, k, a. split; [exact F | exact H].
Qed.

(** Every call does what the specification says. *)
Theorem builder_step_effect : forall reg op ks r ks',
  builder_step reg op ks = Some (r, ks') -> builder_effect reg op ks r ks'.
Proof.
  intros reg op ks r ks' H. destruct op as [rnd draws t | id | id | id | id]; cbn [builder_step builder_effect] in *.
  - unfold add_new_key in H. destruct (registry_new_key_data reg rnd t) as [d | e] eqn:Ed.
    + destruct (builder_generate_unused_key_id _ _) as [id |] eqn:Eg; [| discriminate].
      injection H as <- <-. left. exists d, id. split; [reflexivity |]. split; [reflexivity |].
      apply builder_fresh in Eg. destruct Eg as [Hr Hn]. split; [exact Hr |]. split; [| reflexivity].
      apply Forall_forall. intros k Hk E. apply Hn. cbn [ks_key]. rewrite map_app. apply in_app_iff. left.
      apply in_map_iff. exists k. split; [| exact Hk]. unfold has_id in E. lia.
    + injection H as <- <-. right. exists e. auto.
  - unfold set_primary_key in H. destruct (builder_find_key id ks) as [(F & U) | (b & k & a & F & W)]; rewrite F in H;
      injection H as <- <-.
    + left. split; [exact U |]. split; [reflexivity |]. eexists. split; [reflexivity | reflexivity].
    + right. exists b, k, a. split; [exact W |]. split; [reflexivity |]. destruct W as (_ & W & _).
      unfold has_id in W. rewrite <- W, N2Z.id. reflexivity.
  - unfold enable_key, change_status in H.
    destruct (builder_find_key id ks) as [(F & U) | (b & k & a & F & W)].
    + rewrite (set_status_none _ _ _ U) in H. injection H as <- <-. left. split; [exact U |].
      split; [reflexivity |]. eexists. split; reflexivity.
    + destruct W as (E & Hk & Hb). rewrite E, (set_status_some _ _ _ _ _ Hb Hk) in H. injection H as <- <-.
      right. exists b, k, a. split; [split; [exact E | split; assumption] |]. split; reflexivity.
  - unfold disable_key, change_status in H.
    destruct (builder_find_key id ks) as [(F & U) | (b & k & a & F & W)].
    + rewrite (set_status_none _ _ _ U) in H. injection H as <- <-. left. split; [exact U |].
      split; [reflexivity |]. eexists. split; reflexivity.
    + destruct W as (E & Hk & Hb). rewrite E, (set_status_some _ _ _ _ _ Hb Hk) in H. injection H as <- <-.
      right. exists b, k, a. split; [split; [exact E | split; assumption] |]. split; reflexivity.
  - unfold delete_key in H. destruct (builder_find_key id ks) as [(F & U) | (b & k & a & F & W)]; rewrite F in H;
      injection H as <- <-.
    + left. split; [exact U |]. split; [reflexivity |]. eexists. split; [reflexivity | reflexivity].
    + right. exists b, k, a. split; [exact W |]. split; [reflexivity |]. destruct W as (E & Hk & Hb).
      rewrite E, (remove_first_at _ _ _ _ Hb Hk). reflexivity.
Qed.

(** Only additions need random numbers; any unused id can be drawn. *)
Theorem builder_step_total : forall reg op ks,
  match op with
  | AddNewKey rnd _ t =>
      (exists e, registry_new_key_data reg rnd t = Err e) \/
      forall id, (1 <= id <= 4294967295)%N -> unknown_id (Z.of_N id) ks ->
      exists draws ks', builder_step reg (AddNewKey rnd draws t) ks = Some (Ok (Some id), ks')
  | _ => exists r ks', builder_step reg op ks = Some (r, ks')
  end.
Proof.
  intros reg op ks. destruct op as [rnd draws t | id | id | id | id]; cbn [builder_step]; eauto.
  destruct (registry_new_key_data reg rnd t) as [d | e] eqn:Ed; [right | left; eauto].
  intros id Hr Hu. exists [(id - 1)%N]. unfold add_new_key. rewrite Ed, builder_draw; [eauto | exact Hr |].
  cbn [ks_key]. rewrite map_app, in_app_iff. cbn [map k_key_id In]. intros [Hi | [Hi | []]]; [| lia].
  apply in_map_iff in Hi. destruct Hi as (k & E & Hi). unfold unknown_id in Hu. rewrite Forall_forall in Hu.
  apply (Hu k Hi). unfold has_id. rewrite E. reflexivity.
Qed.

(** ** Ids *)

Definition real_ids (ks : keyset) : list N := filter (fun i => negb (i =? 0)%N) (map k_key_id (ks_key ks)).

Lemma acts_on_ids : forall id ks r ks' change, acts_on id ks r ks' change ->
  (forall before k after, first_with id ks before k after ->
     map k_key_id (ks_key (change before k after)) = map k_key_id (ks_key ks)) ->
  map k_key_id (ks_key ks') = map k_key_id (ks_key ks).
Proof. intros id ks r ks' change [(_ & -> & _) | (b & k & a & W & _ & ->)] H; [reflexivity | eauto]. Qed.

Lemma with_status_ids : forall s before k after,
  map k_key_id (before ++ with_status s k :: after) = map k_key_id (before ++ k :: after).
Proof. intros. rewrite !map_app. reflexivity. Qed.

Lemma nodup_remove_part : forall (A : Type) (l m : list A) x, NoDup (l ++ x :: m) -> NoDup (l ++ m).
Proof. intros A l m x H. exact (NoDup_remove_1 _ _ _ H). Qed.

Lemma step_ids : forall reg op ks r ks', builder_effect reg op ks r ks' ->
  map k_key_id (ks_key ks') = map k_key_id (ks_key ks) \/
  (exists l x m, map k_key_id (ks_key ks) = l ++ x :: m /\ map k_key_id (ks_key ks') = l ++ m) \/
  (exists id, map k_key_id (ks_key ks') = map k_key_id (ks_key ks) ++ [id] /\ (1 <= id <= 4294967295)%N /\
     ~ In id (map k_key_id (ks_key ks))) \/
  (failed_add op r /\ map k_key_id (ks_key ks') = map k_key_id (ks_key ks) ++ [0%N]).
Proof.
  intros reg op ks r ks' H. destruct op as [rnd draws t | id | id | id | id]; cbn [builder_effect] in H.
  - destruct H as [(d & id & _ & -> & Hr & Hu & ->) | (e & _ & -> & ->)]; cbn [ks_key]; rewrite map_app.
    + right. right. left. exists id. split; [reflexivity |]. split; [exact Hr |]. intros Hi.
      apply in_map_iff in Hi. destruct Hi as (k & E & Hi). unfold unknown_id in Hu. rewrite Forall_forall in Hu.
      apply (Hu k Hi). unfold has_id. rewrite E. reflexivity.
    + right. right. right. split; [exists e; reflexivity | reflexivity].
  - left. eapply acts_on_ids; [exact H |]. reflexivity.
  - left. eapply acts_on_ids; [exact H |]. intros b k a (E & _). cbn [ks_key]. rewrite with_status_ids, E. reflexivity.
  - left. eapply acts_on_ids; [exact H |]. intros b k a (E & _). cbn [ks_key]. rewrite with_status_ids, E. reflexivity.
  - destruct H as [(_ & -> & _) | (b & k & a & (E & _) & _ & ->)]; [left; reflexivity |].
    right. left. exists (map k_key_id b), (k_key_id k), (map k_key_id a). rewrite E. cbn [ks_key]. rewrite !map_app. auto.
Qed.

Lemma step_real_ids : forall reg op ks r ks', builder_effect reg op ks r ks' ->
  NoDup (real_ids ks) -> NoDup (real_ids ks').
Proof.
  intros reg op ks r ks' H Hn. unfold real_ids in *.
  destruct (step_ids _ _ _ _ _ H) as [E | [(l & x & m & E & E') | [(id & E & Hr & Hu) | (_ & E)]]].
  - rewrite E. exact Hn.
  - rewrite E'. rewrite E in Hn. rewrite filter_app in *. cbn [filter] in Hn. destruct (negb (x =? 0)%N); [| exact Hn].
    eapply nodup_remove_part. exact Hn.
  - rewrite E, filter_app. cbn [filter]. destruct (N.eqb_spec id 0); [lia |]. cbn [negb].
    apply (NoDup_Add (a := id) (l := filter (fun i => negb (i =? 0)%N) (map k_key_id (ks_key ks)))).
    + rewrite <- (app_nil_r (filter _ _)) at 1. apply Add_app.
    + split; [exact Hn |]. intros Hi. apply filter_In in Hi. apply Hu. apply Hi.
  - rewrite E, filter_app. cbn [filter N.eqb negb]. rewrite app_nil_r. exact Hn.
Qed.

(** In every history ids other than 0 stay distinct; 0 appears only by an addition that
    raised. *)
Theorem builder_ids : forall reg ops ks rs ks',
  builder_run reg ops ks = Some (rs, ks') ->
  NoDup (map k_key_id (ks_key ks)) -> Forall (fun k => k_key_id k <> 0%N) (ks_key ks) ->
  (forall k k' l m n, ks_key ks' = l ++ k :: m ++ k' :: n -> k_key_id k = k_key_id k' -> k_key_id k = 0%N) /\
  (Forall2 (fun op r => ~ failed_add op r) ops rs ->
   NoDup (map k_key_id (ks_key ks')) /\ Forall (fun k => k_key_id k <> 0%N) (ks_key ks')).
Proof.
  intros reg ops ks rs ks' H Hn Hz.
  assert (A : forall ops ks rs, builder_run reg ops ks = Some (rs, ks') -> NoDup (real_ids ks) -> NoDup (real_ids ks')).
  { clear. induction ops as [| op ops IH]; intros ks rs H Hn; cbn [builder_run] in H.
    - injection H as <- <-. exact Hn.
    - destruct (builder_step reg op ks) as [[r k1] |] eqn:Es; [| discriminate].
      destruct (builder_run reg ops k1) as [[rs' k2] |] eqn:Er; [| discriminate]. injection H as <- <-.
      eapply IH; [exact Er |]. eapply step_real_ids; [apply builder_step_effect; exact Es | exact Hn]. }
  assert (B : NoDup (real_ids ks')) by (eapply A; [exact H |]; apply NoDup_filter; exact Hn).
  split.
  - intros k k' l m n E Ei. unfold real_ids in B. rewrite E in B.
    rewrite map_app, filter_app in B. cbn [map filter] in B. rewrite map_app, filter_app in B. cbn [map filter] in B.
    destruct (N.eqb_spec (k_key_id k) 0) as [E0 | E0]; [exact E0 |]. exfalso. rewrite <- Ei in B. cbn [negb] in B.
    destruct (N.eqb_spec (k_key_id k) 0) as [E1 | _]; [contradiction |]. cbn [negb] in B.
    apply NoDup_remove_2 in B. apply B. apply in_app_iff. right. apply in_app_iff. right. left. reflexivity.
  - clear A B. revert ks rs H Hn Hz. induction ops as [| op ops IH]; intros ks rs H Hn Hz F; cbn [builder_run] in H.
    + injection H as <- <-. split; assumption.
    + destruct (builder_step reg op ks) as [[r k1] |] eqn:Es; [| discriminate].
      destruct (builder_run reg ops k1) as [[rs' k2] |] eqn:Er; [| discriminate]. injection H as <- ->.
      inversion F as [| ? ? ? ? F1 F2]; subst. apply builder_step_effect in Es.
      assert (Z1 : forall k, Forall (fun k => k_key_id k <> 0%N) (ks_key k) <-> ~ In 0%N (map k_key_id (ks_key k))).
      { clear. intros k. rewrite Forall_forall. split.
        - intros H Hi. apply in_map_iff in Hi. destruct Hi as (x & E & Hi). apply (H x Hi E).
        - intros H x Hi E. apply H. apply in_map_iff. eauto. }
      assert (G : NoDup (map k_key_id (ks_key k1)) /\ Forall (fun k => k_key_id k <> 0%N) (ks_key k1)).
      { rewrite Z1 in *.
        destruct (step_ids _ _ _ _ _ Es) as [E | [(l & x & m & E & E') | [(id & E & Hr & Hu) | (Hf & _)]]].
        - rewrite E. split; assumption.
        - rewrite E'. rewrite E in Hn, Hz. split; [eapply nodup_remove_part; exact Hn |].
          intros Hi. apply Hz. apply in_app_iff in Hi. apply in_app_iff. cbn [In]. tauto.
        - rewrite E. split.
          + apply (NoDup_Add (a := id) (l := map k_key_id (ks_key ks))); [| split; assumption].
            rewrite <- (app_nil_r (map _ _)) at 1. apply Add_app.
          + rewrite in_app_iff. cbn [In]. intros [Hi | [Hi | []]]; [contradiction | lia].
        - contradiction. }
      destruct G. eapply IH; eassumption.
Qed.

(** ** Keys persist *)

Lemma first_with_fun : forall id ks b k a b' k' a', first_with id ks b k a -> first_with id ks b' k' a' ->
  b = b' /\ k = k' /\ a = a'.
Proof.
  intros id ks b k a b' k' a' (E & Hk & Hb) (E' & Hk' & Hb'). rewrite E in E'. clear E.
  revert b' E' Hb'. induction Hb as [| x b Hx Hb IH]; intros [| y b'] E' Hb'; cbn [app] in E'; inversion E'; subst.
  - auto.
  - inversion Hb'; subst. contradiction.
  - contradiction.
  - inversion Hb' as [| ? ? Hy Hb'']; subst. match goal with E : _ = b' ++ _ |- _ => destruct (IH _ E Hb'') as (-> & -> & ->) end. auto.
Qed.

(** The first key with [id] in a list that changed before or after it. *)
Lemma first_with_other : forall id id' s b k a b' k' a' ks, first_with id ks b k a -> first_with id' ks b' k' a' -> id <> id' ->
  exists b1 a1, first_with id (mk_keyset 0 (b' ++ with_status s k' :: a')) b1 k a1 /\
  exists b2 a2, first_with id (mk_keyset 0 (b' ++ a')) b2 k a2.
Proof.
  intros id id' s b k a b' k' a' ks (E & Hk & Hb) (E' & Hk' & Hb') Hne. rewrite E in E'. clear E.
  revert b' E' Hb'. induction Hb as [| x b Hx Hb IH]; intros [| y b'] E' Hb'; cbn [app] in E'; inversion E'; subst.
  - unfold has_id in *. congruence.
  - exists [], (b' ++ with_status s k' :: a'). split; [split; [reflexivity | split; [exact Hk | constructor]] |].
    exists [], (b' ++ a'). split; [reflexivity | split; [exact Hk | constructor]].
  - exists (with_status s k' :: b), a. split; [split; [reflexivity | split; [exact Hk | constructor; [exact Hx | exact Hb]]] |].
    exists b, a. split; [reflexivity | split; [exact Hk | exact Hb]].
  - inversion Hb' as [| ? ? Hy Hb'']; subst. match goal with E : b ++ _ = b' ++ _ |- _ => destruct (IH _ E Hb'') as (b1 & a1 & (E1 & F1 & G1) & b2 & a2 & (E2 & F2 & G2)) end.
    cbn [ks_key] in *. exists (y :: b1), a1. split; [split; [cbn [ks_key app]; rewrite E1; reflexivity | split; [exact F1 | constructor; assumption]] |].
    exists (y :: b2), a2. split; [cbn [ks_key app]; rewrite E2; reflexivity | split; [exact F2 | constructor; assumption]].
Qed.

Lemma step_persist : forall reg op ks r ks' id b k a, builder_effect reg op ks r ks' ->
  first_with id ks b k a -> ~ deletes id op ->
  exists b' a', first_with id ks' b' (with_status (status_after id [op] (k_status k)) k) a'.
Proof.
  intros reg op ks r ks' id b k a H W Hd.
  assert (Wk : with_status (k_status k) k = k) by (destruct k; reflexivity).
  destruct op as [rnd draws t | id' | id' | id' | id']; cbn [builder_effect status_after] in *.
  - rewrite Wk. destruct W as (E & Hk & Hb).
    destruct H as [(d & i & _ & _ & _ & _ & ->) | (e & _ & _ & ->)]; cbn [ks_key];
      exists b; eexists; (split; [cbn [ks_key]; rewrite E, <- app_assoc; reflexivity | split; assumption]).
  - rewrite Wk. destruct H as [(_ & -> & _) | (b' & k' & a' & _ & _ & ->)]; [eauto |]. exists b, a. exact W.
  - destruct H as [(U & -> & _) | (b' & k' & a' & W' & _ & ->)].
    + destruct (Z.eqb_spec id' id) as [-> | Hne]; [| rewrite Wk; eauto]. exfalso. destruct W as (E & Hk & _).
      unfold unknown_id in U. rewrite E, Forall_forall in U. apply (U k); [apply in_app_iff; right; left; reflexivity | exact Hk].
    + destruct (Z.eqb_spec id' id) as [-> | Hne].
      * destruct (first_with_fun _ _ _ _ _ _ _ _ W W') as (-> & -> & ->). exists b', a'. destruct W as (E & Hk & Hb).
        split; [reflexivity | split; [exact Hk | exact Hb]].
      * rewrite Wk. destruct (first_with_other _ _ ENABLED _ _ _ _ _ _ _ W W' (not_eq_sym Hne)) as (b1 & a1 & G & _).
        exists b1, a1. exact G.
  - destruct H as [(U & -> & _) | (b' & k' & a' & W' & _ & ->)].
    + destruct (Z.eqb_spec id' id) as [-> | Hne]; [| rewrite Wk; eauto]. exfalso. destruct W as (E & Hk & _).
      unfold unknown_id in U. rewrite E, Forall_forall in U. apply (U k); [apply in_app_iff; right; left; reflexivity | exact Hk].
    + destruct (Z.eqb_spec id' id) as [-> | Hne].
      * destruct (first_with_fun _ _ _ _ _ _ _ _ W W') as (-> & -> & ->). exists b', a'. destruct W as (E & Hk & Hb).
        split; [reflexivity | split; [exact Hk | exact Hb]].
      * rewrite Wk. destruct (first_with_other _ _ DISABLED _ _ _ _ _ _ _ W W' (not_eq_sym Hne)) as (b1 & a1 & G & _).
        exists b1, a1. exact G.
  - rewrite Wk. destruct H as [(_ & -> & _) | (b' & k' & a' & W' & _ & ->)]; [eauto |].
    assert (Hne : id <> id') by (intros ->; apply Hd; reflexivity).
    destruct (first_with_other _ _ 0 _ _ _ _ _ _ _ W W' Hne) as (_ & _ & _ & b2 & a2 & G). exists b2, a2. exact G.
Qed.

Lemma status_after_cons : forall id op ops s, status_after id (op :: ops) s = status_after id ops (status_after id [op] s).
Proof. intros id [] ops s; reflexivity. Qed.

(** A key that is not deleted keeps everything but its status, and its status is the one
    it was last given. *)
Theorem builder_key_persists : forall reg ops ks rs ks' id before k after,
  builder_run reg ops ks = Some (rs, ks') ->
  first_with id ks before k after -> Forall (fun op => ~ deletes id op) ops ->
  exists before' after',
    first_with id ks' before' (with_status (status_after id ops (k_status k)) k) after'.
Proof.
  intros reg. induction ops as [| op ops IH]; intros ks rs ks' id b k a H W Hd; cbn [builder_run] in H.
  - injection H as <- <-. exists b, a. cbn [status_after]. destruct k; exact W.
  - destruct (builder_step reg op ks) as [[r k1] |] eqn:Es; [| discriminate].
    destruct (builder_run reg ops k1) as [[rs' k2] |] eqn:Er; [| discriminate]. injection H as <- ->.
    inversion Hd as [| ? ? Hd1 Hd2]; subst. apply builder_step_effect in Es.
    destruct (step_persist _ _ _ _ _ _ _ _ _ Es W Hd1) as (b1 & a1 & W1).
    destruct (IH _ _ _ _ _ _ _ Er W1 Hd2) as (b2 & a2 & W2). exists b2, a2.
    rewrite status_after_cons. destruct k; exact W2.
Qed.

(** A deleted key is gone. *)
Theorem builder_delete_gone : forall reg id ks r ks',
  builder_step reg (DeleteKey id) ks = Some (r, ks') -> NoDup (map k_key_id (ks_key ks)) ->
  unknown_id id ks' /\ (forall k, In k (ks_key ks') <-> In k (ks_key ks) /\ ~ has_id id k).
Proof.
  intros reg id ks r ks' H Hn. apply builder_step_effect in H. cbn [builder_effect] in H.
  assert (G : forall k, In k (ks_key ks') <-> In k (ks_key ks) /\ ~ has_id id k).
  { destruct H as [(U & -> & _) | (b & k & a & (E & Hk & Hb) & _ & ->)].
    - unfold unknown_id in U. rewrite Forall_forall in U. firstorder.
    - intros k'. cbn [ks_key]. rewrite E, !in_app_iff. cbn [In]. rewrite Forall_forall in Hb.
      rewrite E, map_app in Hn. cbn [map] in Hn. apply NoDup_remove_2 in Hn. split.
      + intros [Hi | Hi]; (split; [tauto |]); [auto |]. intros Hk'. apply Hn. apply in_app_iff. right.
        apply in_map_iff. exists k'. split; [| exact Hi]. unfold has_id in *. lia.
      + intros [[Hi | [-> | Hi]] Hx]; [tauto | contradiction | tauto]. }
  split; [| exact G]. apply Forall_forall. intros k Hk. apply G in Hk. apply Hk.
Qed.

(** ** Handles *)

Theorem builder_handle_spec : forall ks, wf_keyset ks -> proto_size (serialize_keyset ks) ->
  (valid_keyset ks -> builder_keyset_handle ks = Ok (mk_handle ks)) /\
  (~ valid_keyset ks -> raises_tink (builder_keyset_handle ks)).
Proof.
  intros ks Hw Hs. unfold builder_keyset_handle. split.
  - intros Hv. destruct token_accepted as (_ & _ & T). destruct (T (mk_handle ks) Hv Hw Hs) as (x & Hx & Hp).
    unfold proto_serialize in Hx. cbn in Hx. apply ok_inj in Hx. subst x. exact Hp.
  - intros Hv. destruct (binary_parsers_total (serialize_keyset ks)) as (T & _). specialize (T SecretKeyAccessToken).
    destruct (proto_parse (serialize_keyset ks) SecretKeyAccessToken) as [h | e] eqn:E; [| exists e; auto].
    exfalso. apply Hv. unfold proto_parse in E. apply bind_ok in E. destruct E as (ks' & Hr & E).
    cbn in E. apply create_ok in E. destruct E as [E ->].
    assert (ks' = ks); [| subst; exact E]. revert Hr. cbn [binary_keyset_reader kr_read]. destruct (serialize_keyset ks) as [| c x] eqn:Ex; [discriminate |].
    rewrite <- Ex. unfold keyset_from_string. rewrite keyset_round_trip; [| assumption | rewrite Ex; assumption].
    cbn. intros Hr. apply ok_inj in Hr. congruence.
Qed.

Theorem builder_from_handle : forall h, wf_keyset (kh_keyset h) -> proto_size (serialize_keyset (kh_keyset h)) ->
  builder_from_keyset_handle h = Ok (kh_keyset h).
Proof.
  intros h Hw Hs. unfold builder_from_keyset_handle. cbn. unfold builder_from_keyset, keyset_from_string.
  rewrite keyset_round_trip by assumption. reflexivity.
Qed.
Theorem builder_from_bytes : forall ks, wf_keyset ks -> proto_size (serialize_keyset ks) ->
  builder_from_keyset (builder_keyset ks) = Ok ks.
Proof.
  intros ks Hw Hs. unfold builder_from_keyset, builder_keyset, keyset_from_string.
  rewrite keyset_round_trip by assumption. reflexivity.
Qed.

Lemma wf_with_status : forall s k, int32_range s -> wf_key k -> wf_key (with_status s k).
Proof. intros s k Hs (A & B & C & D). split; [exact A | split; [exact Hs | split; [exact C | exact D]]]. Qed.

Theorem builder_wf : forall reg ops ks rs ks', makes_wf_keys reg -> Forall wf_op ops ->
  builder_run reg ops ks = Some (rs, ks') -> wf_keyset ks -> wf_keyset ks'.
Proof.
  intros reg. induction ops as [| op ops IH]; intros ks rs ks' Hreg Hop H Hw; cbn [builder_run] in H.
  - injection H as <- <-. exact Hw.
  - destruct (builder_step reg op ks) as [[r k1] |] eqn:Es; [| discriminate].
    destruct (builder_run reg ops k1) as [[rs' k2] |] eqn:Er; [| discriminate]. injection H as <- ->.
    inversion Hop as [| ? ? Ho Hop']; subst. eapply IH; [exact Hreg | exact Hop' | exact Er |].
    apply builder_step_effect in Es. clear -Es Hw Hreg Ho. destruct Hw as [Hp Hk].
    assert (S : forall id s r ks', int32_range s -> acts_on id ks r ks' (fun before k after =>
        mk_keyset (ks_primary_key_id ks) (before ++ with_status s k :: after)) -> wf_keyset ks').
    { intros id s r' ks' Hs [(_ & -> & _) | (b & k & a & (E & _) & _ & ->)]; [split; assumption |].
      split; [exact Hp |]. intros x Hx. cbn [ks_key] in Hx. apply in_app_iff in Hx. cbn [In] in Hx.
      rewrite E in Hk. destruct Hx as [Hx | [<- | Hx]].
      - apply Hk. apply in_app_iff. tauto.
      - apply wf_with_status; [exact Hs |]. apply Hk. apply in_app_iff. right. left. reflexivity.
      - apply Hk. apply in_app_iff. cbn [In]. tauto. }
    destruct op as [rnd draws t | id | id | id | id]; cbn [builder_effect] in Es.
    + destruct Es as [(d & id & Hd & _ & Hr & _ & ->) | (e & _ & _ & ->)]; (split; [exact Hp |]); cbn [ks_key];
        intros x Hx; apply in_app_iff in Hx; destruct Hx as [Hx | [<- | []]]; try (apply Hk; exact Hx).
      * split; [intros d' Ed; apply some_inj in Ed; subst d'; eapply Hreg; exact Hd |].
        split; [vm_compute; split; congruence |]. split; [| exact Ho]. unfold uint32_range. cbn [k_key_id].
        change (2 ^ 32)%N with 4294967296%N. lia.
      * split; [discriminate |]. repeat split; vm_compute; congruence.
    + destruct Es as [(_ & -> & _) | (b & k & a & (E & _) & _ & ->)]; [split; assumption |].
      split; [| exact Hk]. cbn [ks_primary_key_id]. apply Hk. rewrite E. apply in_app_iff. right. left. reflexivity.
    + eapply S; [| exact Es]. vm_compute; split; congruence.
    + eapply S; [| exact Es]. vm_compute; split; congruence.
    + destruct Es as [(_ & -> & _) | (b & k & a & (E & _) & _ & ->)]; [split; assumption |].
      split; [exact Hp |]. intros x Hx. apply Hk. rewrite E. cbn [ks_key] in Hx. apply in_app_iff in Hx.
      apply in_app_iff. cbn [In]. tauto.
Qed.

(** After an addition that raised, no handle can be made until the empty key is deleted. *)
Theorem builder_failed_add : forall reg rnd draws t ks e ks',
  builder_step reg (AddNewKey rnd draws t) ks = Some (Err e, ks') ->
  wf_keyset ks -> proto_size (serialize_keyset ks') ->
  raises_tink (builder_keyset_handle ks').
Proof.
  intros reg rnd draws t ks e ks' H Hw Hs.
  assert (Hw' : wf_keyset ks').
  { apply builder_step_effect in H. cbn [builder_effect] in H. destruct H as [(d & id & _ & E & _) | (e' & _ & _ & ->)]; [discriminate |].
    destruct Hw as [Hp Hk]. split; [exact Hp |]. cbn [ks_key]. intros x Hx. apply in_app_iff in Hx.
    destruct Hx as [Hx | [<- | []]]; [apply Hk; exact Hx |]. split; [discriminate |]. repeat split; vm_compute; congruence. }
  apply (builder_handle_spec ks' Hw' Hs). intros (_ & Hv & _).
  apply builder_step_effect in H. cbn [builder_effect] in H. destruct H as [(d & id & _ & E & _) | (e' & _ & _ & ->)]; [discriminate |].
  destruct (Hv (mk_key None 0 0 0)) as ((d & Hd) & _); [cbn [ks_key]; apply in_app_iff; right; left; reflexivity | discriminate | discriminate].
Qed.

(** public_keyset *)
Theorem builder_public_spec : forall reg ks x, wf_keyset ks -> proto_size (serialize_keyset ks) ->
  (builder_public_keyset reg ks = Ok x <->
   valid_keyset ks /\
   exists pks, x = serialize_keyset pks /\
     ks_primary_key_id pks = ks_primary_key_id ks /\
     Forall2 (public_counterpart reg) (ks_key ks) (ks_key pks) /\
     (forall k, In k (ks_key ks) -> k_output_prefix_type k <> UNKNOWN_PREFIX /\ k_status k <> UNKNOWN_STATUS) /\
     valid_keyset pks /\ ~ has_secret pks).
Proof.
  intros reg ks x Hw Hs. destruct (builder_handle_spec ks Hw Hs) as [H1 H2]. unfold builder_public_keyset. split.
  - intros H. apply bind_ok in H. destruct H as (h & Hh & H). apply bind_ok in H. destruct H as (ph & Hp & H).
    assert (Hv : valid_keyset ks).
    { unfold builder_keyset_handle, proto_parse in Hh. pose proof Hh as Hh'. apply bind_ok in Hh'.
      destruct Hh' as (ks' & Hr & E). cbn in E. apply create_ok in E. destruct E as [E _].
      assert (ks' = ks); [| subst; exact E]. revert Hr. cbn [binary_keyset_reader kr_read].
      destruct (serialize_keyset ks) as [| c y] eqn:Ex; [discriminate |].
      rewrite <- Ex. unfold keyset_from_string. rewrite keyset_round_trip; [| assumption | rewrite Ex; assumption].
      cbn. intros Hr. apply ok_inj in Hr. congruence. }
    split; [exact Hv |]. rewrite (H1 Hv) in Hh. apply ok_inj in Hh. subst h.
    apply public_keyset_handle_ok in Hp. cbn [kh_keyset] in Hp. destruct Hp as (P1 & P2 & P3 & P4).
    exists (kh_keyset ph). destruct (proto_serialize_without_secret_spec ph) as [S1 S2].
    assert (Hn : ~ has_secret (kh_keyset ph)).
    { intros Hsec. destruct (S1 Hsec) as (e & E & _). rewrite E in H. discriminate. }
    rewrite (S2 Hn) in H. apply ok_inj in H. auto 8.
  - intros (Hv & pks & -> & P1 & P2 & P3 & P4 & P5). rewrite (H1 Hv). cbn [bind].
    rewrite (proj2 (public_keyset_handle_ok reg (mk_handle ks) (mk_handle pks))) by (cbn [kh_keyset]; auto).
    cbn [bind]. apply (proto_serialize_without_secret_spec (mk_handle pks)). exact P5.
Qed.

Theorem builder_templates : forall reg rnd draws t ks id ks' prefix,
  (add_new_key reg rnd draws (raw_template t) ks = Some (Ok id, ks') /\ prefix = RAW) \/
  (add_new_key reg rnd draws (legacy_template t) ks = Some (Ok id, ks') /\ prefix = LEGACY) ->
  exists d, registry_new_key_data reg rnd (mk_key_template (kt_type_url t) (kt_value t) prefix) = Ok d /\
    ks_key ks' = ks_key ks ++ [mk_key (Some d) ENABLED id prefix].
Proof.
  intros reg rnd draws t ks id ks' prefix H.
  assert (G : exists t', t' = mk_key_template (kt_type_url t) (kt_value t) prefix /\
    add_new_key reg rnd draws t' ks = Some (Ok id, ks')).
  { destruct H as [[H ->] | [H ->]]; [exists (raw_template t) | exists (legacy_template t)]; split; try reflexivity; exact H. }
  destruct G as (t' & Et & G). unfold add_new_key in G. rewrite Et in G.
  destruct (registry_new_key_data reg rnd _) as [d | e]; [| discriminate G].
  destruct (builder_generate_unused_key_id _ _) as [i |]; [| discriminate G].
  apply some_inj in G. injection G as -> <-. exists d. split; reflexivity.
Qed.
