(** Threads that share the registry: the theorems. *)
From Coq Require Import Strings.Byte Strings.String List NArith ZArith Bool Lia.
From Verif Require Import M_Base M_Proto M_Prims M_PrimitiveSet M_Registry M_KeysetHandle M_Kms M_JwtKeys
  M_StreamTypes M_CcStream M_Stream M_CcManagers M_Threads S_Registry S_Keyset S_Config S_Threads
  L_Base L_Registry L_Config L_Config2 L_Threads L_Threads2.
Import ListNotations.
Open Scope string_scope.
Open Scope list_scope.

(** ** Threads that do anything *)
Section Any.
  Variable okm : pystr -> key_manager * bool -> Prop.
  Variable okw : pclass -> wrapper -> Prop.
  Definition any {A} (p : prog A) : Prop :=
    forall KM KW (Q : post A), (forall x M W, Q x M W) -> safe okm okw p KM KW Q.
  Lemma any_ret : forall A (a : A), any (Ret a).
  Proof. intros A a KM KW Q H. apply H. Qed.
  Lemma any_bind : forall A B (p : prog A) (f : A -> prog B), any p -> (forall a, any (f a)) -> any (pbind p f).
  Proof. intros A B p f Hp Hf KM KW Q H. apply safe_bind, Hp. intros x M W. apply Hf, H. Qed.
  Lemma any_then : forall A B (p : prog (result A)) (f : A -> prog (result B)),
    any p -> (forall a, any (f a)) -> any (then_do p f).
  Proof. intros A B p f Hp Hf. apply any_bind; [exact Hp |]. intros [a | e]; [apply Hf | apply any_ret]. Qed.
  Lemma any_internal : forall u, any (key_manager_internal_prog u).
  Proof. intros u KM KW Q H. apply safe_key_manager_internal; auto. Qed.
  Lemma any_manager : forall u, any (key_manager_prog u).
  Proof. intros u. apply any_then; [apply any_internal | intros; apply any_ret]. Qed.
  Lemma any_wrapper : forall c, any (wrapper_prog c).
  Proof. intros u KM KW Q H. apply safe_wrapper; auto. Qed.
  Lemma any_registry_primitive : forall d c, any (registry_primitive_prog d c).
  Proof.
    intros d c. apply any_then; [apply any_manager |]. intros km.
    destruct (negb (pclass_eqb (km_primitive_class km) c)); apply any_ret.
  Qed.
  Lemma any_handle_primitive : forall h c, any (handle_primitive_prog h c).
  Proof.
    intros h c. unfold handle_primitive_prog. cbv zeta. destruct (validate_keyset (kh_keyset h)); [| apply any_ret].
    apply any_then; [apply any_then; [apply any_wrapper | intros; apply any_ret] |]. intros ic.
    apply any_then.
    - generalize (new_primitive_set ic). induction (ks_key (kh_keyset h)) as [| k l IH]; intros ps; [apply any_ret |].
      cbn [add_key_primitives_prog]. apply any_then; [| intros; apply IH].
      unfold add_key_primitive_prog. destruct (k_status k =? ENABLED)%Z; [| apply any_ret].
      apply any_then; [apply any_registry_primitive |]. intros p. destruct (add_primitive ps p k) as [[ps' e] | e]; apply any_ret.
    - intros ps. apply any_then; [apply any_wrapper |]. intros x.
      destruct (negb (pclass_eqb (ps_primitive_class ps) (w_input_primitive_class x))); apply any_ret.
  Qed.
  Lemma any_generate : forall rnd draws t, any (generate_new_prog rnd draws t).
  Proof.
    intros rnd draws t. apply any_bind.
    - apply any_then; [apply any_internal |]. intros x. destruct (negb (snd x)); apply any_ret.
    - intros [d | e]; [| apply any_ret]. destruct (generate_unused_key_id draws _); apply any_ret.
  Qed.
  Lemma any_public : forall h, any (public_keyset_handle_prog h).
  Proof.
    intros h. apply any_then; [| intros; apply any_ret].
    induction (ks_key (kh_keyset h)) as [| k l IH]; [apply any_ret |]. cbn [public_keys_prog].
    apply any_then; [| intros; apply any_then; [exact IH | intros; apply any_ret]].
    apply any_then; [| intros d; cbv zeta; destruct (validate_key _); apply any_ret].
    unfold registry_public_key_data_prog. destruct (negb _); [apply any_ret |].
    apply any_then; [apply any_manager |]. intros km. destruct (km_public_key_data km); apply any_ret.
  Qed.
End Any.

Section AnyThreads.
  Variable w : cc_world.
  Variable env : py_env.
  Variable threads : list (list call).
  Variable r0 : registry.
  Notation made := (some_thread_makes w env threads).
  (** Where what stands in the registry comes from. *)
  Definition manager_origin (u : pystr) (km : key_manager) : Prop :=
    (exists b, manager_of r0 u = Some (km, b)) \/
    (exists b, made (OpRegisterKeyManager km b) /\ km_key_type km = u /\ km_does_support km u = true).
  Definition flag_origin (u : pystr) (b : bool) : Prop :=
    (exists km, manager_of r0 u = Some (km, b)) \/
    (exists km, made (OpRegisterKeyManager km b) /\ km_key_type km = u).
  Definition wrapper_origin (c : pclass) (x : wrapper) : Prop :=
    wrapper_of r0 c = Some x \/
    (made (OpRegisterWrapper x) /\ w_primitive_class x = c /\ wrapper_acceptable None x).
  Definition origin_m (u : pystr) (v : key_manager * bool) : Prop := manager_origin u (fst v) /\ flag_origin u (snd v).

  Lemma any_op : forall op, made op -> any origin_m wrapper_origin (registry_apply_prog op).
  Proof.
    intros [km a | x] H KM KW Q HQ; cbn [registry_apply_prog].
    - apply safe_register_manager; intros; try apply HQ.
      + split; [| apply HQ]. split; right; [exists a | exists km]; auto.
      + split; [| apply HQ]. split; [exact (proj1 H0) | right; exists km; auto].
    - apply safe_register_wrapper; [| intros; apply HQ]. intros p Ep Hc. split; [| split; intros; apply HQ].
      right. split; [exact H |]. split; [reflexivity |]. split; [discriminate | eauto].
  Qed.
  Lemma makes_cons : forall op a l, makes op (run_all (a :: l)) <-> makes op a \/ makes op (run_all l).
  Proof. reflexivity. Qed.
  Lemma any_action : forall a, (forall op, makes op a -> made op) -> any origin_m wrapper_origin (perform_prog a).
  Proof.
    induction a as [s | [o | e] | l IH] using action_ind'; intros H; try apply any_ret.
    - apply any_op, H. reflexivity.
    - induction IH as [| a l Ha _ IHl]; [apply any_ret |]. rewrite perform_prog_cons. apply any_then.
      + apply Ha. intros op Ho. apply H. rewrite makes_cons. auto.
      + intros _. apply IHl. intros op Ho. apply H. rewrite makes_cons. auto.
  Qed.
  Lemma any_thread : forall l, (forall c op, In c l -> call_makes w env op c -> made op) ->
    any origin_m wrapper_origin (thread_prog w env l).
  Proof.
    induction l as [| c l IH]; intros H; [apply any_ret |]. cbn [thread_prog]. apply any_bind.
    - destruct c as [n s | h c | rnd draws t | h]; cbn [call_prog]; (apply any_bind; [| intros; apply any_ret]).
      + apply any_action. intros op Ho. apply (H _ _ (or_introl eq_refl) Ho).
      + apply any_handle_primitive.
      + apply any_generate.
      + apply any_public.
    - intros o. apply any_bind; [| intros; apply any_ret]. apply IH. intros c' op Hc. apply H. right. exact Hc.
  Qed.
End AnyThreads.

Lemma sound_origin : forall w env threads r, sound (origin_m w env threads r) (wrapper_origin w env threads r) r.
Proof.
  intros w env threads r. split.
  - intros u [km b] H. split; left; cbn [fst snd]; eauto.
  - intros c x H. left. exact H.
Qed.
Lemma pool_run_keeps : forall A schedule (s : pool A), keeps (fst s) (fst (pool_run schedule s)).
Proof.
  intros A schedule. induction schedule as [| i sch IH]; intros s; [split; auto |].
  cbn [pool_run fold_left]. destruct (access_nth_keeps _ (snd s) i (fst s)) as [K1 K2].
  destruct (IH (pool_step s i)) as [L1 L2]. split; intros x H; [apply L1, K1, H | apply L2, K2, H].
Qed.
Theorem any_schedule : forall w env threads r0 s, comes_to w env threads r0 s ->
  (forall p, In p (snd s) ->
     (forall u, reads_manager p u -> manager_of (fst s) u <> None) /\
     (forall c, reads_wrapper p c -> wrapper_of (fst s) c <> None)) /\
  (forall u, manager_of r0 u <> None -> manager_of (fst s) u <> None) /\
  (forall c, wrapper_of r0 c <> None -> wrapper_of (fst s) c <> None) /\
  (forall u km b, manager_of (fst s) u = Some (km, b) ->
     ((exists b0, manager_of r0 u = Some (km, b0)) \/
      (exists b0, some_thread_makes w env threads (OpRegisterKeyManager km b0) /\
         km_key_type km = u /\ km_does_support km u = true)) /\
     ((exists km0, manager_of r0 u = Some (km0, b)) \/
      (exists km0, some_thread_makes w env threads (OpRegisterKeyManager km0 b) /\ km_key_type km0 = u))) /\
  (forall c x, wrapper_of (fst s) c = Some x ->
     wrapper_of r0 c = Some x \/
     (some_thread_makes w env threads (OpRegisterWrapper x) /\ w_primitive_class x = c /\ wrapper_acceptable None x)).
Proof.
  intros w env threads r0 s (schedule & ->).
  set (s0 := (r0, map (thread_prog w env) threads)).
  assert (P0 : pool_ok (origin_m w env threads r0) (wrapper_origin w env threads r0)
    (map (fun _ => fun _ _ _ => True) threads) s0).
  { split; [apply sound_origin |]. cbn [snd s0].
    assert (H : forall l, (forall x, In x l -> In x threads) ->
      Forall2 (thread_ok (origin_m w env threads r0) (wrapper_origin w env threads r0) r0)
        (map (thread_prog w env) l) (map (fun _ => fun _ _ _ => True) l)).
    { induction l as [| x l IH]; intros Hin; constructor.
      - exists (fun _ => False), (fun _ => False). split; [split; contradiction |].
        apply any_thread; [| auto]. intros c op Hc Ho. exists x, c. split; [apply Hin; left; reflexivity | auto].
      - apply IH. intros y Hy. apply Hin. right. exact Hy. }
    apply H. auto. }
  apply (pool_run_ok _ _ _ _ schedule) in P0. destruct P0 as [[S1 S2] F].
  destruct (pool_run_keeps _ schedule s0) as [K1 K2].
  split; [| split; [exact K1 | split; [exact K2 | split]]].
  - intros p Hp. apply In_nth_error in Hp. destruct Hp as (i & Hi).
    assert (T : exists Q, thread_ok (origin_m w env threads r0) (wrapper_origin w env threads r0) (fst (pool_run schedule s0)) p Q).
    { clear - F Hi. revert i Hi. induction F as [| a q l m Ha _ IH]; intros [| i] Hi; try discriminate.
      - injection Hi as <-. eauto.
      - eapply IH, Hi. }
    destruct T as (Q & T). exact (safe_reads _ _ _ _ _ _ T).
  - intros u km b H. exact (S1 u (km, b) H).
  - intros c x H. exact (S2 c x H).
Qed.
