(** Proofs about threads that share the registry. *)
From Coq Require Import Strings.Byte Strings.String List NArith ZArith Bool Lia.
From Verif Require Import M_Base M_Proto M_Prims M_PrimitiveSet M_Registry M_KeysetHandle M_Kms M_JwtKeys
  M_StreamTypes M_CcStream M_CcManagers M_Threads S_Registry S_Keyset S_Config S_Threads L_Base L_Registry L_Config.
Import ListNotations.
Open Scope string_scope.
Open Scope list_scope.

(** ** Running alone *)
Lemma alone_pbind : forall A B (p : prog A) (f : A -> prog B) r,
  alone (pbind p f) r = let (r', a) := alone p r in alone (f a) r'.
Proof. intros A B p f. induction p; intros r; cbn [pbind alone]; auto. Qed.
Lemma alone_then : forall A B (p : prog (result A)) (f : A -> prog (result B)) r,
  alone (then_do p f) r =
  match alone p r with (r', Ok a) => alone (f a) r' | (r', Err e) => (r', Err e) end.
Proof. intros. unfold then_do. rewrite alone_pbind. destruct (alone p r) as [r' [a | e]]; reflexivity. Qed.

Lemma alone_key_manager_internal : forall u r,
  alone (key_manager_internal_prog u) r = (r, key_manager_internal r u).
Proof.
  intros u r. unfold key_manager_internal_prog, key_manager_internal. cbn [alone].
  destruct (dict_get str_eqb u (r_key_managers r)) eqn:E; cbn [is_some negb alone]; [rewrite E |]; reflexivity.
Qed.
Lemma alone_key_manager : forall u r, alone (key_manager_prog u) r = (r, registry_key_manager r u).
Proof.
  intros u r. unfold key_manager_prog, registry_key_manager. rewrite alone_then, alone_key_manager_internal.
  destruct (key_manager_internal r u); reflexivity.
Qed.
Lemma alone_apply : forall op r, alone (registry_apply_prog op) r =
  match registry_apply r op with Ok r' => (r', Ok tt) | Err e => (r, Err e) end.
Proof.
  intros [km a | w] r; cbn [registry_apply_prog registry_apply].
  - unfold register_key_manager_prog, register_key_manager.
    destruct (km_does_support km (km_key_type km)); cbn [negb alone]; [| reflexivity].
    destruct (dict_get str_eqb (km_key_type km) (r_key_managers r)) as [[e b] |] eqn:E; cbn [is_some alone]; [| reflexivity].
    rewrite E. destruct (negb (km_pytype e =? km_pytype km)%N || negb (pclass_eqb (km_primitive_class e) (km_primitive_class km)));
      [reflexivity |].
    destruct (negb b && a); reflexivity.
  - unfold register_primitive_wrapper_prog, register_primitive_wrapper. cbn [alone].
    assert (St : alone (store_wrapper_prog w) r =
      match (wrapped <- w_wrap w (new_primitive_set (w_input_primitive_class w)) ;;
             if negb (isinstance wrapped (w_primitive_class w)) then
               Err (TinkError "Wrapper for primitive generates incompatible primitive")
             else Ok (mk_registry (r_key_managers r) (dict_set pclass_eqb (w_primitive_class w) w (r_wrappers r))))
      with Ok r' => (r', Ok tt) | Err e => (r, Err e) end).
    { unfold store_wrapper_prog. destruct (w_wrap w (new_primitive_set (w_input_primitive_class w))) as [x | e]; cbn [bind alone]; [| reflexivity].
      destruct (isinstance x (w_primitive_class w)); reflexivity. }
    destruct (dict_get pclass_eqb (w_primitive_class w) (r_wrappers r)) as [e |] eqn:E; cbn [is_some alone]; [| exact St].
    rewrite E. destruct (negb (w_pytype e =? w_pytype w)%N); [reflexivity | exact St].
Qed.
Lemma alone_primitive : forall d c r, alone (registry_primitive_prog d c) r = (r, registry_primitive r d c).
Proof.
  intros d c r. unfold registry_primitive_prog, registry_primitive. rewrite alone_then, alone_key_manager.
  destruct (registry_key_manager r (kd_type_url d)) as [km | e]; cbn [bind]; [| reflexivity].
  destruct (negb (pclass_eqb (km_primitive_class km) c)); reflexivity.
Qed.
Lemma alone_new_key_data : forall rnd t r,
  alone (registry_new_key_data_prog rnd t) r = (r, registry_new_key_data r rnd t).
Proof.
  intros rnd t r. unfold registry_new_key_data_prog, registry_new_key_data. rewrite alone_then, alone_key_manager_internal.
  destruct (key_manager_internal r (kt_type_url t)) as [[km b] | e]; cbn [bind fst snd]; [| reflexivity].
  destruct b; reflexivity.
Qed.
Lemma alone_public_key_data : forall d r,
  alone (registry_public_key_data_prog d) r = (r, registry_public_key_data r d).
Proof.
  intros d r. unfold registry_public_key_data_prog, registry_public_key_data.
  destruct (kd_key_material_type d =? ASYMMETRIC_PRIVATE)%Z; cbn [negb alone]; [| reflexivity].
  rewrite alone_then, alone_key_manager.
  destruct (registry_key_manager r (kd_type_url d)) as [km | e]; cbn [bind]; [| reflexivity].
  destruct (km_public_key_data km); reflexivity.
Qed.
Lemma alone_wrapper : forall c r, alone (wrapper_prog c) r =
  (r, match dict_get pclass_eqb c (r_wrappers r) with
      | None => Err (TinkError "No PrimitiveWrapper registered for primitive.") | Some w => Ok w end).
Proof.
  intros c r. unfold wrapper_prog. cbn [alone].
  destruct (dict_get pclass_eqb c (r_wrappers r)) eqn:E; cbn [is_some negb alone]; [rewrite E |]; reflexivity.
Qed.
Lemma alone_input_class : forall c r,
  alone (registry_input_primitive_class_prog c) r = (r, registry_input_primitive_class r c).
Proof.
  intros c r. unfold registry_input_primitive_class_prog, registry_input_primitive_class.
  rewrite alone_then, alone_wrapper. destruct (dict_get pclass_eqb c (r_wrappers r)); reflexivity.
Qed.
Lemma alone_wrap : forall ps c r, alone (registry_wrap_prog ps c) r = (r, registry_wrap r ps c).
Proof.
  intros ps c r. unfold registry_wrap_prog, registry_wrap. rewrite alone_then, alone_wrapper.
  destruct (dict_get pclass_eqb c (r_wrappers r)) as [w |]; [| reflexivity].
  destruct (negb (pclass_eqb (ps_primitive_class ps) (w_input_primitive_class w))); reflexivity.
Qed.
Lemma alone_handle_primitive : forall h c r, alone (handle_primitive_prog h c) r = (r, handle_primitive r h c).
Proof.
  intros h c r. unfold handle_primitive_prog, handle_primitive.
  destruct (validate_keyset (kh_keyset h)) as [[] | e]; cbn [bind]; [| reflexivity].
  rewrite alone_then, alone_input_class.
  destruct (registry_input_primitive_class r c) as [ic | e]; cbn [bind]; [| reflexivity].
  rewrite alone_then.
  assert (A : forall l ps, alone (add_key_primitives_prog ic (ks_primary_key_id (kh_keyset h)) ps l) r =
    (r, add_key_primitives r ic (ks_primary_key_id (kh_keyset h)) ps l)).
  { induction l as [| k l IH]; intros ps; [reflexivity |]. cbn [add_key_primitives_prog add_key_primitives].
    rewrite alone_then.
    assert (B : alone (add_key_primitive_prog ic (ks_primary_key_id (kh_keyset h)) ps k) r =
      (r, add_key_primitive r ic (ks_primary_key_id (kh_keyset h)) ps k)).
    { unfold add_key_primitive_prog, add_key_primitive. destruct (k_status k =? ENABLED)%Z; [| reflexivity].
      rewrite alone_then, alone_primitive. destruct (registry_primitive r (k_key_data k) ic) as [p | e]; cbn [bind]; [| reflexivity].
      destruct (add_primitive ps p k) as [[ps' e] | e]; reflexivity. }
    rewrite B. destruct (add_key_primitive r ic (ks_primary_key_id (kh_keyset h)) ps k) as [ps' | e]; cbn [bind]; [apply IH | reflexivity]. }
  rewrite A. destruct (add_key_primitives r ic _ _ _) as [ps | e]; cbn [bind]; [apply alone_wrap | reflexivity].
Qed.
Lemma alone_generate : forall rnd draws t r, alone (generate_new_prog rnd draws t) r = (r, generate_new r rnd draws t).
Proof.
  intros rnd draws t r. unfold generate_new_prog, generate_new. rewrite alone_pbind, alone_new_key_data.
  destruct (registry_new_key_data r rnd t) as [d | e]; [| reflexivity].
  destruct (generate_unused_key_id draws _); reflexivity.
Qed.
Lemma alone_public : forall h r, alone (public_keyset_handle_prog h) r = (r, public_keyset_handle r h).
Proof.
  intros h r. unfold public_keyset_handle_prog, public_keyset_handle. rewrite alone_then.
  assert (A : forall l, alone (public_keys_prog l) r = (r, map_result (public_key_of r) l)).
  { induction l as [| k l IH]; [reflexivity |]. cbn [public_keys_prog map_result]. rewrite alone_then.
    assert (B : alone (public_key_of_prog k) r = (r, public_key_of r k)).
    { unfold public_key_of_prog, public_key_of. rewrite alone_then, alone_public_key_data.
      destruct (registry_public_key_data r (k_key_data k)) as [d | e]; cbn [bind]; [| reflexivity].
      cbv zeta. destruct (validate_key _); reflexivity. }
    rewrite B. destruct (public_key_of r k) as [pk | e]; cbn [bind]; [| reflexivity].
    rewrite alone_then, IH. destruct (map_result (public_key_of r) l); reflexivity. }
  rewrite A. destruct (map_result (public_key_of r) (ks_key (kh_keyset h))); reflexivity.
Qed.

Lemma perform_prog_cons : forall a l, perform_prog (run_all (a :: l)) = then_do (perform_prog a) (fun _ => perform_prog (run_all l)).
Proof. reflexivity. Qed.
Lemma alone_perform : forall a r, alone (perform_prog a) r = perform a r.
Proof.
  induction a as [s | [o | e] | l IH] using action_ind'; intros r; try reflexivity.
  - exact (alone_apply o r).
  - revert r. induction IH as [| a l Ha _ IHl]; intros r; [reflexivity |].
    rewrite perform_prog_cons, alone_then, Ha. change (perform (run_all (a :: l)) r) with
      (match perform a r with (r', Ok _) => perform (run_all l) r' | (r', Err e) => (r', Err e) end).
    destruct (perform a r) as [r' [u | e]]; [apply IHl | reflexivity].
Qed.

Lemma alone_call : forall w env c r, alone (call_prog w env c) r = call_alone w env c r.
Proof.
  intros w env [n s | h c | rnd draws t | h] r; cbn [call_prog call_alone]; rewrite alone_pbind.
  - rewrite alone_perform. destruct (perform (setup_action w env n s) r); reflexivity.
  - rewrite alone_handle_primitive. reflexivity.
  - rewrite alone_generate. reflexivity.
  - rewrite alone_public. reflexivity.
Qed.
(** A thread that runs alone does what the functions of the sequential model do. *)
Theorem alone_thread : forall w env l r, alone (thread_prog w env l) r = calls_alone w env l r.
Proof.
  intros w env. induction l as [| c l IH]; intros r; [reflexivity |].
  cbn [thread_prog calls_alone]. rewrite alone_pbind, alone_call. destruct (call_alone w env c r) as [r' o].
  rewrite alone_pbind, IH. destruct (calls_alone w env l r') as [r'' os]. reflexivity.
Qed.

(** ** What other threads cannot break *)

Definition add {X} (x : X) (K : X -> Prop) : X -> Prop := fun y => y = x \/ K y.

Definition post (A : Type) : Type := A -> (pystr -> Prop) -> (pclass -> Prop) -> Prop.

Section Safe.
  (** What may stand in the dicts. *)
  Variable okm : pystr -> key_manager * bool -> Prop.
  Variable okw : pclass -> wrapper -> Prop.

  (** [p] only stores what may stand there, only reads entries that are there, and ends
      with [Q], whatever other threads do to entries outside [KM] and [KW]. *)
  Fixpoint safe {A} (p : prog A) (KM : pystr -> Prop) (KW : pclass -> Prop)
      (Q : A -> (pystr -> Prop) -> (pclass -> Prop) -> Prop) : Prop :=
    match p with
    | Ret a => Q a KM KW
    | ManagerIn u k => safe (k true) (add u KM) KW Q /\ (~ KM u -> safe (k false) KM KW Q)
    | ManagerGet u k => KM u /\ forall v, okm u v -> safe (k (Some v)) KM KW Q
    | ManagerSet u v k => okm u v /\ safe k (add u KM) KW Q
    | WrapperIn c k => safe (k true) KM (add c KW) Q /\ (~ KW c -> safe (k false) KM KW Q)
    | WrapperGet c k => KW c /\ forall x, okw c x -> safe (k (Some x)) KM KW Q
    | WrapperSet c x k => okw c x /\ safe k KM (add c KW) Q
    end.

  Lemma safe_post : forall A (p : prog A) (KM : pystr -> Prop) (KW : pclass -> Prop) (Q Q' : A -> (pystr -> Prop) -> (pclass -> Prop) -> Prop),
    (forall a (M : pystr -> Prop) (W : pclass -> Prop), (forall u, KM u -> M u) -> (forall c, KW c -> W c) -> Q a M W -> Q' a M W) ->
    safe p KM KW Q -> safe p KM KW Q'.
  Proof.
    intros A p. induction p; intros KM KW Q Q' HQ H0; cbn [safe] in *.
    - apply HQ; auto.
    - destruct H0 as [H1 H2]. split.
      + eapply H; [| exact H1]. intros a M W HM. apply HQ. intros x Hx. apply HM. right. exact Hx.
      + intros Hn. eapply H; [| exact (H2 Hn)]. exact HQ.
    - destruct H0 as [H1 H2]. split; [exact H1 |]. intros v Hv. eapply H; [| exact (H2 v Hv)]. exact HQ.
    - destruct H0 as [H1 H2]. split; [exact H1 |]. eapply IHp; [| exact H2].
      intros a M W HM. apply HQ. intros x Hx. apply HM. right. exact Hx.
    - destruct H0 as [H1 H2]. split.
      + eapply H; [| exact H1]. intros a M W HM HW. apply HQ; [exact HM |]. intros x Hx. apply HW. right. exact Hx.
      + intros Hn. eapply H; [| exact (H2 Hn)]. exact HQ.
    - destruct H0 as [H1 H2]. split; [exact H1 |]. intros v Hv. eapply H; [| exact (H2 v Hv)]. exact HQ.
    - destruct H0 as [H1 H2]. split; [exact H1 |]. eapply IHp; [| exact H2].
      intros a M W HM HW. apply HQ; [exact HM |]. intros x Hx. apply HW. right. exact Hx.
  Qed.
  Lemma safe_bind : forall A B (p : prog A) (f : A -> prog B) KM KW Q,
    safe p KM KW (fun a M W => safe (f a) M W Q) -> safe (pbind p f) KM KW Q.
  Proof.
    intros A B p f. induction p; intros KM KW Q H0; cbn [safe pbind] in *; auto.
    - destruct H0. split; auto.
    - destruct H0. split; auto.
    - destruct H0. split; auto.
    - destruct H0. split; auto.
    - destruct H0. split; auto.
    - destruct H0. split; auto.
  Qed.
  Lemma safe_then : forall A B (p : prog (result A)) (f : A -> prog (result B)) KM KW Q,
    safe p KM KW (fun x M W => match x with Ok a => safe (f a) M W Q | Err e => Q (Err e) M W end) ->
    safe (then_do p f) KM KW Q.
  Proof.
    intros A B p f KM KW Q H. apply safe_bind. eapply safe_post; [| exact H].
    intros [a | e] M W _ _ Hx; exact Hx.
  Qed.

  Definition sound (r : registry) : Prop :=
    (forall u v, manager_of r u = Some v -> okm u v) /\ (forall c x, wrapper_of r c = Some x -> okw c x).
  Definition holds (r : registry) (KM : pystr -> Prop) (KW : pclass -> Prop) : Prop :=
    (forall u, KM u -> manager_of r u <> None) /\ (forall c, KW c -> wrapper_of r c <> None).
  Definition thread_ok {A} (r : registry) (p : prog A) (Q : A -> (pystr -> Prop) -> (pclass -> Prop) -> Prop) : Prop :=
    exists KM KW, holds r KM KW /\ safe p KM KW Q.

  (** No entry disappears. *)
  Definition keeps (r r' : registry) : Prop :=
    (forall u, manager_of r u <> None -> manager_of r' u <> None) /\
    (forall c, wrapper_of r c <> None -> wrapper_of r' c <> None).
  Lemma access_keeps : forall A (p : prog A) r, keeps r (fst (access p r)).
  Proof.
    intros A p r. unfold keeps. destruct p; cbn [access fst]; try (split; auto; fail).
    - split; [| auto]. intros u H. rewrite manager_of_set. destruct (str_eqb u url); [discriminate | exact H].
    - split; [auto |]. intros d H. rewrite wrapper_of_set. destruct (pclass_eqb d c); [discriminate | exact H].
  Qed.
  Lemma access_ok : forall A (p : prog A) Q r, sound r -> thread_ok r p Q ->
    sound (fst (access p r)) /\ thread_ok (fst (access p r)) (snd (access p r)) Q.
  Proof.
    intros A p Q r S (KM & KW & [HM HW] & Hs).
    destruct p as [a | u k | u k | u v k | c k | c k | c x k]; cbn [access fst snd safe] in *.
    - split; [exact S |]. exists KM, KW. split; [split; assumption | exact Hs].
    - split; [exact S |]. destruct (dict_get str_eqb u (r_key_managers r)) as [v |] eqn:E; cbn [is_some].
      + exists (add u KM), KW. split; [split; [| exact HW] | exact (proj1 Hs)].
        intros x [-> | Hx]; [| auto]. unfold manager_of. congruence.
      + exists KM, KW. split; [split; assumption |]. apply (proj2 Hs). intros Hu. exact (HM u Hu E).
    - split; [exact S |]. destruct Hs as [Hu Hs]. destruct (dict_get str_eqb u (r_key_managers r)) as [v |] eqn:E.
      + exists KM, KW. split; [split; assumption |]. apply Hs. exact (proj1 S u v E).
      + exfalso. exact (HM u Hu E).
    - destruct Hs as [Hv Hs]. split.
      + destruct S as [S1 S2]. split; [| exact S2]. intros x y. rewrite manager_of_set.
        destruct (str_eqb x u) eqn:E; [| apply S1]. apply str_eqb_spec in E. subst x. intros E. injection E as <-. exact Hv.
      + exists (add u KM), KW. split; [split; [| exact HW] | exact Hs]. intros x Hx. rewrite manager_of_set.
        destruct (str_eqb x u) eqn:E; [discriminate |]. destruct Hx as [-> | Hx]; [| auto].
        rewrite (proj2 (str_eqb_spec u u) eq_refl) in E. discriminate.
    - split; [exact S |]. destruct (dict_get pclass_eqb c (r_wrappers r)) as [v |] eqn:E; cbn [is_some].
      + exists KM, (add c KW). split; [split; [exact HM |] | exact (proj1 Hs)].
        intros x [-> | Hx]; [| auto]. unfold wrapper_of. congruence.
      + exists KM, KW. split; [split; assumption |]. apply (proj2 Hs). intros Hu. exact (HW c Hu E).
    - split; [exact S |]. destruct Hs as [Hu Hs]. destruct (dict_get pclass_eqb c (r_wrappers r)) as [v |] eqn:E.
      + exists KM, KW. split; [split; assumption |]. apply Hs. exact (proj2 S c v E).
      + exfalso. exact (HW c Hu E).
    - destruct Hs as [Hv Hs]. split.
      + destruct S as [S1 S2]. split; [exact S1 |]. intros d y. rewrite wrapper_of_set.
        destruct (pclass_eqb d c) eqn:E; [| apply S2]. apply pclass_eqb_eq in E. subst d. intros E. injection E as <-. exact Hv.
      + exists KM, (add c KW). split; [split; [exact HM |] | exact Hs]. intros d Hd. rewrite wrapper_of_set.
        destruct (pclass_eqb d c) eqn:E; [discriminate |]. destruct Hd as [-> | Hd]; [| auto].
        rewrite (proj2 (pclass_eqb_eq c c) eq_refl) in E. discriminate.
  Qed.
  Lemma thread_ok_keeps : forall A (p : prog A) Q r r', keeps r r' -> thread_ok r p Q -> thread_ok r' p Q.
  Proof.
    intros A p Q r r' [K1 K2] (KM & KW & [H1 H2] & Hs). exists KM, KW. split; [split; auto | exact Hs].
  Qed.
  Definition pool_ok {A} (Qs : list (A -> (pystr -> Prop) -> (pclass -> Prop) -> Prop)) (s : pool A) : Prop :=
    sound (fst s) /\ Forall2 (thread_ok (fst s)) (snd s) Qs.
  Lemma access_nth_keeps : forall A (l : list (prog A)) i r, keeps r (fst (access_nth i l r)).
  Proof.
    intros A. induction l as [| p l IH]; intros [| i] r; cbn [access_nth].
    - split; auto.
    - split; auto.
    - pose proof (access_keeps _ p r) as K. destruct (access p r). exact K.
    - specialize (IH i r). destruct (access_nth i l r). exact IH.
  Qed.
  Lemma access_nth_ok : forall A (l : list (prog A)) Qs i r, sound r -> Forall2 (thread_ok r) l Qs ->
    sound (fst (access_nth i l r)) /\ Forall2 (thread_ok (fst (access_nth i l r))) (snd (access_nth i l r)) Qs.
  Proof.
    intros A. induction l as [| p l IH]; intros Qs [| i] r S F; inversion F as [| ? Q ? Qs' Hp Hl]; subst; cbn [access_nth fst snd];
      try (split; [exact S | constructor]; fail).
    - pose proof (access_ok _ p Q r S Hp) as [S' T']. pose proof (access_keeps _ p r) as K.
      destruct (access p r) as [r' p'] eqn:E. cbn [fst snd] in *. split; [exact S' |]. constructor; [exact T' |].
      clear - K Hl. induction Hl; constructor; [eapply thread_ok_keeps; eauto | assumption].
    - specialize (IH Qs' i r S Hl). pose proof (access_nth_keeps _ l i r) as K.
      destruct (access_nth i l r) as [r' l'] eqn:E. cbn [fst snd] in *. destruct IH as [S' F']. split; [exact S' |].
      constructor; [eapply thread_ok_keeps; eauto | exact F'].
  Qed.
  Theorem pool_run_ok : forall A (Qs : list (A -> (pystr -> Prop) -> (pclass -> Prop) -> Prop)) schedule s,
    pool_ok Qs s -> pool_ok Qs (pool_run schedule s).
  Proof.
    intros A Qs schedule. induction schedule as [| i sch IH]; intros s H; [exact H |].
    cbn [pool_run fold_left]. apply IH. destruct s as [r l]. destruct H as [S F].
    exact (access_nth_ok _ l Qs i r S F).
  Qed.
  Lemma safe_reads : forall A (p : prog A) Q r, thread_ok r p Q ->
    (forall u, reads_manager p u -> manager_of r u <> None) /\ (forall c, reads_wrapper p c -> wrapper_of r c <> None).
  Proof.
    intros A p Q r (KM & KW & [HM HW] & Hs). split.
    - intros u [k ->]. apply HM. exact (proj1 Hs).
    - intros u [k ->]. apply HW. exact (proj1 Hs).
  Qed.
End Safe.
