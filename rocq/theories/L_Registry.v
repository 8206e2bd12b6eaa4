(** Proofs about registries (C23, C24). *)
From Coq Require Import Strings.Byte Strings.String List NArith ZArith Bool Lia.
From Verif Require Import M_Base M_Proto M_Prims M_PrimitiveSet M_Registry
  S_Keyset S_Registry S_Handle L_Base.
Import ListNotations.
Open Scope list_scope.

Lemma pclass_eqb_eq : forall x y, pclass_eqb x y = true <-> x = y.
Proof.
  intros x y. destruct x, y; simpl; split; intro H; try discriminate; try reflexivity.
  - apply N.eqb_eq in H. subst. reflexivity.
  - injection H as ->. apply N.eqb_refl.
Qed.

Lemma manager_of_set : forall r url v u,
  manager_of (mk_registry (dict_set str_eqb url v (r_key_managers r)) (r_wrappers r)) u =
  if str_eqb u url then Some v else manager_of r u.
Proof.
  intros r url v u. unfold manager_of. cbn [r_key_managers].
  destruct (str_eqb u url) eqn:He.
  - apply str_eqb_spec in He. subst. apply dict_get_set_same. exact str_eqb_spec.
  - apply dict_get_set_other; [exact str_eqb_spec |]. intro Hc. subst.
    rewrite str_eqb_refl in He. discriminate.
Qed.

Lemma wrapper_of_set : forall r c w d,
  wrapper_of (mk_registry (r_key_managers r) (dict_set pclass_eqb c w (r_wrappers r))) d =
  if pclass_eqb d c then Some w else wrapper_of r d.
Proof.
  intros r c w d. unfold wrapper_of. cbn [r_wrappers].
  destruct (pclass_eqb d c) eqn:He.
  - apply pclass_eqb_eq in He. subst. apply dict_get_set_same. exact pclass_eqb_eq.
  - apply dict_get_set_other; [exact pclass_eqb_eq |]. intro Hc. subst.
    assert (pclass_eqb c c = true) by (apply pclass_eqb_eq; reflexivity). congruence.
Qed.

(** ** Registration of key managers *)

Definition kept_manager (old : option (key_manager * bool)) (km : key_manager) : key_manager :=
  match old with Some (km0, _) => km0 | None => km end.

Lemma register_key_manager_cases : forall r km a,
  (manager_acceptable (manager_of r (km_key_type km)) km a /\
   register_key_manager r km a =
     Ok (mk_registry (dict_set str_eqb (km_key_type km)
           (kept_manager (manager_of r (km_key_type km)) km, a) (r_key_managers r))
         (r_wrappers r))) \/
  (~ manager_acceptable (manager_of r (km_key_type km)) km a /\
   raises_tink (register_key_manager r km a)).
Proof.
  intros r km a. unfold register_key_manager, manager_acceptable, kept_manager, raises_tink.
  fold (manager_of r (km_key_type km)).
  destruct (km_does_support km (km_key_type km)) eqn:Hs; cbn [negb].
  2: { right. split; [intros [H _]; discriminate | eexists; split; reflexivity]. }
  destruct (manager_of r (km_key_type km)) as [[km0 b0] |].
  2: { left. split; [split; [reflexivity | discriminate] | reflexivity]. }
  destruct (N.eqb_spec (km_pytype km0) (km_pytype km)) as [Ht | Ht]; cbn [negb orb].
  2: { right. split; [| eexists; split; reflexivity].
       intros [_ H]. destruct (H _ _ eq_refl) as [H1 _]. contradiction. }
  destruct (pclass_eqb (km_primitive_class km0) (km_primitive_class km)) eqn:Hc; cbn [negb].
  2: { right. split; [| eexists; split; reflexivity].
       intros [_ H]. destruct (H _ _ eq_refl) as (_ & H1 & _).
       apply pclass_eqb_eq in H1. congruence. }
  apply pclass_eqb_eq in Hc.
  destruct b0, a; cbn [negb andb].
  - left. split; [split; [reflexivity |] | reflexivity].
    intros k b E. injection E as <- <-. repeat split; auto; discriminate.
  - left. split; [split; [reflexivity |] | reflexivity].
    intros k b E. injection E as <- <-. repeat split; auto.
  - right. split; [| eexists; split; reflexivity].
    intros [_ H]. destruct (H _ _ eq_refl) as (_ & _ & H1). specialize (H1 eq_refl). discriminate.
  - left. split; [split; [reflexivity |] | reflexivity].
    intros k b E. injection E as <- <-. repeat split; auto.
Qed.

Theorem register_key_manager_spec : forall r km allowed,
  (manager_acceptable (manager_of r (km_key_type km)) km allowed ->
   exists r', register_key_manager r km allowed = Ok r' /\
     manager_of r' (km_key_type km) =
       Some (match manager_of r (km_key_type km) with Some (km0, _) => km0 | None => km end,
             allowed) /\
     (forall u, u <> km_key_type km -> manager_of r' u = manager_of r u) /\
     (forall c, wrapper_of r' c = wrapper_of r c)) /\
  (~ manager_acceptable (manager_of r (km_key_type km)) km allowed ->
   raises_tink (register_key_manager r km allowed)).
Proof.
  intros r km a. destruct (register_key_manager_cases r km a) as [[H E] | [H E]].
  - split; [| contradiction]. intros _. eexists. split; [exact E |].
    split; [rewrite manager_of_set, str_eqb_refl; reflexivity |].
    split; [| reflexivity].
    intros u Hu. rewrite manager_of_set.
    apply (eqb_false_of _ _ str_eqb_spec) in Hu. rewrite Hu. reflexivity.
  - split; [contradiction | intros _; exact E].
Qed.

(** ** Registration of wrappers *)

Lemma register_wrapper_cases : forall r w,
  (wrapper_acceptable (wrapper_of r (w_primitive_class w)) w /\
   register_primitive_wrapper r w =
     Ok (mk_registry (r_key_managers r)
           (dict_set pclass_eqb (w_primitive_class w) w (r_wrappers r)))) \/
  (~ wrapper_acceptable (wrapper_of r (w_primitive_class w)) w /\
   exists e, register_primitive_wrapper r w = Err e /\
     (tink_total (w_wrap w (mk_pset [] None (w_input_primitive_class w))) ->
      is_tink_error e = true)).
Proof.
  intros r w. unfold register_primitive_wrapper, wrapper_acceptable, new_primitive_set.
  fold (wrapper_of r (w_primitive_class w)).
  set (old := wrapper_of r (w_primitive_class w)).
  assert (Hd : (match old with
                | Some existing => negb (N.eqb (w_pytype existing) (w_pytype w))
                | None => false end = false /\ (forall w0, old = Some w0 -> w_pytype w0 = w_pytype w)) \/
               (match old with
                | Some existing => negb (N.eqb (w_pytype existing) (w_pytype w))
                | None => false end = true /\ ~ (forall w0, old = Some w0 -> w_pytype w0 = w_pytype w))).
  { destruct old as [w0 |].
    - destruct (N.eqb_spec (w_pytype w0) (w_pytype w)) as [E | E]; [left | right]; split; auto.
      + intros w1 H. injection H as <-. assumption.
    - left. split; [reflexivity | discriminate]. }
  destruct Hd as [[-> Ht] | [-> Ht]].
  2: { right. split; [tauto |]. eexists. split; [reflexivity | reflexivity]. }
  destruct (w_wrap w (mk_pset [] None (w_input_primitive_class w))) as [p | e] eqn:Hw; cbn [bind].
  2: { right. split; [intros (_ & p & H & _); discriminate |]. exists e. split; auto. }
  unfold isinstance.
  destruct (pclass_eqb (class_of p) (w_primitive_class w)) eqn:Hc; cbn [negb].
  - left. split; [| reflexivity]. split; [assumption |]. exists p. split; auto.
    apply pclass_eqb_eq. assumption.
  - right. split; [| eexists; split; [reflexivity | reflexivity]].
    intros (_ & q & H & Hq). injection H as <-. apply pclass_eqb_eq in Hq. congruence.
Qed.

Theorem register_primitive_wrapper_spec : forall r w,
  (wrapper_acceptable (wrapper_of r (w_primitive_class w)) w ->
   exists r', register_primitive_wrapper r w = Ok r' /\
     wrapper_of r' (w_primitive_class w) = Some w /\
     (forall c, c <> w_primitive_class w -> wrapper_of r' c = wrapper_of r c) /\
     (forall u, manager_of r' u = manager_of r u)) /\
  (~ wrapper_acceptable (wrapper_of r (w_primitive_class w)) w ->
   exists e, register_primitive_wrapper r w = Err e /\
     (tink_total (w_wrap w (mk_pset [] None (w_input_primitive_class w))) ->
      is_tink_error e = true)).
Proof.
  intros r w. destruct (register_wrapper_cases r w) as [[H E] | [H E]].
  - split; [| contradiction]. intros _. eexists. split; [exact E |].
    split.
    { rewrite wrapper_of_set.
      assert (pclass_eqb (w_primitive_class w) (w_primitive_class w) = true) as ->
        by (apply pclass_eqb_eq; reflexivity). reflexivity. }
    split; [| reflexivity].
    intros c Hu. rewrite wrapper_of_set.
    apply (eqb_false_of _ _ pclass_eqb_eq) in Hu. rewrite Hu. reflexivity.
  - split; [contradiction | intros _; exact E].
Qed.

(** ** Histories *)

Lemma registry_step_manager : forall r op url km b,
  manager_of r url = Some (km, b) ->
  exists b', manager_of (registry_step r op) url = Some (km, b') /\ (b = false -> b' = false).
Proof.
  intros r op url km b H. unfold registry_step. destruct op as [km1 a | w]; cbn [registry_apply].
  - destruct (register_key_manager_cases r km1 a) as [[Ha ->] | [_ (e & -> & _)]]; [| eauto].
    rewrite manager_of_set. destruct (str_eqb url (km_key_type km1)) eqn:He; [| eauto].
    apply str_eqb_spec in He. subst url. rewrite H. cbn [kept_manager].
    exists a. split; [reflexivity |]. intros ->.
    destruct Ha as [_ Ha]. destruct (Ha _ _ H) as (_ & _ & Hb). auto.
  - destruct (register_wrapper_cases r w) as [[Ha ->] | [_ (e & -> & _)]]; eauto.
Qed.

Theorem registry_manager_permanent : forall ops r url km b,
  manager_of r url = Some (km, b) ->
  exists b', manager_of (registry_run r ops) url = Some (km, b') /\ (b = false -> b' = false).
Proof.
  unfold registry_run. induction ops as [| op ops IH]; intros r url km b H; cbn [fold_left].
  - exists b. auto.
  - destruct (registry_step_manager r op _ _ _ H) as (b1 & H1 & Hb1).
    destruct (IH _ _ _ _ H1) as (b2 & H2 & Hb2). exists b2. auto.
Qed.

(** What histories starting from an empty registry can hold. *)
Theorem registry_run_sound : forall ops,
  (forall url km b, manager_of (registry_run empty_registry ops) url = Some (km, b) ->
     km_key_type km = url /\ km_does_support km url = true /\
     exists a, In (OpRegisterKeyManager km a) ops) /\
  (forall c w, wrapper_of (registry_run empty_registry ops) c = Some w ->
     w_primitive_class w = c /\ In (OpRegisterWrapper w) ops).
Proof.
  intros ops. unfold registry_run. rewrite <- fold_left_rev_right.
  enough (H : forall l,
    let r := fold_right (fun y x => registry_step x y) empty_registry l in
    (forall url km b, manager_of r url = Some (km, b) ->
       km_key_type km = url /\ km_does_support km url = true /\
       exists a, In (OpRegisterKeyManager km a) l) /\
    (forall c w, wrapper_of r c = Some w ->
       w_primitive_class w = c /\ In (OpRegisterWrapper w) l)).
  { destruct (H (rev ops)) as [H1 H2]. split.
    - intros url km b Hm. destruct (H1 _ _ _ Hm) as (Ha & Hb & a & Hi).
      repeat split; auto. exists a. apply in_rev. assumption.
    - intros c w Hw. destruct (H2 _ _ Hw) as (Ha & Hi). split; auto. apply in_rev. assumption. }
  induction l as [| op l [IHm IHw]]; cbn [fold_right].
  - split; discriminate.
  - set (r := fold_right (fun y x => registry_step x y) empty_registry l) in *.
    unfold registry_step. destruct op as [km1 a | w1]; cbn [registry_apply].
    + destruct (register_key_manager_cases r km1 a) as [[Ha ->] | [_ (e & -> & _)]].
      * split.
        -- intros url km b. rewrite manager_of_set.
           destruct (str_eqb url (km_key_type km1)) eqn:He.
           ++ apply str_eqb_spec in He. subst url. intros E. injection E as E <-.
              unfold kept_manager in E. destruct (manager_of r (km_key_type km1)) as [[km0 b0] |] eqn:Hm.
              ** subst km0. destruct (IHm _ _ _ Hm) as (H1 & H2 & a' & H3).
                 repeat split; auto. exists a'. right. assumption.
              ** subst km1. destruct Ha as [Ha _]. repeat split; auto.
                 exists a. left. reflexivity.
           ++ intros E. destruct (IHm _ _ _ E) as (H1 & H2 & a' & H3).
              repeat split; auto. exists a'. right. assumption.
        -- intros c w Hw. destruct (IHw c w Hw). split; auto. right. assumption.
      * split.
        -- intros url km b E. destruct (IHm _ _ _ E) as (H1 & H2 & a' & H3).
           repeat split; auto. exists a'. right. assumption.
        -- intros c w Hw. destruct (IHw c w Hw). split; auto. right. assumption.
    + destruct (register_wrapper_cases r w1) as [[Ha ->] | [_ (e & -> & _)]].
      * split.
        -- intros url km b E. destruct (IHm _ _ _ E) as (H1 & H2 & a' & H3).
           repeat split; auto. exists a'. right. assumption.
        -- intros c w. rewrite wrapper_of_set.
           destruct (pclass_eqb c (w_primitive_class w1)) eqn:He.
           ++ apply pclass_eqb_eq in He. intros E. injection E as <-. subst. split; auto.
              left. reflexivity.
           ++ intros Hw. destruct (IHw c w Hw). split; auto. right. assumption.
      * split.
        -- intros url km b E. destruct (IHm _ _ _ E) as (H1 & H2 & a' & H3).
           repeat split; auto. exists a'. right. assumption.
        -- intros c w Hw. destruct (IHw c w Hw). split; auto. right. assumption.
Qed.

(** ** Lookups *)

Theorem registry_key_manager_spec : forall r url,
  (forall km, registry_key_manager r url = Ok km <-> exists b, manager_of r url = Some (km, b)) /\
  (manager_of r url = None -> raises_tink (registry_key_manager r url)).
Proof.
  intros r url. unfold registry_key_manager, key_manager_internal.
  fold (manager_of r url). destruct (manager_of r url) as [[km0 b0] |]; cbn [bind fst].
  - split; [| discriminate]. intros km. split.
    + intros H. injection H as <-. eauto.
    + intros [b H]. injection H as -> _. reflexivity.
  - split; [| intros _; eexists; split; reflexivity].
    intros km. split; [discriminate | intros [b H]; discriminate].
Qed.

Theorem registry_new_key_data_spec : forall r rnd t,
  (forall km, manager_of r (kt_type_url t) = Some (km, true) ->
     registry_new_key_data r rnd t = km_new_key_data km rnd t) /\
  (forall km, manager_of r (kt_type_url t) = Some (km, false) ->
     raises_tink (registry_new_key_data r rnd t)) /\
  (manager_of r (kt_type_url t) = None -> raises_tink (registry_new_key_data r rnd t)).
Proof.
  intros r rnd t. unfold registry_new_key_data, key_manager_internal.
  fold (manager_of r (kt_type_url t)).
  destruct (manager_of r (kt_type_url t)) as [[km0 b0] |]; cbn [bind].
  - destruct b0; cbn [negb]; (split; [| split]); intros;
      try discriminate; try (injection H as <-; reflexivity).
    eexists. split; reflexivity.
  - split; [discriminate | split; [discriminate |]]. intros _. eexists. split; reflexivity.
Qed.

Theorem registry_primitive_spec : forall r d c,
  (forall km b, manager_of r (kd_type_url d) = Some (km, b) -> km_primitive_class km = c ->
     registry_primitive r d c = km_primitive km d) /\
  (forall km b, manager_of r (kd_type_url d) = Some (km, b) -> km_primitive_class km <> c ->
     raises_tink (registry_primitive r d c)) /\
  (manager_of r (kd_type_url d) = None -> raises_tink (registry_primitive r d c)).
Proof.
  intros r d c. unfold registry_primitive, registry_key_manager, key_manager_internal.
  fold (manager_of r (kd_type_url d)).
  destruct (manager_of r (kd_type_url d)) as [[km0 b0] |]; cbn [bind fst].
  - destruct (pclass_eqb (km_primitive_class km0) c) eqn:He; cbn [negb];
      (split; [| split]); try discriminate.
    + intros km b H _. injection H as <- _. reflexivity.
    + intros km b H Hn. injection H as <- _. apply pclass_eqb_eq in He. contradiction.
    + intros km b H Hn. injection H as <- _. apply pclass_eqb_eq in Hn. congruence.
    + intros km b H Hn. eexists. split; reflexivity.
  - split; [discriminate | split; [discriminate |]]. intros _. eexists. split; reflexivity.
Qed.

Theorem registry_public_key_data_spec : forall r d,
  (kd_key_material_type d <> ASYMMETRIC_PRIVATE -> raises_tink (registry_public_key_data r d)) /\
  (manager_of r (kd_type_url d) = None -> raises_tink (registry_public_key_data r d)) /\
  (forall km b, manager_of r (kd_type_url d) = Some (km, b) -> km_public_key_data km = None ->
     raises_tink (registry_public_key_data r d)) /\
  (forall km b f, kd_key_material_type d = ASYMMETRIC_PRIVATE ->
     manager_of r (kd_type_url d) = Some (km, b) -> km_public_key_data km = Some f ->
     registry_public_key_data r d = f d).
Proof.
  intros r d. unfold registry_public_key_data, registry_key_manager, key_manager_internal.
  fold (manager_of r (kd_type_url d)).
  destruct (Z.eqb_spec (kd_key_material_type d) ASYMMETRIC_PRIVATE) as [E | E]; cbn [negb].
  - split; [contradiction |].
    destruct (manager_of r (kd_type_url d)) as [[km0 b0] |]; cbn [bind fst].
    + split; [discriminate |]. split.
      * intros km b H Hn. injection H as <- _. rewrite Hn. eexists. split; reflexivity.
      * intros km b f _ H Hn. injection H as <- _. rewrite Hn. reflexivity.
    + split; [intros _; eexists; split; reflexivity |]. split; discriminate.
  - repeat split; intros; try contradiction; eexists; split; reflexivity.
Qed.

Theorem registry_wrap_spec : forall r ps c,
  (forall w, wrapper_of r c = Some w -> ps_primitive_class ps = w_input_primitive_class w ->
     registry_wrap r ps c = w_wrap w ps) /\
  (forall w, wrapper_of r c = Some w -> ps_primitive_class ps <> w_input_primitive_class w ->
     raises_tink (registry_wrap r ps c)) /\
  (wrapper_of r c = None -> raises_tink (registry_wrap r ps c)).
Proof.
  intros r ps c. unfold registry_wrap. fold (wrapper_of r c).
  destruct (wrapper_of r c) as [w0 |].
  - destruct (pclass_eqb (ps_primitive_class ps) (w_input_primitive_class w0)) eqn:He; cbn [negb];
      (split; [| split]); try discriminate.
    + intros w H _. injection H as <-. reflexivity.
    + intros w H Hn. injection H as <-. apply pclass_eqb_eq in He. contradiction.
    + intros w H Hn. injection H as <-. apply pclass_eqb_eq in Hn. congruence.
    + intros w H Hn. eexists. split; reflexivity.
  - split; [discriminate | split; [discriminate |]]. intros _. eexists. split; reflexivity.
Qed.

Theorem registry_input_primitive_class_spec : forall r c,
  (forall w, wrapper_of r c = Some w ->
     registry_input_primitive_class r c = Ok (w_input_primitive_class w)) /\
  (wrapper_of r c = None -> raises_tink (registry_input_primitive_class r c)).
Proof.
  intros r c. unfold registry_input_primitive_class. fold (wrapper_of r c).
  destruct (wrapper_of r c) as [w0 |]; split; try discriminate.
  - intros w H. injection H as <-. reflexivity.
  - intros _. eexists. split; reflexivity.
Qed.

(** ** The properties over histories *)

Theorem registry_resolves_forever : forall r ops url km,
  registry_key_manager r url = Ok km ->
  registry_key_manager (registry_run r ops) url = Ok km.
Proof.
  intros r ops url km H. apply registry_key_manager_spec in H. destruct H as [b H].
  destruct (registry_manager_permanent ops _ _ _ _ H) as (b' & H' & _).
  apply registry_key_manager_spec. eauto.
Qed.

Theorem registry_no_new_keys_forever : forall r km1 r1 ops,
  register_key_manager r km1 false = Ok r1 ->
  (forall rnd t, kt_type_url t = km_key_type km1 ->
     raises_tink (registry_new_key_data (registry_run r1 ops) rnd t)) /\
  (forall km, km_key_type km = km_key_type km1 ->
     raises_tink (register_key_manager (registry_run r1 ops) km true)).
Proof.
  intros r km1 r2 ops2 H.
  assert (Hm : exists km, manager_of r2 (km_key_type km1) = Some (km, false)).
  { destruct (register_key_manager_cases r km1 false) as [[_ E] | [_ (e & E & _)]];
      rewrite E in H; [| discriminate]. apply ok_inj in H. subst r2.
    rewrite manager_of_set, str_eqb_refl. eauto. }
  destruct Hm as [km Hm].
  destruct (registry_manager_permanent ops2 _ _ _ _ Hm) as (b' & H' & Hb).
  specialize (Hb eq_refl). subst b'. split.
  - intros rnd t Ht. rewrite <- Ht in H'. apply (registry_new_key_data_spec _ rnd t) in H'. assumption.
  - intros km' Hk. apply register_key_manager_spec. rewrite Hk, H'. intros [_ Ha].
    destruct (Ha _ _ eq_refl) as (_ & _ & Hx). specialize (Hx eq_refl). discriminate.
Qed.
