(** Threads that set up packages of Tink and use them. *)
From Coq Require Import Strings.Byte Strings.String List NArith ZArith Bool Lia.
From Verif Require Import M_Base M_Proto M_Prims M_PrimitiveSet M_Registry M_KeysetHandle M_Kms M_JwtKeys
  M_StreamTypes M_CcStream M_Stream M_CcManagers M_Threads S_Registry S_Keyset S_Config S_Threads
  L_Base L_Registry L_Config L_Config2 L_Threads L_Threads2 L_Threads3.
Import ListNotations.
Open Scope string_scope.
Open Scope list_scope.

Lemma safe_all : forall okm okw A (p : prog A) KM KW (Z : Type) (Q : Z -> post A) (Q0 : post A),
  safe okm okw p KM KW Q0 -> (forall z, safe okm okw p KM KW (Q z)) ->
  safe okm okw p KM KW (fun a M W => Q0 a M W /\ forall z, Q z a M W).
Proof.
  intros okm okw A p. induction p; intros KM KW Z Q Q0 H0 Hz; cbn [safe] in *.
  - split; [exact H0 | exact Hz].
  - destruct H0 as [A1 A2]. split.
    + apply H; [exact A1 |]. intros z. exact (proj1 (Hz z)).
    + intros Hn. apply H; [exact (A2 Hn) |]. intros z. exact (proj2 (Hz z) Hn).
  - destruct H0 as [A1 A2]. split; [exact A1 |]. intros v Hv. apply H; [exact (A2 v Hv) |].
    intros z. exact (proj2 (Hz z) v Hv).
  - destruct H0 as [A1 A2]. split; [exact A1 |]. apply IHp; [exact A2 |]. intros z. exact (proj2 (Hz z)).
  - destruct H0 as [A1 A2]. split.
    + apply H; [exact A1 |]. intros z. exact (proj1 (Hz z)).
    + intros Hn. apply H; [exact (A2 Hn) |]. intros z. exact (proj2 (Hz z) Hn).
  - destruct H0 as [A1 A2]. split; [exact A1 |]. intros v Hv. apply H; [exact (A2 v Hv) |].
    intros z. exact (proj2 (Hz z) v Hv).
  - destruct H0 as [A1 A2]. split; [exact A1 |]. apply IHp; [exact A2 |]. intros z. exact (proj2 (Hz z)).
Qed.
(** What was there stays there. *)
Lemma safe_mono : forall okm okw A (p : prog A) KM KW (Q : post A), safe okm okw p KM KW Q ->
  safe okm okw p KM KW (fun a M W => Q a M W /\ (forall u, KM u -> M u) /\ (forall c, KW c -> W c)).
Proof. intros okm okw A p KM KW Q H. eapply safe_post; [| exact H]. intros a M W H1 H2 H3. auto. Qed.

Section Packages.
  Variable w : cc_world.
  Variable env : py_env.
  (** The packages that are set up by anybody. *)
  Variable active : package -> Prop.

  Definition pkm (u : pystr) (v : key_manager * bool) : Prop :=
    signature u <> None -> snd v = true /\ built w env u (fst v) /\ exists p, active p /\ In u (type_urls p).
  Definition pkw (c : pclass) (x : wrapper) : Prop :=
    forall y, table_wrapper c = Some y -> x = y /\ exists p, active p /\ In c (map fst (primitives p)).
  Notation ok := (safe pkm pkw).

  (** ** Setting up *)
  Definition wanted (op : registry_op) : Prop :=
    good w env op /\
    (forall u, touches_m op u -> exists p, active p /\ In u (type_urls p)) /\
    (forall c, touches_w op c -> exists p, active p /\ In c (map fst (primitives p))).
  Lemma safe_op : forall op KM KW, wanted op ->
    ok (registry_apply_prog op) KM KW (fun x M W => x = Ok tt /\
      (forall u, touches_m op u -> M u) /\ (forall c, touches_w op c -> W c)).
  Proof.
    intros [km a | x] KM KW (Hg & Hm & Hw); cbn [registry_apply_prog good touches_m touches_w] in *.
    - destruct Hg as [-> Hb]. destruct (built_signature _ _ _ _ Hb) as (_ & Hs & Hsig).
      assert (Hsig' : signature (km_key_type km) <> None) by congruence.
      apply safe_register_manager.
      + congruence.
      + intros _ _. split; [| split; [reflexivity | split; [intros u <-; left; reflexivity | contradiction]]].
        intros _. cbn [fst snd]. split; [reflexivity |]. split; [exact Hb |]. apply Hm. reflexivity.
      + intros e b Hv _ _. split; [| split; [reflexivity | split; [intros u <-; left; reflexivity | contradiction]]].
        intros Hsg. destruct (Hv Hsg) as (_ & H). split; [reflexivity | exact H].
      + intros e b m Hv Hn. exfalso. apply Hn. destruct (Hv Hsig') as (Hb1 & Hb2 & _). cbn [fst snd] in *.
        destruct (built_signature _ _ _ _ Hb2) as (_ & _ & Hsig2). rewrite Hsig in Hsig2. injection Hsig2 as E1 E2.
        rewrite E1, E2, N.eqb_refl, (proj2 (pclass_eqb_eq _ _) eq_refl). split; [reflexivity |]. congruence.
    - destruct (table_wrapper_ok _ _ Hg) as (_ & p & Hp & Hc).
      assert (Hx : pkw (w_primitive_class x) x).
      { intros y Hy. rewrite Hg in Hy. injection Hy as <-. split; [reflexivity |]. apply Hw. reflexivity. }
      apply safe_register_wrapper.
      + intros _ _ _. split; [exact Hx |]. split.
        * intros _. split; [reflexivity |]. split; [contradiction | intros c <-; left; reflexivity].
        * intros e _ _. split; [reflexivity |]. split; [contradiction | intros c <-; left; reflexivity].
      + intros e W _ [Hn | (y & Hy & Hn)]; exfalso.
        * apply Hn. split; [discriminate |]. eauto.
        * apply Hn. rewrite (proj1 (Hy _ Hg)). reflexivity.
  Qed.
  Lemma safe_action : forall a ops, ops_of a = Some ops -> Forall wanted ops -> forall KM KW,
    ok (perform_prog a) KM KW (fun x M W => x = Ok tt /\
      (forall u, any_m ops u -> M u) /\ (forall c, any_w ops c -> W c)).
  Proof.
    induction a as [s | [o | e] | l IH] using action_ind'; intros ops H Hw KM KW.
    - destruct s as [[] | s]; [| discriminate H]. injection H as <-. split; [reflexivity |].
      split; intros ? (? & [] & _).
    - injection H as <-. apply Forall_cons_iff in Hw. destruct Hw as [Hw _].
      eapply safe_post; [| apply (safe_op o KM KW Hw)]. intros x M W _ _ (E & H1 & H2). split; [exact E |].
      split; intros u (op & [<- | []] & Ht); auto.
    - discriminate H.
    - revert ops H Hw KM KW. induction IH as [| a l Ha _ IHl]; intros ops H Hw KM KW.
      + injection H as <-. split; [reflexivity |]. split; intros ? (? & [] & _).
      + rewrite ops_of_cons in H. destruct (ops_of a) as [x |] eqn:Ea; [| discriminate H].
        destruct (ops_of (run_all l)) as [y |] eqn:El; [| discriminate H]. injection H as <-.
        apply Forall_app in Hw. destruct Hw as [Hx Hy]. rewrite perform_prog_cons. apply safe_then.
        eapply safe_post; [| apply (Ha x eq_refl Hx)]. intros v M W _ _ (-> & H1 & H2).
        eapply safe_post; [| apply (IHl y eq_refl Hy)]. intros v M' W' HM HW (-> & H3 & H4).
        split; [reflexivity |]. split; intros u (op & Ho & Ht); apply in_app_iff in Ho; destruct Ho as [Ho | Ho].
        * apply HM, H1. exists op. auto.
        * apply H3. exists op. auto.
        * apply HW, H2. exists op. auto.
        * apply H4. exists op. auto.
  Qed.
  Lemma setup_performs : forall n c, (forall p, sets_up c p -> cc_ready w p) -> (exists p, sets_up c p) ->
    exists us cs, performs w env (setup_action w env n c) us cs /\
      (forall u, In u us <-> call_urls c u) /\ (forall x, In x cs <-> call_classes c x).
  Proof.
    intros n c R [p0 Hp0].
    assert (Single : forall p, (forall q, sets_up c q <-> q = p) -> setup_action w env n c = package_action w env n p ->
      exists us cs, performs w env (setup_action w env n c) us cs /\
        (forall u, In u us <-> call_urls c u) /\ (forall x, In x cs <-> call_classes c x)).
    { intros p Hq E. rewrite E. exists (type_urls p), (map fst (primitives p)).
      split; [apply package_performs, R, Hq; reflexivity |].
      split; intros u; unfold call_urls, call_classes; split.
      - intros H. exists p. rewrite Hq. auto.
      - intros (q & Hs & H). apply Hq in Hs. subst q. exact H.
      - intros H. exists p. rewrite Hq. auto.
      - intros (q & Hs & H). apply Hq in Hs. subst q. exact H. }
    destruct c; try (eapply Single; [cbn; reflexivity | reflexivity]).
    - do 2 eexists. split; [exact (tink_config_performs w env n R) |].
      assert (Hs : forall p, sets_up CallTinkConfig p <-> In p [Aead; Daead; Hybrid; Mac; Prf; Signature; StreamingAead])
        by (intros p; destruct p; cbn; intuition congruence).
      split; intros u; unfold call_urls, call_classes; rewrite in_concat; split.
      + intros (l & Hl & Hu). apply in_map_iff in Hl. destruct Hl as (p & <- & Hp). exists p. rewrite Hs. auto.
      + intros (p & Hp & Hu). exists (type_urls p). split; [apply in_map, Hs, Hp | exact Hu].
      + intros (l & Hl & Hu). apply in_map_iff in Hl. destruct Hl as (p & <- & Hp). exists p. rewrite Hs. auto.
      + intros (p & Hp & Hu). exists (map fst (primitives p)).
        split; [apply (in_map (fun p => map fst (primitives p))), Hs, Hp | exact Hu].
    - contradiction.
  Qed.
  Lemma safe_setup : forall n c KM KW, (forall p, sets_up c p -> cc_ready w p /\ active p) -> (exists p, sets_up c p) ->
    ok (perform_prog (setup_action w env n c)) KM KW (fun x M W => x = Ok tt /\
      (forall u, call_urls c u -> M u) /\ (forall x, call_classes c x -> W x)).
  Proof.
    intros n c KM KW R E.
    destruct (setup_performs n c (fun p H => proj1 (R p H)) E) as (us & cs & (ops & D & G & Hm & Hw) & Hu & Hc).
    eapply safe_post; [| apply (safe_action _ ops D)].
    - intros x M W _ _ (-> & H1 & H2). split; [reflexivity |].
      split; intros u H; [apply H1, Hm, Hu, H | apply H2, Hw, Hc, H].
    - rewrite Forall_forall in *. intros op Hop. split; [apply G, Hop |]. split; intros u Ht.
      + destruct (proj1 (Hu u)) as (p & Hp & H); [apply Hm; exists op; auto |]. exists p. split; [apply R, Hp | exact H].
      + destruct (proj1 (Hc u)) as (p & Hp & H); [apply Hw; exists op; auto |]. exists p. split; [apply R, Hp | exact H].
  Qed.
  Lemma safe_user : forall n op KM KW, unrelated (CallRegistry op) ->
    ok (perform_prog (setup_action w env n (CallRegistry op))) KM KW (fun _ _ _ => True).
  Proof.
    intros n op KM KW Hu. cbn [setup_action perform_prog]. destruct op as [km a | x]; cbn [registry_apply_prog unrelated] in *.
    - assert (Hs : forall v, pkm (km_key_type km) v).
      { intros v H. apply signature_out in H. destruct H as (p & H). destruct (Hu p H). }
      apply safe_register_manager; auto.
    - assert (Hs : forall v, pkw (w_primitive_class x) v).
      { intros v y Hy. apply table_wrapper_out in Hy. destruct Hy as (p & H). destruct (Hu p H). }
      apply safe_register_wrapper; auto.
  Qed.

  (** ** Using *)
  (** [KM] and [KW] contain the packages [ps]. *)
  Definition covers (ps : package -> Prop) (KM : pystr -> Prop) (KW : pclass -> Prop) : Prop :=
    forall p, ps p -> (forall u, In u (type_urls p) -> KM u) /\ (forall c, In c (map fst (primitives p)) -> KW c).
  Lemma covers_mono : forall (ps : package -> Prop) (KM : pystr -> Prop) (KW : pclass -> Prop) (M : pystr -> Prop) (W : pclass -> Prop),
    (forall u, KM u -> M u) -> (forall c, KW c -> W c) -> covers ps KM KW -> covers ps M W.
  Proof. intros ps KM KW M W H1 H2 C p Hp. destruct (C p Hp). split; auto. Qed.

  Section Served.
    Variable ps : package -> Prop.
    (** A registry in which the packages are set up. *)
    Variable r : registry.
    Hypothesis Hr : forall p, ps p -> configured w env p r.

    Lemma known_internal : forall u KM KW (Q : post _), covers ps KM KW -> (exists p, ps p /\ In u (type_urls p)) ->
      (forall km km' (M : pystr -> Prop), covers ps M KW -> key_manager_internal r u = Ok (km', true) -> forget km = forget km' ->
         Q (Ok (km, true)) M KW) ->
      ok (key_manager_internal_prog u) KM KW Q.
    Proof.
      intros u KM KW Q C (p & Hp & Hu) HQ. apply safe_key_manager_internal.
      - intros [km b] Hv. destruct (Hv (signature_in _ _ Hu)) as (Hb & Hbu & _). cbn [fst snd] in *. subst b.
        destruct (configured_manager _ _ _ _ _ (Hr p Hp) Hu) as (km' & E & Hb'). apply (HQ km km').
        + eapply covers_mono; [| | exact C]; [intros x Hx; right; exact Hx | auto].
        + unfold key_manager_internal. unfold manager_of in E. rewrite E. reflexivity.
        + exact (built_same _ _ _ _ _ Hbu Hb').
      - intros Hn. exfalso. apply Hn. apply (C p Hp), Hu.
    Qed.
    Lemma known_wrapper : forall c KM KW (Q : post _), covers ps KM KW -> (exists p, ps p /\ In c (map fst (primitives p))) ->
      (forall x (W : pclass -> Prop), covers ps KM W -> dict_get pclass_eqb c (r_wrappers r) = Some x -> Q (Ok x) KM W) ->
      ok (wrapper_prog c) KM KW Q.
    Proof.
      intros c KM KW Q C (p & Hp & Hc) HQ. destruct (table_wrapper_in _ _ Hc) as (y & Hy). apply safe_wrapper.
      - intros x Hx. destruct (Hx y Hy) as [-> _]. apply HQ.
        + eapply covers_mono; [| | exact C]; [auto | intros z Hz; right; exact Hz].
        + exact (configured_wrapper _ _ _ _ _ _ (Hr p Hp) Hc Hy).
      - intros Hn. exfalso. apply Hn. apply (C p Hp), Hc.
    Qed.
    Lemma known_primitive : forall d c KM KW, covers ps KM KW -> (exists p, ps p /\ In (kd_type_url d) (type_urls p)) ->
      ok (registry_primitive_prog d c) KM KW (fun x M W => x = registry_primitive r d c).
    Proof.
      intros d c KM KW C Hp. apply safe_then, safe_then, known_internal; [exact C | exact Hp |].
      intros km km' M C' E F. cbn [safe fst].
      destruct (forget_fields _ _ F) as (F1 & F2 & _). unfold registry_primitive, registry_key_manager. rewrite E. cbn [bind fst].
      rewrite F1, F2. destruct (negb (pclass_eqb (km_primitive_class km') c)); reflexivity.
    Qed.
    Lemma known_handle_primitive : forall h c KM KW, covers ps KM KW -> served_by ps (Primitive h c) ->
      ok (handle_primitive_prog h c) KM KW (fun x M W => x = handle_primitive r h c).
    Proof.
      intros h c KM KW C [Hk Hc]. unfold handle_primitive_prog, handle_primitive. cbv zeta.
      destruct (validate_keyset (kh_keyset h)) as [[] | e]; cbn [bind safe]; [| reflexivity].
      apply safe_then, safe_then, known_wrapper; [exact C | exact Hc |]. intros x W C1 Ex. cbn [safe].
      unfold registry_input_primitive_class. rewrite Ex. cbn [bind].
      apply safe_then.
      assert (Loop : forall l ps0 KM KW, covers ps KM KW -> (forall k, In k l -> k_status k = ENABLED ->
          exists p, ps p /\ In (kd_type_url (k_key_data k)) (type_urls p)) ->
        ok (add_key_primitives_prog (w_input_primitive_class x) (ks_primary_key_id (kh_keyset h)) ps0 l) KM KW
          (fun y M W => y = add_key_primitives r (w_input_primitive_class x) (ks_primary_key_id (kh_keyset h)) ps0 l)).
      { clear KM KW C W C1. induction l as [| k l IH]; intros ps0 KM KW C Hl; [reflexivity |].
        cbn [add_key_primitives_prog add_key_primitives]. apply safe_then.
        eapply safe_post; [| apply safe_mono].
        2: { instantiate (1 := fun y _ _ => y = add_key_primitive r (w_input_primitive_class x) (ks_primary_key_id (kh_keyset h)) ps0 k).
             unfold add_key_primitive_prog, add_key_primitive. destruct (k_status k =? ENABLED)%Z eqn:Es; [| reflexivity].
             apply safe_then. eapply safe_post; [| apply known_primitive; [exact C |]].
             - intros y M W _ _ ->. destruct (registry_primitive r (k_key_data k) (w_input_primitive_class x)) as [p | e]; cbn [bind]; [| reflexivity].
               destruct (add_primitive ps0 p k) as [[ps' e] | e]; reflexivity.
             - apply Hl; [left; reflexivity |]. apply Z.eqb_eq, Es. }
        intros y M W _ _ (-> & HM & HW).
        destruct (add_key_primitive r _ _ ps0 k) as [ps' | e]; cbn [bind]; [| reflexivity].
        apply IH; [eapply covers_mono; [exact HM | exact HW | exact C] |]. intros k' Hk'. apply Hl. right. exact Hk'. }
      eapply safe_post; [| apply safe_mono, Loop; [exact C1 |]].
      2: { intros k Hin Hen. apply Hk. unfold enabled_keys. apply filter_In. split; [exact Hin |]. apply Z.eqb_eq, Hen. }
      intros y M W' _ _ (-> & HM & HW). destruct (add_key_primitives r _ _ _ _) as [ps1 | e]; cbn [bind]; [| reflexivity].
      unfold registry_wrap_prog, registry_wrap. rewrite Ex.
      apply safe_then, known_wrapper; [eapply covers_mono; [exact HM | exact HW | exact C1] | exact Hc |].
      intros x' W2 _ Ex'. rewrite Ex in Ex'. injection Ex' as <-.
      destruct (negb (pclass_eqb (ps_primitive_class ps1) (w_input_primitive_class x))); reflexivity.
    Qed.
    Lemma known_generate : forall rnd draws t KM KW, covers ps KM KW -> served_by ps (Generate rnd draws t) ->
      ok (generate_new_prog rnd draws t) KM KW (fun x M W => x = generate_new r rnd draws t).
    Proof.
      intros rnd draws t KM KW C Hp. apply safe_bind, safe_then, known_internal; [exact C | exact Hp |].
      intros km km' M C' E F. cbn [safe fst snd negb].
      destruct (forget_fields _ _ F) as (_ & _ & F3 & _). unfold generate_new, registry_new_key_data. rewrite E. cbn [bind negb].
      rewrite F3. destruct (km_new_key_data km' rnd t); cbn [safe]; [| reflexivity].
      destruct (generate_unused_key_id draws _); reflexivity.
    Qed.
    Lemma known_public : forall h KM KW, covers ps KM KW -> served_by ps (PublicHandle h) ->
      ok (public_keyset_handle_prog h) KM KW (fun x M W => x = public_keyset_handle r h).
    Proof.
      intros h KM KW C Hk. unfold public_keyset_handle_prog, public_keyset_handle.
      apply safe_then. cbn [served_by] in Hk.
      assert (Loop : forall l KM KW, covers ps KM KW -> keys_served ps l ->
        ok (public_keys_prog l) KM KW (fun y M W => y = map_result (public_key_of r) l)).
      { clear KM KW C. induction l as [| k l IH]; intros KM KW C Hl; [reflexivity |].
        cbn [public_keys_prog map_result]. apply safe_then.
        eapply safe_post; [| apply safe_mono].
        2: { instantiate (1 := fun y _ _ => y = public_key_of r k).
             unfold public_key_of_prog, public_key_of, registry_public_key_data_prog, registry_public_key_data. apply safe_then.
             destruct (kd_key_material_type (k_key_data k) =? ASYMMETRIC_PRIVATE)%Z; cbn [negb safe bind]; [| reflexivity].
             apply safe_then, safe_then, known_internal; [exact C | apply Hl; left; reflexivity |].
             intros km km' M C' E F. cbn [safe fst].
             destruct (forget_fields _ _ F) as (_ & _ & _ & F4). unfold registry_key_manager. rewrite E. cbn [bind fst].
             rewrite F4. destruct (km_public_key_data km') as [f |]; cbn [safe bind]; [| reflexivity].
             destruct (f (k_key_data k)) as [d | e]; cbn [safe bind]; [| reflexivity].
             cbv zeta. destruct (validate_key _); reflexivity. }
        intros y M W _ _ (-> & HM & HW). destruct (public_key_of r k) as [pk | e]; cbn [bind]; [| reflexivity].
        apply safe_then. eapply safe_post; [| apply IH; [eapply covers_mono; [exact HM | exact HW | exact C] |]].
        - intros y M' W' _ _ ->. destruct (map_result (public_key_of r) l); reflexivity.
        - intros k' Hk'. apply Hl. right. exact Hk'. }
      eapply safe_post; [| apply Loop; [exact C | exact Hk]]. intros y M W _ _ ->.
      destruct (map_result (public_key_of r) (ks_key (kh_keyset h))); reflexivity.
    Qed.
  End Served.

  (** ** Calls and threads *)
  Definition call_proper (c : call) : Prop :=
    match c with
    | Setup n s => unrelated s /\ forall p, sets_up s p -> cc_ready w p /\ active p
    | _ => True
    end.
  Lemma safe_use : forall c ps KM KW, (forall n s, c <> Setup n s) -> covers ps KM KW ->
    ok (call_prog w env c) KM KW (fun o M W => served_by ps c -> expected w env ps c o).
  Proof.
    intros c ps KM KW Hc C.
    assert (Hany : ok (call_prog w env c) KM KW (fun _ _ _ => True)).
    { destruct c as [n s | h c | rnd draws t | h]; [destruct (Hc n s eq_refl) | | |]; cbn [call_prog];
        apply any_bind; auto; try (intros; apply any_ret).
      - apply any_handle_primitive.
      - apply any_generate.
      - apply any_public. }
    pose (Z := {x : list setup_call * registry * list (result unit) |
      served_by ps c /\ reached w env (fst (fst x)) (snd (fst x)) (snd x) /\
      forall p, ps p -> exists s, In s (fst (fst x)) /\ sets_up s p}).
    eapply safe_post; [| apply (safe_all _ _ _ _ _ _ Z (fun z o M W => o = snd (call_alone w env c (snd (fst (proj1_sig z))))) _ Hany)].
    - intros o M W _ _ [_ H] Hs.
      assert (He : forall l r xs, reached w env l r xs -> (forall p, ps p -> exists s, In s l /\ sets_up s p) ->
         o = snd (call_alone w env c r)).
      { intros l r xs Hre Hps. exact (H (exist _ (l, r, xs) (conj Hs (conj Hre Hps)))). }
      destruct c as [n s | h c | rnd draws t | h]; [destruct (Hc n s eq_refl) | | |]; exact He.
    - intros [[[l r] xs] (Hs & Hre & Hps)]. cbn [proj1_sig fst snd] in *.
      assert (Hr : forall p, ps p -> configured w env p r).
      { intros p Hp. destruct (Hps p Hp) as (s & Hin & Hsu). exists l, xs, s. auto. }
      destruct c as [n s | h c | rnd draws t | h]; [destruct (Hc n s eq_refl) | | |]; cbn [call_prog call_alone snd]; apply safe_bind.
      + eapply safe_post; [| apply (known_handle_primitive ps r Hr); [exact C | exact Hs]]. intros y M W _ _ ->. reflexivity.
      + eapply safe_post; [| apply (known_generate ps r Hr); [exact C | exact Hs]]. intros y M W _ _ ->. reflexivity.
      + eapply safe_post; [| apply (known_public ps r Hr); [exact C | exact Hs]]. intros y M W _ _ ->. reflexivity.
  Qed.
  Lemma safe_call : forall c ps KM KW, call_proper c -> covers ps KM KW ->
    ok (call_prog w env c) KM KW (fun o M W => (served_by ps c -> expected w env ps c o) /\
      covers (fun p => ps p \/ calls_set_up [c] p) M W).
  Proof.
    intros c ps KM KW Hp C.
    assert (D : (exists n s, c = Setup n s) \/ forall n s, c <> Setup n s)
      by (destruct c; [left; eauto | right; discriminate | right; discriminate | right; discriminate]).
    destruct D as [(n & s & ->) | Hc].
    - cbn [call_proper] in Hp. destruct Hp as [Hu R].
      assert (Dec : (exists p, sets_up s p) \/ exists op, s = CallRegistry op).
      { destruct s; try (left; eexists; cbn; reflexivity); [| right; eauto]. left. exists Aead. cbn. intuition congruence. }
      cbn [call_prog]. apply safe_bind. destruct Dec as [Hs | (op & ->)].
      + eapply safe_post; [| apply safe_mono, (safe_setup n s KM KW R Hs)].
        intros x M W _ _ ((-> & H1 & H2) & HM & HW). split; [reflexivity |].
        intros p [H | (n' & s' & [E | []] & Hsu)].
        * destruct (C p H). split; auto.
        * injection E as <- <-. split; intros u Hu'; [apply H1; exists p; auto | apply H2; exists p; auto].
      + eapply safe_post; [| apply safe_mono, (safe_user n op KM KW Hu)].
        intros x M W _ _ (_ & HM & HW). split; [intros (p & []) |].
        intros p [H | (n' & s' & [E | []] & Hsu)].
        * destruct (C p H). split; auto.
        * injection E as <- <-. destruct Hsu.
    - eapply safe_post; [| apply safe_mono, (safe_use c ps KM KW Hc C)].
      intros o M W _ _ (H & HM & HW). split; [exact H |].
      intros p [Hp' | (n & s & [E | []] & _)]; [destruct (C p Hp'); split; auto | destruct (Hc n s E)].
  Qed.
  Lemma as_expected_ext : forall l os (ps ps' : package -> Prop), (forall p, ps p <-> ps' p) ->
    as_expected w env ps l os -> as_expected w env ps' l os.
  Proof.
    induction l as [| c l IH]; intros [| o os] ps ps' E H; cbn [as_expected] in *; auto. destruct H as [H1 H2]. split.
    - intros Hs. assert (Hs' : served_by ps c).
      { clear - Hs E. destruct c; cbn [served_by] in *; auto.
        - destruct Hs as [Hk (p & Hp & H)]. split; [| exists p; rewrite E; auto].
          intros k Hin. destruct (Hk k Hin) as (q & Hq & H'). exists q. rewrite E. auto.
        - destruct Hs as (p & Hp & H). exists p. rewrite E. auto.
        - intros k Hin. destruct (Hs k Hin) as (q & Hq & H'). exists q. rewrite E. auto. }
      specialize (H1 Hs'). clear - H1 E. destruct c; cbn [expected] in *; auto; intros l r xs Hr Hps; apply (H1 l r xs Hr);
        intros p Hp; apply Hps, E, Hp.
    - eapply IH; [| exact H2]. intros p. cbn beta. rewrite E. reflexivity.
  Qed.
  Lemma safe_thread : forall l ps KM KW, (forall c, In c l -> call_proper c) -> covers ps KM KW ->
    ok (thread_prog w env l) KM KW (fun os M W => as_expected w env ps l os /\
      covers (fun p => ps p \/ calls_set_up l p) M W).
  Proof.
    induction l as [| c l IH]; intros ps KM KW Hp C.
    - split; [exact I |]. intros p [H | (n & s & [] & _)]. exact (C p H).
    - cbn [thread_prog]. apply safe_bind.
      eapply safe_post; [| apply (safe_call c ps KM KW (Hp c (or_introl eq_refl)) C)].
      intros o M W _ _ [Ho C1]. apply safe_bind.
      eapply safe_post; [| apply (IH _ M W (fun c' H => Hp c' (or_intror H)) C1)].
      intros os M' W' _ _ [Hos C2]. cbn [safe as_expected]. split; [split; [exact Ho | exact Hos] |].
      intros p H. apply C2. destruct H as [H | (n & s & [H | H] & Hs)].
      + left. left. exact H.
      + left. right. exists n, s. split; [left; exact H | exact Hs].
      + right. exists n, s. auto.
  Qed.
End Packages.

Lemma sound_serves : forall w env active r p (KM : pystr -> Prop) (KW : pclass -> Prop),
  sound (pkm w env active) (pkw active) r -> holds r KM KW ->
  (forall u, In u (type_urls p) -> KM u) -> (forall c, In c (map fst (primitives p)) -> KW c) -> serves r p.
Proof.
  intros w env active r p KM KW [S1 S2] [H1 H2] HM HW. split.
  - intros name c b Hin. destruct (table_signature _ _ _ _ Hin) as (Hu & t & Ht & Hp).
    pose proof (H1 _ (HM _ Hu)) as Hm.
    destruct (manager_of r (type_url name)) as [[km bb] |] eqn:Em; [| congruence].
    destruct (S1 _ _ Em (signature_in _ _ Hu)) as (E & Hb & _). cbn [fst snd] in *. subst bb.
    destruct (built_signature _ _ _ _ Hb) as (Hk & _ & Hsig).
    rewrite Ht in Hsig. injection Hsig as -> ->.
    exists km. split; [reflexivity |]. split; [exact Hk |]. split; [reflexivity |].
    rewrite (built_public _ _ _ _ Hb), <- Hp. reflexivity.
  - intros c i Hin.
    assert (Hc : In c (map fst (primitives p))) by (apply (in_map fst) in Hin; exact Hin).
    pose proof (H2 _ (HW _ Hc)) as Hm.
    destruct (wrapper_of r c) as [x |] eqn:Ex; [| congruence].
    destruct (table_wrapper_in _ _ Hc) as (y & Hy). destruct (S2 _ _ Ex _ Hy) as [-> _]. exists y. split; [reflexivity |].
    split; [exact (proj1 (table_wrapper_ok _ _ Hy)) |].
    clear - Hin Hy. destruct p; cbn in Hin;
      repeat (destruct Hin as [Hin | Hin]; [injection Hin as <- <-; injection Hy as <-; reflexivity |]); contradiction.
Qed.

Lemma forall2_nth : forall A B (R : A -> B -> Prop) l m, Forall2 R l m -> forall i x y,
  nth_error l i = Some x -> nth_error m i = Some y -> R x y.
Proof.
  intros A B R l m H. induction H as [| a b l m Hab _ IH]; intros [| i] x y Hx Hy; cbn [nth_error] in *;
    try discriminate; [injection Hx as <-; injection Hy as <-; exact Hab | exact (IH i x y Hx Hy)].
Qed.

(** Threads that set up packages and use them, in any order, get the outcomes of a
    single thread. *)
Theorem concurrent_setup : forall w env l0 r0 xs0 threads s,
  reached w env l0 r0 xs0 -> proper_threads w threads -> comes_to w env threads r0 s ->
  (forall calls os, finished threads s calls os ->
     as_expected w env (fun p => exists c, In c l0 /\ sets_up c p) calls os /\
     forall p, calls_set_up calls p -> serves (fst s) p) /\
  (forall p, (exists c, In c l0 /\ sets_up c p) -> serves (fst s) p) /\
  (forall p, ~ (exists c, In c l0 /\ sets_up c p) -> ~ (exists calls, In calls threads /\ calls_set_up calls p) ->
     lacks (fst s) p).
Proof.
  intros w env l0 r0 xs0 threads s Hr Hp (schedule & ->).
  set (ps := fun p => exists c, In c l0 /\ sets_up c p).
  set (active := fun p => ps p \/ exists calls, In calls threads /\ calls_set_up calls p).
  set (s0 := (r0, map (thread_prog w env) threads)).
  pose (known_m := fun u => exists p, ps p /\ In u (type_urls p)).
  pose (known_w := fun c => exists p, ps p /\ In c (map fst (primitives p))).
  assert (C0 : covers ps known_m known_w).
  { intros p H. split; intros u Hu; exists p; auto. }
  destruct (setup_complete _ _ _ _ _ Hr) as (_ & Hsv & Hlk).
  assert (So : sound (pkm w env active) (pkw active) r0).
  { destruct Hr as (E & R & U).
    destruct (setup_run_spec _ _ _ _ _ _ _ (inv_empty w env) E R U) as ([I1 I2] & (A1 & A2 & A3 & A4 & A5 & A6) & HF). split.
    - intros u [km b] H Hsg. destruct (I1 _ _ _ H Hsg) as [-> Hb]. cbn [fst snd]. split; [reflexivity |]. split; [exact Hb |].
      destruct (signature_out _ Hsg) as (p & Hu). exists p. split; [| exact Hu].
      (* is [p] among the packages set up? *)
      assert (Dec : ps p \/ ~ ps p).
      { unfold ps. clear. induction l0 as [| c l IH]; [right; intros (? & [] & _) |].
        assert (Dc : sets_up c p \/ ~ sets_up c p) by (destruct c, p; cbn; intuition congruence).
        destruct Dc as [Dc | Dc]; [left; exists c; cbn; auto |].
        destruct IH as [(c' & H1 & H2) | IH]; [left; exists c'; cbn; auto |].
        right. intros (c' & [<- | H1] & H2); eauto. }
      destruct Dec as [Dec | Dec]; [left; exact Dec |]. exfalso.
      destruct (Hlk p Dec) as [L _]. rewrite (L u Hu) in H. discriminate.
    - intros c x H y Hy. split; [exact (I2 _ _ _ H Hy) |].
      destruct (table_wrapper_out _ _ Hy) as (p & Hc). exists p. split; [| exact Hc].
      assert (Dec : ps p \/ ~ ps p).
      { unfold ps. clear. induction l0 as [| c' l IH]; [right; intros (? & [] & _) |].
        assert (Dc : sets_up c' p \/ ~ sets_up c' p) by (destruct c', p; cbn; intuition congruence).
        destruct Dc as [Dc | Dc]; [left; exists c'; cbn; auto |].
        destruct IH as [(c2 & H1 & H2) | IH]; [left; exists c2; cbn; auto |].
        right. intros (c2 & [<- | H1] & H2); eauto. }
      destruct Dec as [Dec | Dec]; [left; exact Dec |]. exfalso.
      destruct (Hlk p Dec) as [_ L]. rewrite (L c Hc) in H. discriminate. }
  assert (H0 : holds r0 known_m known_w).
  { split.
    - intros u (p & Hps & Hu). destruct (configured_manager w env p r0 u) as (km & E & _); [| exact Hu | congruence].
      destruct Hps as (c & Hc & Hs). exists l0, xs0, c. auto.
    - intros c (p & Hps & Hc). destruct (table_wrapper_in _ _ Hc) as (y & Hy).
      rewrite (configured_wrapper w env p r0 c y); [discriminate | | exact Hc | exact Hy].
      destruct Hps as (c' & Hc' & Hs). exists l0, xs0, c'. auto. }
  pose (post_of := fun (calls : list call) (os : list outcome) (M : pystr -> Prop) (W : pclass -> Prop) =>
    as_expected w env ps calls os /\ covers (fun p => ps p \/ calls_set_up calls p) M W).
  assert (P0 : pool_ok (pkm w env active) (pkw active) (map post_of threads) s0).
  { split; [exact So |]. cbn [snd s0 fst].
    assert (H : forall l, (forall x, In x l -> In x threads) ->
      Forall2 (thread_ok (pkm w env active) (pkw active) r0) (map (thread_prog w env) l) (map post_of l)).
    { induction l as [| x l IH]; intros Hin; constructor.
      - exists known_m, known_w. split; [exact H0 |]. apply safe_thread; [| exact C0].
        intros [n c | | |] Hc; try exact I. destruct (Hp x n c (Hin x (or_introl eq_refl)) Hc) as [Hu Hrd].
        split; [exact Hu |]. intros p Hs. split; [apply Hrd, Hs |]. right. exists x.
        split; [apply Hin; left; reflexivity |]. exists n, c. auto.
      - apply IH. intros y Hy. apply Hin. right. exact Hy. }
    apply H. auto. }
  pose proof (pool_run_ok _ _ _ _ schedule _ P0) as [S F].
  destruct (pool_run_keeps _ schedule s0) as [K1 K2]. cbn [s0 fst] in K1, K2.
  assert (H1 : holds (fst (pool_run schedule s0)) known_m known_w).
  { destruct H0 as [A B]. split; intros x Hx; [apply K1, A, Hx | apply K2, B, Hx]. }
  split; [| split].
  - intros calls os (i & E1 & E2).
    assert (T : thread_ok (pkm w env active) (pkw active) (fst (pool_run schedule s0)) (Ret os) (post_of calls)).
    { exact (forall2_nth _ _ _ _ _ F i _ _ E2 (map_nth_error post_of i threads E1)). }
    destruct T as (KM & KW & HK & Hs). destruct Hs as [Ha Hc]. split; [exact Ha |].
    intros p Hcs. destruct (Hc p (or_intror Hcs)). eapply sound_serves; eauto.
  - intros p H. destruct (C0 p H). eapply sound_serves; eauto.
  - intros p Hn1 Hn2. destruct S as [S1 S2]. split.
    + intros u Hu. destruct (manager_of (fst (pool_run schedule s0)) u) as [v |] eqn:E; [| reflexivity]. exfalso.
      destruct (S1 _ _ E (signature_in _ _ Hu)) as (_ & _ & q & Hq & Hqu).
      rewrite (type_urls_disjoint _ _ _ Hqu Hu) in Hq. destruct Hq as [Hq | Hq]; auto.
    + intros c Hc. destruct (wrapper_of (fst (pool_run schedule s0)) c) as [x |] eqn:E; [| reflexivity]. exfalso.
      destruct (table_wrapper_in _ _ Hc) as (y & Hy). destruct (S2 _ _ E _ Hy) as (_ & q & Hq & Hqc).
      assert (q = p) as -> by (clear - Hc Hqc; destruct p; cbn in Hc; intuition; subst; destruct q; cbn in Hqc; intuition congruence).
      destruct Hq as [Hq | Hq]; auto.
Qed.
