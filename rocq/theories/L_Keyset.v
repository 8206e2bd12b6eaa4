(** Proofs about keyset validation and KeysetHandle.primitive. *)
From Coq Require Import Strings.Byte Strings.String List NArith ZArith Bool Lia.
From Verif Require Import M_Base M_Proto M_Prims M_PrimitiveSet M_Registry M_KeysetHandle
  S_Keyset S_PrimitiveSet L_Base L_PrimitiveSet.
Import ListNotations.
Open Scope list_scope.

(** ** Validation *)

Lemma validate_key_ok : forall k, validate_key k = Ok tt <-> usable_key k.
Proof.
  intros k. unfold validate_key, usable_key.
  destruct (k_key_data_opt k) as [d |].
  - destruct (Z.eqb_spec (k_output_prefix_type k) UNKNOWN_PREFIX);
    destruct (Z.eqb_spec (k_status k) UNKNOWN_STATUS);
    split; intros H; try discriminate; try tauto; repeat split; eauto.
  - split; [discriminate | intros [[d H] _]; discriminate].
Qed.

Lemma validate_key_err : forall k e, validate_key k = Err e -> is_tink_error e = true.
Proof.
  intros k e. unfold validate_key.
  destruct (k_key_data_opt k); [| intro H; inv H; auto].
  repeat match goal with |- context [if ?c then _ else _] => destruct c end;
    intro H; inv H; auto.
Qed.

Lemma count_zero : forall f l, count_keys f l = 0%nat <-> (forall k, In k l -> f k = false).
Proof.
  intros f l. unfold count_keys. induction l as [| x l IH]; simpl.
  - split; auto. intros _ k [].
  - destruct (f x) eqn:E; simpl.
    + split; [discriminate | intros H; rewrite H in E by auto; discriminate].
    + rewrite IH. split; [intros H k [-> | Hk]; auto | auto].
Qed.

Lemma count_le1 : forall f l, (count_keys f l <= 1)%nat <->
  (forall i j x y, nth_error l i = Some x -> nth_error l j = Some y ->
     f x = true -> f y = true -> i = j).
Proof.
  intros f l. induction l as [| a l IH].
  - simpl. split; [intros _ i j x y H; destruct i; discriminate | unfold count_keys; simpl; lia].
  - unfold count_keys in *. simpl. destruct (f a) eqn:E; simpl.
    + split.
      * intros Hl i j x y Hi Hj Hx Hy.
        assert (Hz : forall k, In k l -> f k = false).
        { apply count_zero. unfold count_keys. lia. }
        destruct i as [| i], j as [| j]; auto; simpl in *; exfalso.
        -- apply nth_error_In in Hj. apply Hz in Hj. congruence.
        -- apply nth_error_In in Hi. apply Hz in Hi. congruence.
        -- apply nth_error_In in Hj. apply Hz in Hj. congruence.
      * intros H. assert (Hz : count_keys f l = 0%nat); [| unfold count_keys in Hz; lia].
        apply count_zero. intros k Hk. destruct (f k) eqn:Ek; auto.
        apply In_nth_error in Hk. destruct Hk as [n Hn].
        specialize (H 0%nat (S n) a k eq_refl Hn E Ek). discriminate.
    + rewrite IH. split.
      * intros H i j x y Hi Hj Hx Hy. destruct i as [| i], j as [| j]; simpl in *; auto.
        -- inv Hi. congruence.
        -- inv Hj. congruence.
        -- f_equal. eapply H; eauto.
      * intros H i j x y Hi Hj Hx Hy.
        specialize (H (S i) (S j) x y Hi Hj Hx Hy). congruence.
Qed.

Definition primary_test (ks : keyset) (k : key) : bool :=
  ((k_status k =? ENABLED)%Z && N.eqb (k_key_id k) (ks_primary_key_id ks)).

Lemma primary_test_spec : forall ks i,
  primary_positions ks i <->
  exists k, nth_error (ks_key ks) i = Some k /\ primary_test ks k = true.
Proof.
  intros ks i. unfold primary_positions, primary_test. split.
  - intros (k & H1 & H2 & H3). exists k. split; auto.
    rewrite H2, H3, N.eqb_refl. reflexivity.
  - intros (k & H1 & H2). apply andb_true_iff in H2. destruct H2 as [H2 H3].
    apply Z.eqb_eq in H2. apply N.eqb_eq in H3. exists k. auto.
Qed.

Theorem validate_keyset_ok : forall ks, validate_keyset ks = Ok tt <-> valid_keyset ks.
Proof.
  intros ks. unfold validate_keyset, valid_keyset.
  destruct (for_each _ (ks_key ks)) as [[] | e] eqn:Ef.
  - apply for_each_ok in Ef. rewrite Forall_forall in Ef.
    assert (Hu : forall k, In k (ks_key ks) -> k_status k <> DESTROYED -> usable_key k).
    { intros k Hk Hd. specialize (Ef k Hk). apply Z.eqb_neq in Hd. rewrite Hd in Ef.
      simpl in Ef. apply validate_key_ok. assumption. }
    unfold bind. cbv zeta.
    destruct (Nat.eqb_spec (count_keys (fun k => negb (k_status k =? DESTROYED)%Z) (ks_key ks)) 0)
      as [H0 | H0].
    { split; [discriminate |]. intros ((k & Hk & Hd) & _). exfalso.
      pose proof (proj1 (count_zero _ _) H0 k Hk) as Hx.
      apply negb_false_iff in Hx. apply Z.eqb_eq in Hx. congruence. }
    assert (He : exists k, In k (ks_key ks) /\ k_status k <> DESTROYED).
    { destruct (existsb (fun k => negb (k_status k =? DESTROYED)%Z) (ks_key ks)) eqn:Ee.
      - apply existsb_exists in Ee. destruct Ee as [k [Hk Hx]]. exists k. split; auto.
        apply negb_true_iff in Hx. apply Z.eqb_neq. assumption.
      - exfalso. apply H0. apply count_zero. intros k Hk.
        destruct (negb (k_status k =? DESTROYED)%Z) eqn:Ex; auto.
        assert (existsb (fun k => negb (k_status k =? DESTROYED)%Z) (ks_key ks) = true)
          by (apply existsb_exists; eauto). congruence. }
    fold (primary_test ks).
    destruct (Nat.ltb_spec 1 (count_keys (primary_test ks) (ks_key ks))) as [H1 | H1].
    { split; [discriminate |]. intros (_ & _ & Huniq & _). exfalso.
      assert (count_keys (primary_test ks) (ks_key ks) <= 1)%nat; [| lia].
      apply count_le1. intros i j x y Hi Hj Hx Hy. apply Huniq; apply primary_test_spec; eauto. }
    assert (Huniq : forall i j, primary_positions ks i -> primary_positions ks j -> i = j).
    { intros i j Hi Hj. apply primary_test_spec in Hi. apply primary_test_spec in Hj.
      destruct Hi as (x & Hi & Hx), Hj as (y & Hj & Hy).
      eapply (proj1 (count_le1 _ _) H1); eauto. }
    destruct (Nat.eqb_spec (count_keys (primary_test ks) (ks_key ks)) 0) as [H2 | H2]; simpl.
    + match goal with |- context [Nat.ltb 0 ?n] => destruct (Nat.ltb_spec 0 n) as [H3 | H3] end.
      * split; [discriminate |]. intros (_ & _ & _ & [[i Hi] | Hp]); exfalso.
        -- apply primary_test_spec in Hi. destruct Hi as (k & Hk & Hx).
           apply nth_error_In in Hk. rewrite (proj1 (count_zero _ _) H2 k Hk) in Hx. discriminate.
        -- match type of H3 with (0 < ?n)%nat => assert (n = 0%nat) as Hz end; [| lia].
           apply count_zero. intros k Hk. rewrite Hp by assumption. reflexivity.
      * split; [intros _ | reflexivity]. refine (conj He (conj Hu (conj Huniq _))). right.
        intros k Hk.
        match type of H3 with (?n <= 0)%nat => assert (n = 0%nat) as Hz by lia end.
        pose proof (proj1 (count_zero _ _) Hz k Hk) as Hx. simpl in Hx.
        apply negb_false_iff in Hx. apply Z.eqb_eq in Hx. assumption.
    + split; [intros _ | reflexivity]. refine (conj He (conj Hu (conj Huniq _))). left.
      destruct (existsb (primary_test ks) (ks_key ks)) eqn:Ee.
      * apply existsb_exists in Ee. destruct Ee as [k [Hk Hx]].
        apply In_nth_error in Hk. destruct Hk as [n Hn]. exists n.
        apply primary_test_spec. eauto.
      * exfalso. apply H2. apply count_zero. intros k Hk.
        destruct (primary_test ks k) eqn:Ex; auto.
        assert (existsb (primary_test ks) (ks_key ks) = true)
          by (apply existsb_exists; eauto). congruence.
  - simpl. split; [discriminate |]. intros (_ & Hu & _). exfalso.
    apply for_each_err in Ef. destruct Ef as (k & Hk & Hx).
    destruct (Z.eqb_spec (k_status k) DESTROYED) as [Hd | Hd]; simpl in Hx; [discriminate |].
    apply Hu in Hk; auto. apply validate_key_ok in Hk. congruence.
Qed.

Theorem validate_keyset_err : forall ks e, validate_keyset ks = Err e -> is_tink_error e = true.
Proof.
  intros ks e. unfold validate_keyset. intros H. apply bind_err in H.
  destruct H as [H | [u [_ H]]].
  - apply for_each_err in H. destruct H as (k & _ & Hx).
    destruct (negb (k_status k =? DESTROYED)%Z); [| discriminate].
    eapply validate_key_err; eauto.
  - revert H.
    repeat match goal with |- context [if ?c then _ else _] => destruct c end;
      intro H; inv H; auto.
Qed.

Theorem create_ok : forall ks h, create ks = Ok h <-> (valid_keyset ks /\ h = mk_handle ks).
Proof.
  intros ks h. unfold create. pose proof (validate_keyset_ok ks) as Hv.
  destruct (validate_keyset ks) as [[] | e]; simpl.
  - split; [intro H; inv H; split; auto; apply Hv; auto | intros [_ ->]; reflexivity].
  - split; [discriminate | intros [H _]; apply Hv in H; discriminate].
Qed.

Theorem create_err : forall ks e, create ks = Err e -> is_tink_error e = true /\ ~ valid_keyset ks.
Proof.
  intros ks e H. unfold create in H. apply bind_err in H.
  destruct H as [H | [u [_ H]]]; [| discriminate]. split.
  - eapply validate_keyset_err; eauto.
  - intro Hv. apply validate_keyset_ok in Hv. congruence.
Qed.

(** ** Registry.primitive against [key_provides] *)

Lemma registry_primitive_ok : forall reg c k p,
  registry_primitive reg (k_key_data k) c = Ok p <-> key_provides reg c k p.
Proof.
  intros reg c k p. unfold registry_primitive, registry_key_manager, key_manager_internal,
    key_provides.
  destruct (dict_get str_eqb (kd_type_url (k_key_data k)) (r_key_managers reg))
    as [[km b] |] eqn:E; simpl.
  - destruct (pclass_eqb (km_primitive_class km) c) eqn:Ec; simpl.
    + apply pclass_eqb_spec in Ec. split.
      * intros H. exists km, b. auto.
      * intros (km' & b' & H1 & H2 & H3). congruence.
    + apply (eqb_false_of _ _ pclass_eqb_spec) in Ec. split; [discriminate |].
      intros (km' & b' & H1 & H2 & H3). congruence.
  - split; [discriminate |]. intros (km' & b' & H1 & _). discriminate.
Qed.

Lemma key_provides_fun : forall reg c k p q,
  key_provides reg c k p -> key_provides reg c k q -> p = q.
Proof. intros. apply registry_primitive_ok in H, H0. congruence. Qed.

(** ** KeysetHandle.primitive *)

(** The prefix of a key (empty when it has none). *)
Definition pfx (k : key) : bytes := match output_prefix k with Ok q => q | Err _ => [] end.

Definition entry_of (kp : key * prim) : entry :=
  mk_entry (snd kp) (pfx (fst kp)) (k_status (fst kp)) (k_output_prefix_type (fst kp))
    (k_key_id (fst kp)).

Definition good (reg : registry) (c : pclass) (kp : key * prim) : Prop :=
  key_provides reg c (fst kp) (snd kp) /\ class_of (snd kp) = c /\
  exists q, has_prefix (k_output_prefix_type (fst kp)) (k_key_id (fst kp)) q.

Definition primary_after (pid : N) (l : list (key * prim)) (pr : option entry) : option entry :=
  fold_left (fun acc kp => if N.eqb (k_key_id (fst kp)) pid then Some (entry_of kp) else acc)
    l pr.

Lemma add_primitive_good : forall reg c kp es pr,
  good reg c kp ->
  add_primitive (mk_pset (group es) pr c) (snd kp) (fst kp) =
  Ok (mk_pset (group (es ++ [entry_of kp])) pr c, entry_of kp).
Proof.
  intros reg c [k p] es pr (Hp & Hc & [q Hq]). simpl in *.
  unfold add_primitive, isinstance. simpl.
  rewrite Hc. rewrite (eqb_refl_of _ _ pclass_eqb_spec). simpl.
  apply output_prefix_spec in Hq. rewrite Hq. simpl.
  unfold entry_of, pfx. simpl. rewrite Hq. repeat f_equal.
  change (primitive_from_identifier (mk_pset (group es) pr c) q) with
    (match dict_get bytes_eqb q (group es) with Some l => l | None => [] end).
  rewrite group_get.
  apply (group_add es (mk_entry p q (k_status k) (k_output_prefix_type k) (k_key_id k))).
Qed.

Lemma add_key_primitives_ok : forall reg c pid keys es pr ps,
  add_key_primitives reg c pid (mk_pset (group es) pr c) keys = Ok ps <->
  exists l, map fst l = filter is_enabled keys /\ Forall (good reg c) l /\
    ps = mk_pset (group (es ++ map entry_of l)) (primary_after pid l pr) c.
Proof.
  intros reg c pid keys. induction keys as [| k keys IH]; intros es pr ps.
  - simpl. split.
    + intro H. inv H. exists []. rewrite app_nil_r. auto.
    + intros (l & Hl & _ & ->). destruct l; [| discriminate]. simpl. rewrite app_nil_r. auto.
  - simpl. unfold add_key_primitive, is_enabled at 1.
    destruct (Z.eqb_spec (k_status k) ENABLED) as [He | He].
    + split.
      * intro H. apply bind_ok in H. destruct H as [ps1 [H1 H2]].
        apply bind_ok in H1. destruct H1 as [p [Hp H1]].
        apply bind_ok in H1. destruct H1 as [[ps2 e] [Ha H1]].
        apply registry_primitive_ok in Hp.
        assert (Hg : good reg c (k, p)).
        { split; [assumption |].
          pose proof (add_primitive_ok (mk_pset (group es) pr c) c es pr p k eq_refl) as Hx.
          rewrite Ha in Hx. destruct Hx as [(Hc & _ & _ & _ & _ & Hq) _].
          split; [assumption | eauto]. }
        pose proof (add_primitive_good reg c (k, p) es pr Hg) as Hx. simpl in Hx.
        rewrite Hx in Ha. inv Ha.
        assert (Hps1 : ps1 = mk_pset (group (es ++ [entry_of (k, p)]))
                         (if (k_key_id k =? pid)%N then Some (entry_of (k, p)) else pr) c).
        { inv H1. unfold set_primary. simpl. destruct (k_key_id k =? pid)%N; reflexivity. }
        subst ps1. apply IH in H2. destruct H2 as (l & Hl & Hgl & ->).
        exists ((k, p) :: l). simpl. repeat split.
        -- congruence.
        -- constructor; auto.
        -- rewrite <- app_assoc. reflexivity.
      * intros (l & Hl & Hgl & ->). destruct l as [| [k' p] l]; [discriminate |].
        simpl in Hl. inv Hl. inv Hgl. pose proof H2 as Hg.
        destruct H2 as (Hp & Hc & Hq). simpl in Hp.
        apply registry_primitive_ok in Hp. rewrite Hp. simpl.
        pose proof (add_primitive_good reg c (k, p) es pr Hg) as Hx. simpl in Hx. rewrite Hx.
        simpl.
        match goal with |- add_key_primitives _ _ _ ?x _ = _ =>
          replace x with (mk_pset (group (es ++ [entry_of (k, p)]))
                         (if (k_key_id k =? pid)%N then Some (entry_of (k, p)) else pr) c)
            by (destruct (k_key_id k =? pid)%N; reflexivity) end.
        apply IH. exists l. repeat split; auto. rewrite <- app_assoc. reflexivity.
    + simpl. apply IH.
Qed.

Lemma primary_after_find : forall pid l pr,
  (forall i j x y, nth_error l i = Some x -> nth_error l j = Some y ->
     k_key_id (fst x) = pid -> k_key_id (fst y) = pid -> i = j) ->
  primary_after pid l pr =
  match find (fun kp => N.eqb (k_key_id (fst kp)) pid) l with
  | Some kp => Some (entry_of kp)
  | None => pr
  end.
Proof.
  intros pid l. induction l as [| kp l IH]; intros pr Hu; [reflexivity |].
  simpl. unfold primary_after. simpl. fold (primary_after pid l).
  destruct (N.eqb_spec (k_key_id (fst kp)) pid) as [He | He].
  - change (primary_after pid l (Some (entry_of kp)) = Some (entry_of kp)). rewrite IH.
    + destruct (find (fun kp0 => (k_key_id (fst kp0) =? pid)%N) l) as [kp' |] eqn:Ef; auto.
      exfalso. apply find_some in Ef. destruct Ef as [Hi Hx]. apply N.eqb_eq in Hx.
      apply In_nth_error in Hi. destruct Hi as [n Hn].
      specialize (Hu 0%nat (S n) kp kp' eq_refl Hn He Hx). discriminate.
    + intros i j x y Hi Hj Hx Hy. specialize (Hu (S i) (S j) x y Hi Hj Hx Hy). congruence.
  - apply IH. intros i j x y Hi Hj Hx Hy. specialize (Hu (S i) (S j) x y Hi Hj Hx Hy). congruence.
Qed.

(** In a valid keyset at most one enabled key carries the primary id. *)
Lemma enabled_primary_unique : forall ks, valid_keyset ks ->
  (count_keys (primary_test ks) (ks_key ks) <= 1)%nat.
Proof.
  intros ks (_ & _ & Hu & _). apply count_le1. intros i j x y Hi Hj Hx Hy.
  apply Hu; apply primary_test_spec; eauto.
Qed.

Lemma filter_filter : forall A (f g : A -> bool) l,
  filter f (filter g l) = filter (fun x => g x && f x) l.
Proof.
  induction l as [| x l IH]; [reflexivity |]. simpl.
  destruct (g x); simpl; rewrite ?IH; reflexivity.
Qed.

Lemma map_fst_nth : forall (P : Type) (l : list (key * P)) i kp,
  nth_error l i = Some kp -> nth_error (map fst l) i = Some (fst kp).
Proof. intros. apply map_nth_error. assumption. Qed.

Lemma enabled_unique_list : forall (P : Type) ks (l : list (key * P)), valid_keyset ks ->
  map fst l = enabled_keys ks ->
  forall i j x y, nth_error l i = Some x -> nth_error l j = Some y ->
    k_key_id (fst x) = ks_primary_key_id ks -> k_key_id (fst y) = ks_primary_key_id ks -> i = j.
Proof.
  intros P ks l Hv Hl i j x y Hi Hj Hx Hy.
  apply map_fst_nth in Hi, Hj. rewrite Hl in *.
  assert (Hc : (count_keys (fun k => N.eqb (k_key_id k) (ks_primary_key_id ks))
                 (enabled_keys ks) <= 1)%nat).
  { unfold enabled_keys, count_keys. rewrite filter_filter.
    apply (enabled_primary_unique ks Hv). }
  eapply (proj1 (count_le1 _ _) Hc); eauto; apply N.eqb_eq; assumption.
Qed.

(** The primitive set built for keys [l]. *)
Definition pset_for (c : pclass) (pid : N) (l : list (key * prim)) : pset :=
  mk_pset (group (map entry_of l))
    (option_map entry_of (find (fun kp => N.eqb (k_key_id (fst kp)) pid) l)) c.

Theorem handle_primitive_ok : forall reg h c w P,
  dict_get pclass_eqb c (r_wrappers reg) = Some w ->
  (handle_primitive reg h c = Ok P <->
   valid_keyset (kh_keyset h) /\
   exists l, map fst l = enabled_keys (kh_keyset h) /\
     Forall (good reg (w_input_primitive_class w)) l /\
     w_wrap w (pset_for (w_input_primitive_class w) (ks_primary_key_id (kh_keyset h)) l) = Ok P).
Proof.
  intros reg h c w P Hw. unfold handle_primitive, registry_input_primitive_class.
  rewrite Hw. cbv zeta. set (ks := kh_keyset h). set (ic := w_input_primitive_class w).
  assert (Hwrap : forall pr es, registry_wrap reg (mk_pset es pr ic) c = w_wrap w (mk_pset es pr ic)).
  { intros pr es. unfold registry_wrap. rewrite Hw. cbn.
    rewrite (eqb_refl_of _ _ pclass_eqb_spec). reflexivity. }
  pose proof (validate_keyset_ok ks) as Hv.
  destruct (validate_keyset ks) as [[] | e]; simpl.
  2: { split; [discriminate |]. intros [H _]. apply Hv in H. discriminate. }
  pose proof (proj1 Hv eq_refl) as Hval. split.
  - intro H. apply bind_ok in H. destruct H as [ps [H1 H2]].
    change (new_primitive_set ic) with (mk_pset (group []) None ic) in H1.
    apply add_key_primitives_ok in H1. destruct H1 as (l & Hl & Hg & ->).
    rewrite Hwrap in H2. split; auto. exists l. repeat split; auto.
    unfold pset_for. simpl in H2.
    rewrite primary_after_find in H2 by (eapply enabled_unique_list; eauto).
    destruct (find _ l); exact H2.
  - intros (_ & l & Hl & Hg & HP).
    assert (Ha : add_key_primitives reg ic (ks_primary_key_id ks) (new_primitive_set ic) (ks_key ks)
                 = Ok (pset_for ic (ks_primary_key_id ks) l)).
    { change (new_primitive_set ic) with (mk_pset (group []) None ic).
      apply add_key_primitives_ok. exists l. repeat split; auto. unfold pset_for. simpl.
      f_equal. rewrite primary_after_find by (eapply enabled_unique_list; eauto).
      destruct (find _ l); reflexivity. }
    rewrite Ha. simpl. unfold pset_for. rewrite Hwrap. exact HP.
Qed.

Lemma add_key_primitives_err : forall reg c pid keys ps e,
  add_key_primitives reg c pid ps keys = Err e ->
  exists k ps', In k keys /\ add_key_primitive reg c pid ps' k = Err e.
Proof.
  induction keys as [| k keys IH]; simpl; intros ps e H; [discriminate |].
  apply bind_err in H. destruct H as [H | [ps' [_ H]]]; [eauto |].
  apply IH in H. destruct H as (k' & ps2 & Hi & Hx). eauto 6.
Qed.

(** ** Looking up keys in the set *)

Lemma filter_map_entry : forall f l,
  filter f (map entry_of l) = map entry_of (filter (fun kp => f (entry_of kp)) l).
Proof.
  induction l as [| x l IH]; [reflexivity |]. simpl.
  destruct (f (entry_of x)); simpl; rewrite IH; reflexivity.
Qed.

Lemma pset_for_lookup : forall c pid l p,
  primitive_from_identifier (pset_for c pid l) p =
  map entry_of (filter (fun kp => bytes_eqb p (pfx (fst kp))) l).
Proof.
  intros. unfold pset_for, primitive_from_identifier. simpl.
  rewrite group_get, filter_map_entry. reflexivity.
Qed.

Lemma filter_ext_Forall : forall A (f g : A -> bool) l,
  Forall (fun x => f x = g x) l -> filter f l = filter g l.
Proof.
  induction 1; [reflexivity |]. simpl. rewrite H, IHForall. reflexivity.
Qed.

Lemma good_pfx : forall reg c kp, good reg c kp ->
  has_prefix (k_output_prefix_type (fst kp)) (k_key_id (fst kp)) (pfx (fst kp)).
Proof.
  intros reg c kp (_ & _ & [q Hq]). pose proof Hq as Hq'. apply output_prefix_spec in Hq.
  unfold pfx. rewrite Hq. assumption.
Qed.

Lemma bytes_eqb_sym : forall x y, bytes_eqb x y = bytes_eqb y x.
Proof.
  intros. apply eq_true_iff_eq. rewrite !bytes_eqb_spec. split; congruence.
Qed.

Lemma lookup_prefix : forall reg c pid l x,
  Forall (good reg c) l -> (5 < length x)%nat ->
  primitive_from_identifier (pset_for c pid l) (firstn 5 x) =
  map entry_of (filter (fun kp => carries_prefix (fst kp) x) l).
Proof.
  intros reg c pid l x Hg Hx. rewrite pset_for_lookup. f_equal.
  apply filter_ext_Forall. eapply Forall_impl; [| exact Hg]. intros kp Hk. simpl.
  pose proof (good_pfx _ _ _ Hk) as Hp.
  rewrite (carries_prefix_spec _ _ _ Hp).
  apply Nat.ltb_lt in Hx. rewrite Hx. rewrite andb_true_r.
  destruct (has_prefix_length _ _ _ Hp) as [[Hr Hn] | [Hr Hn]].
  - unfold is_raw_key. rewrite Hr. simpl. rewrite Hn. apply Nat.ltb_lt in Hx.
    destruct x; simpl in *; [lia | reflexivity].
  - unfold is_raw_key. apply Z.eqb_neq in Hr. rewrite Hr. simpl.
    rewrite ?andb_true_l. reflexivity.
Qed.

Lemma lookup_raw : forall reg c pid l,
  Forall (good reg c) l ->
  raw_primitives (pset_for c pid l) = map entry_of (filter (fun kp => is_raw_key (fst kp)) l).
Proof.
  intros reg c pid l Hg. unfold raw_primitives. rewrite pset_for_lookup. f_equal.
  apply filter_ext_Forall. eapply Forall_impl; [| exact Hg]. intros kp Hk. simpl.
  pose proof (good_pfx _ _ _ Hk) as Hp. unfold is_raw_key.
  destruct (has_prefix_length _ _ _ Hp) as [[Hr Hn] | [Hr Hn]].
  - rewrite Hr, Hn. reflexivity.
  - apply Z.eqb_neq in Hr. rewrite Hr. destruct (pfx (fst kp)); [discriminate | reflexivity].
Qed.

Lemma carries_short : forall k x, (length x <= 5)%nat -> carries_prefix k x = false.
Proof.
  intros k x H. destruct x as [| a [| b [| c [| d [| e [| f x]]]]]]; try reflexivity.
  simpl in H. lia.
Qed.

(** ** first_ok *)

Lemma first_ok_fun : forall A (l : list (result A)) r r',
  first_ok l r -> first_ok l r' ->
  r = r' \/ (exists e e', r = Err e /\ r' = Err e' /\ is_tink_error e = true /\ is_tink_error e' = true).
Proof.
  induction 1; intros H'; inv H'; eauto; try congruence.
  right. exists e, e0. auto.
Qed.

Lemma first_ok_ok : forall A (l : list (result A)) a,
  first_ok l (Ok a) -> exists pre post, l = pre ++ Ok a :: post /\
    Forall (fun r => exists e, r = Err e /\ is_tink_error e = true) pre.
Proof.
  intros A l a H. remember (Ok a) as r eqn:Er. induction H; try discriminate.
  - inv Er. exists [], rest. auto.
  - destruct (IHfirst_ok Er) as (pre & post & -> & Hp).
    exists (Err e :: pre), post. split; auto. constructor; eauto.
Qed.

Lemma first_ok_intro : forall A (pre post : list (result A)) a,
  Forall (fun r => exists e, r = Err e /\ is_tink_error e = true) pre ->
  first_ok (pre ++ Ok a :: post) (Ok a).
Proof.
  induction 1 as [| r pre [e [-> He]] Hp IH]; simpl; constructor; auto.
Qed.

Lemma first_ok_err : forall A (l : list (result A)) e,
  first_ok l (Err e) ->
  (is_tink_error e = true /\ Forall (fun r => exists e, r = Err e /\ is_tink_error e = true) l) \/
  (is_tink_error e = false /\ In (Err e) l).
Proof.
  intros A l e H. remember (Err e) as r eqn:Er. induction H; try discriminate.
  - inv Er. left. auto.
  - destruct (IHfirst_ok Er) as [[H1 H2] | [H1 H2]].
    + left. split; auto. constructor; eauto.
    + right. simpl. auto.
  - inv Er. right. simpl. auto.
Qed.
