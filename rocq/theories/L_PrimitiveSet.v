(** Proofs about output prefixes and primitive sets. *)
From Coq Require Import Strings.Byte List NArith ZArith Bool Lia.
From Verif Require Import M_Base M_Proto M_Prims M_PrimitiveSet S_Keyset S_PrimitiveSet L_Base.
Import ListNotations.

Lemma pclass_eqb_spec : forall x y, pclass_eqb x y = true <-> x = y.
Proof.
  intros x y. split.
  - destruct x, y; simpl; intro H; try reflexivity; try discriminate.
    apply N.eqb_eq in H. congruence.
  - intros ->. destruct y; simpl; try reflexivity. apply N.eqb_refl.
Qed.

Lemma pack_be32_ok : forall n q, pack_be32 n = Ok q <->
  exists b3 b2 b1 b0, q = [b3; b2; b1; b0] /\
  (Byte.to_N b3 * 2 ^ 24 + Byte.to_N b2 * 2 ^ 16 + Byte.to_N b1 * 2 ^ 8 + Byte.to_N b0 = n)%N.
Proof.
  intros n q. unfold pack_be32.
  destruct (N.ltb_spec n 4294967296) as [Hlt | Hge].
  - destruct (be32_bytes n Hlt) as (b3 & b2 & b1 & b0 & Hb & Hn). rewrite Hb. split.
    + intro H. inv H. exists b3, b2, b1, b0. auto.
    + intros (c3 & c2 & c1 & c0 & -> & Hc). f_equal. apply be32_unique. lia.
  - split; [discriminate |]. intros (b3 & b2 & b1 & b0 & -> & H).
    change (2 ^ 24)%N with 16777216%N in H. change (2 ^ 16)%N with 65536%N in H.
    change (2 ^ 8)%N with 256%N in H.
    pose proof (to_N_lt b3). pose proof (to_N_lt b2). pose proof (to_N_lt b1).
    pose proof (to_N_lt b0). lia.
Qed.

Lemma output_prefix_spec : forall k p,
  output_prefix k = Ok p <-> has_prefix (k_output_prefix_type k) (k_key_id k) p.
Proof.
  intros k p. unfold output_prefix, has_prefix.
  destruct (Z.eqb_spec (k_output_prefix_type k) TINK) as [Ht | Ht];
  [| destruct (Z.eqb_spec (k_output_prefix_type k) CRUNCHY) as [Hc | Hc];
  [| destruct (Z.eqb_spec (k_output_prefix_type k) LEGACY) as [Hl | Hl];
  [| destruct (Z.eqb_spec (k_output_prefix_type k) RAW) as [Hr | Hr]]]]; simpl.
  1-3: split;
      [ intro H; apply bind_ok in H; destruct H as [q [Hq H]]; inv H;
        apply pack_be32_ok in Hq; destruct Hq as (b3 & b2 & b1 & b0 & -> & Hn);
        right; do 5 eexists; repeat split; eauto
      | intros [[H _] | (st & b3 & b2 & b1 & b0 & -> & Hn & Hs)];
        [ exfalso; match goal with H1 : ?x = _, H2 : ?x = _ |- _ => rewrite H1 in H2; discriminate end
        | replace (pack_be32 (k_key_id k)) with (Ok [b3; b2; b1; b0])
            by (symmetry; apply pack_be32_ok; do 4 eexists; eauto); simpl;
          destruct Hs as [[Hx ->] | [[Hx | Hx] ->]]; try reflexivity;
          exfalso; match goal with H1 : ?x = _, H2 : ?x = _ |- _ => rewrite H1 in H2; discriminate end ] ].
  - split.
    + intro H. inv H. left. auto.
    + intros [[_ ->] | (st & b3 & b2 & b1 & b0 & -> & Hn & Hs)]; [reflexivity |].
      exfalso. intuition congruence.
  - split; [discriminate |].
    intros [[H _] | (st & b3 & b2 & b1 & b0 & -> & Hn & Hs)]; [congruence |].
    exfalso. intuition congruence.
Qed.

(** Errors of [output_prefix]. *)
Lemma output_prefix_err : forall k e, output_prefix k = Err e ->
  (e = StructError /\ (2 ^ 32 <= k_key_id k)%N) \/ is_tink_error e = true.
Proof.
  intros k e. unfold output_prefix, pack_be32.
  destruct (N.ltb_spec (k_key_id k) 4294967296) as [Hlt | Hge]; simpl;
    repeat match goal with |- context [if ?c then _ else _] => destruct c end; simpl;
    intro H; inv H; auto.
Qed.

Lemma has_prefix_fun : forall t id p q, has_prefix t id p -> has_prefix t id q -> p = q.
Proof.
  intros t id p q Hp Hq.
  assert (H1 : output_prefix (mk_key None 0 id t) = Ok p) by (apply output_prefix_spec; auto).
  assert (H2 : output_prefix (mk_key None 0 id t) = Ok q) by (apply output_prefix_spec; auto).
  congruence.
Qed.

Lemma has_prefix_inj : forall t i j p,
  t <> RAW -> has_prefix t i p -> has_prefix t j p -> i = j.
Proof.
  intros t i j p Ht [[Hr _] | (st & b3 & b2 & b1 & b0 & -> & Hn & _)] Hj; [congruence |].
  destruct Hj as [[Hr _] | (st' & c3 & c2 & c1 & c0 & He & Hm & _)]; [congruence |].
  inv He. reflexivity.
Qed.

(** Prefixes exist for the four known types and 32-bit ids, and only for them. *)
Lemma has_prefix_exists : forall t id,
  (exists p, has_prefix t id p) <->
  t = RAW \/ ((t = TINK \/ t = LEGACY \/ t = CRUNCHY) /\ (id < 2 ^ 32)%N).
Proof.
  intros t id. split.
  - intros [p [[-> _] | (st & b3 & b2 & b1 & b0 & _ & Hn & Hs)]]; [auto |].
    right. split; [intuition |].
    change (2 ^ 32)%N with 4294967296%N.
    change (2 ^ 24)%N with 16777216%N in Hn. change (2 ^ 16)%N with 65536%N in Hn.
    change (2 ^ 8)%N with 256%N in Hn.
    pose proof (to_N_lt b3). pose proof (to_N_lt b2). pose proof (to_N_lt b1).
    pose proof (to_N_lt b0). lia.
  - intros [-> | [Ht Hid]].
    + exists []. left. auto.
    + destruct (be32_bytes id Hid) as (b3 & b2 & b1 & b0 & _ & Hn).
      destruct Ht as [-> | Ht].
      * exists [x01; b3; b2; b1; b0]. right. do 5 eexists. repeat split; eauto.
      * exists [x00; b3; b2; b1; b0]. right. do 5 eexists. repeat split; eauto.
Qed.

Lemma has_prefix_length : forall t id p, has_prefix t id p ->
  (t = RAW /\ p = []) \/ (t <> RAW /\ length p = 5%nat).
Proof.
  intros t id p [[H1 H2] | (st & b3 & b2 & b1 & b0 & -> & Hn & Hs)]; [auto |].
  right. split; [| reflexivity]. intro Ht. subst. intuition discriminate.
Qed.

(** ** carries_prefix *)

Lemma carries_prefix_spec : forall k x p,
  has_prefix (k_output_prefix_type k) (k_key_id k) p ->
  carries_prefix k x =
  negb (is_raw_key k) && (Nat.ltb 5 (length x)) && bytes_eqb (firstn 5 x) p.
Proof.
  intros k x p Hp.
  destruct x as [| c [| c3 [| c2 [| c1 [| c0 [| d x]]]]]];
    try (simpl; rewrite andb_false_r; reflexivity).
  replace (Nat.ltb 5 (length (c :: c3 :: c2 :: c1 :: c0 :: d :: x))) with true by reflexivity.
  rewrite andb_true_r. unfold carries_prefix, is_raw_key.
  change (firstn 5 (c :: c3 :: c2 :: c1 :: c0 :: d :: x)) with [c; c3; c2; c1; c0].
  destruct Hp as [[Hr ->] | (st & b3 & b2 & b1 & b0 & -> & Hn & Hs)].
  - rewrite Hr. cbn. rewrite ?andb_false_r. cbn. rewrite ?andb_false_r. reflexivity.
  - assert (Ht : (k_output_prefix_type k =? RAW)%Z = false).
    { apply Z.eqb_neq. intro H. rewrite H in Hs. intuition discriminate. }
    rewrite Ht. simpl negb. rewrite andb_true_l.
    apply eq_true_iff_eq. rewrite andb_true_iff, N.eqb_eq, bytes_eqb_spec.
    rewrite orb_true_iff, !andb_true_iff, orb_true_iff, !byte_eqb_spec, !Z.eqb_eq. split.
    + intros [Hid Hst]. rewrite <- Hn in Hid. apply be32_unique in Hid. inv Hid.
      f_equal.
      destruct Hs as [[Hx ->] | [Hx ->]]; rewrite ?Hx in Hst.
      * intuition (try congruence); rewrite Hx in *; discriminate.
      * destruct Hst as [[_ Hy] | [Hy _]]; [| congruence].
        rewrite Hy in Hx. intuition discriminate.
    + intro H. inv H. split; [assumption |]. intuition.
Qed.

(** ** Grouping *)

Definition ident_is (p : bytes) (e : entry) : bool := bytes_eqb p (e_identifier e).

Definition group (es : list entry) : list (bytes * list entry) :=
  map (fun p => (p, filter (ident_is p) es)) (distinct (map e_identifier es)).

Lemma distinct_snoc : forall l x,
  distinct (l ++ [x]) =
  if existsb (bytes_eqb x) (distinct l) then distinct l else distinct l ++ [x].
Proof. intros. unfold distinct. rewrite fold_left_app. reflexivity. Qed.

Lemma distinct_in : forall l x, In x (distinct l) <-> In x l.
Proof.
  induction l as [| y l IH] using rev_ind; intros x; [simpl; tauto |].
  rewrite distinct_snoc. rewrite in_app_iff. simpl.
  destruct (existsb (bytes_eqb y) (distinct l)) eqn:E.
  - rewrite IH. apply (existsb_eqb_in _ bytes_eqb_spec) in E. rewrite IH in E.
    split; [tauto | intros [H | [-> | []]]; auto].
  - rewrite in_app_iff, IH. simpl. tauto.
Qed.

Lemma distinct_nodup : forall l, NoDup (distinct l).
Proof.
  induction l as [| y l IH] using rev_ind; [constructor |].
  rewrite distinct_snoc. destruct (existsb (bytes_eqb y) (distinct l)) eqn:E; auto.
  rewrite <- (rev_involutive (distinct l ++ [y])). apply NoDup_rev.
  rewrite rev_app_distr. simpl. constructor; [| apply NoDup_rev; auto].
  rewrite <- in_rev. intro H. apply (existsb_eqb_in _ bytes_eqb_spec) in H. congruence.
Qed.

Lemma group_keys : forall es, map fst (group es) = distinct (map e_identifier es).
Proof. intros. unfold group. rewrite map_map. simpl. apply map_id. Qed.

Lemma filter_none : forall A (f : A -> bool) l,
  (forall x, In x l -> f x = false) -> filter f l = [].
Proof.
  induction l as [| x l IH]; intros H; [reflexivity |].
  simpl. rewrite H by (left; auto). apply IH. intros. apply H. right. auto.
Qed.

Lemma group_get : forall es p,
  (match dict_get bytes_eqb p (group es) with Some l => l | None => [] end)
  = filter (ident_is p) es.
Proof.
  intros es p. destruct (dict_get bytes_eqb p (group es)) as [l |] eqn:E.
  - apply (dict_get_in _ bytes_eqb_spec) in E. unfold group in E.
    apply in_map_iff in E. destruct E as [q [Hq _]]. inv Hq. reflexivity.
  - apply (dict_get_none _ bytes_eqb_spec) in E. rewrite group_keys, distinct_in in E.
    symmetry. apply filter_none. intros e He. unfold ident_is.
    apply (eqb_false_of _ _ bytes_eqb_spec). intros ->. apply E. apply in_map. assumption.
Qed.

Lemma dict_set_map : forall V (f : bytes -> V) ids p v,
  NoDup ids -> In p ids ->
  dict_set bytes_eqb p v (map (fun q => (q, f q)) ids) =
  map (fun q => (q, if bytes_eqb p q then v else f q)) ids.
Proof.
  induction ids as [| q ids IH]; intros p v Hn Hi; [destruct Hi |].
  inv Hn. simpl. destruct (bytes_eqb p q) eqn:E.
  - f_equal. apply bytes_eqb_spec in E. subst. apply map_ext_in. intros r Hr.
    destruct (bytes_eqb q r) eqn:E; auto. apply bytes_eqb_spec in E. congruence.
  - f_equal. apply IH; auto. destruct Hi as [-> | Hi]; auto.
    rewrite bytes_eqb_refl in E. discriminate.
Qed.

Lemma filter_snoc : forall A (f : A -> bool) l x,
  filter f (l ++ [x]) = filter f l ++ (if f x then [x] else []).
Proof. intros. rewrite filter_app. reflexivity. Qed.

Lemma ident_is_true : forall p e, p = e_identifier e -> ident_is p e = true.
Proof. intros p e ->. apply bytes_eqb_refl. Qed.
Lemma ident_is_false : forall p e, p <> e_identifier e -> ident_is p e = false.
Proof. intros p e H. apply (eqb_false_of _ _ bytes_eqb_spec). assumption. Qed.

Lemma group_add : forall es e,
  dict_set bytes_eqb (e_identifier e) (filter (ident_is (e_identifier e)) es ++ [e]) (group es)
  = group (es ++ [e]).
Proof.
  intros es e. unfold group at 2. rewrite map_app. simpl map. rewrite distinct_snoc.
  destruct (existsb (bytes_eqb (e_identifier e)) (distinct (map e_identifier es))) eqn:E.
  - unfold group. rewrite dict_set_map.
    + apply map_ext. intros p. rewrite filter_snoc.
      destruct (bytes_eqb (e_identifier e) p) eqn:E2.
      * apply bytes_eqb_spec in E2. rewrite ident_is_true by congruence. subst. reflexivity.
      * apply (eqb_false_of _ _ bytes_eqb_spec) in E2.
        rewrite ident_is_false by congruence. rewrite app_nil_r. reflexivity.
    + apply distinct_nodup.
    + apply (existsb_eqb_in _ bytes_eqb_spec). assumption.
  - assert (Hn : ~ In (e_identifier e) (distinct (map e_identifier es))).
    { intro H. apply (existsb_eqb_in _ bytes_eqb_spec) in H. congruence. }
    rewrite dict_set_new.
    + rewrite map_app. simpl. f_equal.
      * unfold group. apply map_ext_in. intros p Hp. f_equal.
        rewrite filter_snoc, ident_is_false by congruence. rewrite app_nil_r. reflexivity.
      * rewrite filter_snoc, ident_is_true by reflexivity. reflexivity.
    + apply (dict_get_none _ bytes_eqb_spec). rewrite group_keys. assumption.
Qed.

(** The state after a history. *)
Definition pset_is (ps : pset) (c : pclass) (es : list entry) (pr : option entry) : Prop :=
  ps = mk_pset (group es) pr c.

Lemma pset_is_get : forall ps c es pr p,
  pset_is ps c es pr -> primitive_from_identifier ps p = filter (ident_is p) es.
Proof. intros ps c es pr p ->. apply group_get. Qed.

Lemma add_primitive_ok : forall ps c es pr p k,
  pset_is ps c es pr ->
  match add_primitive ps p k with
  | Ok (ps', e) => accepted_entry c p k e /\ pset_is ps' c (es ++ [e]) pr
  | Err x => (forall e, ~ accepted_entry c p k e)
  end.
Proof.
  intros ps c es pr p k Hps. unfold add_primitive, isinstance.
  pose proof (pset_is_get _ _ _ _ (match output_prefix k with Ok q => q | Err _ => [] end) Hps) as Hget.
  destruct (pclass_eqb (class_of p) (ps_primitive_class ps)) eqn:Ec; simpl.
  - apply pclass_eqb_spec in Ec. destruct (output_prefix k) as [q | x] eqn:Eo; simpl.
    + split.
      * unfold accepted_entry. simpl. repeat split; auto.
        -- rewrite Ec, Hps. reflexivity.
        -- apply output_prefix_spec. assumption.
      * unfold pset_is. rewrite Hget. rewrite Hps. simpl. f_equal.
        apply (group_add es (mk_entry p q (k_status k) (k_output_prefix_type k) (k_key_id k))).
    + intros e (_ & _ & _ & _ & _ & Hpx). apply output_prefix_spec in Hpx. congruence.
  - intros e (Hc & _). apply (eqb_false_of _ _ pclass_eqb_spec) in Ec.
    apply Ec. rewrite Hps. simpl. assumption.
Qed.

Lemma pset_run_snoc : forall c ops op,
  pset_run c (ops ++ [op]) = pset_step (pset_run c ops) op.
Proof. intros. unfold pset_run. rewrite fold_left_app. reflexivity. Qed.

Lemma accepted_entry_fun : forall c p k e e',
  accepted_entry c p k e -> accepted_entry c p k e' -> e = e'.
Proof.
  intros c p k [] [] (H1 & H2 & H3 & H4 & H5 & H6) (G1 & G2 & G3 & G4 & G5 & G6).
  simpl in *. subst. f_equal. eapply has_prefix_fun; eauto.
Qed.

Lemma pset_run_history : forall c ops es pr,
  history c ops es pr -> pset_is (pset_run c ops) c es pr.
Proof.
  induction 1.
  - reflexivity.
  - rewrite pset_run_snoc. simpl.
    pose proof (add_primitive_ok _ _ _ _ p k IHhistory) as Ha.
    destruct (add_primitive (pset_run c ops) p k) as [[ps' e'] | x].
    + destruct Ha as [Ha Hp]. replace e with e' by (eapply accepted_entry_fun; eauto).
      assumption.
    + exfalso. eapply Ha; eauto.
  - rewrite pset_run_snoc. simpl.
    pose proof (add_primitive_ok _ _ _ _ p k IHhistory) as Ha.
    destruct (add_primitive (pset_run c ops) p k) as [[ps' e'] | x]; auto.
    exfalso. destruct Ha as [Ha _]. eapply H0; eauto.
  - rewrite pset_run_snoc. simpl. unfold pset_is, set_primary. rewrite IHhistory. reflexivity.
Qed.

Lemma history_total : forall c ops, exists es pr, history c ops es pr.
Proof.
  intros c ops. induction ops as [| op ops IH] using rev_ind.
  - exists [], None. constructor.
  - destruct IH as (es & pr & Hh). destruct op as [p k | e].
    + pose proof (add_primitive_ok _ _ _ _ p k (pset_run_history _ _ _ _ Hh)) as Ha.
      destruct (add_primitive (pset_run c ops) p k) as [[ps' e'] | x].
      * exists (es ++ [e']), pr. constructor; tauto.
      * exists es, pr. constructor; auto.
    + exists es, (Some e). econstructor; eauto.
Qed.

Theorem pset_lookup_correct : forall c ops es pr,
  history c ops es pr ->
  let ps := pset_run c ops in
  (forall p, primitive_from_identifier ps p =
             filter (fun e => bytes_eqb p (e_identifier e)) es) /\
  raw_primitives ps = filter (fun e => bytes_eqb [] (e_identifier e)) es /\
  ps_all ps = map (fun p => filter (fun e => bytes_eqb p (e_identifier e)) es)
                (distinct (map e_identifier es)) /\
  (forall k q, has_prefix (k_output_prefix_type k) (k_key_id k) q ->
     ps_primitive ps k = Ok (filter (fun e => bytes_eqb q (e_identifier e)) es)) /\
  match pr with
  | Some e => primary ps = Ok e
  | None => exists x, primary ps = Err x /\ is_tink_error x = true
  end.
Proof.
  intros c ops es pr Hh ps. pose proof (pset_run_history _ _ _ _ Hh) as Hps. fold ps in Hps.
  split; [| split; [| split; [| split]]].
  - intro p. eapply pset_is_get; eauto.
  - unfold raw_primitives. eapply pset_is_get; eauto.
  - rewrite Hps. unfold ps_all, group. simpl. rewrite map_map. reflexivity.
  - intros k q Hq. unfold ps_primitive. apply output_prefix_spec in Hq. rewrite Hq. simpl.
    f_equal. eapply pset_is_get; eauto.
  - rewrite Hps. unfold primary. simpl. destruct pr; eauto.
Qed.

(** add_primitive returns the stored entry or raises TinkError (for 32-bit ids). *)
Theorem add_primitive_result : forall c ops es pr p k,
  history c ops es pr -> (k_key_id k < 2 ^ 32)%N ->
  (exists ps' e, add_primitive (pset_run c ops) p k = Ok (ps', e) /\ accepted_entry c p k e) \/
  (exists x, add_primitive (pset_run c ops) p k = Err x /\ is_tink_error x = true /\
             forall e, ~ accepted_entry c p k e).
Proof.
  intros c ops es pr p k Hh Hid. pose proof (pset_run_history _ _ _ _ Hh) as Hps.
  pose proof (add_primitive_ok _ _ _ _ p k Hps) as Ha.
  destruct (add_primitive (pset_run c ops) p k) as [[ps' e] | x] eqn:E.
  - left. exists ps', e. tauto.
  - right. exists x. repeat split; auto.
    unfold add_primitive in E.
    destruct (isinstance p (ps_primitive_class (pset_run c ops))); simpl in E; [| inv E; auto].
    apply bind_err in E. destruct E as [E | [q [_ E]]]; [| discriminate].
    apply output_prefix_err in E. destruct E as [[_ E] | E]; auto. lia.
Qed.

(** ** The property statements of C01 *)

Theorem output_prefix_rejects : forall k,
  k_output_prefix_type k <> TINK -> k_output_prefix_type k <> LEGACY ->
  k_output_prefix_type k <> CRUNCHY -> k_output_prefix_type k <> RAW ->
  raises_tink (output_prefix k).
Proof.
  intros k H1 H2 H3 H4. unfold output_prefix.
  rewrite <- Z.eqb_neq in H1, H2, H3, H4. rewrite H1, H2, H3, H4.
  eexists. split; reflexivity.
Qed.

Theorem output_prefix_same_iff : forall k1 k2 p1 p2,
  k_output_prefix_type k1 = k_output_prefix_type k2 -> k_output_prefix_type k1 <> RAW ->
  output_prefix k1 = Ok p1 -> output_prefix k2 = Ok p2 ->
  (p1 = p2 <-> k_key_id k1 = k_key_id k2).
Proof.
  intros k1 k2 p1 p2 Ht Hr H1 H2. apply output_prefix_spec in H1, H2.
  rewrite Ht in H1. split.
  - intros ->. rewrite Ht in Hr. exact (has_prefix_inj _ _ _ _ Hr H1 H2).
  - intros E. rewrite E in H1. exact (has_prefix_fun _ _ _ _ H1 H2).
Qed.

Theorem output_prefix_defined : forall k,
  (k_output_prefix_type k = RAW \/
   ((k_output_prefix_type k = TINK \/ k_output_prefix_type k = LEGACY \/
     k_output_prefix_type k = CRUNCHY) /\ (k_key_id k < 2 ^ 32)%N)) ->
  exists p, output_prefix k = Ok p.
Proof.
  intros k H. apply has_prefix_exists in H. destruct H as [p H]. exists p.
  apply output_prefix_spec. assumption.
Qed.
