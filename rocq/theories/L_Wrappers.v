(** Proofs about the primitive wrappers. *)
From Coq Require Import Strings.Byte Strings.String List NArith ZArith Bool Lia.
From Verif Require Import M_Base M_Proto M_Prims M_PrimitiveSet M_Registry M_KeysetHandle
  M_Wrappers S_Keyset S_Wrappers S_PrimitiveSet L_Base L_PrimitiveSet L_Keyset.
Import ListNotations.
Open Scope list_scope.

Lemma try_each_first_ok : forall X A (f : X -> result A) l rest r,
  first_ok rest r -> first_ok (map f l ++ rest) (try_each f l r).
Proof.
  induction l as [| x l IH]; intros rest r H; [assumption |].
  simpl. destruct (f x) as [a | e]; [constructor |].
  destruct (is_tink_error e) eqn:E; [apply FO_next | apply FO_raise]; auto.
Qed.

Definition lift {P} (inj : P -> prim) (kp : key * P) : key * prim := (fst kp, inj (snd kp)).

Lemma filter_lift : forall P (inj : P -> prim) (f : key -> bool) l,
  filter (fun kp => f (fst kp)) (map (lift inj) l) =
  map (lift inj) (filter (fun kp => f (fst kp)) l).
Proof.
  induction l as [| kp l IH]; [reflexivity |]. simpl.
  destruct (f (fst kp)); simpl; rewrite IH; reflexivity.
Qed.

Lemma map_fst_lift : forall P (inj : P -> prim) l, map fst (map (lift inj) l) = map fst l.
Proof. intros. rewrite map_map. reflexivity. Qed.

Lemma typed_list : forall P (inj : P -> prim) reg c,
  (forall p, class_of p = c -> exists a, p = inj a) ->
  forall l, Forall (good reg c) l ->
  exists l', l = map (lift inj) l' /\
    Forall (fun kp => key_provides reg c (fst kp) (inj (snd kp))) l'.
Proof.
  intros P inj reg c Hinj. induction 1 as [| [k p] l Hg Hl IH].
  - exists []. auto.
  - destruct IH as (l' & -> & Hf). destruct Hg as (Hp & Hc & Hq). simpl in *.
    destruct (Hinj p Hc) as [a ->]. exists ((k, a) :: l'). simpl. split; auto.
Qed.

(** Inversion of handle_primitive in terms of typed lists. *)
Lemma handle_primitive_typed : forall P (inj : P -> prim) reg h c w Q,
  (forall p, class_of p = w_input_primitive_class w -> exists a, p = inj a) ->
  dict_get pclass_eqb c (r_wrappers reg) = Some w ->
  handle_primitive reg h c = Ok Q ->
  valid_keyset (kh_keyset h) /\
  exists l, keys_with inj reg (w_input_primitive_class w) (kh_keyset h) l /\
    Forall (good reg (w_input_primitive_class w)) (map (lift inj) l) /\
    w_wrap w (pset_for (w_input_primitive_class w) (ks_primary_key_id (kh_keyset h))
                (map (lift inj) l)) = Ok Q.
Proof.
  intros P inj reg h c w Q Hinj Hw H.
  apply (handle_primitive_ok _ _ _ _ _ Hw) in H. destruct H as (Hv & l & Hl & Hg & HQ).
  split; auto. destruct (typed_list _ _ _ _ Hinj _ Hg) as (l' & -> & Hf).
  rewrite map_fst_lift in Hl. exists l'. repeat split; auto.
Qed.

Lemma find_primary : forall P (inj : P -> prim) ks (l : list (key * P)) k p,
  valid_keyset ks -> map fst l = enabled_keys ks -> is_primary ks l k p ->
  find (fun kp => N.eqb (k_key_id (fst kp)) (ks_primary_key_id ks)) (map (lift inj) l)
  = Some (k, inj p).
Proof.
  intros P inj ks l k p Hv Hl [Hi Hid].
  destruct (find (fun kp => N.eqb (k_key_id (fst kp)) (ks_primary_key_id ks)) l)
    as [[k' p'] |] eqn:E.
  - assert (Heq : (k', p') = (k, p)).
    { pose proof E as E2. apply find_some in E2. destruct E2 as [Hi' Hid']. simpl in Hid'.
      apply N.eqb_eq in Hid'.
      apply In_nth_error in Hi, Hi'. destruct Hi as [i Hi], Hi' as [j Hj].
      assert (i = j) by (eapply (enabled_unique_list P ks l); eauto). congruence. }
    inv Heq. clear Hl Hi. revert E. induction l as [| [k2 p2] l IH]; simpl; [discriminate |].
    destruct (k_key_id k2 =? ks_primary_key_id ks)%N; [intro H; inv H; reflexivity | apply IH].
  - exfalso. apply (find_none _ _ E) in Hi. simpl in Hi. apply N.eqb_neq in Hi. congruence.
Qed.

Lemma find_no_primary : forall P (inj : P -> prim) ks (l : list (key * P)),
  (forall k p, ~ is_primary ks l k p) ->
  find (fun kp => N.eqb (k_key_id (fst kp)) (ks_primary_key_id ks)) (map (lift inj) l) = None.
Proof.
  intros P inj ks l H. destruct (find _ _) as [[k p] |] eqn:E; auto. exfalso.
  apply find_some in E. destruct E as [Hi Hid]. apply in_map_iff in Hi.
  destruct Hi as [[k' p'] [He Hi]]. unfold lift in He. simpl in *. inv He.
  apply N.eqb_eq in Hid. apply (H k p'). split; auto.
Qed.

(** Trying the prefix group and then the RAW group. *)
Lemma wrapped_try_spec : forall P A (inj : P -> prim) reg c pid (l : list (key * P)) x
    (f : key -> P -> bytes -> result A) call1 call2 fail,
  Forall (good reg c) (map (lift inj) l) ->
  (forall kp, call1 (entry_of (lift inj kp)) = f (fst kp) (snd kp) (skipn 5 x)) ->
  (forall kp, is_raw_key (fst kp) = true ->
     call2 (entry_of (lift inj kp)) = f (fst kp) (snd kp) x) ->
  is_tink_error fail = true ->
  first_ok (attempts l x f)
    (let raw := try_each call2 (raw_primitives (pset_for c pid (map (lift inj) l))) (Err fail) in
     if Nat.ltb 5 (length x) then
       try_each call1 (primitive_from_identifier (pset_for c pid (map (lift inj) l)) (firstn 5 x)) raw
     else raw).
Proof.
  intros P A inj reg c pid l x f call1 call2 fail Hg H1 H2 Hf. cbv zeta.
  rewrite (lookup_raw _ _ _ _ Hg), (filter_lift P inj is_raw_key).
  set (raws := filter (fun kp => is_raw_key (fst kp)) l).
  assert (Hraw : first_ok (map (fun kp => f (fst kp) (snd kp) x) raws)
     (try_each call2 (map entry_of (map (lift inj) raws)) (Err fail))).
  { replace (map (fun kp => f (fst kp) (snd kp) x) raws)
      with (map call2 (map entry_of (map (lift inj) raws)) ++ []).
    - apply try_each_first_ok. constructor. assumption.
    - rewrite app_nil_r, !map_map. apply map_ext_in. intros kp Hi. apply H2.
      apply filter_In in Hi. tauto. }
  unfold attempts. fold raws. destruct (Nat.ltb_spec 5 (length x)) as [Hx | Hx].
  - rewrite (lookup_prefix _ _ _ _ _ Hg Hx), (filter_lift P inj (fun k => carries_prefix k x)).
    replace (map (fun kp => f (fst kp) (snd kp) (skipn 5 x))
               (filter (fun kp => carries_prefix (fst kp) x) l))
      with (map call1 (map entry_of (map (lift inj) (filter (fun kp => carries_prefix (fst kp) x) l)))).
    + apply try_each_first_ok. assumption.
    + rewrite !map_map. apply map_ext. intros kp. apply H1.
  - rewrite filter_none; [exact Hraw |].
    intros kp _. apply carries_short. assumption.
Qed.

Lemma pfx_ok : forall reg c k p, good reg c (k, p) ->
  has_prefix (k_output_prefix_type k) (k_key_id k) (pfx k).
Proof. intros. apply (good_pfx _ _ _ H). Qed.

Lemma good_in : forall P (inj : P -> prim) reg c (l : list (key * P)) k p,
  Forall (good reg c) (map (lift inj) l) -> In (k, p) l -> good reg c (k, inj p).
Proof.
  intros P inj reg c l k p Hg Hi. rewrite Forall_forall in Hg. apply Hg.
  change (k, inj p) with (lift inj (k, p)). apply in_map. assumption.
Qed.

Lemma primary_pset_for : forall P (inj : P -> prim) reg c ks (l : list (key * P)) k p,
  valid_keyset ks -> map fst l = enabled_keys ks ->
  Forall (good reg c) (map (lift inj) l) -> is_primary ks l k p ->
  primary (pset_for c (ks_primary_key_id ks) (map (lift inj) l)) = Ok (entry_of (k, inj p)).
Proof.
  intros. unfold primary, pset_for. simpl.
  rewrite (find_primary _ _ _ _ _ _ H H0 H2). reflexivity.
Qed.

Lemma no_primary_pset_for : forall P (inj : P -> prim) c ks (l : list (key * P)),
  (forall k p, ~ is_primary ks l k p) ->
  primary (pset_for c (ks_primary_key_id ks) (map (lift inj) l)) =
  Err (TinkError "The primary entry is not set.").
Proof.
  intros. unfold primary, pset_for. simpl. rewrite (find_no_primary _ _ _ _ H). reflexivity.
Qed.

(** ** AEAD *)

Lemma aead_inj : forall p, class_of p = ClsAead -> exists a, p = PrimAead a.
Proof. intros []; simpl; intro H; try discriminate. eauto. Qed.

Lemma aead_handle_spec : forall reg h a,
  dict_get pclass_eqb ClsAead (r_wrappers reg) = Some aead_wrapper ->
  handle_primitive reg h ClsAead = Ok (PrimAead a) ->
  valid_keyset (kh_keyset h) /\ exists l, aead_spec reg (kh_keyset h) a l.
Proof.
  intros reg h a Hw Hh.
  destruct (handle_primitive_typed _ PrimAead _ _ _ aead_wrapper _ aead_inj Hw Hh) as (Hv & l & Hk & Hg & HQ).
  cbn [w_input_primitive_class aead_wrapper] in *.
  split; auto. exists l. simpl in HQ. inv HQ. unfold aead_spec; simpl.
  pose proof Hk as [Hl _]. split; [assumption |]. split; [| split].
  - intros ct ad. unfold wrapped_aead_decrypt, NON_RAW_PREFIX_SIZE, body_part, prefix_part.
    eapply (wrapped_try_spec _ _ PrimAead); eauto.
  - intros k p Hp r pt ad. exists (pfx k).
    pose proof (good_in _ _ _ _ _ _ _ Hg (proj1 Hp)) as Hgk.
    split; [eapply pfx_ok; eauto |].
    unfold wrapped_aead_encrypt.
    rewrite (primary_pset_for _ _ _ _ _ _ _ _ Hv Hl Hg Hp). simpl.
    destruct (aead_encrypt p r pt ad); reflexivity.
  - intros Hn r pt ad. unfold wrapped_aead_encrypt.
    rewrite (no_primary_pset_for _ _ _ _ _ Hn). simpl. eexists. split; reflexivity.
Qed.

(** The wrapped primitive exists exactly when every enabled key has one. *)
Lemma handle_primitive_iff_gen : forall P (inj : P -> prim) reg h c w mk,
  (forall p, class_of p = w_input_primitive_class w -> exists a, p = inj a) ->
  (forall a, class_of (inj a) = w_input_primitive_class w) ->
  (forall ps, w_wrap w ps = Ok (mk ps)) ->
  dict_get pclass_eqb c (r_wrappers reg) = Some w ->
  ((exists Q, handle_primitive reg h c = Ok Q) <->
   valid_keyset (kh_keyset h) /\
   (exists l, keys_with inj reg (w_input_primitive_class w) (kh_keyset h) l) /\
   Forall (fun k => exists q, has_prefix (k_output_prefix_type k) (k_key_id k) q)
     (enabled_keys (kh_keyset h))).
Proof.
  intros P inj reg h c w mk Hinj Hcls Hmk Hw. split.
  - intros [Q HQ].
    destruct (handle_primitive_typed _ inj _ _ _ _ _ Hinj Hw HQ) as (Hv & l & Hk & Hg & _).
    split; auto. split; [eauto |]. destruct Hk as [Hl _]. rewrite <- Hl.
    rewrite Forall_forall in Hg |- *. intros k Hk.
    apply in_map_iff in Hk. destruct Hk as [kp [<- Hi]].
    destruct (Hg (lift inj kp) (in_map _ _ _ Hi)) as (_ & _ & Hq). exact Hq.
  - intros (Hv & (l & Hl & Hf) & Hq).
    exists (mk (pset_for (w_input_primitive_class w) (ks_primary_key_id (kh_keyset h))
                 (map (lift inj) l))).
    apply (handle_primitive_ok _ _ _ _ _ Hw). split; auto.
    exists (map (lift inj) l). rewrite map_fst_lift. repeat split; auto.
    rewrite <- Hl in Hq. rewrite Forall_forall in *. intros kp Hi.
    apply in_map_iff in Hi. destruct Hi as [kp' [<- Hi]]. split; [| split].
    + apply Hf. assumption.
    + apply Hcls.
    + apply (Hq (fst kp')). apply in_map. assumption.
Qed.

Lemma skipn_pre : forall X n (p b : list X), length p = n -> skipn n (p ++ b) = b.
Proof. intros X n p b <-. rewrite skipn_app, skipn_all, Nat.sub_diag. reflexivity. Qed.
Lemma firstn_pre : forall X n (p b : list X), length p = n -> firstn n (p ++ b) = p.
Proof.
  intros X n p b <-. rewrite firstn_app, Nat.sub_diag, firstn_all. simpl. apply app_nil_r.
Qed.

(** ** Generic consequences of the attempt law *)

Section Attempts.
  Context {P A : Type}.
  Variable f : key -> P -> bytes -> result A.

  Lemma attempts_in : forall (l : list (key * P)) x r,
    Forall (fun kp => exists q, has_prefix (k_output_prefix_type (fst kp)) (k_key_id (fst kp)) q) l ->
    (In r (attempts l x f) <->
     exists k p body, In (k, p) l /\ reaches k x body /\ r = f k p body).
  Proof.
    intros l x r Hq. unfold attempts. rewrite in_app_iff, !in_map_iff. split.
    - intros [[[k p] [<- Hi]] | [[k p] [<- Hi]]]; apply filter_In in Hi; simpl in *;
        destruct Hi as [Hi Hc]; exists k, p.
      + exists (skipn 5 x). repeat split; auto. right.
        rewrite Forall_forall in Hq. destruct (Hq _ Hi) as [q Hqq]. simpl in Hqq.
        rewrite (carries_prefix_spec _ _ _ Hqq) in Hc.
        apply andb_true_iff in Hc. destruct Hc as [Hc Hp].
        apply andb_true_iff in Hc. destruct Hc as [Hr Hlen].
        apply Nat.ltb_lt in Hlen. apply bytes_eqb_spec in Hp. subst q.
        exists (firstn 5 x). split; [assumption |].
        split; [apply firstn_length_le; lia |].
        split; [symmetry; apply firstn_skipn |].
        intro He. assert (length (skipn 5 x) = 0%nat) by (rewrite He; reflexivity).
        rewrite skipn_length in H. lia.
      + exists x. repeat split; auto. left. split; auto.
        unfold is_raw_key in Hc. apply Z.eqb_eq in Hc. assumption.
    - intros (k & p & body & Hi & Hr & ->). destruct Hr as [[Hr ->] | (q & Hqq & Hlen & -> & Hne)].
      + right. exists (k, p). split; auto. apply filter_In. split; auto.
        unfold is_raw_key. simpl. rewrite Hr. reflexivity.
      + left. exists (k, p). cbn [fst snd]. split.
        * rewrite skipn_pre by assumption. reflexivity.
        * apply filter_In. split; auto. cbn [fst snd]. rewrite (carries_prefix_spec _ _ _ Hqq).
          destruct (has_prefix_length _ _ _ Hqq) as [[_ ->] | [Hr _]]; [discriminate |].
          unfold is_raw_key. apply Z.eqb_neq in Hr. rewrite Hr. simpl negb.
          rewrite app_length, Hlen.
          assert (Nat.ltb 5 (5 + length body) = true) as ->.
          { apply Nat.ltb_lt. destruct body; [congruence | simpl; lia]. }
          rewrite firstn_pre by assumption. apply bytes_eqb_refl.
  Qed.
End Attempts.

Lemma keys_with_prefix : forall P (inj : P -> prim) reg c (l : list (key * P)),
  Forall (good reg c) (map (lift inj) l) ->
  Forall (fun kp => exists q, has_prefix (k_output_prefix_type (fst kp)) (k_key_id (fst kp)) q) l.
Proof.
  intros P inj reg c l Hg. rewrite Forall_forall in *. intros kp Hi.
  destruct (Hg (lift inj kp) (in_map _ _ _ Hi)) as (_ & _ & Hq). exact Hq.
Qed.

(** Succeeding keyset primitives have prefixes for all enabled keys. *)
Lemma handle_primitive_prefixes : forall reg h c w Q,
  dict_get pclass_eqb c (r_wrappers reg) = Some w ->
  handle_primitive reg h c = Ok Q ->
  Forall (fun k => exists q, has_prefix (k_output_prefix_type k) (k_key_id k) q)
    (enabled_keys (kh_keyset h)).
Proof.
  intros reg h c w Q Hw H. apply (handle_primitive_ok _ _ _ _ _ Hw) in H.
  destruct H as (_ & l & Hl & Hg & _). rewrite <- Hl. rewrite Forall_forall in *.
  intros k Hk. apply in_map_iff in Hk. destruct Hk as [kp [<- Hi]].
  destruct (Hg kp Hi) as (_ & _ & Hq). exact Hq.
Qed.

Lemma Forall_map_fst : forall P (Q : key -> Prop) (l : list (key * P)),
  Forall Q (map fst l) -> Forall (fun kp => Q (fst kp)) l.
Proof.
  intros. rewrite Forall_forall in *. intros kp Hi. apply H. apply in_map. assumption.
Qed.

Theorem aead_decrypt_sound : forall reg h a,
  dict_get pclass_eqb ClsAead (r_wrappers reg) = Some aead_wrapper ->
  handle_primitive reg h ClsAead = Ok (PrimAead a) ->
  forall ct ad pt, aead_decrypt a ct ad = Ok pt ->
  exists k p body,
    In k (ks_key (kh_keyset h)) /\ k_status k = ENABLED /\
    key_provides reg ClsAead k (PrimAead p) /\
    reaches k ct body /\ aead_decrypt p body ad = Ok pt.
Proof.
  intros reg h a Hw Hh ct ad pt Hd.
  destruct (aead_handle_spec _ _ _ Hw Hh) as (_ & l & (Hl & Hf) & Hdec & _).
  specialize (Hdec ct ad). rewrite Hd in Hdec.
  apply first_ok_ok in Hdec. destruct Hdec as (pre & post & He & _).
  assert (Hi : In (Ok pt) (attempts l ct (fun _ p body => aead_decrypt p body ad))).
  { rewrite He. apply in_or_app. right. left. reflexivity. }
  apply attempts_in in Hi.
  2: { pose proof (handle_primitive_prefixes _ _ _ _ _ Hw Hh) as Hq. rewrite <- Hl in Hq.
       exact (Forall_map_fst _ _ _ Hq). }
  destruct Hi as (k & p & body & Hi & Hr & Hx). exists k, p, body.
  assert (Hin : In k (enabled_keys (kh_keyset h))).
  { rewrite <- Hl. change k with (fst (k, p)). apply in_map. assumption. }
  apply filter_In in Hin. destruct Hin as [Hin Hen]. unfold is_enabled in Hen.
  apply Z.eqb_eq in Hen. rewrite Forall_forall in Hf. repeat split; auto.
  apply (Hf (k, p)). assumption.
Qed.


(** ** Agreement: when every key that accepts gives the same answer *)

Lemma first_ok_agree : forall A (l : list (result A)) v r,
  first_ok l r -> Forall (fun x => raises_tink x \/ x = Ok v) l -> In (Ok v) l -> r = Ok v.
Proof.
  induction 1; intros Hall Hin.
  - destruct Hin.
  - inv Hall. destruct H1 as [(e & He & _) | H1]; [discriminate | assumption].
  - inv Hall. apply IHfirst_ok; auto. destruct Hin as [Hx | Hx]; [discriminate | assumption].
  - inv Hall. destruct H2 as [(e' & He & Ht) | H2]; [| discriminate]. inv He. congruence.
Qed.

Lemma first_ok_total : forall A (l : list (result A)) r,
  first_ok l r -> Forall tink_total l -> tink_total r.
Proof.
  induction 1; intros Hall; simpl; auto.
  - inv Hall. auto.
  - inv Hall. simpl in H2. congruence.
Qed.

(** If all attempts return or raise TinkError and one returns, the result is a
    success. *)
Lemma first_ok_some : forall A (l : list (result A)) r v,
  first_ok l r -> Forall tink_total l -> In (Ok v) l -> exists v', r = Ok v' /\ In (Ok v') l.
Proof.
  induction 1; intros Hall Hin.
  - destruct Hin.
  - exists a. simpl. auto.
  - inv Hall. destruct Hin as [Hx | Hx]; [discriminate |].
    destruct (IHfirst_ok H4 Hx) as (v' & -> & Hi). exists v'. simpl. auto.
  - inv Hall. simpl in H2. congruence.
Qed.

Lemma first_ok_none : forall A (l : list (result A)) r,
  first_ok l r -> Forall raises_tink l -> raises_tink r.
Proof.
  induction 1; intros Hall.
  - exists e. auto.
  - inv Hall. destruct H1 as (e & He & _). discriminate.
  - inv Hall. auto.
  - inv Hall. destruct H2 as (e' & He & Ht). inv He. congruence.
Qed.

Lemma key_data_eqb_spec : forall x y, key_data_eqb x y = true <-> x = y.
Proof.
  intros [u v m] [u' v' m']. unfold key_data_eqb. simpl.
  rewrite !andb_true_iff, str_eqb_spec, bytes_eqb_spec, Z.eqb_eq.
  split; [intros [[-> ->] ->]; reflexivity | intro H; inv H; auto].
Qed.

Lemma key_eqb_spec : forall x y, key_eqb x y = true <-> x = y.
Proof.
  intros [d s i o] [d' s' i' o']. unfold key_eqb. simpl.
  rewrite !andb_true_iff, (option_eqb_spec _ _ key_data_eqb_spec), !Z.eqb_eq, N.eqb_eq.
  split; [intros [[[-> ->] ->] ->]; reflexivity | intro H; inv H; auto].
Qed.

Lemma keyset_eqb_spec : forall x y, keyset_eqb x y = true <-> x = y.
Proof.
  intros [i l] [i' l']. unfold keyset_eqb. simpl.
  rewrite andb_true_iff, N.eqb_eq, (list_eqb_spec _ _ key_eqb_spec).
  split; [intros [-> ->]; reflexivity | intro H; inv H; auto].
Qed.

Lemma key_eq_dec : forall x y : key, x = y \/ x <> y.
Proof.
  intros x y. pose proof (key_eqb_spec x y). destruct (key_eqb x y).
  - left. apply H. reflexivity.
  - right. intro He. apply H in He. discriminate.
Qed.

Lemma reaches_fun : forall k x b1 b2, reaches k x b1 -> reaches k x b2 -> b1 = b2.
Proof.
  intros k x b1 b2 [[Hr ->] | (q & Hq & Hl & -> & Hn)] [[Hr' ->] | (q' & Hq' & Hl' & He & Hn')];
    auto.
  - exfalso. destruct (has_prefix_length _ _ _ Hq') as [[_ ->] | [H _]]; [discriminate | congruence].
  - exfalso. destruct (has_prefix_length _ _ _ Hq) as [[_ ->] | [H _]]; [discriminate | congruence].
  - assert (q = q') by (eapply has_prefix_fun; eauto). subst.
    apply app_inv_head in He. auto.
Qed.

(** The attempts agree when the key [k] accepts and no other key does. *)
Lemma attempts_single : forall P A (inj : P -> prim) reg c ks (l : list (key * P))
    (f : key -> P -> bytes -> result A) x k p body v r,
  (forall a b, inj a = inj b -> a = b) ->
  keys_with inj reg c ks l ->
  Forall (fun k => exists q, has_prefix (k_output_prefix_type k) (k_key_id k) q) (enabled_keys ks) ->
  In (k, p) l -> reaches k x body -> f k p body = Ok v ->
  (forall k' p' body', In (k', p') l -> k' <> k -> reaches k' x body' ->
     raises_tink (f k' p' body')) ->
  first_ok (attempts l x f) r -> r = Ok v.
Proof.
  intros P A inj reg c ks l f x k p body v r Hinj [Hl Hf] Hq Hi Hr Hv Ho Hfo.
  rewrite <- Hl in Hq. apply Forall_map_fst in Hq.
  eapply first_ok_agree; [exact Hfo | |].
  - rewrite Forall_forall. intros r' Hr'. apply attempts_in in Hr'; auto.
    destruct Hr' as (k' & p' & body' & Hi' & Hre' & ->).
    destruct (key_eq_dec k' k) as [-> | Hne]; [| left; eauto].
    right. rewrite Forall_forall in Hf. pose proof (Hf _ Hi) as H1. pose proof (Hf _ Hi') as H2.
    simpl in *. pose proof (key_provides_fun _ _ _ _ _ H1 H2) as He. apply Hinj in He.
    rewrite (reaches_fun _ _ _ _ Hre' Hr), <- He. assumption.
  - apply attempts_in; auto. exists k, p, body. auto.
Qed.

(** What a key produces with its prefix reaches that key. *)
Lemma produced_reaches : forall k q c,
  has_prefix (k_output_prefix_type k) (k_key_id k) q -> c <> [] -> reaches k (q ++ c) c.
Proof.
  intros k q c Hq Hc. destruct (has_prefix_length _ _ _ Hq) as [[Hr ->] | [Hr Hl]].
  - left. auto.
  - right. exists q. auto.
Qed.

Lemma PrimAead_inj : forall a b, PrimAead a = PrimAead b -> a = b.
Proof. intros. congruence. Qed.

Theorem aead_round_trip : forall reg h a,
  dict_get pclass_eqb ClsAead (r_wrappers reg) = Some aead_wrapper ->
  handle_primitive reg h ClsAead = Ok (PrimAead a) ->
  forall k p, In k (enabled_keys (kh_keyset h)) ->
    k_key_id k = ks_primary_key_id (kh_keyset h) ->
    key_provides reg ClsAead k (PrimAead p) ->
  forall r pt ad c ct,
    aead_encrypt p r pt ad = Ok c -> c <> [] -> aead_decrypt p c ad = Ok pt ->
    aead_encrypt a r pt ad = Ok ct ->
    (forall k' p' body, In k' (enabled_keys (kh_keyset h)) -> k' <> k ->
       key_provides reg ClsAead k' (PrimAead p') -> reaches k' ct body ->
       raises_tink (aead_decrypt p' body ad)) ->
    aead_decrypt a ct ad = Ok pt.
Proof.
  intros reg h a Hw Hh k p Hk Hid Hp r pt ad c ct Henc Hne Hdec Hct Ho.
  destruct (aead_handle_spec _ _ _ Hw Hh) as (Hv & l & Hkw & Hd & He & _).
  pose proof Hkw as [Hl Hf].
  assert (Hi : In (k, p) l).
  { rewrite <- Hl in Hk. apply in_map_iff in Hk. destruct Hk as [[k' p'] [Hx Hi]].
    simpl in Hx. subst k'. rewrite Forall_forall in Hf. pose proof (Hf _ Hi) as Hp'. simpl in Hp'.
    pose proof (key_provides_fun _ _ _ _ _ Hp Hp') as Heq. inv Heq. assumption. }
  destruct (He k p (conj Hi Hid) r pt ad) as (q & Hq & Hfull).
  rewrite Henc, Hct in Hfull. inv Hfull.
  eapply (attempts_single _ _ PrimAead); eauto using PrimAead_inj, handle_primitive_prefixes.
  - apply produced_reaches; eauto.
  - simpl. assumption.
  - intros k' p' body' Hi' Hn' Hr'. simpl. apply (Ho k'); auto.
    + rewrite <- Hl. change k' with (fst (k', p')). apply in_map. assumption.
    + rewrite Forall_forall in Hf. apply (Hf (k', p')). assumption.
Qed.

(** ** Rotation *)

Lemma interleave_filter : forall X (f : X -> bool) l1 l2 l,
  interleave l1 l2 l -> interleave (filter f l1) (filter f l2) (filter f l).
Proof.
  induction 1; simpl; [constructor | |]; destruct (f x); try constructor; auto.
Qed.
Lemma interleave_map : forall X Y (f : X -> Y) l1 l2 l,
  interleave l1 l2 l -> interleave (map f l1) (map f l2) (map f l).
Proof. induction 1; simpl; constructor; auto. Qed.
Lemma interleave_app : forall X (a1 a2 a b1 b2 b : list X),
  interleave a1 a2 a -> interleave b1 b2 b -> interleave (a1 ++ b1) (a2 ++ b2) (a ++ b).
Proof. induction 1; intros; simpl; try constructor; auto. Qed.

Lemma attempts_interleave : forall P A (f : key -> P -> bytes -> result A) l1 l2 l x,
  interleave l1 l2 l -> interleave (attempts l1 x f) (attempts l2 x f) (attempts l x f).
Proof.
  intros. unfold attempts. apply interleave_app; apply interleave_map, interleave_filter; assumption.
Qed.

Lemma interleave_first_ok : forall A (l1 l2 l : list (result A)),
  interleave l1 l2 l -> Forall raises_tink l2 ->
  forall r, first_ok l1 r -> first_ok l r.
Proof.
  induction 1; intros Hall r Hr.
  - assumption.
  - inv Hr; [apply FO_ok | apply FO_next | apply FO_raise]; auto.
  - inv Hall. destruct H2 as (e & -> & He). constructor; auto.
Qed.

Lemma keys_with_unique : forall P (inj : P -> prim) reg c ks1 ks2 l1 l2 (k : key) p1 p2,
  (forall a b, inj a = inj b -> a = b) ->
  keys_with inj reg c ks1 l1 -> keys_with inj reg c ks2 l2 ->
  In (k, p1) l1 -> In (k, p2) l2 -> p1 = p2.
Proof.
  intros P inj reg c ks1 ks2 l1 l2 k p1 p2 Hinj [_ H1] [_ H2] I1 I2.
  rewrite Forall_forall in *. apply H1 in I1. apply H2 in I2. simpl in *.
  apply Hinj. eapply key_provides_fun; eauto.
Qed.

(** Interleaving keys lifts to interleaving (key, primitive) lists. *)
Lemma interleave_lift : forall P (inj : P -> prim) reg c (k1 k2 k : list key),
  (forall a b, inj a = inj b -> a = b) ->
  interleave k1 k2 k ->
  forall l1 l,
    map fst l1 = k1 -> Forall (fun kp => key_provides reg c (fst kp) (inj (snd kp))) l1 ->
    map fst l = k -> Forall (fun kp => key_provides reg c (fst kp) (inj (snd kp))) l ->
    exists l2, map fst l2 = k2 /\
      Forall (fun kp => key_provides reg c (fst kp) (inj (snd kp))) l2 /\ interleave l1 l2 l.
Proof.
  intros P inj reg c k1 k2 k Hinj. induction 1; intros m1 m Hm1 Hf1 Hm Hf.
  - destruct m1; [| discriminate]. destruct m; [| discriminate]. exists []. repeat split; constructor.
  - destruct m1 as [| [k1 p1] m1]; [discriminate |]. destruct m as [| [k p] m]; [discriminate |].
    simpl in *. inv Hm1. inv Hm. inv Hf1. inv Hf. simpl in *.
    assert (p1 = p) by (apply Hinj; eapply key_provides_fun; eauto). subst p1.
    destruct (IHinterleave m1 m eq_refl H3 eq_refl H5) as (l2' & H6 & H7 & H8).
    exists l2'. repeat split; auto. constructor. assumption.
  - destruct m as [| [kx p] m]; [discriminate |].
    simpl in *. injection Hm as Hk Hm. inv Hf. simpl in *.
    destruct (IHinterleave m1 m eq_refl Hf1 eq_refl H3) as (l2' & H6 & H7 & H8).
    match goal with H : key_provides _ _ ?kk (inj p) |- _ => exists ((kk, p) :: l2') end. simpl. repeat split; [congruence | constructor; auto | constructor; auto].
Qed.

Theorem aead_rotation : forall reg h1 h2 a1 a2 added,
  dict_get pclass_eqb ClsAead (r_wrappers reg) = Some aead_wrapper ->
  handle_primitive reg h1 ClsAead = Ok (PrimAead a1) ->
  handle_primitive reg h2 ClsAead = Ok (PrimAead a2) ->
  interleave (enabled_keys (kh_keyset h1)) added (enabled_keys (kh_keyset h2)) ->
  forall ct ad,
  (forall k p body, In k added -> key_provides reg ClsAead k (PrimAead p) -> reaches k ct body ->
     raises_tink (aead_decrypt p body ad)) ->
  same_outcome (aead_decrypt a1 ct ad) (aead_decrypt a2 ct ad).
Proof.
  intros reg h1 h2 a1 a2 added Hw H1 H2 Hil ct ad Hadd.
  destruct (aead_handle_spec _ _ _ Hw H1) as (_ & l1 & Hk1 & Hd1 & _).
  destruct (aead_handle_spec _ _ _ Hw H2) as (_ & l2 & Hk2 & Hd2 & _).
  pose proof Hk1 as [Hl1 Hf1]. pose proof Hk2 as [Hl2 Hf2].
  destruct (interleave_lift _ PrimAead reg ClsAead _ _ _ PrimAead_inj Hil l1 l2 Hl1 Hf1 Hl2 Hf2)
    as (la & Hla & Hfa & Hi).
  specialize (Hd1 ct ad). specialize (Hd2 ct ad).
  assert (Hq : Forall (fun kp : key * aead => exists q,
            has_prefix (k_output_prefix_type (fst kp)) (k_key_id (fst kp)) q) la).
  { pose proof (handle_primitive_prefixes _ _ _ _ _ Hw H2) as Hq2.
    apply (Forall_map_fst aead (fun k => exists q, has_prefix (k_output_prefix_type k) (k_key_id k) q)).
    rewrite Hla. rewrite Forall_forall in *.
    intros k Hk. apply Hq2. clear - Hil Hk. induction Hil; simpl in *; intuition. }
  assert (Hx : first_ok (attempts l2 ct (fun _ p body => aead_decrypt p body ad)) (aead_decrypt a1 ct ad)).
  { eapply interleave_first_ok; [| | exact Hd1].
    - apply attempts_interleave. exact Hi.
    - rewrite Forall_forall. intros r Hr. apply attempts_in in Hr; auto.
      destruct Hr as (k & p & body & Hin & Hre & ->). apply (Hadd k); auto.
      + rewrite <- Hla. change k with (fst (k, p)). apply in_map. assumption.
      + rewrite Forall_forall in Hfa. apply (Hfa (k, p)). assumption. }
  destruct (first_ok_fun _ _ _ _ Hx Hd2) as [-> | (e & e' & -> & -> & He & He')].
  - left. reflexivity.
  - right. split; eexists; eauto.
Qed.

(** Old ciphertexts stay decryptable whatever the order of keys, as long as the
    per-key primitives return or raise TinkError. *)
Theorem aead_rotation_any_order : forall reg h1 h2 a1 a2,
  dict_get pclass_eqb ClsAead (r_wrappers reg) = Some aead_wrapper ->
  handle_primitive reg h1 ClsAead = Ok (PrimAead a1) ->
  handle_primitive reg h2 ClsAead = Ok (PrimAead a2) ->
  incl (enabled_keys (kh_keyset h1)) (enabled_keys (kh_keyset h2)) ->
  (forall k p body ad, In k (enabled_keys (kh_keyset h2)) ->
     key_provides reg ClsAead k (PrimAead p) -> tink_total (aead_decrypt p body ad)) ->
  forall ct ad pt, aead_decrypt a1 ct ad = Ok pt ->
  exists pt' k p body, aead_decrypt a2 ct ad = Ok pt' /\
    In k (enabled_keys (kh_keyset h2)) /\ key_provides reg ClsAead k (PrimAead p) /\
    reaches k ct body /\ aead_decrypt p body ad = Ok pt'.
Proof.
  intros reg h1 h2 a1 a2 Hw H1 H2 Hincl Htot ct ad pt Hpt.
  destruct (aead_decrypt_sound _ _ _ Hw H1 _ _ _ Hpt) as (k & p & body & Hk & Hen & Hp & Hr & Hx).
  assert (Hke : In k (enabled_keys (kh_keyset h1))).
  { apply filter_In. split; auto. unfold is_enabled. rewrite Hen. reflexivity. }
  apply Hincl in Hke.
  destruct (aead_handle_spec _ _ _ Hw H2) as (_ & l2 & Hk2 & Hd2 & _).
  pose proof Hk2 as [Hl2 Hf2]. specialize (Hd2 ct ad).
  pose proof (handle_primitive_prefixes _ _ _ _ _ Hw H2) as Hq. rewrite <- Hl2 in Hq.
  apply Forall_map_fst in Hq. rewrite Forall_forall in Hf2.
  assert (Hi : In (k, p) l2).
  { rewrite <- Hl2 in Hke. apply in_map_iff in Hke. destruct Hke as [[k' p'] [Hkk Hi]].
    simpl in Hkk. subst k'. pose proof (Hf2 _ Hi) as Hp'. simpl in Hp'.
    pose proof (key_provides_fun _ _ _ _ _ Hp Hp') as Heq. inv Heq. assumption. }
  destruct (first_ok_some _ _ _ pt Hd2) as (pt' & Hpt' & Hin).
  - rewrite Forall_forall. intros r Hrr. apply attempts_in in Hrr; auto.
    destruct Hrr as (k' & p' & body' & Hi' & _ & ->). apply (Htot k').
    + rewrite <- Hl2. change k' with (fst (k', p')). apply in_map. assumption.
    + apply (Hf2 (k', p')). assumption.
  - apply attempts_in; auto. exists k, p, body. auto.
  - apply attempts_in in Hin; auto.
    destruct Hin as (k' & p' & body' & Hi' & Hr' & Hx').
    exists pt', k', p', body'. split; [assumption |]. split; [| split; [| split]]; auto.
    + rewrite <- Hl2. change k' with (fst (k', p')). apply in_map. assumption.
    + apply (Hf2 (k', p')). assumption.
Qed.

(** ** Only enabled keys matter *)

Lemma add_key_primitives_enabled : forall reg c pid keys ps,
  add_key_primitives reg c pid ps keys =
  add_key_primitives reg c pid ps (filter is_enabled keys).
Proof.
  intros reg c pid keys. induction keys as [| k keys IH]; intros ps; [reflexivity |].
  simpl. unfold is_enabled at 1.
  destruct (k_status k =? ENABLED)%Z eqn:E.
  - simpl. destruct (add_key_primitive reg c pid ps k) as [ps' | e]; simpl; auto.
  - unfold add_key_primitive. rewrite E. simpl. apply IH.
Qed.

Theorem primitive_depends_on_enabled_only : forall reg h1 h2,
  valid_keyset (kh_keyset h1) -> valid_keyset (kh_keyset h2) ->
  enabled_keys (kh_keyset h1) = enabled_keys (kh_keyset h2) ->
  ks_primary_key_id (kh_keyset h1) = ks_primary_key_id (kh_keyset h2) ->
  forall c, handle_primitive reg h1 c = handle_primitive reg h2 c.
Proof.
  intros reg h1 h2 Hv1 Hv2 He Hp c. unfold handle_primitive.
  apply validate_keyset_ok in Hv1, Hv2. rewrite Hv1, Hv2. simpl.
  destruct (registry_input_primitive_class reg c); simpl; auto.
  rewrite (add_key_primitives_enabled _ _ _ (ks_key (kh_keyset h1))).
  rewrite (add_key_primitives_enabled _ _ _ (ks_key (kh_keyset h2))).
  unfold enabled_keys in He. rewrite He, Hp. reflexivity.
Qed.

Theorem aead_rejects_disabled : forall reg h a,
  dict_get pclass_eqb ClsAead (r_wrappers reg) = Some aead_wrapper ->
  handle_primitive reg h ClsAead = Ok (PrimAead a) ->
  forall ct ad,
  (forall k p body, In k (enabled_keys (kh_keyset h)) -> key_provides reg ClsAead k (PrimAead p) ->
     reaches k ct body -> raises_tink (aead_decrypt p body ad)) ->
  raises_tink (aead_decrypt a ct ad).
Proof.
  intros reg h a Hw Hh ct ad Hall.
  destruct (aead_handle_spec _ _ _ Hw Hh) as (_ & l & (Hl & Hf) & Hdec & _).
  eapply first_ok_none; [apply Hdec |]. rewrite Forall_forall. intros r Hr.
  apply attempts_in in Hr.
  - destruct Hr as (k & p & body & Hi & Hre & ->). apply (Hall k); auto.
    + rewrite <- Hl. change k with (fst (k, p)). apply in_map. assumption.
    + rewrite Forall_forall in Hf. apply (Hf (k, p)). assumption.
  - pose proof (handle_primitive_prefixes _ _ _ _ _ Hw Hh) as Hq. rewrite <- Hl in Hq.
    exact (Forall_map_fst _ _ _ Hq).
Qed.
