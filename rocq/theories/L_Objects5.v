(** Runs: single calls, and keyset handles. *)
From Coq Require Import Strings.Byte Strings.String List NArith ZArith Bool Arith Lia.
From Verif Require Import M_Base M_Proto M_Prims M_PrimitiveSet M_Registry M_KeysetHandle M_JwtTypes M_Json M_RawJwt M_Objects
  S_Objects L_Base L_Json2 L_Objects L_Objects2 L_Objects3 L_Objects4.
Import ListNotations.
Open Scope nat_scope.
Open Scope string_scope.
Open Scope list_scope.

Section Calls.
  Variable rt : py_rt.
  Variable limit : nat.

  (** A call makes the token that M_RawJwt says, or none. *)
  Theorem new_token_shows : forall s a b,
    knows_all s (args_refs a) = true -> args_show limit (o_heap s) a b ->
    match new_raw_jwt rt b with
    | Ok r => token_shows (operate rt limit s (NewRawJwt a)) (length (o_tokens s)) r
    | Err _ => o_tokens (operate rt limit s (NewRawJwt a)) = o_tokens s
    end.
  Proof.
    intros s a b K H. cbn [operate]. rewrite K. pose proof (create_token_shows rt limit _ _ _ H) as W.
    destruct (create_token rt limit (o_heap s) a) as [[t | e] h'], (new_raw_jwt rt b) as [r | e']; cbn [with_token o_tokens]; try contradiction; [| reflexivity].
    destruct W as [W1 W2]. exists t. cbn [o_tokens o_heap]. split; [| auto].
    rewrite nth_error_app2, Nat.sub_diag by lia. reflexivity.
  Qed.
  Theorem verified_token_shows : forall s th x,
    match raw_jwt_from_json rt th x with
    | Ok r => token_shows (operate rt limit s (VerifyJwt th x)) (length (o_tokens s)) r
    | Err _ => o_tokens (operate rt limit s (VerifyJwt th x)) = o_tokens s
    end.
  Proof.
    intros s th x. cbn [operate]. pose proof (token_from_json_shows rt (o_heap s) th x) as W.
    destruct (token_from_json rt (o_heap s) th x) as [[t | e] h'], (raw_jwt_from_json rt th x) as [r | e']; cbn [with_token o_tokens]; try contradiction; [| reflexivity].
    destruct W as [W1 W2]. exists t. cbn [o_tokens o_heap]. split; [| auto].
    rewrite nth_error_app2, Nat.sub_diag by lia. reflexivity.
  Qed.
  Theorem audiences_shows : forall s i r, token_shows s i r ->
    match audiences r with
    | Ok l => exists a, o_known (operate rt limit s (Audiences i)) = a :: o_known s /\
        shows (o_heap (operate rt limit s (Audiences i))) (VRef a) (JList l)
    | Err _ => operate rt limit s (Audiences i) = s
    end.
  Proof.
    intros s i r (t & Ht & Hh & Hs). cbn [operate]. rewrite Ht. pose proof (get_audiences_shows _ _ _ Hh Hs) as W.
    destruct (get_audiences (o_heap s) t) as [[v | e] h'], (audiences r) as [l | e']; try contradiction; cbn [with_answer o_known o_heap].
    - inversion W; subst. eexists. split; [reflexivity | exact W].
    - destruct W as [_ ->]. destruct s; reflexivity.
  Qed.
  Theorem custom_claim_shows : forall s i r name, token_shows s i r ->
    match custom_claim r name with
    | Ok (JList _ as j) | Ok (JDict _ as j) =>
        (nesting j <= limit)%nat ->
        exists a, o_known (operate rt limit s (CustomClaim i name)) = a :: o_known s /\
          shows (o_heap (operate rt limit s (CustomClaim i name))) (VRef a) j
    | _ => operate rt limit s (CustomClaim i name) = s
    end.
  Proof.
    intros s i r name (t & Ht & Hh & Hs). cbn [operate]. rewrite Ht. pose proof (get_custom_claim_shows limit _ _ _ name Hh Hs) as W.
    assert (Sc : forall v, fst (get_custom_claim limit (o_heap s) t name) = Ok v -> (forall a, v <> VRef a) -> with_answer s (get_custom_claim limit (o_heap s) t name) = s).
    { intros v E Hv. unfold get_custom_claim in *. destruct (validate_custom_claim_name name) as [[] |]; [| discriminate].
      destruct (nth_error (o_heap s) (to_payload t)) as [[l | l | ks] |]; try discriminate.
      destruct (dict_get str_eqb name l) as [x |]; [| discriminate].
      destruct x as [| | | | | a]; try (cbn [fst with_answer learn] in *; destruct s; reflexivity).
      unfold deep_copy in *. destruct (view limit (o_heap s) (VRef a)) as [j |] eqn:Ev; [| discriminate].
      apply view_shows in Ev. destruct (store (o_heap s) j) as [v' h'] eqn:Es. destruct (store_made _ _ _ _ Es) as (_ & _ & P).
      cbn [fst] in E. injection E as ->. exfalso.
      inversion Ev; subst; inversion P; subst; eapply Hv; reflexivity. }
    destruct (get_custom_claim limit (o_heap s) t name) as [[v | e] h'] eqn:E, (custom_claim r name) as [j | e']; try contradiction.
    - cbn [fst] in Sc. inversion W; subst; try (apply (Sc _ eq_refl); discriminate);
        (intros _; cbn [with_answer learn o_known o_heap]; eexists; split; [reflexivity | exact W]).
    - destruct W as (-> & -> & L). cbn [with_answer].
      destruct j; try (cbn [nesting] in L; lia); intros L'; lia.
    - destruct W as [-> ->]. destruct s; reflexivity.
  Qed.

  (** No call of the library changes an object that exists. *)
  Lemma operate_heap : forall s op, (forall x o, op <> ChangeObject x o) -> grows (o_heap s) (o_heap (operate rt limit s op)).
  Proof.
    intros s op Hop. destruct (token_call op) eqn:T.
    - destruct op; try discriminate T; cbn [operate].
      + destruct (knows_all s (args_refs args)); [| apply grows_refl].
        pose proof (create_token_grows rt limit (o_heap s) args) as G. destruct (create_token rt limit (o_heap s) args) as [[] h']; exact G.
      + pose proof (grows_extends _ _ (token_from_json_extends rt (o_heap s) type_header payload)) as G.
        destruct (token_from_json rt (o_heap s) type_header payload) as [[] h']; exact G.
      + destruct (nth_error (o_tokens s) t) as [k |]; [| apply grows_refl]. unfold get_audiences.
        destruct (nth_error (o_heap s) (to_payload k)) as [[l | l | ks] |]; try apply grows_refl.
        destruct (dict_get str_eqb (ulit "aud") l) as [[| | | | | a] |]; try apply grows_refl; [apply grows_put, grows_refl |].
        destruct (nth_error (o_heap s) a) as [[m | m | ks] |]; try apply grows_refl. apply grows_put, grows_refl.
      + destruct (nth_error (o_tokens s) t) as [k |]; [| apply grows_refl].
        destruct (get_custom_claim_extends limit (o_heap s) k name) as [X _]. apply grows_extends in X.
        destruct (get_custom_claim limit (o_heap s) k name) as [[] h']; exact X.
    - destruct (plain_steps rt limit s op T); cbn [with_known with_handle o_heap];
        try apply grows_refl; try (apply grows_put, grows_refl). exfalso. eapply Hop; eauto.
  Qed.
  Theorem calls_keep_objects : forall s op a o, (forall x y, op <> ChangeObject x y) ->
    nth_error (o_heap s) a = Some o -> nth_error (o_heap (operate rt limit s op)) a = Some o.
  Proof. intros s op a o Hop H. eapply grows_old; [apply operate_heap, Hop | exact H]. Qed.

  (** *** Handles *)
  (** The new part of the heap refers to [V] and to itself. *)
  Definition reach (V : nat -> Prop) (h0 h : heap) : Prop :=
    grows h0 h /\ forall a o b, length h0 <= a -> nth_error h a = Some o -> In b (refs o) -> plus V h0 h b.
  Definition dict_reach (V : nat -> Prop) (h0 h : heap) (p : list (pystr * pyval)) : Prop :=
    forall n v b, In (n, v) p -> In b (val_refs v) -> plus V h0 h b.
  Lemma plus_grows : forall V h0 h h' b, grows h h' -> plus V h0 h b -> plus V h0 h' b.
  Proof. intros V h0 h h' b G [H | [H1 H2]]; [left; exact H | right]. apply grows_length in G. split; lia. Qed.
  Lemma dict_reach_grows : forall V h0 h h' p, grows h h' -> dict_reach V h0 h p -> dict_reach V h0 h' p.
  Proof. intros V h0 h h' p G H n v b Hi Hb. eapply plus_grows; eauto. Qed.
  Lemma dict_reach_set : forall V h0 h p n v, (forall b, In b (val_refs v) -> plus V h0 h b) -> dict_reach V h0 h p -> dict_reach V h0 h (dict_set str_eqb n v p).
  Proof. intros V h0 h p n v Hv Hp m w b Hi Hb. apply in_dict_set in Hi. destruct Hi as [Hi | [-> ->]]; eauto. Qed.
  Lemma reach_refl : forall V h, reach V h h.
  Proof. intros V h. split; [apply grows_refl |]. intros a o b Ha H. apply nth_some_lt in H. lia. Qed.
  Lemma reach_extends : forall V h0 h h', reach V h0 h -> extends h h' -> reach V h0 h'.
  Proof.
    intros V h0 h h' [G R] X. pose proof (grows_extends _ _ X) as G'. split; [eapply grows_trans; eauto |].
    intros a o b Ha Ho Hb. destruct (Nat.lt_ge_cases a (length h)) as [L | L].
    - rewrite (grows_back _ _ _ G' L) in Ho. eapply plus_grows; eauto.
    - destruct X as (x & _ & N). specialize (N a o b L Ho Hb). right. apply grows_length in G. split; lia.
  Qed.
  Lemma reach_put : forall V h0 h o, reach V h0 h -> (forall b, In b (refs o) -> plus V h0 h b) -> reach V h0 (h ++ [o]).
  Proof.
    intros V h0 h o [G R] Ho. assert (G' : grows h (h ++ [o])) by apply grows_put, grows_refl. split; [eapply grows_trans; eauto |].
    intros a x b Ha Hx Hb. destruct (Nat.lt_ge_cases a (length h)) as [L | L].
    - rewrite (grows_back _ _ _ G' L) in Hx. eapply plus_grows; eauto.
    - assert (a = length h) by (apply nth_some_lt in Hx; rewrite app_length in Hx; cbn [length] in Hx; lia). subst a.
      rewrite nth_new in Hx. injection Hx as <-. eapply plus_grows; eauto.
  Qed.
  Lemma put_claim_reach : forall V h0 h p c, reach V h0 h -> dict_reach V h0 h p ->
    match put_claim rt limit h p c with
    | (Ok p', h') => reach V h0 h' /\ dict_reach V h0 h' p'
    | (Err _, h') => reach V h0 h'
    end.
  Proof.
    intros V h0 h p [n o] R D. unfold put_claim. cbn [fst snd]. destruct n as [name |]; [| exact R].
    destruct (validate_custom_claim_name name) as [[] |]; [| exact R].
    destruct o as [[| b | z | f | x | a] |]; try exact R;
      try (split; [exact R | apply dict_reach_set; [intros c [] | exact D]]).
    destruct (nth_error h a) as [[l | l | ks] |]; try exact R;
      (destruct (view limit h (VRef a)) as [j |]; [| exact R];
       destruct (_ <- json_dumps_default rt j ;; _) as [j' |]; [| exact R];
       destruct (store h j') as [v h'] eqn:Es; destruct (store_made _ _ _ _ Es) as (X & F & _);
       split; [eapply reach_extends; eauto |]; apply dict_reach_set;
         [intros b Hb; right; destruct R as [G _]; apply grows_length in G; specialize (F b Hb); unfold fresh in *; lia
         | eapply dict_reach_grows; [apply grows_extends, X | exact D]]).
  Qed.
  Lemma put_claims_reach : forall l V h0 h p, reach V h0 h -> dict_reach V h0 h p ->
    match put_claims rt limit h p l with
    | (Ok p', h') => reach V h0 h' /\ dict_reach V h0 h' p'
    | (Err _, h') => reach V h0 h'
    end.
  Proof.
    induction l as [| c l IH]; intros V h0 h p R D; cbn [put_claims]; [auto |].
    pose proof (put_claim_reach V h0 h p c R D) as H. destruct (put_claim rt limit h p c) as [[p' | e] h']; [| exact H].
    destruct H. apply IH; assumption.
  Qed.
  Lemma set_date_reach : forall V h0 h n o p p', dict_reach V h0 h p -> set_date n o p = Ok p' -> dict_reach V h0 h p'.
  Proof.
    intros V h0 h n [t |] p p' Hp E; cbn [set_date] in E; [| injection E as <-; exact Hp].
    destruct (from_datetime t); [| discriminate]. injection E as <-. apply dict_reach_set; [intros b [] | exact Hp].
  Qed.
  Lemma init_payload : forall h th v t, init_token h th v = Ok t -> v = VRef (to_payload t).
  Proof.
    intros h th v t H. unfold init_token in H. destruct v as [| | | | | a]; try discriminate.
    destruct (nth_error h a) as [[l | l | ks] |]; try discriminate.
    repeat match type of H with (_ <- ?c ;; _) = _ => destruct c; cbn [bind] in H; [| discriminate] end.
    injection H as <-. reflexivity.
  Qed.
  Lemma create_token_reach : forall V h a, inside V h -> closed V h -> (forall b, In b (args_refs a) -> V b) ->
    reach V h (snd (create_token rt limit h a)) /\
    forall t, fst (create_token rt limit h a) = Ok t -> fresh h (snd (create_token rt limit h a)) (to_payload t).
  Proof.
    intros V h a I C HA. unfold create_token.
    assert (Same : forall e, reach V h (snd (Err e : result token_object, h)) /\ forall t, fst (Err e : result token_object, h) = Ok t -> fresh h (snd (Err e : result token_object, h)) (to_payload t))
      by (intros e; split; [apply reach_refl | discriminate]).
    destruct (negb (is_some (t_expiration a)) && negb (t_without_expiration a)); [apply Same |].
    destruct (is_some (t_expiration a) && t_without_expiration a); [apply Same |].
    destruct (is_some (t_audience a) && is_some (t_audiences a)); [apply Same |]. cbv zeta. clear Same.
    unfold args_refs in HA.
    assert (Arg : forall n o p, (forall b, In b (arg_refs o) -> V b) -> dict_reach V h h p -> dict_reach V h h (set_arg n o p)).
    { intros n [v |] p Ho Hp; cbn [set_arg]; [| exact Hp]. apply dict_reach_set; [| exact Hp].
      intros b Hb. left. apply Ho. destruct v; exact Hb. }
    assert (Tr : forall o b, In b (arg_refs (truthy_arg h o)) -> In b (arg_refs o)).
    { intros [v |] b; cbn [truthy_arg]; [destruct (truthy_val h v) |]; auto. intros []. }
    set (p1 := set_arg "aud" _ _).
    assert (P1 : dict_reach V h h p1).
    { unfold p1. repeat (apply Arg; [intros b Hb; apply HA; rewrite !in_app_iff; try apply Tr in Hb; tauto |]). intros n v b []. }
    clearbody p1.
    match goal with |- context [let (p, h) := ?m in _] => assert (G : reach V h (snd m) /\ dict_reach V h (snd m) (fst m)); [| destruct m as [p2 h2]; cbn [fst snd] in G] end.
    { destruct (t_audiences a) as [v |]; [| split; [apply reach_refl | exact P1]].
      destruct v as [| | | | | b]; cbn [shallow_copy fst snd];
        try (split; [apply reach_refl | apply dict_reach_set; [intros c [] | exact P1]]).
      assert (Vb : V b) by (apply HA; rewrite !in_app_iff; cbn [arg_refs In]; tauto).
      destruct (nth_error h b) as [o |] eqn:Eb; cbn [put fst snd].
      - split; [apply reach_put; [apply reach_refl |] |].
        + intros c Hc. left. eapply C; eauto.
        + apply dict_reach_set; [| eapply dict_reach_grows; [apply grows_put, grows_refl | exact P1]].
          intros c [<- | []]. right. unfold fresh. rewrite app_length. cbn [length]. lia.
      - apply nth_error_None in Eb. specialize (I b Vb). lia. }
    destruct G as [R2 P2].
    destruct (set_date "exp" (t_expiration a) p2) as [p3 |] eqn:E3; cbn [bind fst snd]; [| split; [exact R2 | discriminate]].
    destruct (set_date "nbf" (t_not_before a) p3) as [p4 |] eqn:E4; cbn [bind fst snd]; [| split; [exact R2 | discriminate]].
    destruct (set_date "iat" (t_issued_at a) p4) as [p5 |] eqn:E5; cbn [bind fst snd]; [| split; [exact R2 | discriminate]].
    assert (P5 : dict_reach V h h2 p5) by (eapply set_date_reach; [eapply set_date_reach; [eapply set_date_reach; [exact P2 |] |] |]; eauto).
    pose proof (put_claims_reach (t_custom_claims a) V h h2 p5 R2 P5) as H6.
    destruct (put_claims rt limit h2 p5 (t_custom_claims a)) as [[p6 | e] h6]; cbn [put fst snd]; [| split; [exact H6 | discriminate]].
    destruct H6 as [R6 P6]. split.
    - apply reach_put; [exact R6 |]. intros b Hb. cbn [refs] in Hb. clear - P6 Hb.
      apply in_concat in Hb. destruct Hb as (l & Hl & Hb). apply in_map_iff in Hl. destruct Hl as ([n v] & <- & Hi).
      eapply P6; [exact Hi |]. destruct v; exact Hb.
    - intros t Ht. apply init_payload in Ht. injection Ht as <-. destruct R6 as [G6 _]. apply grows_length in G6.
      unfold fresh. rewrite app_length. cbn [length]. lia.
  Qed.

  (** [V]: what the caller or a token can reach. *)
  Definition reached (s : objects) (V : nat -> Prop) : Prop :=
    (forall a, In a (o_known s) -> V a) /\ (forall t, In t (o_tokens s) -> V (to_payload t)) /\
    inside V (o_heap s) /\ closed V (o_heap s) /\ handles_ok s.
  (** Handle [i] has the object [a], no other handle has it, and nothing reaches it. *)
  Definition alone (s : objects) (V : nat -> Prop) (i a : nat) : Prop :=
    nth_error (o_handles s) i = Some a /\ ~ V a /\ forall j, nth_error (o_handles s) j = Some a -> j = i.
  Lemma grow_reached : forall s V h' known' x, reached s V -> reach V (o_heap s) h' ->
    (forall a, In a known' -> In a (o_known s) \/ plus V (o_heap s) h' a) -> (forall t, In t x -> fresh (o_heap s) h' (to_payload t)) ->
    exists V', reached (mk_objects h' known' (o_tokens s ++ x) (o_handles s)) V' /\
      forall i a ks, alone s V i a -> nth_error (o_heap s) a = Some (OKeyset ks) ->
        alone (mk_objects h' known' (o_tokens s ++ x) (o_handles s)) V' i a /\ nth_error h' a = Some (OKeyset ks).
  Proof.
    intros s V h' known' x (HK & HT & HI & HC & HH) [G N] Hk Hx. exists (plus V (o_heap s) h'). split.
    - split; [| split; [| split; [| split]]]; cbn [o_heap o_known o_tokens o_handles].
      + intros a Ha. destruct (Hk a Ha) as [H | H]; [left; auto | exact H].
      + intros t Ht. apply in_app_or in Ht. destruct Ht as [Ht | Ht]; [left; auto | right; auto].
      + apply inside_plus; auto.
      + apply closed_plus; auto.
      + intros a Ha. destruct (HH a Ha) as (ks & E). exists ks. eapply grows_old; eauto.
    - intros i a ks (H1 & H2 & H3) Ha. split; [| eapply grows_old; eauto]. split; [exact H1 |]. split; [| exact H3].
      intros [Hv | [Hv _]]; [auto |]. apply nth_some_lt in Ha. lia.
  Qed.
  Lemma grow_reached_same : forall s V h', reached s V -> reach V (o_heap s) h' ->
    exists V', reached (mk_objects h' (o_known s) (o_tokens s) (o_handles s)) V' /\
      forall i a ks, alone s V i a -> nth_error (o_heap s) a = Some (OKeyset ks) ->
        alone (mk_objects h' (o_known s) (o_tokens s) (o_handles s)) V' i a /\ nth_error h' a = Some (OKeyset ks).
  Proof.
    intros s V h' HR R. destruct (grow_reached s V h' (o_known s) [] HR R) as (V' & H); [auto | intros t [] |].
    rewrite app_nil_r in H. eauto.
  Qed.
  Lemma nth_app_last : forall (l : list nat) x j y, nth_error (l ++ [x]) j = Some y -> nth_error l j = Some y \/ (j = length l /\ y = x).
  Proof.
    intros l x j y H. destruct (Nat.lt_ge_cases j (length l)) as [L | L].
    - rewrite nth_error_app1 in H by exact L. auto.
    - rewrite nth_error_app2 in H by exact L. destruct (j - length l) as [| k] eqn:E; [injection H as <-; right; split; [lia | reflexivity] |].
      destruct k; discriminate.
  Qed.

  Lemma operate_reached : forall s op V, reached s V ->
    exists V', reached (operate rt limit s op) V' /\
      forall i a ks, alone s V i a -> nth_error (o_heap s) a = Some (OKeyset ks) -> ~ hands_out i op ->
        alone (operate rt limit s op) V' i a /\ nth_error (o_heap (operate rt limit s op)) a = Some (OKeyset ks).
  Proof.
    intros s op V HR. pose proof HR as (HK & HT & HI & HC & HH).
    destruct (token_call op) eqn:T.
    - destruct op as [o | a o | a b | args | th pl | i | i name | a | src | i own | a tok | i tok | reg rnd draws t | r | src | i own | reg i];
        try discriminate T; cbn [operate].
      + destruct (knows_all s (args_refs args)) eqn:K; [| exists V; split; auto].
        destruct (create_token_reach V (o_heap s) args HI HC) as [R F]; [intros b Hb; apply HK, (knows_all_in _ _ _ K Hb) |].
        destruct (create_token rt limit (o_heap s) args) as [[t | e] h']; cbn [with_token fst snd] in *.
        * destruct (grow_reached s V h' (o_known s) [t] HR R) as (V' & R' & A'); [auto | intros t' [<- | []]; auto |].
          exists V'. split; [exact R' |]. intros; eapply A'; eauto.
        * destruct (grow_reached_same s V h' HR R) as (V' & R' & A'). exists V'. split; [exact R' |]. intros; eapply A'; eauto.
      + assert (R : reach V (o_heap s) (snd (token_from_json rt (o_heap s) th pl))) by (eapply reach_extends; [apply reach_refl | apply token_from_json_extends]).
        destruct (token_from_json rt (o_heap s) th pl) as [[t | e] h'] eqn:E; cbn [with_token fst snd] in *.
        * destruct (grow_reached s V h' (o_known s) [t] HR R) as (V' & R' & A'); [auto | |].
          { intros t' [<- | []]. destruct (token_from_json_private _ _ _ _ _ _ E) as (_ & q & P & _).
            inversion P as [| | | | | | b l js Hb Hn _]; subst. unfold fresh. apply nth_some_lt in Hn. lia. }
          exists V'. split; [exact R' |]. intros; eapply A'; eauto.
        * destruct (grow_reached_same s V h' HR R) as (V' & R' & A'). exists V'. split; [exact R' |]. intros; eapply A'; eauto.
      + destruct (nth_error (o_tokens s) i) as [t |] eqn:E; [| exists V; split; auto]. apply nth_error_In in E. specialize (HT t E).
        assert (R : reach V (o_heap s) (snd (get_audiences (o_heap s) t)) /\
          forall v a, fst (get_audiences (o_heap s) t) = Ok v -> In a (val_refs v) -> plus V (o_heap s) (snd (get_audiences (o_heap s) t)) a).
        { unfold get_audiences. destruct (nth_error (o_heap s) (to_payload t)) as [[l | l | ks] |] eqn:Ep;
            try (split; [apply reach_refl | discriminate]).
          destruct (dict_get str_eqb (ulit "aud") l) as [[| | | | x | b] |] eqn:Ed; cbn [put fst snd]; try (split; [apply reach_refl | discriminate]).
          - split; [apply reach_put; [apply reach_refl | intros b []] |]. intros v a Ev. injection Ev as <-. intros [<- | []].
            right. unfold fresh. rewrite app_length. cbn [length]. lia.
          - assert (Vb : V b).
            { eapply HC; [exact HT | exact Ep |]. apply dict_get_in in Ed; [| apply str_eqb_spec]. cbn [refs].
              apply in_concat. exists [b]. split; [| left; reflexivity]. apply in_map_iff. exists (ulit "aud", VRef b). auto. }
            destruct (nth_error (o_heap s) b) as [[m | m | ks] |] eqn:Eb; cbn [put fst snd]; try (split; [apply reach_refl | discriminate]).
            split; [apply reach_put; [apply reach_refl | intros c Hc; left; eapply HC; eauto] |].
            intros v a Ev. injection Ev as <-. intros [<- | []]. right. unfold fresh. rewrite app_length. cbn [length]. lia. }
        destruct R as [R F]. destruct (get_audiences (o_heap s) t) as [[v | e] h']; cbn [with_answer fst snd] in *.
        * destruct (grow_reached s V h' (learn v (o_known s)) [] HR R) as (V' & R' & A'); [| intros t' [] |].
          { intros a Ha. destruct v; auto. destruct Ha as [<- | Ha]; [right; eapply F; [reflexivity | left; reflexivity] | auto]. }
          rewrite app_nil_r in *. exists V'. split; [exact R' |]. intros; eapply A'; eauto.
        * destruct (grow_reached_same s V h' HR R) as (V' & R' & A'). exists V'. split; [exact R' |]. intros; eapply A'; eauto.
      + destruct (nth_error (o_tokens s) i) as [t |] eqn:E; [| exists V; split; auto].
        destruct (get_custom_claim_extends limit (o_heap s) t name) as [X F].
        assert (R : reach V (o_heap s) (snd (get_custom_claim limit (o_heap s) t name))) by (eapply reach_extends; [apply reach_refl | exact X]).
        destruct (get_custom_claim limit (o_heap s) t name) as [[v | e] h']; cbn [with_answer fst snd] in *.
        * destruct (grow_reached s V h' (learn v (o_known s)) [] HR R) as (V' & R' & A'); [| intros t' [] |].
          { intros a Ha. destruct v; auto. destruct Ha as [<- | Ha]; [right; right; eapply F; [reflexivity | left; reflexivity] | auto]. }
          rewrite app_nil_r in *. exists V'. split; [exact R' |]. intros; eapply A'; eauto.
        * destruct (grow_reached_same s V h' HR R) as (V' & R' & A'). exists V'. split; [exact R' |]. intros; eapply A'; eauto.
    - destruct (plain_steps rt limit s op T) as [| o Eo Ho | a x o Eo Ha Hx Ho Hs | a b o Ha Hn Hb | a ks Ht Ha Hn | ks Ht | i a ks Ht Hi Hn].
      + exists V. split; auto.
      + assert (R : reach V (o_heap s) (o_heap s ++ [o])) by (apply reach_put; [apply reach_refl | intros b Hb; left; auto]).
        destruct (grow_reached s V (o_heap s ++ [o]) (length (o_heap s) :: o_known s) [] HR R) as (V' & R' & A'); [| intros t' [] |].
        { intros a [<- | Ha]; [right; right; unfold fresh; rewrite app_length; cbn [length]; lia | auto]. }
        rewrite app_nil_r in *. exists V'. split; [exact R' |]. intros; eapply A'; eauto.
      + exists V. split.
        * split; [exact HK |]. split; [exact HT |]. split; [intros b Hb; cbn [o_heap]; rewrite update_length; auto |].
          split; [cbn [o_heap]; apply closed_update; auto |].
          intros b Hb. destruct (HH b Hb) as (ks & Hk). cbn [o_heap]. destruct (Nat.eq_dec a b) as [<- | Hne].
          { rewrite Hk in Hx. injection Hx as <-. rewrite update_same by (eapply nth_some_lt; eauto). destruct o as [| | ks']; try discriminate. eauto. }
          { rewrite update_other by exact Hne. eauto. }
        * intros i b ks (A1 & A2 & A3) Hb _. cbn [o_heap]. split; [split; auto |]. rewrite update_other; [exact Hb |]. intros <-. auto.
      + exists V. split.
        * split; [intros c [<- | Hc]; [eapply HC; eauto | auto] |]. auto.
        * intros i c ks A Hc _. split; [exact A | exact Hc].
      + exists V. split.
        * split; [exact HK |]. split; [exact HT |]. split; [exact HI |]. split; [exact HC |].
          intros c Hc. cbn [with_handle o_handles o_heap] in *. apply in_app_or in Hc. destruct Hc as [Hc | [<- | []]]; eauto.
        * intros i c k (A1 & A2 & A3) Hc _. cbn [with_handle o_heap]. split; [| exact Hc]. split; [cbn [with_handle o_handles]; rewrite nth_error_app1; [exact A1 | apply nth_error_Some; congruence] |].
          split; [exact A2 |]. intros j Hj. cbn [with_handle o_handles] in Hj. apply nth_app_last in Hj. destruct Hj as [Hj | [-> ->]]; [auto |]. exfalso. auto.
      + assert (G : grows (o_heap s) (o_heap s ++ [OKeyset ks])) by apply grows_put, grows_refl.
        exists V. split.
        * split; [exact HK |]. split; [exact HT |]. split; [eapply inside_grows; eauto |]. split; [eapply closed_grows; eauto |].
          intros c Hc. cbn [o_handles o_heap] in *. apply in_app_or in Hc. destruct Hc as [Hc | [<- | []]]; [| exists ks; apply nth_new].
          destruct (HH c Hc) as (k & Hk). exists k. eapply grows_old; eauto.
        * intros i c k (A1 & A2 & A3) Hc _. cbn [o_heap]. split; [| eapply grows_old; eauto]. split; [cbn [o_handles]; rewrite nth_error_app1; [exact A1 | apply nth_error_Some; congruence] |].
          split; [exact A2 |]. intros j Hj. cbn [o_handles] in Hj. apply nth_app_last in Hj. destruct Hj as [Hj | [-> ->]]; [auto |].
          apply nth_some_lt in Hc. lia.
      + exists (fun c => V c \/ c = a). split.
        * split; [intros c [<- | Hc]; auto |]. split; [intros t Ht'; left; auto |].
          split; [intros c [Hc | ->]; [auto | eapply nth_some_lt; eauto] |]. split; [| exact HH].
          intros c o b [Hc | ->] Ho Hb; [left; eapply HC; eauto |]. cbn [with_known o_heap] in Ho. rewrite Hn in Ho. injection Ho as <-. destruct Hb.
        * intros j c k (A1 & A2 & A3) Hc Hh. split; [| exact Hc]. split; [exact A1 |]. split; [| exact A3].
          intros [Hv | ->]; [auto |]. apply A3 in Hi. subst j. auto.
  Qed.
  Lemma reached_start : reached no_objects (fun _ => False).
  Proof. split; [intros a [] |]. split; [intros t [] |]. split; [intros a [] |]. split; [intros a o b [] | intros a []]. Qed.
  Lemma operate_all_reached : forall l s V, reached s V ->
    exists V', reached (operate_all rt limit l s) V' /\
      forall i a ks, alone s V i a -> nth_error (o_heap s) a = Some (OKeyset ks) -> Forall (fun op => ~ hands_out i op) l ->
        nth_error (o_handles (operate_all rt limit l s)) i = Some a /\ nth_error (o_heap (operate_all rt limit l s)) a = Some (OKeyset ks).
  Proof.
    induction l as [| op l IH]; intros s V HR; cbn [operate_all fold_left].
    - exists V. split; [exact HR |]. intros i a ks (A1 & _) Ha _. auto.
    - destruct (operate_reached s op V HR) as (V1 & R1 & A1). destruct (IH _ V1 R1) as (V2 & R2 & A2). exists V2. split; [exact R2 |].
      intros i a ks A Ha F. inversion F as [| x y F1 F2]; subst. destruct (A1 i a ks A Ha F1) as [B1 B2]. exact (A2 i a ks B1 B2 F2).
  Qed.

  (** Every handle has a Keyset message. *)
  Theorem handles_have_keysets : forall ops i, (i < length (o_handles (operate_all rt limit ops no_objects)))%nat ->
    exists ks, handle_at (operate_all rt limit ops no_objects) i = Some ks.
  Proof.
    intros ops i Hi. destruct (operate_all_reached ops no_objects _ reached_start) as (V & (_ & _ & _ & _ & HH) & _).
    unfold handle_at, keyset_at. destruct (nth_error (o_handles _) i) as [a |] eqn:E; [| apply nth_error_None in E; lia].
    destruct (HH a (nth_error_In _ _ E)) as (ks & ->). eauto.
  Qed.
  (** A handle that was not made of a Keyset message of the caller, and was not given
      out, never changes. *)
  Theorem handles_never_change : forall ops op more ks, let i := length (o_handles (operate_all rt limit ops no_objects)) in
    ~ takes_in op -> handle_at (operate_all rt limit (ops ++ [op]) no_objects) i = Some ks ->
    Forall (fun o => ~ hands_out i o) more ->
    handle_at (operate_all rt limit (ops ++ [op] ++ more) no_objects) i = Some ks.
  Proof.
    intros ops op more ks i Ht Hk HF. rewrite app_assoc, operate_all_app. rewrite operate_all_app in Hk |- *.
    destruct (operate_all_reached ops no_objects _ reached_start) as (V & HR & _).
    set (s := operate_all rt limit ops no_objects) in *. change (operate_all rt limit [op] s) with (operate rt limit s op) in *.
    destruct (operate_reached s op V HR) as (V1 & R1 & _).
    destruct (operate_all_reached more _ V1 R1) as (V2 & _ & A2).
    assert (A : exists a V3, reached (operate rt limit s op) V3 /\ alone (operate rt limit s op) V3 i a /\ nth_error (o_heap (operate rt limit s op)) a = Some (OKeyset ks)).
    { clear V1 R1 V2 A2. unfold handle_at, keyset_at in Hk. destruct (nth_error (o_handles (operate rt limit s op)) i) as [a |] eqn:E; [| discriminate].
      destruct (nth_error (o_heap (operate rt limit s op)) a) as [[l | l | k] |] eqn:Ea; try discriminate. injection Hk as ->.
      exists a, V. assert (None : nth_error (o_handles s) i = None) by (apply nth_error_None; unfold i; lia).
      assert (NN : o_handles (operate rt limit s op) = o_handles s -> False) by (intros Hx; rewrite Hx in E; congruence).
      destruct (token_call op) eqn:T.
      - exfalso. destruct op as [o | b o | b c | args | th pl | k | k name | b | src | k own | b tok | k tok | reg rnd draws t | r | src | k own | reg k]; try discriminate T; cbn [operate] in *.
        + destruct (knows_all s (args_refs args)); [| apply NN; reflexivity]. destruct (create_token rt limit (o_heap s) args) as [[] h']; apply NN; reflexivity.
        + destruct (token_from_json rt (o_heap s) th pl) as [[] h']; apply NN; reflexivity.
        + destruct (nth_error (o_tokens s) k); [| apply NN; reflexivity]. destruct (get_audiences (o_heap s) t) as [[] h']; apply NN; reflexivity.
        + destruct (nth_error (o_tokens s) k); [| apply NN; reflexivity]. destruct (get_custom_claim limit (o_heap s) t name) as [[] h']; apply NN; reflexivity.
      - pose proof HR as (HK & HT & HI & HC & HH).
        destruct (plain_steps rt limit s op T) as [| o Eo Ho | b x o Eo Hb Hx Ho Hs | b c o Hb Hn Hc | b k Hin Hb Hn | k Hin | j b k Hin Hi Hn];
          try (exfalso; apply NN; reflexivity); [contradiction |].
        cbn [o_handles o_heap] in *. apply nth_app_last in E. destruct E as [E | [_ E]]; [congruence |]. subst a.
        assert (G : grows (o_heap s) (o_heap s ++ [OKeyset k])) by apply grows_put, grows_refl.
        split; [| split; [| exact Ea]].
        + split; [exact HK |]. split; [exact HT |]. split; [eapply inside_grows; eauto |]. split; [eapply closed_grows; eauto |].
          intros c Hc. cbn [o_handles o_heap] in *. apply in_app_or in Hc. destruct Hc as [Hc | [<- | []]]; [| exists k; apply nth_new].
          destruct (HH c Hc) as (k' & Hk'). exists k'. eapply grows_old; eauto.
        + split; [cbn [o_handles]; unfold i; rewrite nth_error_app2, Nat.sub_diag by lia; reflexivity |].
          split; [intros Hv; specialize (HI _ Hv); lia |].
          intros j Hj. cbn [o_handles] in Hj. apply nth_app_last in Hj. destruct Hj as [Hj | [-> _]]; [| reflexivity].
          destruct (HH _ (nth_error_In _ _ Hj)) as (k' & Hk'). apply nth_some_lt in Hk'. lia. }
    destruct A as (a & V3 & R3 & A3 & Ha). destruct (operate_all_reached more _ V3 R3) as (V4 & _ & A4).
    destruct (A4 i a ks A3 Ha HF) as [B1 B2]. unfold handle_at, keyset_at. rewrite B1, B2. reflexivity.
  Qed.

  (** The exceptions. *)
  Theorem given_keyset_shared : forall ks ks' h, cleartext_from_keyset ks = Ok h ->
    let ops := [MakeObject (OKeyset ks); FromKeyset 0] in
    handle_at (operate_all rt limit ops no_objects) 0 = Some ks /\
    handle_at (operate_all rt limit (ops ++ [ChangeObject 0 (OKeyset ks')]) no_objects) 0 = Some ks'.
  Proof.
    intros ks ks' h H ops. unfold ops, operate_all. cbn [app fold_left]. cbn [operate refs knows_all forallb put o_heap no_objects app length].
    unfold adopt, keyset_at, knows. cbn [o_known existsb Nat.eqb o_heap nth_error orb]. rewrite H. split; [reflexivity |].
    cbn [with_handle o_heap nth_error o_known o_tokens o_handles]. reflexivity.
  Qed.
  Theorem own_writer_shared : forall ks ks', create ks = Ok (mk_handle ks) -> assert_no_secret_key_material ks = Ok tt ->
    let ops := [ReadEncrypted (Ok ks); WriteNoSecret 0 true] in
    handle_at (operate_all rt limit ops no_objects) 0 = Some ks /\
    handle_at (operate_all rt limit (ops ++ [ChangeObject 0 (OKeyset ks')]) no_objects) 0 = Some ks'.
  Proof.
    intros ks ks' H1 H2 ops. unfold ops, operate_all. cbn [app fold_left operate bind]. rewrite H1.
    cbn [with_new_handle put o_heap no_objects app length kh_keyset o_known o_tokens o_handles].
    unfold give_to_writer, handle_at, keyset_at. cbn [o_handles o_heap nth_error]. rewrite H2. split; reflexivity.
  Qed.
  Theorem audience_object_shared : exists ops more i r,
    token_shows (operate_all rt limit ops no_objects) i r /\ ~ token_shows (operate_all rt limit (ops ++ more) no_objects) i r.
  Proof.
    exists [MakeObject (OList [VStr (ulit "you")]);
            NewRawJwt (mk_token_args None None None (Some (VRef 0)) None None None true None None [])],
           [ChangeObject 0 (OList [VInt 1])], 0, (mk_raw_jwt None [(ulit "aud", JList [JStr (ulit "you")])]). split.
    - eexists. split; [reflexivity |]. split; [reflexivity |].
      eapply shows_dict; [reflexivity |]. constructor; [split; [reflexivity |] | constructor].
      eapply shows_list; [reflexivity |]. repeat constructor.
    - intros (t & Ht & _ & Hs). vm_compute in Ht. injection Ht as <-. inversion Hs as [| | | | | | a l js Ha Hf]; subst.
      vm_compute in Ha. injection Ha as <-. inversion Hf as [| x y l' m [_ Hx] _]; subst. cbn [snd] in Hx.
      inversion Hx as [| | | | | a l js Ha Hl |]; subst. vm_compute in Ha. injection Ha as <-.
      inversion Hl as [| x y l'' m' Hs' _]; subst. inversion Hs'.
  Qed.
End Calls.
