(** Tokens: the functions on objects do what those on values do. *)
From Coq Require Import Strings.Byte Strings.String List NArith ZArith Bool Arith Lia.
From Verif Require Import M_Base M_Proto M_Prims M_PrimitiveSet M_Registry M_KeysetHandle M_JwtTypes M_Json M_RawJwt M_Objects
  S_Objects L_Base L_Json2 L_Objects.
Import ListNotations.
Open Scope nat_scope.
Open Scope string_scope.
Open Scope list_scope.

(** The heap grows. *)
Definition grows (h h' : heap) : Prop := exists x, h' = h ++ x.
Lemma grows_refl : forall h, grows h h.
Proof. intros h. exists []. rewrite app_nil_r. reflexivity. Qed.
Lemma grows_trans : forall a b c, grows a b -> grows b c -> grows a c.
Proof. intros a b c (x & ->) (y & ->). exists (x ++ y). rewrite app_assoc. reflexivity. Qed.
Lemma grows_put : forall h h' o, grows h h' -> grows h (h' ++ [o]).
Proof. intros h h' o (x & ->). exists (x ++ [o]). rewrite app_assoc. reflexivity. Qed.
Lemma grows_extends : forall h h', extends h h' -> grows h h'.
Proof. intros h h' (x & E & _). exists x. exact E. Qed.
Lemma grows_old : forall h h' a o, grows h h' -> nth_error h a = Some o -> nth_error h' a = Some o.
Proof. intros h h' a o (x & ->). apply nth_app_old. Qed.
Lemma grows_length : forall h h', grows h h' -> length h <= length h'.
Proof. intros h h' (x & ->). rewrite app_length. lia. Qed.

Lemma shows_private : forall h j v, shows h v j <-> private (fun _ => False) h v j.
Proof.
  intros h j v. split; [| apply private_shows]. revert v.
  induction j as [| b | z | f | x | l IH | l IH] using json_nested_ind; intros v H; inversion H; subst; try constructor;
    rewrite Forall_forall in IH.
  - econstructor; [tauto | eassumption |]. eapply forall2_map; [eassumption |]. cbn beta. auto.
  - econstructor; [tauto | eassumption |]. eapply forall2_map; [eassumption |]. cbn beta. intros e f Hf [E Hp]. auto.
Qed.
Lemma shows_grows : forall h h' v j, grows h h' -> shows h v j -> shows h' v j.
Proof.
  intros h h' v j G H. apply shows_private. apply shows_private in H. eapply private_frame; [| | exact H]; [| auto].
  intros; eapply grows_old; eauto.
Qed.
Lemma private_grows : forall U h h' v j, grows h h' -> private U h v j -> private U h' v j.
Proof. intros U h h' v j G H. eapply private_frame; [| | exact H]; [| auto]. intros; eapply grows_old; eauto. Qed.
Lemma view_grows : forall n h h' v j, grows h h' -> view n h v = Some j -> view n h' v = Some j.
Proof.
  induction n as [| n IH]; intros h h' [| b | z | f | x | a] j G H; cbn [view] in *; try exact H; try discriminate.
  destruct (nth_error h a) as [o |] eqn:E; [| discriminate]. rewrite (grows_old _ _ _ _ G E).
  destruct o as [l | l | ks]; try discriminate.
  - destruct (map_option (view n h) l) as [js |] eqn:El; [| discriminate]. apply map_option_forall2 in El.
    assert (El' : map_option (view n h') l = Some js).
    { apply map_option_forall2. eapply forall2_map; [exact El |]. cbn beta. intros; eapply IH; eauto. }
    rewrite El'. exact H.
  - destruct (map_option _ l) as [js |] eqn:El in H; [| discriminate]. apply map_option_forall2 in El.
    match goal with |- option_map _ (map_option ?f l) = _ => assert (El' : map_option f l = Some js) end.
    { apply map_option_forall2. eapply forall2_map; [exact El |]. cbn beta. intros e f _ Hf.
      destruct (view n h (snd e)) eqn:Ev; [| discriminate]. rewrite (IH _ _ _ _ G Ev). exact Hf. }
    rewrite El'. exact H.
Qed.

Lemma fold_max_list : forall l x n, fold_right (fun x n => Nat.max (nesting x) n) 0 l <= n -> In x l -> nesting x <= n.
Proof.
  induction l as [| y l IH]; cbn [fold_right]; intros x n H Hi; [destruct Hi |].
  destruct Hi as [E | Hi]; [subst; lia | apply IH; [lia | exact Hi]].
Qed.
Lemma fold_max_dict : forall (l : list (pystr * json)) e n, fold_right (fun e n => Nat.max (nesting (snd e)) n) 0 l <= n -> In e l -> nesting (snd e) <= n.
Proof.
  induction l as [| y l IH]; cbn [fold_right]; intros x n H Hi; [destruct Hi |].
  destruct Hi as [E | Hi]; [subst; lia | apply IH; [lia | exact Hi]].
Qed.
Lemma view_complete : forall j n h v, shows h v j -> nesting j <= n -> view n h v = Some j.
Proof.
  induction j as [| b | z | f | x | l IH | l IH] using json_nested_ind; intros n h v H L;
    inversion H as [| | | | | a l' js En Ef | a l' js En Ef]; subst; cbn [nesting] in L; try (destruct n; reflexivity);
    rewrite Forall_forall in IH; (destruct n as [| n]; [lia |]); cbn [view]; rewrite En.
  - assert (E : map_option (view n h) l' = Some l).
    { apply map_option_forall2. eapply forall2_map; [exact Ef |]. cbn beta. intros x y Hy Hs. apply IH; [exact Hy | exact Hs |].
      eapply fold_max_list; [| exact Hy]. lia. }
    rewrite E. reflexivity.
  - match goal with |- option_map _ (map_option ?f l') = _ => assert (E : map_option f l' = Some l) end.
    { apply map_option_forall2. eapply forall2_map; [exact Ef |]. cbn beta. intros x y Hy [Hf Hs].
      rewrite (IH y Hy n h (snd x) Hs); [| eapply fold_max_dict; [| exact Hy]; lia]. rewrite Hf. destruct y; reflexivity. }
    rewrite E. reflexivity.
Qed.

(** A dict and the JSON dict it shows. *)
Definition dict_shows (h : heap) (p : list (pystr * pyval)) (q : list (pystr * json)) : Prop :=
  Forall2 (fun e f => fst e = fst f /\ shows h (snd e) (snd f)) p q.
Lemma dict_shows_set : forall h n v j p q, shows h v j -> dict_shows h p q ->
  dict_shows h (dict_set str_eqb n v p) (dict_set str_eqb n j q).
Proof.
  intros h n v j p q Hv H. induction H as [| [m x] [m' y] p q [E Hxy] Hr IH]; cbn [dict_set].
  - constructor; [split; [reflexivity | exact Hv] | constructor].
  - cbn [fst snd] in *. subst m'. destruct (str_eqb n m); constructor; auto.
Qed.
Lemma dict_shows_get : forall h n p q, dict_shows h p q ->
  match dict_get str_eqb n p, dict_get str_eqb n q with
  | Some v, Some j => shows h v j
  | None, None => True
  | _, _ => False
  end.
Proof.
  intros h n p q H. induction H as [| [m x] [m' y] p q [E Hxy] Hr IH]; cbn [dict_get]; [exact I |].
  cbn [fst snd] in *. subst m'. destruct (str_eqb n m); [exact Hxy | exact IH].
Qed.
Lemma dict_shows_grows : forall h h' p q, grows h h' -> dict_shows h p q -> dict_shows h' p q.
Proof. intros h h' p q G H. eapply forall2_map; [exact H |]. cbn beta. intros e f _ [E S]. split; [exact E | eapply shows_grows; eauto]. Qed.

Lemma truthy_shows : forall h v j, shows h v j -> truthy_val h v = truthy j.
Proof.
  intros h v j H. inversion H; subst; try reflexivity; cbn [truthy_val].
  - rewrite H0. inversion H1; reflexivity.
  - rewrite H0. inversion H1; reflexivity.
Qed.
Lemma truthy_arg_shows : forall n h o o', arg_shows n h o o' -> arg_shows n h (truthy_arg h o) (truthy_opt o').
Proof.
  intros n h [v |] [j |] H; cbn [arg_shows truthy_arg truthy_opt] in *; try contradiction; [| exact I].
  rewrite (truthy_shows _ _ _ (view_shows _ _ _ _ H)). destruct (truthy j); [exact H | exact I].
Qed.
Lemma set_arg_shows : forall n h name o o' p q, arg_shows n h o o' -> dict_shows h p q ->
  dict_shows h (set_arg name o p) (set_opt name o' q).
Proof.
  intros n h name [v |] [j |] p q H Hp; cbn [arg_shows set_arg set_opt] in *; try contradiction; [| exact Hp].
  apply dict_shows_set; [eapply view_shows; eauto | exact Hp].
Qed.
Lemma set_date_shows : forall h name o p q, dict_shows h p q ->
  match set_date name o p, set_time name o q with
  | Ok p', Ok q' => dict_shows h p' q'
  | Err e, Err e' => e = e'
  | _, _ => False
  end.
Proof.
  intros h name [t |] p q H; cbn [set_date set_time]; [| exact H].
  destruct (from_datetime t); cbn [bind]; [| reflexivity]. apply dict_shows_set; [constructor | exact H].
Qed.

Lemma init_shows : forall h th a p q, nth_error h a = Some (ODict p) -> dict_shows h p q ->
  match init_token h th (VRef a), raw_jwt_init th (JDict q) with
  | Ok t, Ok r => to_type_header t = rj_type_header r /\ to_payload t = a /\ rj_payload r = q /\
      shows h (VRef (to_payload t)) (JDict (rj_payload r))
  | Err e, Err e' => e = e'
  | _, _ => False
  end.
Proof.
  intros h th a p q E H. unfold init_token, raw_jwt_init. rewrite E.
  assert (S : forall name, check_string p name = validate_string_claim q name).
  { intros name. unfold check_string, validate_string_claim, payload_get. pose proof (dict_shows_get h (ulit name) p q H) as G.
    destruct (dict_get str_eqb (ulit name) p) as [v |], (dict_get str_eqb (ulit name) q) as [j |]; try contradiction; [| reflexivity].
    inversion G; reflexivity. }
  assert (T : forall name, check_timestamp p name = validate_timestamp_claim q name).
  { intros name. unfold check_timestamp, validate_timestamp_claim, payload_get. pose proof (dict_shows_get h (ulit name) p q H) as G.
    destruct (dict_get str_eqb (ulit name) p) as [v |], (dict_get str_eqb (ulit name) q) as [j |]; try contradiction; [| reflexivity].
    inversion G; subst; try reflexivity. destruct f; reflexivity. }
  assert (A : check_audience h p = validate_audience_claim q).
  { unfold check_audience, validate_audience_claim, payload_get. pose proof (dict_shows_get h (ulit "aud") p q H) as G.
    destruct (dict_get str_eqb (ulit "aud") p) as [v |], (dict_get str_eqb (ulit "aud") q) as [j |]; try contradiction; [| reflexivity].
    inversion G; subst; try reflexivity; rewrite H0.
    - assert (F : forallb is_str_val l = forallb is_str js).
      { clear - H1. induction H1 as [| x y l js Hxy _ IH]; [reflexivity |]. cbn [forallb]. rewrite IH. inversion Hxy; reflexivity. }
      rewrite F. inversion H1; reflexivity.
    - reflexivity. }
  rewrite !S, !T, A.
  destruct (validate_string_claim q "iss"); cbn [bind]; [| reflexivity].
  destruct (validate_string_claim q "sub"); cbn [bind]; [| reflexivity].
  destruct (validate_string_claim q "jti"); cbn [bind]; [| reflexivity].
  destruct (validate_timestamp_claim q "exp"); cbn [bind]; [| reflexivity].
  destruct (validate_timestamp_claim q "nbf"); cbn [bind]; [| reflexivity].
  destruct (validate_timestamp_claim q "iat"); cbn [bind]; [| reflexivity].
  destruct (validate_audience_claim q); cbn [bind]; [| reflexivity].
  split; [reflexivity |]. split; [reflexivity |]. split; [reflexivity |]. econstructor; [exact E | exact H].
Qed.

Section Tokens.
  Variable rt : py_rt.
  Variable limit : nat.
  Lemma put_claim_shows : forall h c c' p q, claim_shows limit h c c' -> dict_shows h p q ->
    match put_claim rt limit h p c, add_custom_claim rt q c' with
    | (Ok p', h'), Ok q' => grows h h' /\ dict_shows h' p' q'
    | (Err e, h'), Err e' => e = e'
    | _, _ => False
    end.
  Proof.
    intros h [name o] [name' o'] p q [E H] Hp. cbn [fst snd] in *. subst name'. unfold put_claim, add_custom_claim. cbn [fst snd].
    destruct name as [name |]; [| reflexivity].
    destruct (validate_custom_claim_name name) as [[] |]; cbn [bind]; [| reflexivity].
    destruct o as [v |], o' as [j |]; try contradiction; [| reflexivity].
    assert (D : (exists a, v = VRef a) \/ forall a, v <> VRef a) by (destruct v; (left; eexists; reflexivity) || (right; discriminate)).
    destruct D as [(a & ->) | Hn].
    - pose proof (view_shows _ _ _ _ H) as S. rewrite H.
      assert (K : match j with JList _ | JDict _ => True | _ => False end /\ match nth_error h a with Some (OList _) | Some (ODict _) => True | _ => False end)
        by (inversion S; subst; rewrite H1; auto).
      destruct K as [K1 K2]. destruct (nth_error h a) as [[l | l | ks] |]; try contradiction;
        (destruct j as [| | | | | jl | jl]; try contradiction;
         (destruct (json_dumps_default rt _) as [t | e]; cbn [bind]; [| reflexivity];
          destruct (json_loads_plain rt t) as [j' | e]; cbn [bind]; [| reflexivity];
          destruct (store h j') as [v h'] eqn:Es; destruct (store_made _ _ _ _ Es) as (X & _ & P);
          split; [apply grows_extends, X |]; apply dict_shows_set;
            [eapply private_shows; eauto | eapply dict_shows_grows; [apply grows_extends, X | exact Hp]])).
    - assert (S : shows h v j) by (eapply view_shows; eauto).
      inversion S; subst; try (exfalso; eapply Hn; reflexivity);
        (split; [apply grows_refl | apply dict_shows_set; [exact S | exact Hp]]).
  Qed.
  Lemma put_claims_shows : forall l l' h p q, Forall2 (claim_shows limit h) l l' -> dict_shows h p q ->
    match put_claims rt limit h p l, add_custom_claims rt q l' with
    | (Ok p', h'), Ok q' => grows h h' /\ dict_shows h' p' q'
    | (Err e, h'), Err e' => e = e'
    | _, _ => False
    end.
  Proof.
    induction l as [| c l IH]; intros l' h p q H Hp; inversion H as [| c0 c' l0 m Hc Hl]; subst; cbn [put_claims add_custom_claims].
    - split; [apply grows_refl | exact Hp].
    - pose proof (put_claim_shows h c c' p q Hc Hp) as Hs.
      destruct (put_claim rt limit h p c) as [[p' | e] h'], (add_custom_claim rt q c') as [q' | e']; cbn [bind]; try contradiction; [| exact Hs].
      destruct Hs as [G Hp']. specialize (IH m h' p' q').
      assert (Hl' : Forall2 (claim_shows limit h') l m).
      { eapply forall2_map; [exact Hl |]. intros [n1 o1] [n2 o2] _ [E1 E2]. cbn [fst snd] in *. split; [exact E1 |]. cbn [fst snd].
        destruct o1, o2; auto. eapply view_grows; eauto. }
      specialize (IH Hl' Hp').
      destruct (put_claims rt limit h' p' l) as [[p2 | e] h2], (add_custom_claims rt q' m) as [q2 | e']; try contradiction; [| exact IH].
      destruct IH as [G2 H2]. split; [eapply grows_trans; eauto | exact H2].
  Qed.

  Lemma shallow_copy_shows : forall h v j v' h', shows h v j -> shallow_copy h v = (v', h') -> grows h h' /\ shows h' v' j.
  Proof.
    intros h v j v' h' H E. inversion H; subst; cbn [shallow_copy] in E;
      try (injection E as <- <-; split; [apply grows_refl | constructor]).
    - rewrite H0 in E. injection E as <- <-. split; [apply grows_put, grows_refl |].
      econstructor; [apply nth_new |]. eapply forall2_map; [exact H1 |]. cbn beta. intros.
      eapply shows_grows; [apply grows_put, grows_refl | eauto].
    - rewrite H0 in E. injection E as <- <-. split; [apply grows_put, grows_refl |].
      econstructor; [apply nth_new |]. eapply forall2_map; [exact H1 |]. cbn beta. intros x y _ [E1 E2]. split; [exact E1 |].
      eapply shows_grows; [apply grows_put, grows_refl | eauto].
  Qed.

  (** new_raw_jwt on objects is new_raw_jwt on what the objects show. *)
  Theorem create_token_shows : forall h a b, args_show limit h a b ->
    match create_token rt limit h a, new_raw_jwt rt b with
    | (Ok t, h'), Ok r => to_type_header t = rj_type_header r /\ shows h' (VRef (to_payload t)) (JDict (rj_payload r))
    | (Err e, h'), Err e' => e = e'
    | _, _ => False
    end.
  Proof.
    intros h a b (Hth & Hiss & Hsub & Haud & Hauds & Hjti & Hexp & Hwo & Hnbf & Hiat & Hcc).
    unfold create_token, new_raw_jwt. rewrite Hexp, Hwo, Hnbf, Hiat.
    destruct (negb (is_some (a_expiration b)) && negb (a_without_expiration b)); [reflexivity |].
    destruct (is_some (a_expiration b) && a_without_expiration b); [reflexivity |].
    assert (I1 : is_some (t_audience a) = is_some (a_audience b)) by (destruct (t_audience a), (a_audience b); cbn in Haud; tauto || reflexivity).
    assert (I2 : is_some (t_audiences a) = is_some (a_audiences b)) by (destruct (t_audiences a), (a_audiences b); cbn in Hauds; tauto || reflexivity).
    rewrite I1, I2. destruct (is_some (a_audience b) && is_some (a_audiences b)); [reflexivity |].
    cbv zeta.
    set (p1 := set_arg "aud" (t_audience a) _). set (q1 := set_opt "aud" (a_audience b) _).
    assert (D1 : dict_shows h p1 q1).
    { unfold p1, q1. repeat (eapply set_arg_shows; [solve [eassumption | apply truthy_arg_shows; eassumption] |]). constructor. }
    clearbody p1 q1.
    assert (D2 : exists p2 h2, (match t_audiences a with
        | Some v => let (v', h') := shallow_copy h v in (dict_set str_eqb (ulit "aud") v' p1, h')
        | None => (p1, h)
        end) = (p2, h2) /\ grows h h2 /\ dict_shows h2 p2 (set_opt "aud" (a_audiences b) q1)).
    { destruct (t_audiences a) as [v |], (a_audiences b) as [j |]; cbn [arg_shows set_opt] in *; try contradiction.
      - destruct (shallow_copy h v) as [v' h'] eqn:Es.
        destruct (shallow_copy_shows _ _ _ _ _ (view_shows _ _ _ _ Hauds) Es) as [G S].
        do 2 eexists. split; [reflexivity |]. split; [exact G |]. apply dict_shows_set; [exact S |]. eapply dict_shows_grows; eauto.
      - do 2 eexists. split; [reflexivity |]. split; [apply grows_refl | exact D1]. }
    destruct D2 as (p2 & h2 & -> & G2 & D2). set (q2 := set_opt "aud" (a_audiences b) q1) in *. clearbody q2.
    pose proof (set_date_shows h2 "exp" (a_expiration b) _ _ D2) as X.
    destruct (set_date "exp" (a_expiration b) p2) as [p3 | e3], (set_time "exp" (a_expiration b) q2) as [q3 | f3]; cbn [bind]; try contradiction; [| exact X].
    pose proof (set_date_shows h2 "nbf" (a_not_before b) _ _ X) as Y.
    destruct (set_date "nbf" (a_not_before b) p3) as [p4 | e4], (set_time "nbf" (a_not_before b) q3) as [q4 | f4]; cbn [bind]; try contradiction; [| exact Y].
    pose proof (set_date_shows h2 "iat" (a_issued_at b) _ _ Y) as Z.
    destruct (set_date "iat" (a_issued_at b) p4) as [p5 | e5], (set_time "iat" (a_issued_at b) q4) as [q5 | f5]; cbn [bind]; try contradiction; [| exact Z].
    assert (Hcc2 : Forall2 (claim_shows limit h2) (t_custom_claims a) (a_custom_claims b)).
    { eapply forall2_map; [exact Hcc |]. intros [n1 o1] [n2 o2] _ [E1 E2]. cbn [fst snd] in *. split; [exact E1 |]. cbn [fst snd].
      destruct o1, o2; auto. eapply view_grows; eauto. }
    pose proof (put_claims_shows _ _ _ _ _ Hcc2 Z) as V.
    destruct (put_claims rt limit h2 p5 (t_custom_claims a)) as [[p6 | e6] h6], (add_custom_claims rt q5 (a_custom_claims b)) as [q6 | f6];
      cbn [bind]; try contradiction; [| exact V].
    destruct V as [G6 D6]. cbn [put]. rewrite Hth.
    pose proof (init_shows (h6 ++ [ODict p6]) (a_type_header b) (length h6) p6 q6 (nth_new _ _)
      (dict_shows_grows _ _ _ _ (grows_put _ _ _ (grows_refl _)) D6)) as W.
    destruct (init_token _ _ _) as [t | e], (raw_jwt_init _ _) as [r | e']; try contradiction; [| exact W].
    destruct W as (W1 & _ & _ & W2). auto.
  Qed.

  (** Parsing a token on objects is parsing it on values. *)
  Theorem token_from_json_shows : forall h th x,
    match token_from_json rt h th x, raw_jwt_from_json rt th x with
    | (Ok t, h'), Ok r => to_type_header t = rj_type_header r /\ shows h' (VRef (to_payload t)) (JDict (rj_payload r))
    | (Err e, h'), Err e' => e = e'
    | _, _ => False
    end.
  Proof.
    intros h th x. unfold token_from_json, raw_jwt_from_json. destruct (json_loads rt x) as [j | e]; cbn [bind]; [| reflexivity].
    destruct (store h j) as [v h'] eqn:Es. destruct (store_made _ _ _ _ Es) as (_ & _ & P). apply private_shows in P.
    inversion P; subst; try reflexivity.
    - cbn [init_token raw_jwt_init]. rewrite H. reflexivity.
    - pose proof (init_shows h' th a l js H H0) as W.
      destruct (init_token _ _ _) as [t | e], (raw_jwt_init _ _) as [r | e']; try contradiction; [| exact W].
      destruct W as (W1 & _ & _ & W2). auto.
  Qed.

  (** The getters that return objects. *)
  Theorem get_audiences_shows : forall h t r, to_type_header t = rj_type_header r ->
    shows h (VRef (to_payload t)) (JDict (rj_payload r)) ->
    match get_audiences h t, audiences r with
    | (Ok v, h'), Ok l => shows h' v (JList l)
    | (Err e, h'), Err e' => e = e' /\ h' = h
    | _, _ => False
    end.
  Proof.
    intros h t r _ H. inversion H as [| | | | | | a0 l js H1 H2]; subst. unfold get_audiences, audiences, claim, payload_get. rewrite H1.
    pose proof (dict_shows_get h (ulit "aud") _ _ H2) as G.
    destruct (dict_get str_eqb (ulit "aud") l) as [v |], (dict_get str_eqb (ulit "aud") (rj_payload r)) as [j |]; try contradiction; [| auto].
    inversion G; subst; cbn [put]; auto.
    - econstructor; [apply nth_new |]. constructor; constructor.
    - rewrite H0. econstructor; [apply nth_new |]. eapply forall2_map; [exact H3 |]. cbn beta. intros.
      eapply shows_grows; [apply grows_put, grows_refl | eauto].
    - rewrite H0. auto.
  Qed.
  Theorem get_custom_claim_shows : forall h t r name, to_type_header t = rj_type_header r ->
    shows h (VRef (to_payload t)) (JDict (rj_payload r)) ->
    match get_custom_claim limit h t name, custom_claim r name with
    | (Ok v, h'), Ok j => shows h' v j
    | (Err e, h'), Err e' => e = e' /\ h' = h
    | (Err e, h'), Ok j => e = OtherError 1 /\ h' = h /\ (limit < nesting j)%nat
    | _, _ => False
    end.
  Proof.
    intros h t r name _ H. inversion H as [| | | | | | a0 l js H1 H2]; subst. unfold get_custom_claim, custom_claim.
    destruct (validate_custom_claim_name name) as [[] |]; cbn [bind]; [| auto]. rewrite H1.
    pose proof (dict_shows_get h name _ _ H2) as G.
    destruct (dict_get str_eqb name l) as [v |], (dict_get str_eqb name (rj_payload r)) as [j |]; try contradiction; [| auto].
    assert (K : match v with VRef a => True | _ => shows h v j end) by (destruct v; auto; exact G).
    destruct v as [| b | z | f | x | a]; try exact K. unfold deep_copy.
    destruct (view limit h (VRef a)) as [j' |] eqn:Ev.
    - rewrite (shows_same _ _ _ _ G (view_shows _ _ _ _ Ev)). destruct (store h j') as [v' h'] eqn:Es.
      destruct (store_made _ _ _ _ Es) as (_ & _ & P). eapply private_shows; eauto.
    - split; [reflexivity |]. split; [reflexivity |].
      destruct (le_lt_dec (nesting j) limit) as [L | L]; [| exact L]. rewrite (view_complete _ _ _ _ G L) in Ev. discriminate.
  Qed.
End Tokens.
