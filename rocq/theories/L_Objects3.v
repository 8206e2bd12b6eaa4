(** Tokens keep their objects to themselves. *)
From Coq Require Import Strings.Byte Strings.String List NArith ZArith Bool Arith Lia.
From Verif Require Import M_Base M_Proto M_Prims M_PrimitiveSet M_Registry M_KeysetHandle M_JwtTypes M_Json M_RawJwt M_Objects
  S_Objects L_Base L_Json2 L_Objects L_Objects2.
Import ListNotations.
Open Scope nat_scope.
Open Scope string_scope.
Open Scope list_scope.

(** What an entry of the dict of a new token can be before the checks. *)
Definition entry_ok (h0 h : heap) (n : pystr) (v : pyval) : Prop :=
  (exists j, private (fun a => a < length h0) h v j) \/
  (n = ulit "aud" /\ exists a, v = VRef a /\ length h0 <= a) \/
  n = ulit "iss" \/ n = ulit "sub" \/ n = ulit "jti".
Definition entries_ok (h0 h : heap) (p : list (pystr * pyval)) : Prop :=
  NoDup (map fst p) /\ forall n v, In (n, v) p -> entry_ok h0 h n v.

Lemma in_dict_set : forall (n m : pystr) (v w : pyval) p, In (n, v) (dict_set str_eqb m w p) -> In (n, v) p \/ (n = m /\ v = w).
Proof.
  intros n m v w. induction p as [| [k x] p IH]; cbn [dict_set].
  - intros [H | []]. injection H as <- <-. auto.
  - destruct (str_eqb m k) eqn:E.
    + apply str_eqb_spec in E. subst k. intros [H | H]; [injection H as <- <-; auto | left; right; exact H].
    + intros [H | H]; [left; left; exact H |]. destruct (IH H); [left; right; assumption | auto].
Qed.
Lemma entries_set : forall h0 h n v p, entry_ok h0 h n v -> entries_ok h0 h p -> entries_ok h0 h (dict_set str_eqb n v p).
Proof.
  intros h0 h n v p Hv [Hn Hp]. split; [apply dict_set_nodup; [apply str_eqb_spec | exact Hn] |].
  intros m w Hi. apply in_dict_set in Hi. destruct Hi as [Hi | [-> ->]]; auto.
Qed.
Lemma entry_grows : forall h0 h h' n v, grows h h' -> entry_ok h0 h n v -> entry_ok h0 h' n v.
Proof. intros h0 h h' n v G [(j & H) | H]; [left; exists j; eapply private_grows; eauto | right; exact H]. Qed.
Lemma entries_grows : forall h0 h h' p, grows h h' -> entries_ok h0 h p -> entries_ok h0 h' p.
Proof. intros h0 h h' p G [Hn Hp]. split; [exact Hn |]. intros; eapply entry_grows; eauto. Qed.
Lemma entry_scalar : forall h0 h n v, (forall a, v <> VRef a) -> entry_ok h0 h n v.
Proof. intros h0 h n v H. left. destruct v as [| b | z | f | x | a]; [| | | | | destruct (H a eq_refl)]; eexists; constructor. Qed.

Lemma init_private : forall h0 h th a p t, nth_error h a = Some (ODict p) -> length h0 <= a -> entries_ok h0 h p ->
  init_token h th (VRef a) = Ok t ->
  to_payload t = a /\ to_type_header t = th /\
  exists q, private (fun a => a < length h0) h (VRef a) (JDict q) /\ validate_audience_claim q = Ok tt.
Proof.
  intros h0 h th a p t Ha Hl [Hn Hp] H.
  assert (P : exists q, Forall2 (fun e f => fst e = fst f /\ private (fun a => a < length h0) h (snd e) (snd f)) p q).
  { unfold init_token in H. rewrite Ha in H.
    destruct (check_string p "iss") as [[] |] eqn:C1; [| discriminate]. destruct (check_string p "sub") as [[] |] eqn:C2; [| discriminate].
    destruct (check_string p "jti") as [[] |] eqn:C3; [| discriminate]. cbn [bind] in H.
    destruct (check_timestamp p "exp"); [| discriminate]. destruct (check_timestamp p "nbf"); [| discriminate].
    destruct (check_timestamp p "iat"); [| discriminate]. cbn [bind] in H.
    destruct (check_audience h p) eqn:C4; [| discriminate].
    assert (A : forall n v, In (n, v) p -> exists j, private (fun a => a < length h0) h v j).
    { intros n v Hi. assert (G : dict_get str_eqb n p = Some v) by (apply in_dict_get; [apply str_eqb_spec | exact Hn | exact Hi]).
      assert (St : forall name, n = ulit name -> check_string p name = Ok tt -> exists j, private (fun a => a < length h0) h v j).
      { intros name -> C. unfold check_string in C. rewrite G in C. destruct v; try discriminate. eexists; constructor. }
      destruct (Hp n v Hi) as [E | [[-> (b & -> & Hb)] | [E | [E | E]]]].
      - exact E.
      - unfold check_audience in C4. rewrite G in C4. destruct (nth_error h b) as [[l | l | ks] |] eqn:Eb; try discriminate.
        assert (Fs : forallb is_str_val l = true).
        { destruct l as [| x l]; [discriminate |]. destruct (forallb is_str_val (x :: l)); [reflexivity | discriminate]. }
        assert (L : exists js, Forall2 (private (fun a => a < length h0) h) l js).
        { clear - Fs. induction l as [| x l IH]; [exists []; constructor |]. cbn [forallb] in Fs. apply andb_true_iff in Fs.
          destruct Fs as [F1 F2]. destruct (IH F2) as (js & Hj). destruct x; try discriminate. eexists (_ :: js). constructor; [constructor | exact Hj]. }
        destruct L as (js & Hj). exists (JList js). econstructor; [lia | exact Eb | exact Hj].
      - exact (St _ E C1).
      - exact (St _ E C2).
      - exact (St _ E C3). }
    clear - A. induction p as [| [n v] p IH]; [exists []; constructor |].
    destruct (A n v (or_introl eq_refl)) as (j & Hj). destruct IH as (q & Hq); [intros; eapply A; right; eauto |].
    exists ((n, j) :: q). constructor; [split; [reflexivity | exact Hj] | exact Hq]. }
  destruct P as (q & Hq).
  assert (D : dict_shows h p q).
  { eapply forall2_map; [exact Hq |]. cbn beta. intros e f _ [E1 E2]. split; [exact E1 | eapply private_shows; eauto]. }
  pose proof (init_shows h th a p q Ha D) as W. rewrite H in W.
  destruct (raw_jwt_init th (JDict q)) as [r |] eqn:Er; [| contradiction].
  destruct W as (W1 & W2 & W3 & _). unfold raw_jwt_init in Er.
  destruct (validate_string_claim q "iss"); [| discriminate]. destruct (validate_string_claim q "sub"); [| discriminate].
  destruct (validate_string_claim q "jti"); [| discriminate]. cbn [bind] in Er.
  destruct (validate_timestamp_claim q "exp"); [| discriminate]. destruct (validate_timestamp_claim q "nbf"); [| discriminate].
  destruct (validate_timestamp_claim q "iat"); [| discriminate]. cbn [bind] in Er.
  destruct (validate_audience_claim q) as [[] |] eqn:Va; [| discriminate]. cbn [bind] in Er. injection Er as <-.
  split; [exact W2 |]. split; [exact W1 |]. exists q. split; [| exact Va].
  econstructor; [lia | exact Ha | exact Hq].
Qed.

Section Tokens.
  Variable rt : py_rt.
  Variable limit : nat.
  Lemma put_claim_grows : forall h p c, grows h (snd (put_claim rt limit h p c)).
  Proof.
    intros h p [n o]. unfold put_claim. cbn [fst snd]. destruct n as [name |]; [| apply grows_refl].
    destruct (validate_custom_claim_name name) as [[] |]; [| apply grows_refl].
    destruct o as [[| b | z | f | x | a] |]; try apply grows_refl.
    destruct (nth_error h a) as [[l | l | ks] |]; try apply grows_refl;
      (destruct (view limit h (VRef a)) as [j |]; [| apply grows_refl];
       destruct (_ <- json_dumps_default rt j ;; _) as [j' |]; [| apply grows_refl];
       destruct (store h j') as [v h'] eqn:Es; apply grows_extends, (store_made _ _ _ _ Es)).
  Qed.
  Lemma private_lower : forall (h0 h : heap) v j, grows h0 h -> forall h', private (fun a => a < length h) h' v j -> private (fun a => a < length h0) h' v j.
  Proof.
    intros h0 h v j G h' H. eapply private_frame; [| | exact H]; [auto |]. cbn beta. intros a o _ _ Ha. apply grows_length in G. lia.
  Qed.
  Lemma put_claim_entries : forall h0 h p c p' h', grows h0 h -> entries_ok h0 h p -> put_claim rt limit h p c = (Ok p', h') -> entries_ok h0 h' p'.
  Proof.
    intros h0 h p [n o] p' h' G Hp. unfold put_claim. cbn [fst snd]. destruct n as [name |]; [| discriminate].
    destruct (validate_custom_claim_name name) as [[] |]; [| discriminate].
    destruct o as [[| b | z | f | x | a] |]; try discriminate;
      try (intros E; injection E as <- <-; apply entries_set; [apply entry_scalar; discriminate | exact Hp]).
    destruct (nth_error h a) as [[l | l | ks] |]; try discriminate;
      (destruct (view limit h (VRef a)) as [j |]; [| discriminate];
       destruct (_ <- json_dumps_default rt j ;; _) as [j' |]; [| discriminate];
       destruct (store h j') as [v h2] eqn:Es; destruct (store_made _ _ _ _ Es) as (X & _ & P);
       intros E; injection E as <- <-; apply entries_set;
         [left; exists j'; eapply private_lower; eauto | eapply entries_grows; [apply grows_extends, X | exact Hp]]).
  Qed.
  Lemma put_claims_grows : forall l h p, grows h (snd (put_claims rt limit h p l)).
  Proof.
    induction l as [| c l IH]; intros h p; cbn [put_claims]; [apply grows_refl |].
    pose proof (put_claim_grows h p c) as G. destruct (put_claim rt limit h p c) as [[p' | e] h']; [| exact G].
    eapply grows_trans; [exact G | apply IH].
  Qed.
  Lemma put_claims_entries : forall l h0 h p p' h', grows h0 h -> entries_ok h0 h p -> put_claims rt limit h p l = (Ok p', h') -> entries_ok h0 h' p'.
  Proof.
    induction l as [| c l IH]; intros h0 h p p' h' G Hp E; cbn [put_claims] in E; [injection E as <- <-; exact Hp |].
    destruct (put_claim rt limit h p c) as [[p1 | e] h1] eqn:E1; [| discriminate].
    eapply (IH h0 h1); [| | exact E].
    - eapply grows_trans; [exact G |]. pose proof (put_claim_grows h p c) as G1. rewrite E1 in G1. exact G1.
    - eapply put_claim_entries; eauto.
  Qed.
  Lemma set_arg_entries : forall h0 h n o p,
    (forall v, o = Some v -> entry_ok h0 h (ulit n) v) -> entries_ok h0 h p -> entries_ok h0 h (set_arg n o p).
  Proof. intros h0 h n [v |] p Hv Hp; cbn [set_arg]; [apply entries_set; auto | exact Hp]. Qed.
  Lemma set_date_entries : forall h0 h n o p p', entries_ok h0 h p -> set_date n o p = Ok p' -> entries_ok h0 h p'.
  Proof.
    intros h0 h n [t |] p p' Hp E; cbn [set_date] in E; [| injection E as <-; exact Hp].
    destruct (from_datetime t); [| discriminate]. injection E as <-. apply entries_set; [apply entry_scalar; discriminate | exact Hp].
  Qed.

  Lemma shallow_copy_grows : forall h v, grows h (snd (shallow_copy h v)).
  Proof.
    intros h v. destruct v as [| | | | | a]; try apply grows_refl. cbn [shallow_copy].
    destruct (nth_error h a); [apply grows_put |]; apply grows_refl.
  Qed.
  Theorem create_token_grows : forall h a, grows h (snd (create_token rt limit h a)).
  Proof.
    intros h a. unfold create_token.
    destruct (negb (is_some (t_expiration a)) && negb (t_without_expiration a)); [apply grows_refl |].
    destruct (is_some (t_expiration a) && t_without_expiration a); [apply grows_refl |].
    destruct (is_some (t_audience a) && is_some (t_audiences a)); [apply grows_refl |]. cbv zeta.
    set (p1 := set_arg "aud" _ _). clearbody p1.
    match goal with |- grows h (snd (let (p, h) := ?m in _)) => assert (G : grows h (snd m)); [| destruct m as [p2 h2]; cbn [snd] in G] end.
    { destruct (t_audiences a) as [v |]; [| apply grows_refl]. pose proof (shallow_copy_grows h v). destruct (shallow_copy h v). exact H. }
    destruct (p <- set_date "exp" (t_expiration a) p2 ;; _) as [p3 | e]; [| exact G].
    pose proof (put_claims_grows (t_custom_claims a) h2 p3) as G2.
    destruct (put_claims rt limit h2 p3 (t_custom_claims a)) as [[p4 | e] h4]; cbn [snd put] in *; [| eapply grows_trans; eauto].
    apply grows_put. eapply grows_trans; eauto.
  Qed.

  (** A new token shares no object with anything that was there before. *)
  Theorem create_token_private : forall h a t h', create_token rt limit h a = (Ok t, h') ->
    (forall b, t_audience a <> Some (VRef b)) ->
    to_type_header t = t_type_header a /\ exists q, private (fun a => a < length h) h' (VRef (to_payload t)) (JDict q) /\ validate_audience_claim q = Ok tt.
  Proof.
    intros h a t h' E Ha. unfold create_token in E.
    destruct (negb (is_some (t_expiration a)) && negb (t_without_expiration a)); [discriminate |].
    destruct (is_some (t_expiration a) && t_without_expiration a); [discriminate |].
    destruct (is_some (t_audience a) && is_some (t_audiences a)); [discriminate |]. cbv zeta in E.
    set (p1 := set_arg "aud" _ _) in E.
    assert (P1 : entries_ok h h p1).
    { unfold p1. apply set_arg_entries; [intros v Hv; apply entry_scalar; intros b ->; eapply Ha, Hv |].
      repeat (apply set_arg_entries; [intros v _; unfold entry_ok; tauto |]).
      split; [constructor | intros n v []]. }
    clearbody p1.
    match type of E with (let (p, h) := ?m in _) = _ => assert (G : grows h (snd m) /\ entries_ok h (snd m) (fst m)); [| destruct m as [p2 h2]; cbn [fst snd] in G] end.
    { destruct (t_audiences a) as [v |]; [| split; [apply grows_refl | exact P1]].
      pose proof (shallow_copy_grows h v) as G. destruct (shallow_copy h v) as [v' h2] eqn:Es. cbn [fst snd] in *. split; [exact G |].
      apply entries_set; [| eapply entries_grows; eauto].
      destruct v as [| | | | | b]; cbn [shallow_copy] in Es; try (injection Es as <- <-; apply entry_scalar; discriminate).
      destruct (nth_error h b) eqn:Eb; cbn [put] in Es; injection Es as <- <-; right; left; (split; [reflexivity |]); eexists; (split; [reflexivity |]).
      - lia.
      - apply nth_error_None in Eb. exact Eb. }
    destruct G as [G2 P2].
    destruct (set_date "exp" (t_expiration a) p2) as [p3 |] eqn:E3; cbn [bind] in E; [| discriminate].
    destruct (set_date "nbf" (t_not_before a) p3) as [p4 |] eqn:E4; cbn [bind] in E; [| discriminate].
    destruct (set_date "iat" (t_issued_at a) p4) as [p5 |] eqn:E5; cbn [bind] in E; [| discriminate].
    assert (P5 : entries_ok h h2 p5) by (eapply set_date_entries; [eapply set_date_entries; [eapply set_date_entries; [exact P2 |] |] |]; eauto).
    pose proof (put_claims_grows (t_custom_claims a) h2 p5) as G6.
    destruct (put_claims rt limit h2 p5 (t_custom_claims a)) as [[p6 | e] h6] eqn:E6; [| discriminate]. cbn [snd put] in *.
    injection E as E <-.
    destruct (init_private h (h6 ++ [ODict p6]) (t_type_header a) (length h6) p6 t) as (Q1 & Q2 & Q3);
      [apply nth_new | apply grows_length; eapply grows_trans; eauto | | exact E |].
    - eapply entries_grows; [apply grows_put, grows_refl |]. eapply put_claims_entries; [exact G2 | exact P5 | exact E6].
    - split; [exact Q2 |]. rewrite Q1. exact Q3.
  Qed.
  Theorem token_from_json_extends : forall h th x, extends h (snd (token_from_json rt h th x)).
  Proof.
    intros h th x. unfold token_from_json. destruct (json_loads rt x) as [j | e]; [| apply extends_refl].
    destruct (store h j) as [v h'] eqn:Es. apply (store_made _ _ _ _ Es).
  Qed.
  Theorem token_from_json_private : forall h th x t h', token_from_json rt h th x = (Ok t, h') ->
    to_type_header t = th /\ exists q, private (fun a => a < length h) h' (VRef (to_payload t)) (JDict q) /\ validate_audience_claim q = Ok tt.
  Proof.
    intros h th x t h' E. pose proof (token_from_json_shows rt h th x) as W. rewrite E in W.
    destruct (raw_jwt_from_json rt th x) as [r |] eqn:Er; [| contradiction]. destruct W as [W1 W2].
    unfold token_from_json in E. destruct (json_loads rt x) as [j | e] eqn:Ej; [| discriminate].
    destruct (store h j) as [v h2] eqn:Es. destruct (store_made _ _ _ _ Es) as (_ & _ & P).
    injection E as E <-. unfold raw_jwt_from_json in Er. rewrite Ej in Er. cbn [bind] in Er.
    unfold init_token in E. destruct v as [| | | | | a]; try discriminate.
    destruct (nth_error h2 a) as [[l | l | ks] |] eqn:Ea; try discriminate.
    assert (Ht : t = mk_token_object th a).
    { repeat match type of E with (_ <- ?c ;; _) = _ => destruct c; cbn [bind] in E; [| discriminate] end. injection E as <-. reflexivity. }
    subst t. cbn [to_type_header to_payload] in *. split; [reflexivity |].
    inversion P as [| | | | | a0 l0 js | a0 l0 js]; subst; [congruence |].
    exists js. split; [exact P |]. unfold raw_jwt_init in Er. cbv beta iota in Er.
    destruct (validate_string_claim js "iss"); [| discriminate]. destruct (validate_string_claim js "sub"); [| discriminate].
    destruct (validate_string_claim js "jti"); [| discriminate]. cbn [bind] in Er.
    destruct (validate_timestamp_claim js "exp"); [| discriminate]. destruct (validate_timestamp_claim js "nbf"); [| discriminate].
    destruct (validate_timestamp_claim js "iat"); [| discriminate]. cbn [bind] in Er.
    destruct (validate_audience_claim js) as [[] |]; [reflexivity | discriminate].
  Qed.

  (** What the getters give out is new. *)
  Theorem get_audiences_extends : forall U h t q, private U h (VRef (to_payload t)) (JDict q) -> validate_audience_claim q = Ok tt ->
    extends h (snd (get_audiences h t)) /\ forall v a, fst (get_audiences h t) = Ok v -> In a (val_refs v) -> fresh h (snd (get_audiences h t)) a.
  Proof.
    intros U h t q P V. inversion P as [| | | | | | a0 l js H0 H1 H2]; subst. unfold get_audiences. rewrite H1.
    assert (D : dict_shows h l q).
    { eapply forall2_map; [exact H2 |]. cbn beta. intros e f _ [E1 E2]. split; [exact E1 | eapply private_shows; eauto]. }
    pose proof (dict_shows_get h (ulit "aud") _ _ D) as G. unfold validate_audience_claim, payload_get in V.
    destruct (dict_get str_eqb (ulit "aud") l) as [v |]; [| split; [apply extends_refl | discriminate]].
    destruct (dict_get str_eqb (ulit "aud") q) as [j |]; [| contradiction].
    inversion G as [| | | | | b vs js Eb Fb | b vs js Eb Fb]; subst; cbn [put fst snd]; try (split; [apply extends_refl | discriminate]).
    - split; [apply extends_put; [apply extends_refl | intros b []] |].
      intros v a E. injection E as <-. intros [<- | []]. unfold fresh. rewrite app_length. cbn [length]. lia.
    - rewrite Eb. cbn [fst snd put]. split.
      + apply extends_put; [apply extends_refl |]. intros c Hc. exfalso.
        assert (Fs : forallb is_str js = true) by (destruct js as [| j js]; [discriminate |]; destruct (forallb is_str (j :: js)); [reflexivity | discriminate]).
        clear - Fs Fb Hc. revert js Fs Fb. cbn [refs] in Hc.
        induction vs as [| v vs IH]; cbn [map concat] in Hc; [destruct Hc |]. intros js Fs Fb. inversion Fb; subst.
        cbn [forallb] in Fs. apply andb_true_iff in Fs. destruct Fs as [F1 F2]. apply in_app_or in Hc. destruct Hc as [Hc | Hc].
        * match goal with X : shows _ _ _ |- _ => inversion X; subst; try discriminate; destruct Hc end.
        * eapply IH; eauto.
      + intros v a E. injection E as <-. intros [<- | []]. unfold fresh. rewrite app_length. cbn [length]. lia.
    - rewrite Eb. split; [apply extends_refl | discriminate].
  Qed.
  Theorem get_custom_claim_extends : forall h t name,
    extends h (snd (get_custom_claim limit h t name)) /\ forall v a, fst (get_custom_claim limit h t name) = Ok v -> In a (val_refs v) -> fresh h (snd (get_custom_claim limit h t name)) a.
  Proof.
    intros h t name. unfold get_custom_claim.
    destruct (validate_custom_claim_name name) as [[] |]; [| split; [apply extends_refl | discriminate]].
    destruct (nth_error h (to_payload t)) as [[l | l | ks] |]; try (split; [apply extends_refl | discriminate]).
    destruct (dict_get str_eqb name l) as [v |]; [| split; [apply extends_refl | discriminate]].
    destruct v as [| | | | | a]; try (cbn [fst snd]; split; [apply extends_refl |]; intros v' b' E; injection E as E; subst v'; intros Hb; destruct Hb).
    unfold deep_copy. destruct (view limit h (VRef a)) as [j |]; [| split; [apply extends_refl | discriminate]].
    destruct (store h j) as [v' h'] eqn:Es. destruct (store_made _ _ _ _ Es) as (X & F & _). cbn [fst snd]. split; [exact X |].
    intros v b E. injection E as <-. apply F.
  Qed.
End Tokens.
