(** The JSON model accepts exactly the JSON texts. *)
From Coq Require Import Strings.Byte Strings.String List NArith ZArith Bool Lia.
From Verif Require Import M_Base L_Base M_Utf8 L_Utf8 M_JwtTypes M_KmsIntegrations
  L_KmsIntegrations M_Json S_Json.
Import ListNotations.
Open Scope list_scope.
Open Scope N_scope.

(** ** Characters *)

Lemma is_digit_spec : forall c, is_digit c = true <-> 48 <= c <= 57.
Proof. intros c. unfold is_digit. rewrite andb_true_iff, !N.leb_le. lia. Qed.

Lemma is_ws_spec : forall c, is_ws c = true <-> (c = 32 \/ c = 9 \/ c = 10 \/ c = 13).
Proof. intros c. unfold is_ws. rewrite !orb_true_iff, !N.eqb_eq. lia. Qed.

Lemma is_high_spec : forall c, is_high c = true <-> high_surrogate c.
Proof. intros c. unfold is_high, high_surrogate. rewrite andb_true_iff, !N.leb_le. lia. Qed.
Lemma is_low_spec : forall c, is_low c = true <-> low_surrogate c.
Proof. intros c. unfold is_low, low_surrogate. rewrite andb_true_iff, !N.leb_le. lia. Qed.

Lemma digits_forall : forall d, digits d <-> Forall (fun c => is_digit c = true) d.
Proof.
  intros d. unfold digits. split; apply Forall_impl; intros c H; apply is_digit_spec; exact H.
Qed.
Lemma white_forall : forall d, white d <-> Forall (fun c => is_ws c = true) d.
Proof.
  intros d. unfold white. split; apply Forall_impl; intros c H; apply is_ws_spec; exact H.
Qed.

Lemma hex_digit_spec : forall c v, hex_digit c = Some v <-> hex_value c v.
Proof.
  intros c v. unfold hex_digit, hex_value.
  destruct (is_digit c) eqn:E1.
  { apply is_digit_spec in E1. split; intros H.
    - apply some_inj in H. left. split; [assumption | symmetry; exact H].
    - f_equal. lia. }
  assert (H1 : ~ (48 <= c <= 57)) by (intros H; apply is_digit_spec in H; congruence).
  destruct ((97 <=? c) && (c <=? 102)) eqn:E2.
  { rewrite andb_true_iff, !N.leb_le in E2. split; intros H.
    - apply some_inj in H. right. left. lia.
    - f_equal. lia. }
  rewrite andb_false_iff, !N.leb_gt in E2.
  destruct ((65 <=? c) && (c <=? 70)) eqn:E3.
  { rewrite andb_true_iff, !N.leb_le in E3. split; intros H.
    - apply some_inj in H. right. right. lia.
    - f_equal. lia. }
  rewrite andb_false_iff, !N.leb_gt in E3. split; intros H; [discriminate | lia].
Qed.

Lemma hex4_spec : forall a b c d u, hex4 a b c d = Some u <-> u_text [92; 117; a; b; c; d] u.
Proof.
  intros a b c d u. unfold hex4, u_text. split.
  - intros H. destruct (hex_digit a) as [va |] eqn:Ea; [| discriminate].
    destruct (hex_digit b) as [vb |] eqn:Eb; [| discriminate].
    destruct (hex_digit c) as [vc |] eqn:Ec; [| discriminate].
    destruct (hex_digit d) as [vd |] eqn:Ed; [| discriminate].
    apply some_inj in H. exists a, b, c, d, va, vb, vc, vd.
    rewrite !hex_digit_spec in *. repeat split; try assumption. lia.
  - intros (a' & b' & c' & d' & va & vb & vc & vd & E & Ha & Hb & Hc & Hd & ->).
    injection E as <- <- <- <-. rewrite <- hex_digit_spec in *. rewrite Ha, Hb, Hc, Hd.
    f_equal. lia.
Qed.

Lemma u_text_shape : forall t u, u_text t u -> exists a b c d, t = [92; 117; a; b; c; d].
Proof. intros t u (a & b & c & d & va & vb & vc & vd & -> & _). eauto. Qed.

Lemma u_text_fun : forall t u u', u_text t u -> u_text t u' -> u = u'.
Proof.
  intros t u u' H H'. destruct (u_text_shape _ _ H) as (a & b & c & d & ->).
  apply hex4_spec in H, H'. congruence.
Qed.

Lemma unescape_spec : forall e c, unescape e = Some c <-> In (e, c) simple_escapes.
Proof.
  intros e c. unfold unescape, simple_escapes. split.
  - intros H.
    repeat (match type of H with
            | (if ?e =? ?k then _ else _) = _ =>
                destruct (N.eqb_spec e k) as [-> |];
                  [apply some_inj in H; subst c; cbn; auto 20 |]
            end). discriminate.
  - intros H. repeat (destruct H as [H | H]; [injection H as <- <-; reflexivity |]). destruct H.
Qed.

Lemma escapes_not_u : forall e c, In (e, c) simple_escapes -> (e =? 117) = false.
Proof.
  intros e c H. unfold simple_escapes in H.
  repeat (destruct H as [H | H]; [injection H as <- <-; reflexivity |]). destruct H.
Qed.

(** ** Strings *)

Lemma scons_inv : forall c o y r, scons c o = Some (y, r) -> exists x, o = Some (x, r) /\ y = c :: x.
Proof.
  intros c [[x r'] |] y r H; cbn in H; [| discriminate]. injection H as <- <-. eauto.
Qed.

(** No escape of a low surrogate comes next. *)
Definition not_low_next (s : pystr) : Prop :=
  forall e' u' t', u_text e' u' -> low_surrogate u' -> s <> e' ++ t'.

Lemma not_low_next_prefix : forall t r, not_low_next (t ++ r) -> not_low_next t.
Proof.
  intros t r H e' u' t' He Hl ->. apply (H e' u' (t' ++ r) He Hl). rewrite app_assoc. reflexivity.
Qed.

Lemma scan_string_sound : forall n s x r, (length s <= n)%nat -> scan_string s = Some (x, r) ->
  exists t, s = t ++ 34 :: r /\ string_body x t.
Proof.
  induction n as [| n IH]; intros s x r Hn H.
  { destruct s; [discriminate | cbn in Hn; lia]. }
  destruct s as [| c s]; [discriminate |]. cbn [scan_string] in H. cbn [length] in Hn.
  destruct (N.eqb_spec c 34) as [-> | H34].
  { injection H as <- <-. exists []. split; [reflexivity | constructor]. }
  destruct (N.eqb_spec c 92) as [-> | H92].
  2:{ destruct (N.ltb_spec c 32); [discriminate |].
      apply scons_inv in H. destruct H as (y & Hy & ->). apply IH in Hy; [| lia].
      destruct Hy as (t & -> & Hb). exists (c :: t). split; [reflexivity |]. constructor; auto. }
  destruct s as [| e r1]; [discriminate |]. cbn [length] in Hn.
  destruct (N.eqb_spec e 117) as [-> | H117].
  2:{ destruct (unescape e) as [c' |] eqn:Eu; [| discriminate].
      apply scons_inv in H. destruct H as (y & Hy & ->). apply IH in Hy; [| lia].
      destruct Hy as (t & -> & Hb). exists (92 :: e :: t). split; [reflexivity |].
      constructor; [apply unescape_spec; exact Eu | exact Hb]. }
  destruct r1 as [| a1 [| a2 [| a3 [| a4 r2]]]]; try discriminate. cbn [length] in Hn.
  destruct (hex4 a1 a2 a3 a4) as [u |] eqn:Eu; [| discriminate].
  pose proof (proj1 (hex4_spec _ _ _ _ _) Eu) as Hu.
  assert (Hunit : (high_surrogate u -> not_low_next r2) ->
                  scons u (scan_string r2) = Some (x, r) ->
                  exists t, 92 :: 117 :: a1 :: a2 :: a3 :: a4 :: r2 = t ++ 34 :: r /\ string_body x t).
  { intros Hlow Hs. apply scons_inv in Hs. destruct Hs as (y & Hy & ->).
    apply IH in Hy; [| lia]. destruct Hy as (t & -> & Hb).
    exists ([92; 117; a1; a2; a3; a4] ++ t). split; [reflexivity |].
    apply SB_unit; [exact Hu | | exact Hb].
    intros Hh. apply (not_low_next_prefix _ (34 :: r)). apply Hlow. exact Hh. }
  destruct (is_high u) eqn:Eh.
  2:{ apply Hunit; [| exact H]. intros Hh. apply is_high_spec in Hh. congruence. }
  assert (Hshort : (length r2 < 6)%nat -> not_low_next r2).
  { intros Hlen e' u' t' He' _ ->. destruct (u_text_shape _ _ He') as (? & ? & ? & ? & ->).
    rewrite app_length in Hlen. cbn [length] in Hlen. lia. }
  destruct r2 as [| b [| u' [| c1 [| c2 [| c3 [| c4 r3]]]]]];
    try (apply Hunit; [intros _; apply Hshort; cbn [length]; lia | exact H]).
  destruct ((b =? 92) && (u' =? 117)) eqn:Ebu.
  2:{ apply Hunit; [| exact H]. intros _ e' w t' He' _ E.
      destruct (u_text_shape _ _ He') as (? & ? & ? & ? & ->). cbn [app] in E.
      injection E as -> -> _. discriminate. }
  rewrite andb_true_iff, !N.eqb_eq in Ebu. destruct Ebu as [-> ->].
  destruct (hex4 c1 c2 c3 c4) as [w |] eqn:Ew; [| discriminate].
  pose proof (proj1 (hex4_spec _ _ _ _ _) Ew) as Hw.
  destruct (is_low w) eqn:El.
  - apply scons_inv in H. destruct H as (y & Hy & ->).
    apply IH in Hy; [| cbn [length] in Hn; lia]. destruct Hy as (t & -> & Hb).
    exists ([92; 117; a1; a2; a3; a4] ++ [92; 117; c1; c2; c3; c4] ++ t).
    split; [reflexivity |].
    replace (join_surrogates u w) with (65536 + (u - 55296) * 1024 + (w - 56320))
      by (unfold join_surrogates; lia).
    apply SB_pair; [exact Hu | apply is_high_spec; exact Eh | exact Hw | apply is_low_spec; exact El | exact Hb].
  - apply Hunit; [| exact H]. intros _ e' w' t' He' Hl E.
    destruct (u_text_shape _ _ He') as (d1 & d2 & d3 & d4 & ->). cbn [app] in E.
    injection E as <- <- <- <- _. rewrite (u_text_fun _ _ _ He' Hw) in Hl.
    apply is_low_spec in Hl. congruence.
Qed.

Lemma body_head_u : forall x a b t, string_body x (a :: b :: t) -> a = 92 -> b = 117 ->
  exists e u t', a :: b :: t = e ++ t' /\ u_text e u.
Proof.
  intros x a b t H -> ->. remember (92 :: 117 :: t) as s eqn:Es.
  destruct H as [| c x s H1 H2 H3 H | e c x s He H | e u x s Hu Hnl H | e u e' u' x s Hu Hh Hu' Hl H].
  - discriminate.
  - injection Es as -> _. destruct (H3 eq_refl).
  - injection Es as -> _. apply escapes_not_u in He. discriminate.
  - exists e, u, s. auto.
  - exists e, u, (e' ++ s). auto.
Qed.

Lemma scan_string_complete : forall x t r, string_body x t ->
  scan_string (t ++ 34 :: r) = Some (x, r).
Proof.
  intros x t r H. induction H as [| c x t H1 H2 H3 H IH | e c x t He H IH | e u x t Hu Hnl H IH
    | e u e' u' x t Hu Hh Hu' Hl H IH].
  - reflexivity.
  - cbn [app scan_string]. rewrite (proj2 (N.eqb_neq _ _) H2), (proj2 (N.eqb_neq _ _) H3).
    rewrite (proj2 (N.ltb_ge _ _) H1), IH. reflexivity.
  - cbn [app scan_string]. change (92 =? 34) with false. change (92 =? 92) with true.
    cbv iota. rewrite (escapes_not_u _ _ He), (proj2 (unescape_spec _ _) He), IH. reflexivity.
  - destruct (u_text_shape _ _ Hu) as (a & b & c & d & ->). apply hex4_spec in Hu.
    cbn [app scan_string]. change (92 =? 34) with false. change (92 =? 92) with true.
    change (117 =? 117) with true. cbv iota. rewrite Hu.
    destruct (is_high u) eqn:Eh; [| rewrite IH; reflexivity].
    assert (G : not_low_next (t ++ 34 :: r)).
    { intros e' u' t' He' Hl E. destruct (u_text_shape _ _ He') as (a' & b' & c' & d' & ->).
      destruct t as [| t0 [| t1 t]].
      - cbn [app] in E. discriminate.
      - cbn [app] in E. injection E as -> E _. discriminate.
      - cbn [app] in E. injection E as E0 E1 E. subst t0 t1.
        destruct (body_head_u _ _ _ _ H eq_refl eq_refl) as (e2 & u2 & t2 & E2 & Hu2).
        destruct (u_text_shape _ _ Hu2) as (p & q & v & w & ->). cbn [app] in E2.
        injection E2 as ->. cbn [app] in E. injection E as -> -> -> -> _.
        apply (Hnl (proj1 (is_high_spec _) Eh) [92; 117; a'; b'; c'; d'] u' t2 He' Hl). reflexivity. }
    remember (t ++ 34 :: r) as s eqn:Es.
    destruct s as [| b0 [| u0 [| c1 [| c2 [| c3 [| c4 r3]]]]]]; try (rewrite IH; reflexivity).
    destruct ((b0 =? 92) && (u0 =? 117)) eqn:Ebu; [| rewrite IH; reflexivity].
    rewrite andb_true_iff, !N.eqb_eq in Ebu. destruct Ebu as [-> ->].
    destruct (hex4 c1 c2 c3 c4) as [w |] eqn:Ew.
    + destruct (is_low w) eqn:El; [| rewrite IH; reflexivity].
      exfalso. apply (G [92; 117; c1; c2; c3; c4] w r3 (proj1 (hex4_spec _ _ _ _ _) Ew)
        (proj1 (is_low_spec _) El)). reflexivity.
    + exfalso. cbn [scan_string] in IH. change (92 =? 34) with false in IH.
      change (92 =? 92) with true in IH. change (117 =? 117) with true in IH. cbv iota in IH.
      rewrite Ew in IH. discriminate.
  - destruct (u_text_shape _ _ Hu) as (a & b & c & d & ->). apply hex4_spec in Hu.
    destruct (u_text_shape _ _ Hu') as (a' & b' & c' & d' & ->). apply hex4_spec in Hu'.
    cbn [app scan_string]. change (92 =? 34) with false. change (92 =? 92) with true.
    change (117 =? 117) with true. cbv iota. rewrite Hu, (proj2 (is_high_spec _) Hh). cbn [andb].
    cbv iota. rewrite Hu', (proj2 (is_low_spec _) Hl), IH. cbn [scons].
    unfold join_surrogates. rewrite N.add_assoc. reflexivity.
Qed.

(** ** White space *)

Lemma skip_ws_spec : forall s, exists w, s = w ++ skip_ws s /\ white w /\ stops is_ws (skip_ws s).
Proof.
  intros s. unfold skip_ws. destruct (span is_ws s) as [w r] eqn:E. apply span_sound in E.
  destruct E as (-> & Hw & Hs). exists w. cbn [snd]. rewrite <- white_forall in Hw. auto.
Qed.

Lemma skip_ws_app : forall w r, white w -> skip_ws (w ++ r) = skip_ws r.
Proof.
  intros w r H. induction H as [| c w Hc Hw IH]; [reflexivity |].
  unfold skip_ws in *. cbn [app span].
  rewrite (proj2 (is_ws_spec c) Hc). destruct (span is_ws (w ++ r)). exact IH.
Qed.

Lemma skip_ws_stop : forall r, stops is_ws r -> skip_ws r = r.
Proof.
  intros [| c r] H; [reflexivity |]. unfold skip_ws. cbn in *. rewrite H. reflexivity.
Qed.

Lemma skip_ws_white : forall w, white w -> skip_ws w = [].
Proof. intros w H. rewrite <- (app_nil_r w), skip_ws_app by assumption. reflexivity. Qed.

(** ** Numbers *)

Lemma value_of_digits_fold : forall d acc,
  value_of_digits acc d = fold_left (fun a c => a * 10 + (c - 48)) d acc.
Proof. induction d; intros acc; cbn; auto. Qed.

Lemma scan_digits1_sound : forall s d r, scan_digits1 s = Some (d, r) ->
  s = d ++ r /\ d <> [] /\ digits d /\ stops is_digit r.
Proof.
  intros s d r H. unfold scan_digits1 in H. destruct (span is_digit s) as [d' r'] eqn:E.
  destruct d' as [| c d']; [discriminate |]. injection H as <- <-. apply span_sound in E.
  destruct E as (-> & Hd & Hs). rewrite <- digits_forall in Hd.
  repeat split; [discriminate | exact Hd | exact Hs].
Qed.

Lemma scan_digits1_complete : forall d r, digits d -> d <> [] -> stops is_digit r ->
  scan_digits1 (d ++ r) = Some (d, r).
Proof.
  intros d r H Hn Hs. unfold scan_digits1. rewrite span_complete; [| apply digits_forall; exact H | exact Hs].
  destruct d; [congruence | reflexivity].
Qed.

Lemma scan_int_sound : forall s i r, scan_int s = Some (i, r) -> s = i ++ r /\ int_part i.
Proof.
  intros [| c s] i r H; [discriminate |]. unfold scan_int in H. destruct (N.eqb_spec c 48) as [-> | Hne].
  - injection H as <- <-. split; [reflexivity | left; reflexivity].
  - apply scan_digits1_sound in H. destruct H as (E & Hn & Hd & _). split; [exact E |].
    destruct i as [| c' d]; [congruence |]. cbn [app] in E. injection E as -> ->.
    inversion Hd; subst. right. exists c', d. split; [reflexivity |]. split; [lia | assumption].
Qed.

Lemma scan_int_complete : forall i r, int_part i -> stops is_digit r -> scan_int (i ++ r) = Some (i, r).
Proof.
  intros i r [-> | (c & d & -> & Hc & Hd)] Hs; [reflexivity |].
  cbn [app scan_int]. destruct (N.eqb_spec c 48); [lia |].
  apply (scan_digits1_complete (c :: d)); [constructor; [lia | exact Hd] | discriminate | exact Hs].
Qed.

Lemma scan_frac_sound : forall s f r, scan_frac s = (f, r) -> s = f ++ r /\ (frac_part f \/ f = []).
Proof.
  intros [| c s] f r H; unfold scan_frac in H; [injection H as <- <-; auto |].
  destruct (N.eqb_spec c 46) as [-> | _]; [| injection H as <- <-; auto].
  destruct (scan_digits1 s) as [[d r'] |] eqn:E; injection H as <- <-; [| auto].
  apply scan_digits1_sound in E. destruct E as (-> & Hn & Hd & _). split; [reflexivity |].
  left. exists d. auto.
Qed.

Lemma scan_exp_sound : forall s f r, scan_exp s = (f, r) -> s = f ++ r /\ (exp_part f \/ f = []).
Proof.
  intros [| x s] f r H; unfold scan_exp in H; [injection H as <- <-; auto |].
  destruct ((x =? 101) || (x =? 69)) eqn:Ex; [| injection H as <- <-; auto].
  rewrite orb_true_iff, !N.eqb_eq in Ex.
  destruct s as [| c s]; [injection H as <- <-; auto |].
  destruct ((c =? 45) || (c =? 43)) eqn:Ec.
  - rewrite orb_true_iff, !N.eqb_eq in Ec.
    destruct (scan_digits1 s) as [[d r'] |] eqn:E; injection H as <- <-; [| auto].
    apply scan_digits1_sound in E. destruct E as (-> & Hn & Hd & _). split; [reflexivity |].
    left. exists x, [c], d. repeat split; auto. destruct Ec as [-> | ->]; auto.
  - destruct (scan_digits1 (c :: s)) as [[d r'] |] eqn:E; injection H as <- <-; [| auto].
    apply scan_digits1_sound in E. destruct E as (E & Hn & Hd & _). split; [cbn [app]; rewrite E; reflexivity |].
    left. exists x, [], d. repeat split; auto.
Qed.

(** Characters that cannot continue a number. *)
Definition ends_number (r : pystr) : Prop :=
  match r with
  | [] => True
  | c :: _ => is_digit c = false /\ c <> 46 /\ c <> 101 /\ c <> 69
  end.
Lemma ends_number_digit : forall r, ends_number r -> stops is_digit r.
Proof. intros [| c r] H; cbn in *; tauto. Qed.

Lemma scan_frac_complete : forall f r, frac_part f -> stops is_digit r -> scan_frac (f ++ r) = (f, r).
Proof.
  intros f r (d & -> & Hn & Hd) Hs. cbn [app scan_frac]. change (46 =? 46) with true. cbv iota.
  rewrite scan_digits1_complete by assumption. reflexivity.
Qed.

Lemma scan_exp_complete : forall f r, exp_part f -> stops is_digit r -> scan_exp (f ++ r) = (f, r).
Proof.
  intros f r (x & sg & d & -> & Hx & Hsg & Hn & Hd) Hs. cbn [app scan_exp].
  replace ((x =? 101) || (x =? 69)) with true by (destruct Hx as [-> | ->]; reflexivity).
  destruct Hsg as [-> | Hsg].
  - cbn [app]. destruct d as [| c d]; [congruence |]. cbn [app].
    assert (Hc : 48 <= c <= 57) by (inversion Hd; assumption).
    replace ((c =? 45) || (c =? 43)) with false
      by (symmetry; rewrite orb_false_iff, !N.eqb_neq; lia).
    pose proof (scan_digits1_complete (c :: d) r Hd Hn Hs) as E. cbn [app] in E. rewrite E. reflexivity.
  - destruct Hsg as [-> | ->]; cbn [app]; cbn [N.eqb Pos.eqb orb];
      rewrite scan_digits1_complete by assumption; reflexivity.
Qed.

Lemma scan_frac_none : forall r, ends_number r -> scan_frac r = ([], r).
Proof.
  intros [| c r] H; [reflexivity |]. cbn in H. unfold scan_frac.
  rewrite (proj2 (N.eqb_neq _ _)) by tauto. reflexivity.
Qed.
Lemma scan_exp_none : forall r, ends_number r -> scan_exp r = ([], r).
Proof.
  intros [| c r] H; [reflexivity |]. cbn in H. unfold scan_exp.
  rewrite !(proj2 (N.eqb_neq _ _)) by tauto. reflexivity.
Qed.

Lemma over_limit_false : forall rt i, over_limit rt i = false <-> convertible rt i.
Proof.
  intros rt i. unfold over_limit, convertible. rewrite andb_false_iff, !N.ltb_ge. lia.
Qed.

(** The value and text of a number. *)
Lemma scan_number_sound : forall rt s v r, scan_number rt s = Ok (v, r) ->
  exists t, s = t ++ r /\ json_value rt v t.
Proof.
  intros rt s v r H. unfold scan_number in H.
  assert (G : forall sg s1, (sg = [] \/ sg = [45]) -> s = sg ++ s1 ->
    match scan_int s1 with
    | None => Err JSONDecodeError
    | Some (i, s2) =>
        let (f, s3) := scan_frac s2 in
        let (e, s4) := scan_exp s3 in
        match f, e with
        | [], [] =>
            if over_limit rt i then Err (ValueError "integer string conversion")
            else Ok (JInt (match sg with
                           | [] => Z.of_N (digits_N i)
                           | _ => Z.opp (Z.of_N (digits_N i))
                           end), s4)
        | _, _ => Ok (JFloat (float_parse rt (sg ++ i ++ f ++ e)), s4)
        end
    end = Ok (v, r) -> exists t, s = t ++ r /\ json_value rt v t).
  { clear H. intros sg s1 Hsg Es H.
    destruct (scan_int s1) as [[i s2] |] eqn:Ei; [| discriminate].
    destruct (scan_frac s2) as [f s3] eqn:Ef. destruct (scan_exp s3) as [e s4] eqn:Ee.
    apply scan_int_sound in Ei. destruct Ei as (-> & Hi).
    apply scan_frac_sound in Ef. destruct Ef as (-> & Hf).
    apply scan_exp_sound in Ee. destruct Ee as (-> & He).
    assert (Gf : f ++ e <> [] -> Ok (JFloat (float_parse rt (sg ++ i ++ f ++ e)), s4) = Ok (v, r) ->
                 exists t, s = t ++ r /\ json_value rt v t).
    { intros Hne E. apply ok_inj in E. pose proof (f_equal fst E) as Ev. pose proof (f_equal snd E) as Er.
      cbn [fst snd] in Ev, Er. subst v s4. exists (sg ++ i ++ f ++ e). split.
      - rewrite Es. rewrite <- !app_assoc. reflexivity.
      - constructor. exists sg, i, f, e. repeat split; auto. }
    destruct f as [| cf f].
    - destruct e as [| ce e]; [| apply Gf; [discriminate | exact H]].
      destruct (over_limit rt i) eqn:Eo; [discriminate |].
      apply over_limit_false in Eo.
      apply ok_inj in H. pose proof (f_equal fst H) as Ev. pose proof (f_equal snd H) as Er.
      cbn [fst snd] in Ev, Er. subst v s4. cbn [app] in Es. exists (sg ++ i). split.
      + rewrite Es, <- app_assoc. reflexivity.
      + unfold digits_N. rewrite <- value_of_digits_fold. destruct Hsg as [-> | ->]; cbn [app]; constructor; assumption.
    - apply Gf; [discriminate |]. destruct e; exact H. }
  destruct s as [| c s'].
  - apply (G [] []); auto.
  - destruct (N.eqb_spec c 45) as [-> | _].
    + apply (G [45] s'); auto.
    + apply (G [] (c :: s')); auto.
Qed.

Definition not_minus (s : pystr) : Prop := match s with c :: _ => c <> 45 | [] => True end.
Lemma scan_number_sign : forall rt sg s1, (sg = [] /\ not_minus s1) \/ sg = [45] ->
  scan_number rt (sg ++ s1) =
  match scan_int s1 with
  | None => Err JSONDecodeError
  | Some (i, s2) =>
      let (f, s3) := scan_frac s2 in
      let (e, s4) := scan_exp s3 in
      match f, e with
      | [], [] =>
          if over_limit rt i then Err (ValueError "integer string conversion")
          else Ok (JInt (match sg with
                         | [] => Z.of_N (digits_N i)
                         | _ => Z.opp (Z.of_N (digits_N i))
                         end), s4)
      | _, _ => Ok (JFloat (float_parse rt (sg ++ i ++ f ++ e)), s4)
      end
  end.
Proof.
  intros rt sg s1 [[-> H] | ->]; unfold scan_number; [| reflexivity].
  cbn [app]. destruct s1 as [| c s1]; [reflexivity |]. cbn in H.
  rewrite (proj2 (N.eqb_neq _ _) H). reflexivity.
Qed.

Lemma int_part_head : forall i, int_part i -> exists c d, i = c :: d /\ 48 <= c <= 57.
Proof. intros i [-> | (c & d & -> & Hc & _)]; eexists _, _; (split; [reflexivity | lia]). Qed.
Lemma int_part_not_minus : forall i r, int_part i -> not_minus (i ++ r).
Proof. intros i r H. apply int_part_head in H. destruct H as (c & d & -> & Hc). cbn. lia. Qed.

Lemma scan_int_text : forall rt sg i r, (sg = [] \/ sg = [45]) -> int_part i -> convertible rt i ->
  ends_number r ->
  scan_number rt (sg ++ i ++ r) =
  Ok (JInt (match sg with [] => Z.of_N (value_of_digits 0 i) | _ => - Z.of_N (value_of_digits 0 i) end)%Z, r).
Proof.
  intros rt sg i r Hsg Hi Hc Hr.
  rewrite scan_number_sign by (destruct Hsg; [left; split; [assumption | apply int_part_not_minus; exact Hi] | right; assumption]).
  rewrite scan_int_complete by (try assumption; apply ends_number_digit; exact Hr).
  rewrite scan_frac_none, scan_exp_none by assumption.
  rewrite (proj2 (over_limit_false _ _) Hc). unfold digits_N. rewrite <- value_of_digits_fold. reflexivity.
Qed.

Lemma scan_float_text : forall rt t r, float_literal t -> ends_number r ->
  scan_number rt (t ++ r) = Ok (JFloat (float_parse rt t), r).
Proof.
  intros rt t r (sg & i & f & e & -> & Hsg & Hi & Hf & He & Hne) Hr.
  replace ((sg ++ i ++ f ++ e) ++ r) with (sg ++ i ++ f ++ e ++ r) by (rewrite <- !app_assoc; reflexivity).
  assert (He' : scan_exp (e ++ r) = (e, r)).
  { destruct He as [He | ->]; [apply scan_exp_complete; [exact He | apply ends_number_digit; exact Hr]
                              | apply scan_exp_none; exact Hr]. }
  assert (Hes : stops is_digit (e ++ r) /\ (match e ++ r with c :: _ => c <> 46 | [] => True end)).
  { destruct He as [(x & s & d & -> & Hx & _) | ->].
    - cbn. destruct Hx as [-> | ->]; split; [reflexivity | discriminate | reflexivity | discriminate].
    - cbn [app]. destruct r as [| c r]; cbn in *; tauto. }
  destruct Hes as [Hes He46].
  assert (Hf' : scan_frac (f ++ e ++ r) = (f, e ++ r)).
  { destruct Hf as [Hf | ->]; [apply scan_frac_complete; assumption |].
    cbn [app]. destruct (e ++ r) as [| c s]; [reflexivity |]. unfold scan_frac.
    rewrite (proj2 (N.eqb_neq _ _) He46). reflexivity. }
  assert (Hfs : stops is_digit (f ++ e ++ r)).
  { destruct Hf as [(d & -> & _) | ->]; [reflexivity | exact Hes]. }
  rewrite scan_number_sign by (destruct Hsg; [left; split; [assumption | apply int_part_not_minus; exact Hi] | right; assumption]).
  rewrite scan_int_complete, Hf', He' by assumption.
  destruct f, e; [exfalso; apply Hne; reflexivity | reflexivity | reflexivity | reflexivity].
Qed.

(** ** Text of integers *)

Lemma value_of_digits_app : forall a b acc,
  value_of_digits acc (a ++ b) = value_of_digits (value_of_digits acc a) b.
Proof. induction a; intros; cbn; auto. Qed.

Lemma dec_go_spec : forall fuel n, n < 2 ^ N.of_nat fuel \/ n = 0 ->
  value_of_digits 0 (dec_go fuel n) = n /\
  (n = 0 /\ dec_go fuel n = [48] \/
   0 < n /\ exists c d, dec_go fuel n = c :: d /\ 49 <= c <= 57 /\ digits d).
Proof.
  induction fuel as [| f IH]; intros n Hn.
  - assert (n = 0) by (destruct Hn as [Hn | Hn]; [cbn in Hn; lia | exact Hn]). subst n. cbn. auto.
  - cbn [dec_go]. destruct (N.ltb_spec n 10).
    + split; [cbn [value_of_digits]; lia |]. destruct (N.eq_dec n 0) as [-> | Hz]; [left; auto |].
      right. split; [lia |]. exists (48 + n), []. split; [reflexivity |]. split; [lia | constructor].
    + assert (Hq : n / 10 < 2 ^ N.of_nat f \/ n / 10 = 0).
      { left. destruct Hn as [Hn | Hn]; [| lia]. rewrite Nat2N.inj_succ, N.pow_succ_r' in Hn.
        apply N.div_lt_upper_bound; lia. }
      destruct (IH _ Hq) as (Hv & Hs).
      assert (Hpos : 0 < n / 10) by (apply N.div_str_pos; lia).
      assert (Hm : n mod 10 < 10) by (apply N.mod_lt; lia).
      pose proof (N.div_mod n 10 ltac:(lia)) as Hdm.
      rewrite value_of_digits_app, Hv. split; [cbn [value_of_digits]; lia |].
      right. split; [lia |]. destruct Hs as [(Hz & _) | (_ & c & d & -> & Hc & Hd)]; [lia |].
      exists c, (d ++ [48 + n mod 10]). split; [reflexivity |]. split; [exact Hc |].
      apply Forall_app. split; [exact Hd |]. constructor; [lia | constructor].
Qed.

Lemma size_nat_bound : forall n, n < 2 ^ N.of_nat (N.size_nat n) \/ n = 0.
Proof.
  intros [| p]; [right; reflexivity |]. left. cbn [N.size_nat].
  induction p as [p IH | p IH |]; cbn [Pos.size_nat]; rewrite ?Nat2N.inj_succ, ?N.pow_succ_r'; lia.
Qed.

Lemma dec_N_value : forall n, value_of_digits 0 (dec_N n) = n.
Proof. intros n. apply dec_go_spec, size_nat_bound. Qed.
Lemma dec_N_int_part : forall n, int_part (dec_N n).
Proof.
  intros n. unfold dec_N. destruct (dec_go_spec _ _ (size_nat_bound n)) as (_ & [(_ & H) | (_ & H)]).
  - left. exact H.
  - right. exact H.
Qed.

Lemma value_upper : forall d acc, digits d -> value_of_digits acc d < (acc + 1) * 10 ^ N.of_nat (length d).
Proof.
  induction d as [| c d IH]; intros acc H; cbn [value_of_digits length].
  - change (N.of_nat 0) with 0. rewrite N.pow_0_r. lia.
  - inversion H as [| ? ? Hc Hd]; subst. specialize (IH (acc * 10 + (c - 48)) Hd).
    rewrite Nat2N.inj_succ, N.pow_succ_r'. nia.
Qed.
Lemma value_lower : forall d acc, digits d -> acc * 10 ^ N.of_nat (length d) <= value_of_digits acc d.
Proof.
  induction d as [| c d IH]; intros acc H; cbn [value_of_digits length].
  - change (N.of_nat 0) with 0. rewrite N.pow_0_r. lia.
  - inversion H as [| ? ? Hc Hd]; subst. specialize (IH (acc * 10 + (c - 48)) Hd).
    rewrite Nat2N.inj_succ, N.pow_succ_r'. nia.
Qed.

(** The digit limit in terms of the number. *)
Lemma dec_N_convertible : forall rt n, convertible rt (dec_N n) <->
  int_max_str_digits rt = 0 \/ n < 10 ^ int_max_str_digits rt.
Proof.
  intros rt n. unfold convertible.
  destruct (N.eq_dec (int_max_str_digits rt) 0) as [E | E]; [tauto |].
  pose proof (dec_N_value n) as Hv. pose proof (dec_N_int_part n) as Hi.
  set (m := int_max_str_digits rt) in *.
  destruct Hi as [Hi | (c & d & Hi & Hc & Hd)]; rewrite Hi in *.
  - cbn in Hv. subst n. split; intros _; right; [| cbn; lia].
    assert (10 ^ m <> 0) by (apply N.pow_nonzero; lia). lia.
  - cbn [value_of_digits length] in *. pose proof (value_upper d (0 * 10 + (c - 48)) Hd) as Hu.
    pose proof (value_lower d (0 * 10 + (c - 48)) Hd) as Hl. rewrite Hv in *.
    rewrite Nat2N.inj_succ. set (k := N.of_nat (length d)) in *. split; (intros [H | H]; [lia |]); right.
    + assert (10 ^ N.succ k <= 10 ^ m) by (apply N.pow_le_mono_r; lia).
      rewrite N.pow_succ_r' in *. nia.
    + destruct (N.le_gt_cases (N.succ k) m) as [Hle | Hgt]; [exact Hle | exfalso].
      assert (10 ^ m <= 10 ^ k) by (apply N.pow_le_mono_r; lia). nia.
Qed.
