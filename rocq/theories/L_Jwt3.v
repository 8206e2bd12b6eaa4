(** Claims and the validator. *)
From Coq Require Import Strings.Byte Strings.String List NArith ZArith Bool Lia.
From Verif Require Import M_Base M_Proto M_JwtTypes M_Json M_RawJwt M_JwtValidator
  M_JwtFormat L_Base S_Json L_Json L_Json2 L_Json3 L_Json4 S_Keyset S_Jwt L_Jwt L_Jwt2.
Import ListNotations.
Open Scope string_scope.
Open Scope list_scope.
Open Scope Z_scope.

(** ** Typed claims *)

Lemma validate_string_ok : forall p n, NoDup (map fst p) ->
  (validate_string_claim p n = Ok tt <-> forall v, In (ulit n, v) p -> is_string v).
Proof.
  intros p n Hn. unfold validate_string_claim. destruct (payload_get p n) as [v |] eqn:E.
  - apply payload_get_in in E; [| exact Hn]. split.
    + intros H w Hw. apply payload_get_in in E, Hw; [| exact Hn ..]. assert (w = v) by congruence. subst w.
      destruct v; try discriminate. eexists; reflexivity.
    + intros H. destruct (H v E) as (x & ->). reflexivity.
  - pose proof (proj1 (payload_get_none p n) E) as K. split; [| reflexivity].
    intros _ v Hv. exfalso. exact (K v Hv).
Qed.

Lemma timestamp_ok : forall v,
  match gt_bound v MAX_TIMESTAMP_VALUE, lt_zero v with
  | Some g, Some l => g || l = false <-> timestamp v
  | _, _ => ~ timestamp v
  end.
Proof.
  intros [| b | z | f | x | l | l]; cbn [gt_bound lt_zero timestamp]; try tauto.
  - destruct b; cbn; split; auto.
  - unfold MAX_TIMESTAMP_VALUE, max_timestamp. rewrite orb_false_iff, Z.ltb_ge, Z.ltb_ge. lia.
  - destruct f as [| b | | z]; cbn [gt_bound lt_zero timestamp].
    + split; auto.
    + destruct b; cbn; (split; [discriminate | intros []]).
    + cbn. split; auto.
    + unfold MAX_TIMESTAMP_VALUE, max_timestamp, two_1074. rewrite orb_false_iff, Z.ltb_ge, Z.ltb_ge. tauto.
Qed.

Lemma validate_timestamp_ok : forall p n, NoDup (map fst p) ->
  (validate_timestamp_claim p n = Ok tt <-> forall v, In (ulit n, v) p -> timestamp v).
Proof.
  intros p n Hn. unfold validate_timestamp_claim. destruct (payload_get p n) as [v |] eqn:E.
  - apply payload_get_in in E; [| exact Hn]. pose proof (timestamp_ok v) as T.
    destruct (gt_bound v MAX_TIMESTAMP_VALUE) as [g |]; [destruct (lt_zero v) as [l |] |].
    + split.
      * intros H w Hw. apply payload_get_in in E, Hw; [| exact Hn ..]. assert (w = v) by congruence. subst w.
        apply T. destruct (g || l); [discriminate | reflexivity].
      * intros H. specialize (H v E). apply T in H. rewrite H. reflexivity.
    + split; [discriminate |]. intros H. exfalso. apply T, H, E.
    + split; [discriminate |]. intros H. exfalso. apply T, H, E.
  - pose proof (proj1 (payload_get_none p n) E) as K. split; [| reflexivity].
    intros _ v Hv. exfalso. exact (K v Hv).
Qed.

Definition audience_value (v : json) : Prop :=
  is_string v \/ exists l, v = JList l /\ l <> [] /\ Forall is_string l.
Lemma forallb_is_str : forall l, forallb is_str l = true <-> Forall is_string l.
Proof.
  intros l. rewrite forallb_forall, Forall_forall. split; intros H v Hv; specialize (H v Hv).
  - destruct v; try discriminate. eexists; reflexivity.
  - destruct H as (x & ->). reflexivity.
Qed.
Lemma validate_audience_ok : forall p, NoDup (map fst p) ->
  (validate_audience_claim p = Ok tt <-> forall v, In (ulit "aud", v) p -> audience_value v).
Proof.
  intros p Hn. unfold validate_audience_claim. destruct (payload_get p "aud") as [v |] eqn:E.
  - apply payload_get_in in E; [| exact Hn].
    assert (U : forall w, In (ulit "aud", w) p -> w = v).
    { intros w Hw. apply payload_get_in in E, Hw; [| exact Hn ..]. congruence. }
    split.
    + intros H w Hw. apply U in Hw. subst w. destruct v as [| | | | x | l |]; try discriminate.
      * left. eexists; reflexivity.
      * right. exists l. destruct l as [| i l]; [discriminate |]. split; [reflexivity |]. split; [discriminate |].
        destruct (forallb is_str (i :: l)) eqn:F; [| discriminate]. apply forallb_is_str. exact F.
    + intros H. destruct (H v E) as [(x & ->) | (l & -> & Hl & Hf)]; [reflexivity |].
      destruct l as [| i l]; [contradiction |]. apply forallb_is_str in Hf. rewrite Hf. reflexivity.
  - pose proof (proj1 (payload_get_none p "aud") E) as K. split; [| reflexivity].
    intros _ v Hv. exfalso. exact (K v Hv).
Qed.

Theorem raw_jwt_init_iff : forall th p r, NoDup (map fst p) ->
  (raw_jwt_init th (JDict p) = Ok r <-> r = mk_raw_jwt th p /\ well_typed r).
Proof.
  intros th p r Hn. unfold raw_jwt_init. split.
  - intros H. apply bind_ok in H. destruct H as ([] & H1 & H). apply bind_ok in H. destruct H as ([] & H2 & H).
    apply bind_ok in H. destruct H as ([] & H3 & H). apply bind_ok in H. destruct H as ([] & H4 & H).
    apply bind_ok in H. destruct H as ([] & H5 & H). apply bind_ok in H. destruct H as ([] & H6 & H).
    apply bind_ok in H. destruct H as ([] & H7 & H). apply ok_inj in H. subst r.
    split; [reflexivity |]. unfold well_typed, has_value. cbn [rj_payload]. split; [exact Hn |].
    pose proof (proj1 (validate_string_ok p _ Hn) H1). pose proof (proj1 (validate_string_ok p _ Hn) H2).
    pose proof (proj1 (validate_string_ok p _ Hn) H3). pose proof (proj1 (validate_timestamp_ok p _ Hn) H4).
    pose proof (proj1 (validate_timestamp_ok p _ Hn) H5). pose proof (proj1 (validate_timestamp_ok p _ Hn) H6).
    pose proof (proj1 (validate_audience_ok p Hn) H7).
    split; [| split; [| assumption]]; intros n v [<- | [<- | [<- | []]]]; auto.
  - intros (-> & _ & Hs & Ht & Ha). unfold has_value in *. cbn [rj_payload] in *.
    assert (S : forall n, In n ["iss"; "sub"; "jti"] -> validate_string_claim p n = Ok tt)
      by (intros n Hi; apply validate_string_ok; [exact Hn | intros v; apply Hs; exact Hi]).
    assert (T : forall n, In n ["exp"; "nbf"; "iat"] -> validate_timestamp_claim p n = Ok tt)
      by (intros n Hi; apply validate_timestamp_ok; [exact Hn | intros v; apply Ht; exact Hi]).
    rewrite !S by (cbn; auto). cbn [bind]. rewrite !T by (cbn; auto). cbn [bind].
    rewrite (proj2 (validate_audience_ok p Hn) Ha). reflexivity.
Qed.

Theorem raw_jwt_init_err : forall th v e, raw_jwt_init th v = Err e -> is_jwt_invalid_error e = true.
Proof.
  intros th v e H. unfold raw_jwt_init in H. destruct v; try (inversion H; reflexivity).
  assert (S : forall p n e', validate_string_claim p n = Err e' -> is_jwt_invalid_error e' = true).
  { intros p n e' K. unfold validate_string_claim in K. destruct (payload_get p n) as [[] |]; inversion K; reflexivity. }
  assert (T : forall p n e', validate_timestamp_claim p n = Err e' -> is_jwt_invalid_error e' = true).
  { intros p n e' K. unfold validate_timestamp_claim in K. destruct (payload_get p n) as [w |]; [| discriminate].
    destruct (gt_bound _ _); [destruct (lt_zero w) |]; try (inversion K; reflexivity).
    destruct (b || b0); inversion K. reflexivity. }
  repeat (apply bind_err in H; destruct H as [H | ([] & _ & H)]; [first [eapply S; exact H | eapply T; exact H | idtac] |]).
  - unfold validate_audience_claim in H.
    destruct (payload_get l "aud") as [[| | | | | m |] |]; try (inversion H; reflexivity).
    destruct m; [inversion H; reflexivity |]. destruct (forallb _ _); inversion H. reflexivity.
  - discriminate.
Qed.

(** ** Validator *)

Lemma claim_ok : forall r n v, NoDup (map fst (rj_payload r)) -> (claim r n = Ok v <-> has_value r n v).
Proof.
  intros r n v Hn. unfold claim, has_value. rewrite <- payload_get_in by exact Hn.
  destruct (payload_get (rj_payload r) n); split; intros; try discriminate; congruence.
Qed.
Lemma has_claim_spec : forall r n, NoDup (map fst (rj_payload r)) ->
  if has_claim r n then exists v, has_value r n v /\ claim r n = Ok v else lacks r n.
Proof.
  intros r n Hn. unfold has_claim, claim, lacks, has_value. destruct (payload_get (rj_payload r) n) as [v |] eqn:E.
  - exists v. split; [apply payload_get_in; assumption | reflexivity].
  - apply payload_get_none. exact E.
Qed.
Lemma has_value_fun : forall r n v w, NoDup (map fst (rj_payload r)) ->
  has_value r n v -> has_value r n w -> v = w.
Proof. intros r n v w Hn Hv Hw. apply claim_ok in Hv, Hw; [| exact Hn ..]. congruence. Qed.

Lemma in_range_spec : forall us, datetime_in_range us = true <-> representable us.
Proof. intros us. unfold datetime_in_range, representable, MIN_DATETIME_US, MAX_DATETIME_US. lia. Qed.
Lemma shift_ok : forall now d x, shift now d = Ok x <-> x = now + d /\ representable x.
Proof.
  intros now d x. unfold shift. destruct (datetime_in_range (now + d)) eqn:E.
  - apply in_range_spec in E. split; [intros H; apply ok_inj in H; subst; auto | intros (-> & _); reflexivity].
  - split; [discriminate |]. intros (-> & H). apply in_range_spec in H. congruence.
Qed.

Lemma to_datetime_ok : forall rt v t, to_datetime rt v = Ok t ->
  instant rt v (dt_us t) /\ dt_has_tz t = true.
Proof.
  intros rt v t H. destruct v as [| b | z | f | x | l | l]; try discriminate; cbn [to_datetime] in H; cbn [instant].
  - destruct (datetime_in_range _); inversion H. auto.
  - destruct (datetime_in_range _); inversion H. auto.
  - destruct f; try discriminate; destruct (datetime_in_range _); inversion H; auto.
Qed.
Lemma to_datetime_complete : forall rt v us, float_times_ok rt -> timestamp v -> instant rt v us ->
  to_datetime rt v = Ok (mk_datetime true us).
Proof.
  intros rt v us Hf Ht Hi. destruct v as [| b | z | f | x | l | l]; try contradiction; cbn [timestamp instant to_datetime] in Ht, Hi |- *.
  - subst us. destruct b; reflexivity.
  - subst us. unfold max_timestamp in Ht. rewrite (proj2 (in_range_spec (z * 1000000))); [reflexivity |].
    unfold representable. lia.
  - destruct f as [| b | | z]; try contradiction; subst us;
      (rewrite (proj2 (in_range_spec _)); [reflexivity | apply Hf; [exact Ht | discriminate]]).
Qed.
Lemma timestamp_instant : forall rt v, timestamp v -> v <> JFloat FNaN -> exists us, instant rt v us.
Proof.
  intros rt v Ht Hn. destruct v as [| b | z | f | x | l | l]; try contradiction; cbn; eauto.
  destruct f; try contradiction; eauto.
Qed.

Lemma check_expected_ok : forall ex ig (o : option json) value,
  (forall v, o = Some v -> value = Ok v) ->
  (check_expected ex ig (is_some o) value = Ok tt <-> matches ex ig o).
Proof.
  intros ex ig o value Hv. unfold check_expected, matches. destruct ex as [x |].
  - destruct o as [v |]; cbn [is_some negb].
    + rewrite (Hv v eq_refl). cbn [bind]. destruct (str_is x v) eqn:E.
      * apply str_is_spec in E. subst v. split; auto.
      * split; [discriminate |]. intros H. apply some_inj in H. apply str_is_spec in H. congruence.
    + split; discriminate.
  - destruct o as [v |]; cbn [is_some andb]; [destruct ig; cbn; split; auto; intros; try discriminate|].
    + destruct H; discriminate.
    + split; auto.
Qed.
Lemma check_expected_err : forall ex ig (o : option json) value e,
  (forall v, o = Some v -> value = Ok v) ->
  check_expected ex ig (is_some o) value = Err e -> is_jwt_invalid_error e = true.
Proof.
  intros ex ig o value e Hv H. unfold check_expected in H. destruct ex as [x |].
  - destruct o as [v |]; cbn [is_some negb] in H; [| inversion H; reflexivity].
    rewrite (Hv v eq_refl) in H. cbn [bind] in H. destruct (str_is x v); inversion H. reflexivity.
  - destruct (is_some o && negb ig); inversion H. reflexivity.
Qed.

Definition issuer_of (r : raw_jwt) : option json := payload_get (rj_payload r) "iss".
Lemma has_issuer_some : forall r, has_issuer r = is_some (issuer_of r).
Proof. intros r. unfold has_issuer, has_claim, issuer_of. destruct (payload_get _ _); reflexivity. Qed.
Lemma issuer_value : forall r v, issuer_of r = Some v -> issuer r = Ok v.
Proof. intros r v H. unfold issuer, claim. unfold issuer_of in H. rewrite H. reflexivity. Qed.
Lemma has_type_some : forall r, has_type_header r = is_some (rj_type_header r).
Proof. intros r. unfold has_type_header. destruct (rj_type_header r); reflexivity. Qed.
Lemma type_value : forall r v, rj_type_header r = Some v -> type_header r = Ok v.
Proof. intros r v H. unfold type_header. rewrite H. reflexivity. Qed.

Lemma audiences_spec : forall r, well_typed r ->
  if has_audiences r then exists l, audiences r = Ok l /\ l <> [] /\ Forall is_string l /\
    forall x, In (JStr x) l <-> has_value r "aud" (JStr x) \/ exists m, has_value r "aud" (JList m) /\ In (JStr x) m
  else lacks r "aud".
Proof.
  intros r (Hn & _ & _ & Ha). unfold has_audiences. pose proof (has_claim_spec r "aud" Hn) as H.
  destruct (has_claim r "aud"); [| exact H]. destruct H as (v & Hv & Ev). unfold audiences. rewrite Ev.
  destruct (Ha v Hv) as [(x & ->) | (l & -> & Hl & Hf)].
  - exists [JStr x]. split; [reflexivity |]. split; [discriminate |]. split; [repeat constructor; eexists; reflexivity |].
    intros y. split.
    + intros [E | []]. injection E as ->. auto.
    + intros [H | (m & H & _)]; pose proof (has_value_fun _ _ _ _ Hn Hv H) as E; inversion E. left. reflexivity.
  - exists l. split; [reflexivity |]. split; [exact Hl |]. split; [exact Hf |].
    intros y. split.
    + intros H. right. exists l. auto.
    + intros [H | (m & H & Hy)]; pose proof (has_value_fun _ _ _ _ Hn Hv H) as E; inversion E. subst. exact Hy.
Qed.

Lemma existsb_str_is : forall x l, existsb (str_is x) l = true <-> In (JStr x) l.
Proof.
  intros x l. rewrite existsb_exists. split.
  - intros (v & Hv & E). apply str_is_spec in E. subst v. exact Hv.
  - intros H. exists (JStr x). split; [exact H | apply str_is_spec; reflexivity].
Qed.

(** Soundness. *)
Theorem validate_sound : forall rt clock v r, well_typed r ->
  validate rt clock v r = Ok tt -> accepts rt clock v r.
Proof.
  intros rt clock v r Hw H. pose proof Hw as (Hn & _). unfold validate in H. unfold accepts. cbv zeta in H |- *.
  fold (current_time v clock) in H.
  set (now := current_time v clock) in *. set (skew := jv_clock_skew v) in *.
  apply bind_ok in H. destruct H as ([] & H1 & H). apply bind_ok in H. destruct H as ([] & H2 & H).
  apply bind_ok in H. destruct H as ([] & H3 & H). apply bind_ok in H. destruct H as ([] & H4 & H).
  apply bind_ok in H. destruct H as ([] & H5 & H). apply bind_ok in H. destruct H as ([] & H6 & H7).
  assert (AT : forall n d (P : Z -> bool) (w : string),
     (e <- (x <- claim r n ;; to_datetime rt x) ;; limit <- shift now d ;;
      if P (dt_us e) then Err (JwtInvalidError w) else Ok tt) = Ok tt ->
     at_time rt r n (fun t => P t = false)).
  { intros n d P w E. apply bind_ok in E. destruct E as (t & Et & E). apply bind_ok in Et. destruct Et as (x & Ex & Et).
    apply bind_ok in E. destruct E as (l & El & E). apply to_datetime_ok in Et. apply claim_ok in Ex; [| exact Hn].
    exists x, (dt_us t). split; [exact Ex |]. split; [apply Et |]. destruct (P (dt_us t)); [discriminate | reflexivity]. }
  assert (AT' : forall n d (P : Z -> Z -> bool) (w : string),
     (e <- (x <- claim r n ;; to_datetime rt x) ;; limit <- shift now d ;;
      if P limit (dt_us e) then Err (JwtInvalidError w) else Ok tt) = Ok tt ->
     at_time rt r n (fun t => P (now + d) t = false)).
  { intros n d P w E. apply bind_ok in E. destruct E as (t & Et & E). apply bind_ok in Et. destruct Et as (x & Ex & Et).
    apply bind_ok in E. destruct E as (l & El & E). apply to_datetime_ok in Et. apply claim_ok in Ex; [| exact Hn].
    apply shift_ok in El. destruct El as [-> _].
    exists x, (dt_us t). split; [exact Ex |]. split; [apply Et |]. destruct (P _ (dt_us t)); [discriminate | reflexivity]. }
  repeat split.
  - pose proof (has_claim_spec r "exp" Hn) as K. unfold has_expiration in *. destruct (has_claim r "exp").
    + right. apply (AT' "exp" (- skew) (fun l t => t <=? l)) in H2. destruct H2 as (x & us & Hx & Hi & E).
      exists x, us. split; [exact Hx |]. split; [exact Hi |]. lia.
    + left. split; [exact K |]. destruct (jv_allow_missing_expiration v); [reflexivity | discriminate].
  - pose proof (has_claim_spec r "nbf" Hn) as K. unfold has_not_before in *. destruct (has_claim r "nbf"); [right | left; exact K].
    apply (AT' "nbf" skew (fun l t => l <? t)) in H3. destruct H3 as (x & us & Hx & Hi & E).
    exists x, us. split; [exact Hx |]. split; [exact Hi |]. lia.
  - intros Hp. rewrite Hp in H4. pose proof (has_claim_spec r "iat" Hn) as K. unfold has_issued_at in *.
    destruct (has_claim r "iat"); [| discriminate]. cbn [negb] in H4.
    apply (AT' "iat" skew (fun l t => l <? t)) in H4. destruct H4 as (x & us & Hx & Hi & E).
    exists x, us. split; [exact Hx |]. split; [exact Hi |]. lia.
  - rewrite has_type_some in H5. eapply check_expected_ok; [| exact H5]. apply type_value.
  - exists (issuer_of r). split; [| rewrite has_issuer_some in H6; eapply check_expected_ok; [| exact H6]; apply issuer_value].
    intros x. unfold issuer_of, has_value. symmetry. apply payload_get_in. exact Hn.
  - pose proof (audiences_spec r Hw) as K. destruct (jv_expected_audience v) as [x |].
    + destruct (has_audiences r); [| discriminate]. cbn [negb] in H7. destruct K as (l & El & _ & _ & K).
      rewrite El in H7. cbn [bind] in H7. destruct (existsb (str_is x) l) eqn:E; [| discriminate].
      apply K. apply existsb_str_is. exact E.
    + destruct (has_audiences r); [| left; exact K]. right. destruct (jv_ignore_audiences v); [reflexivity | discriminate].
Qed.

(** Completeness, when the times can be computed. *)
Theorem validate_complete : forall rt clock v r, well_typed r -> float_times_ok rt ->
  representable (current_time v clock - jv_clock_skew v) ->
  representable (current_time v clock + jv_clock_skew v) ->
  accepts rt clock v r -> validate rt clock v r = Ok tt.
Proof.
  intros rt clock v r Hw Hf R1 R2 (A1 & A2 & A3 & A4 & (iss & A5 & A5') & A6).
  pose proof Hw as (Hn & _ & Ht & _). unfold validate. cbv zeta.
  fold (current_time v clock).
  set (now := current_time v clock) in *. set (skew := jv_clock_skew v) in *.
  assert (S1 : shift now (- skew) = Ok (now - skew)).
  { apply shift_ok. split; [lia |]. exact R1. }
  assert (S2 : shift now skew = Ok (now + skew)) by (apply shift_ok; split; [reflexivity | exact R2]).
  assert (AT : forall n (P : Z -> Prop), In n ["exp"; "nbf"; "iat"] -> at_time rt r n P ->
     has_claim r n = true /\ exists t, (x <- claim r n ;; to_datetime rt x) = Ok t /\ P (dt_us t)).
  { intros n P Hin (x & us & Hx & Hi & HP). pose proof (Ht n x Hin Hx) as Htx.
    pose proof (has_claim_spec r n Hn) as K. destruct (has_claim r n); [| exfalso; exact (K x Hx)].
    split; [reflexivity |]. apply claim_ok in Hx; [| exact Hn]. rewrite Hx. cbn [bind].
    exists (mk_datetime true us). split; [apply to_datetime_complete; assumption | exact HP]. }
  assert (E1 : (if negb (has_expiration r) && negb (jv_allow_missing_expiration v) then
          Err (JwtInvalidError "token is missing an expiration") else Ok tt) = Ok tt).
  { destruct A1 as [(_ & ->) | A1]; [rewrite andb_false_r; reflexivity |].
    apply AT in A1; [| cbn; auto]. unfold has_expiration. rewrite (proj1 A1). reflexivity. }
  rewrite E1. cbn [bind].
  assert (L : forall n, lacks r n -> has_claim r n = false).
  { intros n Hl. pose proof (has_claim_spec r n Hn) as K. destruct (has_claim r n); [| reflexivity].
    destruct K as (x & Hx & _). exfalso. exact (Hl x Hx). }
  assert (E2 : (if has_expiration r then
          e <- expiration rt r ;;
          limit <- shift now (- skew) ;;
          if dt_us e <=? limit then Err (JwtInvalidError "token has expired") else Ok tt
        else Ok tt) = Ok tt).
  { destruct A1 as [(A1 & _) | A1].
    - unfold has_expiration. rewrite (L _ A1). reflexivity.
    - apply AT in A1; [| cbn; auto]. destruct A1 as (H1 & t & H2 & H3). unfold has_expiration, expiration. rewrite H1, H2.
      cbn [bind]. rewrite S1. cbn [bind]. replace (dt_us t <=? now - skew) with false by lia. reflexivity. }
  rewrite E2. cbn [bind]. clear E1 E2.
  assert (E3 : (if has_not_before r then
          e <- not_before rt r ;;
          limit <- shift now skew ;;
          if limit <? dt_us e then Err (JwtInvalidError "token cannot be used before") else Ok tt
        else Ok tt) = Ok tt).
  { destruct A2 as [A2 | A2].
    - unfold has_not_before. rewrite (L _ A2). reflexivity.
    - apply AT in A2; [| cbn; auto]. destruct A2 as (H1 & t & H2 & H3). unfold has_not_before, not_before. rewrite H1, H2.
      cbn [bind]. rewrite S2. cbn [bind]. replace (now + skew <? dt_us t) with false by lia. reflexivity. }
  rewrite E3. cbn [bind]. clear E3.
  assert (E4 : (if jv_expect_issued_in_the_past v then
          if negb (has_issued_at r) then Err (JwtInvalidError "token is missing iat claim")
          else
            e <- issued_at rt r ;;
            limit <- shift now skew ;;
            if limit <? dt_us e then Err (JwtInvalidError "iat claim in the future") else Ok tt
        else Ok tt) = Ok tt).
  { destruct (jv_expect_issued_in_the_past v); [| reflexivity]. specialize (A3 eq_refl).
    apply AT in A3; [| cbn; auto]. destruct A3 as (H1 & t & H2 & H3). unfold has_issued_at, issued_at. rewrite H1, H2.
    cbn [bind negb]. rewrite S2. cbn [bind]. replace (now + skew <? dt_us t) with false by lia. reflexivity. }
  rewrite E4. cbn [bind]. clear E4.
  rewrite has_type_some, (proj2 (check_expected_ok _ _ (rj_type_header r) (type_header r) (type_value r)) A4). cbn [bind].
  assert (Ei : iss = issuer_of r).
  { unfold issuer_of. destruct (payload_get (rj_payload r) "iss") as [x |] eqn:E.
    - apply A5. apply payload_get_in; assumption.
    - destruct iss as [x |]; [| reflexivity]. pose proof (proj2 (A5 x) eq_refl) as K.
      exfalso. exact (proj1 (payload_get_none _ _) E x K). }
  subst iss. rewrite has_issuer_some, (proj2 (check_expected_ok _ _ (issuer_of r) (issuer r) (issuer_value r)) A5'). cbn [bind].
  pose proof (audiences_spec r Hw) as K. destruct (jv_expected_audience v) as [x |].
  - destruct (has_audiences r).
    + destruct K as (l & -> & _ & _ & K). cbn [negb bind]. apply K in A6. apply existsb_str_is in A6. rewrite A6. reflexivity.
    + exfalso. destruct A6 as [H | (m & H & _)]; exact (K _ H).
  - destruct A6 as [A6 | ->]; [| rewrite andb_false_r; reflexivity].
    destruct (has_audiences r); [| reflexivity]. exfalso. destruct K as (l & _ & Hl & Hfa & K).
    destruct l as [| i l]; [contradiction |]. inversion Hfa as [| ? ? (x & ->) _]; subst.
    destruct (proj1 (K x) (or_introl eq_refl)) as [H | (m & H & _)]; exact (A6 _ H).
Qed.

(** Rejection is JwtInvalidError, when the times can be computed. *)
Theorem validate_rejects : forall rt clock v r e, well_typed r -> float_times_ok rt -> no_nan_times r ->
  representable (current_time v clock - jv_clock_skew v) ->
  representable (current_time v clock + jv_clock_skew v) ->
  validate rt clock v r = Err e -> is_jwt_invalid_error e = true.
Proof.
  intros rt clock v r e Hw Hf Hnan R1 R2 H. pose proof Hw as (Hn & _ & Ht & _). unfold validate in H. cbv zeta in H.
  fold (current_time v clock) in H.
  set (now := current_time v clock) in *. set (skew := jv_clock_skew v) in *.
  assert (S1 : shift now (- skew) = Ok (now - skew)) by (apply shift_ok; split; [lia | exact R1]).
  assert (S2 : shift now skew = Ok (now + skew)) by (apply shift_ok; split; [reflexivity | exact R2]).
  assert (T : forall n, In n ["exp"; "nbf"; "iat"] -> has_claim r n = true ->
     exists t, (x <- claim r n ;; to_datetime rt x) = Ok t).
  { intros n Hin Hc. pose proof (has_claim_spec r n Hn) as K. rewrite Hc in K. destruct K as (x & Hx & ->).
    cbn [bind]. pose proof (Ht n x Hin Hx) as Htx. destruct (timestamp_instant rt x Htx) as (us & Hus).
    - intros ->. exact (Hnan n Hin Hx).
    - eexists. apply to_datetime_complete; eassumption. }
  apply bind_err in H. destruct H as [H | (u & _ & H)].
  { destruct (_ && _); inversion H. reflexivity. }
  apply bind_err in H. destruct H as [H | (u1 & _ & H)].
  { unfold has_expiration, expiration in H. destruct (has_claim r "exp") eqn:E; [| discriminate].
    destruct (T "exp" ltac:(cbn; auto) E) as (t & Et). rewrite Et in H. cbn [bind] in H. rewrite S1 in H. cbn [bind] in H.
    destruct (_ <=? _); inversion H. reflexivity. }
  apply bind_err in H. destruct H as [H | (u2 & _ & H)].
  { unfold has_not_before, not_before in H. destruct (has_claim r "nbf") eqn:E; [| discriminate].
    destruct (T "nbf" ltac:(cbn; auto) E) as (t & Et). rewrite Et in H. cbn [bind] in H. rewrite S2 in H. cbn [bind] in H.
    destruct (_ <? _); inversion H. reflexivity. }
  apply bind_err in H. destruct H as [H | (u3 & _ & H)].
  { destruct (jv_expect_issued_in_the_past v); [| discriminate].
    unfold has_issued_at, issued_at in H. destruct (has_claim r "iat") eqn:E; [| inversion H; reflexivity].
    destruct (T "iat" ltac:(cbn; auto) E) as (t & Et). cbn [negb] in H. rewrite Et in H. cbn [bind] in H. rewrite S2 in H. cbn [bind] in H.
    destruct (_ <? _); inversion H. reflexivity. }
  apply bind_err in H. destruct H as [H | (u4 & _ & H)].
  { rewrite has_type_some in H. eapply check_expected_err; [| exact H]. apply type_value. }
  apply bind_err in H. destruct H as [H | (u5 & _ & H)].
  { rewrite has_issuer_some in H. eapply check_expected_err; [| exact H]. apply issuer_value. }
  pose proof (audiences_spec r Hw) as K. destruct (jv_expected_audience v) as [x |].
  - destruct (has_audiences r); [| inversion H; reflexivity]. cbn [negb] in H. destruct K as (l & El & _).
    rewrite El in H. cbn [bind] in H. destruct (existsb _ _); inversion H. reflexivity.
  - destruct (_ && _); inversion H. reflexivity.
Qed.

Theorem validate_decides : forall rt clock v r, well_typed r -> float_times_ok rt -> no_nan_times r ->
  representable (current_time v clock - jv_clock_skew v) ->
  representable (current_time v clock + jv_clock_skew v) ->
  match validate rt clock v r with
  | Ok _ => accepts rt clock v r
  | Err e => is_jwt_invalid_error e = true /\ ~ accepts rt clock v r
  end.
Proof.
  intros rt clock v r Hw Hf Hnan R1 R2. destruct (validate rt clock v r) as [[] | e] eqn:E.
  - apply validate_sound; assumption.
  - split; [eapply validate_rejects; eassumption |]. intros A.
    rewrite (validate_complete rt clock v r Hw Hf R1 R2 A) in E. discriminate.
Qed.

(** ** Construction of validators *)

Theorem new_validator_iff : forall th iss aud ith iiss iaud miss past skew now v,
  new_validator th iss aud ith iiss iaud miss past skew now = Ok v <->
  v = mk_jwt_validator th iss aud ith iiss iaud miss past
        (match skew with Some z => z | None => 0 end) now /\
  (forall x, th = Some x -> x <> [] -> ith = false) /\
  (forall x, iss = Some x -> x <> [] -> iiss = false) /\
  (forall x, aud = Some x -> x <> [] -> iaud = false) /\
  (forall z, skew = Some z -> z <= 10 * 60 * 1000000) /\
  (forall t, now = Some t -> dt_has_tz t = true).
Proof.
  intros th iss aud ith iiss iaud miss past skew now v. unfold new_validator.
  assert (N : forall o ig, nonempty o && ig = false <-> forall x : pystr, o = Some x -> x <> [] -> ig = false).
  { intros o ig. destruct o as [[| c x] |]; cbn [nonempty andb]; split.
    - intros _ x H. apply some_inj in H. subst. contradiction.
    - intros _. reflexivity.
    - intros -> y _ _. reflexivity.
    - intros H. apply (H (c :: x) eq_refl). discriminate.
    - intros _ x H. discriminate.
    - intros _. reflexivity. }
  rewrite <- !N. destruct (nonempty th && ith); [split; [discriminate | intros (_ & H & _); discriminate] |].
  destruct (nonempty iss && iiss); [split; [discriminate | intros (_ & _ & H & _); discriminate] |].
  destruct (nonempty aud && iaud); [split; [discriminate | intros (_ & _ & _ & H & _); discriminate] |].
  assert (K : (MAX_CLOCK_SKEW <? match skew with Some z => z | None => 0 end) = false <->
              (forall z, skew = Some z -> z <= 10 * 60 * 1000000)).
  { unfold MAX_CLOCK_SKEW. destruct skew as [z |]; rewrite Z.ltb_ge.
    - split; [intros H y E; apply some_inj in E; subst y; lia | intros H; specialize (H z eq_refl); lia].
    - split; [intros _ z E; discriminate | intros _; lia]. }
  rewrite <- K. destruct (_ <? _); [split; [discriminate | intros (_ & _ & _ & _ & H & _); discriminate] |].
  destruct now as [t |].
  - destruct (dt_has_tz t) eqn:Et; split.
    + intros H. apply ok_inj in H. subst v. repeat split; auto. intros t' E. apply some_inj in E. subst. exact Et.
    + intros (-> & _). reflexivity.
    + discriminate.
    + intros (_ & _ & _ & _ & _ & H). rewrite (H t eq_refl) in Et. discriminate.
  - split.
    + intros H. apply ok_inj in H. subst v. repeat split; auto. discriminate.
    + intros (-> & _). reflexivity.
Qed.

Theorem new_validator_err : forall th iss aud ith iiss iaud miss past skew now e,
  new_validator th iss aud ith iiss iaud miss past skew now = Err e -> exists m, e = ValueError m.
Proof.
  intros th iss aud ith iiss iaud miss past skew now e H. unfold new_validator in H.
  cbv zeta in H.
  repeat match type of H with (if ?b then _ else _) = _ => destruct b; [inversion H; eauto |] end.
  destruct now as [t |]; [| discriminate].
  destruct (dt_has_tz t); inversion H; eauto.
Qed.
