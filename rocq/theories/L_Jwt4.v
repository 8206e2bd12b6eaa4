(** Construction of raw JWTs. *)
From Coq Require Import Strings.Byte Strings.String List NArith ZArith Bool Lia.
From Verif Require Import M_Base M_Proto M_JwtTypes M_Json M_RawJwt
  L_Base S_Json L_Json L_Json2 L_Json3 L_Json4 S_Keyset S_Jwt L_Jwt L_Jwt2 L_Jwt3.
Import ListNotations.
Open Scope string_scope.
Open Scope list_scope.
Open Scope Z_scope.

(** ** Times *)

Lemma round_bounds : forall n d, 0 < d -> n / d <= round_half_even n d <= n / d + 1 /\
  (2 * (n mod d) < d -> round_half_even n d = n / d).
Proof.
  intros n d Hd. unfold round_half_even. destruct (Z.ltb_spec (2 * (n mod d)) d); [lia |].
  destruct (Z.ltb_spec d (2 * (n mod d))); [lia |]. destruct (Z.even (n / d)); lia.
Qed.
Lemma round_upper : forall n d m, 0 < d -> 2 * n + d < 2 * d * m -> round_half_even n d < m.
Proof.
  intros n d m Hd H. unfold round_half_even. pose proof (Z.div_mod n d ltac:(lia)) as E.
  pose proof (Z.mod_pos_bound n d Hd) as B. set (q := n / d) in *. set (r := n mod d) in *.
  destruct (Z.ltb_spec (2 * r) d); [nia |]. destruct (Z.ltb_spec d (2 * r)); [nia |]. destruct (Z.even q); nia.
Qed.

Lemma round_add : forall n d m, 0 < d -> Z.even m = true ->
  round_half_even (m * d + n) d = m + round_half_even n d.
Proof.
  intros n d m Hd He. unfold round_half_even. rewrite Z.add_comm, Z.div_add, Z.mod_add by lia.
  destruct (2 * (n mod d) <? d); [lia |]. destruct (d <? 2 * (n mod d)); [lia |].
  rewrite Z.even_add, He. destruct (Z.even (n / d)); cbn; lia.
Qed.

Lemma log2_bounds : forall q, 0 <= q -> 0 <= Z.log2 q /\ (forall b, 0 <= b -> q < 2 ^ (b + 1) -> Z.log2 q <= b).
Proof.
  intros q Hq. split; [apply Z.log2_nonneg |]. intros b Hb H.
  destruct (Z.eq_dec q 0) as [-> | Hz]; [cbn; lia |].
  apply Z.log2_lt_pow2 in H; lia.
Qed.

Lemma int_timestamp_abs_spec : forall us, 0 <= us < 2 ^ 52 * 1000000 ->
  us / 1000000 <= int_timestamp_abs us <= us / 1000000 + 1 /\
  (us < 2 ^ 34 * 1000000 -> int_timestamp_abs us = us / 1000000) /\
  (us < 2 ^ 38 * 1000000 -> us mod 1000000 <= 999984 -> int_timestamp_abs us = us / 1000000).
Proof.
  intros us Hus. unfold int_timestamp_abs. set (q := us / 1000000).
  assert (Hq : 0 <= q < 2 ^ 52) by (unfold q; split; [apply Z.div_pos; lia | apply Z.div_lt_upper_bound; lia]).
  destruct (log2_bounds q ltac:(lia)) as [L0 Lb]. set (e := Z.log2 q) in *.
  assert (Le : e <= 51) by (apply Lb; [lia | exact (proj2 Hq)]).
  assert (Hk : 0 < 2 ^ (52 - e)) by (apply Z.pow_pos_nonneg; lia).
  assert (Hev : Z.even (2 ^ (52 - e)) = true).
  { replace (52 - e) with (Z.succ (51 - e)) by lia. rewrite Z.pow_succ_r by lia. rewrite Z.even_mul. reflexivity. }
  set (k2 := 2 ^ (52 - e)) in *.
  pose proof (Z.div_mod us 1000000 ltac:(lia)) as E. fold q in E.
  pose proof (Z.mod_pos_bound us 1000000 ltac:(lia)) as B. set (f := us mod 1000000) in *.
  assert (EQ : round_half_even (us * k2) 1000000 = q * k2 + round_half_even (f * k2) 1000000).
  { replace (us * k2) with (q * k2 * 1000000 + f * k2) by (rewrite E; ring).
    apply round_add; [lia |]. rewrite Z.even_mul, Hev. apply orb_true_r. }
  rewrite EQ. rewrite (Z.add_comm (q * k2)), Z.div_add by lia.
  pose proof (round_bounds (f * k2) 1000000 ltac:(lia)) as (Rb & _).
  assert (R0 : 0 <= f * k2 / 1000000) by (apply Z.div_pos; nia).
  assert (R1 : f * k2 / 1000000 + 1 <= k2).
  { assert (f * k2 / 1000000 < k2) by (apply Z.div_lt_upper_bound; nia). lia. }
  set (rr := round_half_even (f * k2) 1000000) in *.
  assert (D : 0 <= rr / k2 <= 1).
  { split; [apply Z.div_pos; lia |]. assert (rr / k2 < 2) by (apply Z.div_lt_upper_bound; lia). lia. }
  assert (X : rr < k2 -> rr / k2 = 0) by (intros; apply Z.div_small; lia).
  split; [lia |]. split; intros H1; [| intros H2].
  - assert (Hq34 : q < 2 ^ (33 + 1)) by (unfold q; apply Z.div_lt_upper_bound; lia).
    apply Lb in Hq34; [| lia]. assert (K : 2 ^ 19 <= k2) by (unfold k2; apply Z.pow_le_mono_r; lia).
    rewrite X; [lia |]. apply round_upper; [lia |]. change (2 ^ 19) with 524288 in K. nia.
  - assert (Hq38 : q < 2 ^ (37 + 1)) by (unfold q; apply Z.div_lt_upper_bound; lia).
    apply Lb in Hq38; [| lia]. assert (K : 2 ^ 15 <= k2) by (unfold k2; apply Z.pow_le_mono_r; lia).
    rewrite X; [lia |]. apply round_upper; [lia |]. change (2 ^ 15) with 32768 in K. nia.
Qed.

Theorem int_timestamp_spec : forall us, representable us -> whole_seconds us (int_timestamp us).
Proof.
  intros us (H1 & H2). unfold whole_seconds, int_timestamp. destruct (Z.ltb_spec us 0) as [Hn | Hp].
  - pose proof (int_timestamp_abs_spec (- us) ltac:(lia)) as (A1 & A2 & A3). split; [lia |]. split.
    + intros Hr. rewrite A2 by lia. rewrite Z.div_small by lia. reflexivity.
    + intros Hr. assert (1 <= - us / 1000000) by (apply Z.div_le_lower_bound; lia). lia.
  - pose proof (int_timestamp_abs_spec us ltac:(lia)) as (A1 & A2 & A3). split; [| lia].
    intros _. split; [exact A1 |]. split; [exact A2 |]. intros. apply A3; lia.
Qed.

Lemma from_datetime_ok : forall t s, from_datetime t = Ok s <->
  dt_has_tz t = true /\ s = int_timestamp (dt_us t).
Proof.
  intros t s. unfold from_datetime. destruct (dt_has_tz t); cbn; split.
  - intros H. apply ok_inj in H. auto.
  - intros (_ & ->). reflexivity.
  - discriminate.
  - intros (H & _). discriminate.
Qed.

(** ** Lookups *)

Definition get (p : list (pystr * json)) (n : pystr) : option json := dict_get str_eqb n p.

Lemma get_set : forall p k v n, get (dict_set str_eqb k v p) n = if str_eqb n k then Some v else get p n.
Proof.
  intros p k v n. unfold get. destruct (str_eqb n k) eqn:E.
  - apply str_eqb_spec in E. subst n. apply dict_get_set_same. apply str_eqb_spec.
  - apply dict_get_set_other; [apply str_eqb_spec |]. intros ->. rewrite str_eqb_refl in E. discriminate.
Qed.
Lemma get_set_opt : forall p k o n, get (set_opt k o p) n =
  if str_eqb n (ulit k) then (match o with Some v => Some v | None => get p n end) else get p n.
Proof.
  intros p k o n. unfold set_opt. destruct o as [v |]; [apply get_set |]. destruct (str_eqb n (ulit k)); reflexivity.
Qed.
Lemma set_opt_nodup : forall p k o, NoDup (map fst p) -> NoDup (map fst (set_opt k o p)).
Proof. intros p k [v |] H; [| exact H]. apply dict_set_nodup; [apply str_eqb_spec | exact H]. Qed.

Lemma set_time_ok : forall p k o p', NoDup (map fst p) -> set_time k o p = Ok p' ->
  NoDup (map fst p') /\
  (forall t, o = Some t -> dt_has_tz t = true) /\
  forall n, get p' n = if str_eqb n (ulit k) then
     (match o with Some t => Some (JInt (int_timestamp (dt_us t))) | None => get p n end) else get p n.
Proof.
  intros p k o p' Hn H. unfold set_time in H. destruct o as [t |].
  - apply bind_ok in H. destruct H as (s & Hs & H). apply ok_inj in H. subst p'.
    apply from_datetime_ok in Hs. destruct Hs as (Htz & ->). split; [apply dict_set_nodup; [apply str_eqb_spec | exact Hn] |].
    split; [intros t' E; apply some_inj in E; subst; exact Htz |]. intros n. apply get_set.
  - apply ok_inj in H. subst p'. split; [exact Hn |]. split; [discriminate |].
    intros n. destruct (str_eqb n (ulit k)); reflexivity.
Qed.

Lemma registered_spec : forall n, registered n = true <-> In n (map ulit registered_names).
Proof. intros n. unfold registered. apply (existsb_eqb_in str_eqb str_eqb_spec). Qed.

(** One custom claim. *)
Lemma add_custom_claim_ok : forall rt p c p', float_codec rt ->
  (forall v, snd c = ClaimJson v -> python_value v /\ (forall x, any_string x v -> valid_unicode x) /\ ints_convertible rt v) ->
  (add_custom_claim rt p c = Ok p' <->
   exists n v, c = (NameStr n, ClaimJson v) /\ ~ In n (map ulit registered_names) /\ p' = dict_set str_eqb n v p).
Proof.
  intros rt p [nm cv] p' Hcodec Hord. cbn in Hord. unfold add_custom_claim. cbn [fst snd].
  destruct nm as [n |]; [| split; [discriminate | intros (n & v & H & _); discriminate]].
  unfold validate_custom_claim_name. destruct (registered n) eqn:Er.
  { cbn [bind]. split; [discriminate |]. intros (n' & v & E & Hn & _). apply registered_spec in Er.
    assert (n' = n) by congruence. subst n'. contradiction. }
  cbn [bind]. assert (Hn : ~ In n (map ulit registered_names)) by (rewrite <- registered_spec; congruence).
  destruct cv as [v |]; [| split; [discriminate | intros (n' & v & H & _); discriminate]].
  assert (R : (exists n' v', (NameStr n, ClaimJson v) = (NameStr n', ClaimJson v') /\
     ~ In n' (map ulit registered_names) /\ p' = dict_set str_eqb n' v' p) <-> p' = dict_set str_eqb n v p).
  { split; [intros (n' & v' & E & _ & ->); congruence | intros ->; eauto]. }
  rewrite R. clear R. destruct (Hord v eq_refl) as (O1 & O2 & O3).
  destruct v; try (split; [intros H; apply ok_inj in H; congruence | intros ->; reflexivity]).
  all: destruct (json_copy rt _ Hcodec O1 O2 O3) as (t & -> & E2); cbn [bind]; rewrite E2; cbn [bind];
    split; [intros H; apply ok_inj in H; congruence | intros ->; reflexivity].
Qed.

Lemma add_custom_claims_ok : forall rt l p p', float_codec rt ->
  (forall n v, In (n, ClaimJson v) l -> python_value v /\ (forall x, any_string x v -> valid_unicode x) /\ ints_convertible rt v) ->
  NoDup (map fst l) -> NoDup (map fst p) ->
  add_custom_claims rt p l = Ok p' ->
  NoDup (map fst p') /\
  (forall c, In c l -> exists n v, c = (NameStr n, ClaimJson v) /\ ~ In n (map ulit registered_names)) /\
  (forall n v, get p' n = Some v <->
     In (NameStr n, ClaimJson v) l \/ (get p n = Some v /\ forall w, ~ In (NameStr n, w) l)).
Proof.
  intros rt l. induction l as [| c l IH]; intros p p' Hcodec Hord Hnd Hp H.
  - apply ok_inj in H. subst p'. split; [exact Hp |]. split; [intros c [] |].
    intros n v. cbn. split; [intros; right; auto | intros [[] | (H & _)]; exact H].
  - cbn [add_custom_claims] in H. apply bind_ok in H. destruct H as (p1 & E1 & H).
    apply add_custom_claim_ok in E1; [| exact Hcodec |].
    2: { intros v Hv. destruct c as [nm cv]. cbn in Hv. subst cv. apply (Hord nm). left. reflexivity. }
    destruct E1 as (n & v & -> & Hreg & ->). cbn [map fst] in Hnd. inversion Hnd as [| ? ? Hni Hnd']; subst.
    apply IH in H; [| exact Hcodec | intros n' v' Hi; apply (Hord n'); right; exact Hi | exact Hnd' |
      apply dict_set_nodup; [apply str_eqb_spec | exact Hp]].
    destruct H as (N1 & A & G). split; [exact N1 |]. split.
    + intros c [<- | Hc]; [eauto | apply A; exact Hc].
    + intros n' v'. rewrite G, get_set. destruct (str_eqb n' n) eqn:En.
      * apply str_eqb_spec in En. subst n'. split.
        -- intros [Hi | (E & _)]; [left; right; exact Hi |]. apply some_inj in E. subst v'. left. left. reflexivity.
        -- intros [[E | Hi] | (_ & Hx)].
           ++ right. split; [congruence |]. intros w Hw. apply Hni. apply in_map_iff. exists (NameStr n, w). auto.
           ++ left. exact Hi.
           ++ exfalso. apply (Hx (ClaimJson v)). left. reflexivity.
      * assert (Hne : n <> n') by (intros ->; rewrite str_eqb_refl in En; discriminate).
        split.
        -- intros [Hi | (E & Hx)]; [left; right; exact Hi |]. right. split; [exact E |].
           intros w [Hw | Hw]; [injection Hw as Hw _; contradiction | exact (Hx w Hw)].
        -- intros [[E | Hi] | (E & Hx)]; [injection E as E _; contradiction | left; exact Hi |].
           right. split; [exact E |]. intros w Hw. apply (Hx w). right. exact Hw.
Qed.

Lemma truthy_spec : forall v, truthy v = false <-> empty_value v.
Proof.
  intros v. unfold empty_value. split.
  - destruct v as [| b | z | f | x | l | l]; cbn [truthy]; intros H; cbn; auto 12.
    + subst b. auto.
    + apply negb_false_iff, Z.eqb_eq in H. subst z. auto.
    + destruct f as [| | | z]; try discriminate; auto 8. apply negb_false_iff, Z.eqb_eq in H. subst z. auto 8.
    + destruct x; [auto 10 | discriminate].
    + destruct l; [auto 10 | discriminate].
    + destruct l; [auto 12 | discriminate].
  - cbn. intros H. decompose [or] H; subst; try reflexivity. contradiction.
Qed.
Lemma truthy_opt_some : forall o v, truthy_opt o = Some v <-> o = Some v /\ ~ empty_value v.
Proof.
  intros o v. unfold truthy_opt. destruct o as [w |]; [| split; [discriminate | intros (H & _); discriminate]].
  destruct (truthy w) eqn:E.
  - split; [| intros (H & _); exact H]. intros H. split; [exact H |]. apply some_inj in H. subst w.
    rewrite <- truthy_spec. congruence.
  - split; [discriminate |]. intros (H & Hn). apply some_inj in H. subst w. apply truthy_spec in E. contradiction.
Qed.

Lemma get_iff : forall p n v, NoDup (map fst p) -> (get p n = Some v <-> In (n, v) p).
Proof.
  intros p n v H. split; [apply (dict_get_in str_eqb str_eqb_spec) | apply (in_dict_get str_eqb str_eqb_spec); exact H].
Qed.

Theorem new_raw_jwt_claims : forall rt a r, float_codec rt -> distinct_names a -> ordinary_claims rt a ->
  new_raw_jwt rt a = Ok r ->
  rj_type_header r = a_type_header a /\ well_typed r /\
  (forall n v, ~ In n (map ulit ["exp"; "nbf"; "iat"]) -> (In (n, v) (rj_payload r) <-> asked a n v)) /\
  (forall n, In n ["exp"; "nbf"; "iat"] ->
     match asked_time a n with
     | Some t => dt_has_tz t = true /\
         (representable (dt_us t) -> exists s, whole_seconds (dt_us t) s /\ has_value r n (JInt s))
     | None => lacks r n
     end).
Proof.
  intros rt a r Hcodec Hd Hord H. unfold new_raw_jwt in H.
  destruct (_ && _); [discriminate |]. destruct (_ && _); [discriminate |].
  destruct (is_some (a_audience a) && is_some (a_audiences a)) eqn:Ea; [discriminate |]. cbv zeta in H.
  set (p0 := set_opt "aud" (a_audiences a) (set_opt "aud" (a_audience a) (set_opt "jti" (a_jwt_id a)
     (set_opt "sub" (truthy_opt (a_subject a)) (set_opt "iss" (truthy_opt (a_issuer a)) []))))) in *.
  assert (N0 : NoDup (map fst p0)) by (unfold p0; repeat apply set_opt_nodup; constructor).
  apply bind_ok in H. destruct H as (p1 & E1 & H). apply set_time_ok in E1; [| exact N0]. destruct E1 as (N1 & T1 & G1).
  apply bind_ok in H. destruct H as (p2 & E2 & H). apply set_time_ok in E2; [| exact N1]. destruct E2 as (N2 & T2 & G2).
  apply bind_ok in H. destruct H as (p3 & E3 & H). apply set_time_ok in E3; [| exact N2]. destruct E3 as (N3 & T3 & G3).
  apply bind_ok in H. destruct H as (p4 & E4 & H).
  apply add_custom_claims_ok in E4; [| exact Hcodec | exact Hord | exact Hd | exact N3]. destruct E4 as (N4 & C4 & G4).
  apply raw_jwt_init_iff in H; [| exact N4]. destruct H as (-> & Hw). cbn [rj_type_header rj_payload].
  assert (CR : forall n w, In (NameStr n, w) (a_custom_claims a) -> In n (map ulit registered_names) -> False).
  { intros n w Hi Hr. destruct (C4 _ Hi) as (n' & v' & E & Hnr). assert (n' = n) by congruence. subst n'. contradiction. }
  split; [reflexivity |]. split; [exact Hw |]. split.
  - intros n v Hnt.
    assert (X : forall k, In k ["exp"; "nbf"; "iat"] -> str_eqb n (ulit k) = false).
    { intros k Hk. destruct (str_eqb n (ulit k)) eqn:E; [| reflexivity]. apply str_eqb_spec in E. subst n.
      exfalso. apply Hnt. apply in_map. exact Hk. }
    assert (Y : forall w, get p3 n = Some w <->
      (n = ulit "iss" /\ a_issuer a = Some w /\ ~ empty_value w) \/ (n = ulit "sub" /\ a_subject a = Some w /\ ~ empty_value w)
      \/ (n = ulit "jti" /\ a_jwt_id a = Some w) \/ (n = ulit "aud" /\ (a_audience a = Some w \/ a_audiences a = Some w))).
    { intros w. rewrite G3, G2, G1, !X by (cbn; auto). unfold p0. rewrite !get_set_opt.
      destruct (str_eqb n (ulit "aud")) eqn:K1.
      - apply str_eqb_spec in K1. subst n. change (str_eqb (ulit "aud") (ulit "jti")) with false.
        change (str_eqb (ulit "aud") (ulit "sub")) with false. change (str_eqb (ulit "aud") (ulit "iss")) with false.
        cbn [get dict_get]. split.
        + intros K. right. right. right. split; [reflexivity |]. destruct (a_audiences a) as [u |]; [right; exact K |].
          destruct (a_audience a) as [u |]; [left; exact K | discriminate].
        + intros [(K & _) | [(K & _) | [(K & _) | (_ & K)]]]; try discriminate.
          destruct (a_audience a), (a_audiences a); try discriminate; destruct K as [K | K]; try discriminate; exact K.
      - destruct (str_eqb n (ulit "jti")) eqn:K2.
        { apply str_eqb_spec in K2. subst n. change (str_eqb (ulit "jti") (ulit "sub")) with false.
          change (str_eqb (ulit "jti") (ulit "iss")) with false. cbn [get dict_get]. split.
          - intros K. right. right. left. split; [reflexivity |]. destruct (a_jwt_id a); [exact K | discriminate].
          - intros [(K & _) | [(K & _) | [(_ & K) | (K & _)]]]; try discriminate. rewrite K. reflexivity. }
        destruct (str_eqb n (ulit "sub")) eqn:K3.
        { apply str_eqb_spec in K3. subst n. change (str_eqb (ulit "sub") (ulit "iss")) with false. cbn [get dict_get]. split.
          - intros K. right. left. split; [reflexivity |]. apply truthy_opt_some. destruct (truthy_opt (a_subject a)); [exact K | discriminate].
          - intros [(K & _) | [(_ & K) | [(K & _) | (K & _)]]]; try discriminate. apply truthy_opt_some in K. rewrite K. reflexivity. }
        destruct (str_eqb n (ulit "iss")) eqn:K4.
        { apply str_eqb_spec in K4. subst n. cbn [get dict_get]. split.
          - intros K. left. split; [reflexivity |]. apply truthy_opt_some. destruct (truthy_opt (a_issuer a)); [exact K | discriminate].
          - intros [(_ & K) | [(K & _) | [(K & _) | (K & _)]]]; try discriminate. apply truthy_opt_some in K. rewrite K. reflexivity. }
        split; [discriminate |].
        intros [(-> & _) | [(-> & _) | [(-> & _) | (-> & _)]]]; vm_compute in K1, K2, K3, K4; discriminate. }
    rewrite <- get_iff by exact N4. rewrite G4, Y. split.
    + intros [Hi | ([(-> & K1 & K2) | [(-> & K1 & K2) | [(-> & K1) | (-> & [K1 | K1])]]] & _)].
      * apply Ask_custom. exact Hi.
      * apply Ask_iss; assumption.
      * apply Ask_sub; assumption.
      * apply Ask_jti; assumption.
      * apply Ask_aud; assumption.
      * apply Ask_auds; assumption.
    + intros K.
      assert (Z : In n (map ulit registered_names) -> forall w, ~ In (NameStr n, w) (a_custom_claims a)).
      { intros Hr w Hi. exact (CR n w Hi Hr). }
      destruct K; [.. | left; assumption]; right;
        (split; [| apply Z; apply in_map; cbn; auto 8]); auto 9.
  - intros k Hk.
    assert (W : forall w, ~ In (NameStr (ulit k), w) (a_custom_claims a)).
    { intros w Hi. apply (CR _ _ Hi). apply in_map. cbn in Hk |- *. tauto. }
    assert (Y : get p3 (ulit k) = match asked_time a k with
                 | Some t => Some (JInt (int_timestamp (dt_us t))) | None => None end).
    { rewrite G3, G2, G1. unfold p0. rewrite !get_set_opt. unfold asked_time.
      cbn in Hk. destruct Hk as [<- | [<- | [<- | []]]];
        repeat match goal with |- context [str_eqb (ulit ?x) (ulit ?y)] =>
          let b := eval vm_compute in (str_eqb (ulit x) (ulit y)) in change (str_eqb (ulit x) (ulit y)) with b end;
        repeat match goal with |- context [String.eqb ?x ?y] =>
          let b := eval vm_compute in (String.eqb x y) in change (String.eqb x y) with b end; cbn [get dict_get];
        reflexivity. }
    assert (V : forall v, has_value {| rj_type_header := a_type_header a; rj_payload := p4 |} k v <-> get p3 (ulit k) = Some v).
    { intros v. unfold has_value. cbn [rj_payload]. rewrite <- get_iff by exact N4. rewrite G4. split.
      - intros [Hi | (K & _)]; [exfalso; exact (W _ Hi) | exact K].
      - intros K. right. auto. }
    assert (TZ : forall t, asked_time a k = Some t -> dt_has_tz t = true).
    { intros t. unfold asked_time. cbn in Hk. destruct Hk as [<- | [<- | [<- | []]]]; cbn; auto. }
    destruct (asked_time a k) as [t |].
    + split; [apply TZ; reflexivity |]. intros Hr. exists (int_timestamp (dt_us t)). split; [apply int_timestamp_spec; exact Hr |].
      apply V. exact Y.
    + intros v Hv. apply V in Hv. congruence.
Qed.

(** What can go wrong. *)
Theorem new_raw_jwt_err : forall rt a e, float_codec rt -> ordinary_claims rt a ->
  new_raw_jwt rt a = Err e ->
  is_jwt_invalid_error e = true \/
  ((exists m, e = ValueError m) /\
   (if a_without_expiration a then a_expiration a <> None else a_expiration a = None)).
Proof.
  intros rt a e Hcodec Hord H. unfold new_raw_jwt in H.
  destruct (a_expiration a) as [t |] eqn:Ex; destruct (a_without_expiration a) eqn:Ew; cbn [is_some negb andb] in H; cbv zeta in H;
    try (inversion H; right; split; [eauto | congruence]).
  all: left; destruct (is_some (a_audience a) && is_some (a_audiences a)); [inversion H; reflexivity |];
    assert (ST : forall k o p e', set_time k o p = Err e' -> is_jwt_invalid_error e' = true) by
    (intros k o p e' K; unfold set_time in K; destruct o as [t0 |]; [| discriminate];
      unfold from_datetime in K; destruct (negb _); inversion K; reflexivity);
    assert (SC : forall l p e', (forall n v, In (n, ClaimJson v) l -> python_value v /\ (forall x, any_string x v -> valid_unicode x) /\ ints_convertible rt v) ->
       add_custom_claims rt p l = Err e' -> is_jwt_invalid_error e' = true) by
    (clear - Hcodec; induction l as [| c l IH]; intros p e' Ho K; [discriminate |];
     cbn [add_custom_claims] in K; apply bind_err in K; destruct K as [K | (p' & _ & K)];
     [| eapply IH; [| exact K]; intros n v Hi; apply (Ho n); right; exact Hi];
     destruct c as [[n |] cv]; unfold add_custom_claim in K; cbn [fst snd] in K; [| inversion K; reflexivity];
     unfold validate_custom_claim_name in K; destruct (registered n); [inversion K; reflexivity |]; cbn [bind] in K;
     destruct cv as [v |]; [| inversion K; reflexivity];
     destruct (Ho (NameStr n) v (or_introl eq_refl)) as (O1 & O2 & O3);
     destruct v; try discriminate;
     destruct (json_copy rt _ Hcodec O1 O2 O3) as (tx & Et & El); rewrite Et in K; cbn [bind] in K; rewrite El in K; discriminate).
  all: repeat (apply bind_err in H; destruct H as [H | (? & _ & H)]; [first [eapply ST; exact H | eapply SC; [exact Hord | exact H]] |]).
  all: eapply raw_jwt_init_err; exact H.
Qed.

Lemma set_time_some : forall k o p, (forall t, o = Some t -> dt_has_tz t = true) -> exists p', set_time k o p = Ok p'.
Proof.
  intros k [t |] p H; cbn; [| eauto]. unfold from_datetime. rewrite (H t eq_refl). cbn. eauto.
Qed.

Lemma add_custom_claims_some : forall rt l p, float_codec rt ->
  (forall n v, In (n, ClaimJson v) l -> python_value v /\ (forall x, any_string x v -> valid_unicode x) /\ ints_convertible rt v) ->
  (forall n v, In (n, v) l -> (exists x, n = NameStr x /\ ~ In x (map ulit registered_names)) /\ exists w, v = ClaimJson w) ->
  exists p', add_custom_claims rt p l = Ok p'.
Proof.
  intros rt l p Hc. revert p. induction l as [| [n v] l IH]; intros p Ho Ha; [cbn; eauto |].
  destruct (Ha n v (or_introl eq_refl)) as ((x & -> & Hx) & (w & ->)). cbn [add_custom_claims].
  assert (E : add_custom_claim rt p (NameStr x, ClaimJson w) = Ok (dict_set str_eqb x w p)).
  { apply add_custom_claim_ok; [exact Hc | | eauto]. cbn. intros v E. injection E as <-. apply (Ho (NameStr x)). left. reflexivity. }
  rewrite E. cbn [bind]. apply IH; intros; [eapply Ho | eapply Ha]; right; eassumption.
Qed.

Theorem new_raw_jwt_accepts : forall rt a, float_codec rt -> distinct_names a -> ordinary_claims rt a ->
  acceptable a -> exists r, new_raw_jwt rt a = Ok r.
Proof.
  intros rt a Hcodec Hd Hord (A1 & A2 & A3 & A4 & A5 & A6 & A7). unfold new_raw_jwt.
  replace (negb (is_some (a_expiration a)) && negb (a_without_expiration a)) with false
    by (destruct (a_without_expiration a), (a_expiration a); try reflexivity; contradiction).
  replace (is_some (a_expiration a) && a_without_expiration a) with false
    by (destruct (a_without_expiration a), (a_expiration a); try reflexivity; discriminate).
  replace (is_some (a_audience a) && is_some (a_audiences a)) with false
    by (destruct A2 as [-> | ->]; [| rewrite andb_false_r]; reflexivity).
  cbv zeta.
  set (p0 := set_opt "aud" (a_audiences a) (set_opt "aud" (a_audience a) (set_opt "jti" (a_jwt_id a)
     (set_opt "sub" (truthy_opt (a_subject a)) (set_opt "iss" (truthy_opt (a_issuer a)) []))))) in *.
  assert (N0 : NoDup (map fst p0)) by (unfold p0; repeat apply set_opt_nodup; constructor).
  destruct (set_time_some "exp" (a_expiration a) p0) as (p1 & E1). { intros t E. apply A6. rewrite E. cbn. auto. }
  rewrite E1. cbn [bind]. apply set_time_ok in E1; [| exact N0]. destruct E1 as (N1 & _ & G1).
  destruct (set_time_some "nbf" (a_not_before a) p1) as (p2 & E2). { intros t E. apply A6. rewrite E. cbn. auto. }
  rewrite E2. cbn [bind]. apply set_time_ok in E2; [| exact N1]. destruct E2 as (N2 & _ & G2).
  destruct (set_time_some "iat" (a_issued_at a) p2) as (p3 & E3). { intros t E. apply A6. rewrite E. cbn. auto. }
  rewrite E3. cbn [bind]. apply set_time_ok in E3; [| exact N2]. destruct E3 as (N3 & _ & G3).
  destruct (add_custom_claims_some rt (a_custom_claims a) p3 Hcodec Hord A7) as (p4 & E4). rewrite E4. cbn [bind].
  apply add_custom_claims_ok in E4; [| exact Hcodec | exact Hord | exact Hd | exact N3]. destruct E4 as (N4 & C4 & G4).
  exists (mk_raw_jwt (a_type_header a) p4). apply raw_jwt_init_iff; [exact N4 |]. split; [reflexivity |].
  assert (V : forall k v, In k registered_names -> has_value {| rj_type_header := a_type_header a; rj_payload := p4 |} k v ->
     get p3 (ulit k) = Some v).
  { intros k v Hk Hv. unfold has_value in Hv. cbn [rj_payload] in Hv. rewrite <- get_iff in Hv by exact N4.
    apply G4 in Hv. destruct Hv as [Hi | (K & _)]; [| exact K].
    exfalso. destruct (A7 _ _ Hi) as ((x & Ex & Hx) & _). injection Ex as <-. apply Hx. apply in_map. exact Hk. }
  assert (S : forall x y, str_eqb (ulit x) (ulit y) = true -> ulit x = ulit y) by (intros; apply str_eqb_spec; assumption).
  assert (TS : forall t, In (Some t) [a_expiration a; a_not_before a; a_issued_at a] -> timestamp (JInt (int_timestamp (dt_us t)))).
  { intros t Ht. apply A6 in Ht. destruct Ht as (_ & Hr). unfold max_timestamp in Hr.
    destruct (int_timestamp_spec (dt_us t)) as (K & _); [unfold representable; lia |].
    destruct K as (K1 & K2 & K3); [lia |]. cbn. unfold max_timestamp.
    assert (U : dt_us t / 1000000 <= 253402300799) by (apply Z.div_le_upper_bound; lia).
    assert (U0 : 0 <= dt_us t / 1000000) by (apply Z.div_pos; lia).
    destruct (Z.eq_dec (dt_us t) 253402300799000000) as [E | E].
    - rewrite K3; [lia |]. rewrite E. vm_compute. discriminate.
    - assert (U2 : dt_us t / 1000000 < 253402300799) by (apply Z.div_lt_upper_bound; lia). lia. }
  unfold well_typed. cbn [rj_payload]. split; [exact N4 |]. split; [| split].
  all: repeat match goal with |- context [str_eqb (ulit ?x) (ulit ?y)] =>
          let b := eval vm_compute in (str_eqb (ulit x) (ulit y)) in change (str_eqb (ulit x) (ulit y)) with b end.
  - intros k v Hk Hv. apply V in Hv; [| cbn in Hk |- *; tauto]. rewrite G3, G2, G1 in Hv. unfold p0 in Hv. rewrite !get_set_opt in Hv.
    destruct Hk as [<- | [<- | [<- | []]]];
      repeat match type of Hv with context [str_eqb (ulit ?x) (ulit ?y)] =>
          let b := eval vm_compute in (str_eqb (ulit x) (ulit y)) in change (str_eqb (ulit x) (ulit y)) with b in Hv end;
      cbn [get dict_get] in Hv.
    + destruct (truthy_opt (a_issuer a)) as [w |] eqn:K; [| discriminate]. apply some_inj in Hv. subst w.
      apply truthy_opt_some in K. destruct K as (K & Hne). destruct (A3 v) as [X | X]; [left; exact K | contradiction | exact X].
    + destruct (truthy_opt (a_subject a)) as [w |] eqn:K; [| discriminate]. apply some_inj in Hv. subst w.
      apply truthy_opt_some in K. destruct K as (K & Hne). destruct (A3 v) as [X | X]; [right; left; exact K | contradiction | exact X].
    + destruct (a_jwt_id a) as [w |] eqn:K; [| discriminate]. apply some_inj in Hv. subst w. apply A4. reflexivity.
  - intros k v Hk Hv. apply V in Hv; [| cbn in Hk |- *; tauto]. rewrite G3, G2, G1 in Hv. unfold p0 in Hv. rewrite !get_set_opt in Hv.
    destruct Hk as [<- | [<- | [<- | []]]];
      repeat match type of Hv with context [str_eqb (ulit ?x) (ulit ?y)] =>
          let b := eval vm_compute in (str_eqb (ulit x) (ulit y)) in change (str_eqb (ulit x) (ulit y)) with b in Hv end;
      cbn [get dict_get] in Hv.
    + destruct (a_expiration a) as [t |] eqn:K; [| discriminate]. apply some_inj in Hv. subst v. apply TS. cbn. auto.
    + destruct (a_not_before a) as [t |] eqn:K; [| discriminate]. apply some_inj in Hv. subst v. apply TS. cbn. auto.
    + destruct (a_issued_at a) as [t |] eqn:K; [| discriminate]. apply some_inj in Hv. subst v. apply TS. cbn. auto.
  - intros v Hv. apply V in Hv; [| cbn; tauto]. rewrite G3, G2, G1 in Hv. unfold p0 in Hv. rewrite !get_set_opt in Hv.
      repeat match type of Hv with context [str_eqb (ulit ?x) (ulit ?y)] =>
          let b := eval vm_compute in (str_eqb (ulit x) (ulit y)) in change (str_eqb (ulit x) (ulit y)) with b in Hv end;
      cbn [get dict_get] in Hv.
    apply A5. destruct (a_audiences a) as [w |]; [right; left; exact Hv |].
    destruct (a_audience a) as [w |]; [left; exact Hv | discriminate].
Qed.

(** ** Accessors *)

Lemma registered_iff : forall n, registered n = true <-> In n (map ulit registered_names).
Proof.
  intros n. unfold registered, REGISTERED_NAMES. rewrite existsb_exists. split.
  - intros (x & Hx & E). apply str_eqb_spec in E. subst x. exact Hx.
  - intros H. exists n. split; [exact H |]. apply str_eqb_spec. reflexivity.
Qed.
Lemma registered_false : forall n, registered n = false <-> ~ In n (map ulit registered_names).
Proof. intros n. rewrite <- registered_iff. destruct (registered n); split; congruence. Qed.

Lemma claim_spec : forall r n, NoDup (map fst (rj_payload r)) ->
  (has_claim r n = true <-> exists v, has_value r n v) /\
  (forall v, claim r n = Ok v <-> has_value r n v) /\
  (lacks r n -> claim r n = Err KeyError).
Proof.
  intros r n Hn. pose proof (has_claim_spec r n Hn) as H. split; [| split].
  - destruct (has_claim r n); split; intros K; try discriminate.
    + destruct H as (v & Hv & _). eauto.
    + reflexivity.
    + destruct K as (v & Hv). elim (H v Hv).
  - intros v. apply claim_ok. exact Hn.
  - intros L. unfold claim. destruct (payload_get (rj_payload r) n) as [v |] eqn:E; [| reflexivity].
    apply payload_get_in in E; [| exact Hn]. elim (L v E).
Qed.

(** The accessors return the claims of the payload, and raise KeyError for those that
    are not there. *)
Theorem accessors_spec : forall rt r, well_typed r ->
  (forall n has get, In (n, has, get) [("iss", has_issuer, issuer); ("sub", has_subject, subject); ("jti", has_jwt_id, jwt_id)] ->
     (has r = true <-> exists v, has_value r n v) /\
     (forall v, get r = Ok v <-> has_value r n v) /\
     (forall v, get r = Ok v -> is_string v) /\
     (lacks r n -> get r = Err KeyError)) /\
  (forall n has get, In (n, has, get) [("exp", has_expiration, expiration); ("nbf", has_not_before, not_before);
                                       ("iat", has_issued_at, issued_at)] ->
     (has r = true <-> exists v, has_value r n v) /\
     (forall t, get rt r = Ok t -> dt_has_tz t = true /\ at_time rt r n (fun us => us = dt_us t)) /\
     (float_times_ok rt -> forall us, at_time rt r n (fun us' => us' = us) -> get rt r = Ok (mk_datetime true us)) /\
     (lacks r n -> get rt r = Err KeyError)) /\
  (lacks r "aud" -> audiences r = Err KeyError).
Proof.
  intros rt r (Hn & Hs & Ht & Ha). split; [| split].
  - intros n has get Hi.
    assert (E : has r = has_claim r n /\ get r = claim r n /\ In n ["iss"; "sub"; "jti"]).
    { destruct Hi as [Hi | [Hi | [Hi | []]]]; injection Hi as <- <- <-; (split; [reflexivity | split; [reflexivity | cbn; auto]]). }
    destruct E as (-> & -> & Hin). destruct (claim_spec r n Hn) as (A & B & C).
    split; [exact A |]. split; [exact B |]. split; [| exact C]. intros v Hv. apply B in Hv. exact (Hs n v Hin Hv).
  - intros n has get Hi.
    assert (E : has r = has_claim r n /\ get rt r = bind (claim r n) (to_datetime rt) /\ In n ["exp"; "nbf"; "iat"]).
    { destruct Hi as [Hi | [Hi | [Hi | []]]]; injection Hi as <- <- <-; (split; [reflexivity | split; [reflexivity | cbn; auto]]). }
    destruct E as (-> & -> & Hin). destruct (claim_spec r n Hn) as (A & B & C).
    split; [exact A |]. split; [| split].
    + intros t H. apply bind_ok in H. destruct H as (v & Hv & H). apply B in Hv. apply to_datetime_ok in H.
      destruct H as (H1 & H2). split; [exact H2 |]. exists v, (dt_us t). auto.
    + intros Hf us (v & us' & Hv & Hi' & ->). pose proof (Ht n v Hin Hv) as Htv. apply B in Hv. rewrite Hv. cbn [bind].
      apply to_datetime_complete; assumption.
    + intros L. rewrite (C L). reflexivity.
  - intros L. unfold audiences. destruct (claim_spec r "aud" Hn) as (_ & _ & C). rewrite (C L). reflexivity.
Qed.

Theorem custom_claims_spec : forall r, well_typed r ->
  (forall n, In n (custom_claim_names r) <-> ~ In n (map ulit registered_names) /\ exists v, In (n, v) (rj_payload r)) /\
  (forall n v, custom_claim r n = Ok v <-> ~ In n (map ulit registered_names) /\ In (n, v) (rj_payload r)) /\
  (forall n, In n (map ulit registered_names) -> exists m, custom_claim r n = Err (JwtInvalidError m)) /\
  (forall n, ~ In n (map ulit registered_names) -> (forall v, ~ In (n, v) (rj_payload r)) -> custom_claim r n = Err KeyError).
Proof.
  intros r (Hn & _). split; [| split; [| split]].
  - intros n. unfold custom_claim_names. rewrite filter_In, negb_true_iff, registered_false, in_map_iff. split.
    + intros (((n' & v) & E & Hi) & Hr). cbn in E. subst n'. eauto.
    + intros (Hr & v & Hi). split; [| exact Hr]. exists (n, v). auto.
  - intros n v. unfold custom_claim, validate_custom_claim_name. destruct (registered n) eqn:E.
    + apply registered_iff in E. split; [discriminate |]. intros (K & _). contradiction.
    + apply registered_false in E. cbn [bind].
      destruct (dict_get str_eqb n (rj_payload r)) as [w |] eqn:G.
      * apply (dict_get_in str_eqb str_eqb_spec) in G.
        split; [intros H; apply ok_inj in H; subst w; auto |]. intros (_ & Hv). f_equal.
        apply (in_dict_get str_eqb str_eqb_spec) in G; [| exact Hn].
        apply (in_dict_get str_eqb str_eqb_spec) in Hv; [| exact Hn]. congruence.
      * split; [discriminate |]. intros (_ & Hv). apply (in_dict_get str_eqb str_eqb_spec) in Hv; [| exact Hn]. congruence.
  - intros n Hi. apply registered_iff in Hi. unfold custom_claim, validate_custom_claim_name. rewrite Hi. cbn. eauto.
  - intros n Hr Hv. apply registered_false in Hr. unfold custom_claim, validate_custom_claim_name. rewrite Hr. cbn [bind].
    destruct (dict_get str_eqb n (rj_payload r)) as [w |] eqn:G; [| reflexivity].
    apply (dict_get_in str_eqb str_eqb_spec) in G. elim (Hv w G).
Qed.
