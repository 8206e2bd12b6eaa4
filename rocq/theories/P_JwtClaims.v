(** C38, C39, C40: validators and raw JWTs. *)
From Coq Require Import Strings.Byte Strings.String List NArith ZArith Bool Lia.
From Verif Require Import M_Base L_Base M_Proto M_JwtTypes M_Json M_RawJwt M_JwtValidator
  S_Keyset S_Json S_Jwt L_Json3 L_Jwt3 L_Jwt4 L_Jwt5 L_Jwt6 L_Jwt7 L_Jwt8 X_Rt X_Jwt.
Import ListNotations.
Open Scope list_scope.
Open Scope string_scope.
Open Scope list_scope.
Open Scope Z_scope.

(** ** C38: validation *)

(** [accepts] (S_Jwt.v) lists the documented conditions. *)
Theorem C38_sound : forall rt clock v r, well_typed r ->
  validate rt clock v r = Ok tt -> accepts rt clock v r.
Proof. exact validate_sound. Qed.
Print Assumptions C38_sound.
Theorem C38_complete : forall rt clock v r, well_typed r -> float_times_ok rt ->
  representable (current_time v clock - jv_clock_skew v) ->
  representable (current_time v clock + jv_clock_skew v) ->
  accepts rt clock v r -> validate rt clock v r = Ok tt.
Proof. exact validate_complete. Qed.
Print Assumptions C38_complete.
Theorem C38_decides : forall rt clock v r, well_typed r -> float_times_ok rt -> no_nan_times r ->
  representable (current_time v clock - jv_clock_skew v) ->
  representable (current_time v clock + jv_clock_skew v) ->
  match validate rt clock v r with
  | Ok _ => accepts rt clock v r
  | Err e => is_jwt_invalid_error e = true /\ ~ accepts rt clock v r
  end.
Proof. exact validate_decides. Qed.
Print Assumptions C38_decides.
Theorem C38_error : forall rt clock v r e, well_typed r -> float_times_ok rt -> no_nan_times r ->
  representable (current_time v clock - jv_clock_skew v) ->
  representable (current_time v clock + jv_clock_skew v) ->
  validate rt clock v r = Err e -> is_jwt_invalid_error e = true.
Proof. exact validate_rejects. Qed.
Print Assumptions C38_error.

(** ** C39: construction of validators *)
Theorem C39_accepted_iff : forall th iss aud ith iiss iaud miss past skew now v,
  new_validator th iss aud ith iiss iaud miss past skew now = Ok v <->
  v = mk_jwt_validator th iss aud ith iiss iaud miss past
        (match skew with Some z => z | None => 0 end) now /\
  (forall x, th = Some x -> x <> [] -> ith = false) /\
  (forall x, iss = Some x -> x <> [] -> iiss = false) /\
  (forall x, aud = Some x -> x <> [] -> iaud = false) /\
  (forall z, skew = Some z -> z <= 10 * 60 * 1000000) /\
  (forall t, now = Some t -> dt_has_tz t = true).
Proof. exact new_validator_iff. Qed.
Print Assumptions C39_accepted_iff.
Theorem C39_error : forall th iss aud ith iiss iaud miss past skew now e,
  new_validator th iss aud ith iiss iaud miss past skew now = Err e -> exists m, e = ValueError m.
Proof. exact new_validator_err. Qed.
Print Assumptions C39_error.

(** ** C40: raw JWTs *)

(** A payload makes a raw JWT iff its registered claims are well typed. *)
Theorem C40_init : forall th p r, NoDup (map fst p) ->
  (raw_jwt_init th (JDict p) = Ok r <-> r = mk_raw_jwt th p /\ well_typed r).
Proof. exact raw_jwt_init_iff. Qed.
Print Assumptions C40_init.
Theorem C40_init_error : forall th v e, raw_jwt_init th v = Err e -> is_jwt_invalid_error e = true.
Proof. exact raw_jwt_init_err. Qed.
Print Assumptions C40_init_error.

(** new_raw_jwt: the claims are those asked for, times in whole seconds. *)
Theorem C40_new : forall rt a r, float_codec rt -> distinct_names a -> ordinary_claims rt a ->
  new_raw_jwt rt a = Ok r ->
  rj_type_header r = a_type_header a /\ well_typed r /\
  (forall n v, ~ In n (map ulit ["exp"; "nbf"; "iat"]) -> (In (n, v) (rj_payload r) <-> asked a n v)) /\
  (forall n, In n ["exp"; "nbf"; "iat"] ->
     match asked_time a n with
     | Some t => dt_has_tz t = true /\
         (representable (dt_us t) -> exists s, whole_seconds (dt_us t) s /\ has_value r n (JInt s))
     | None => lacks r n
     end).
Proof. exact new_raw_jwt_claims. Qed.
Print Assumptions C40_new.
Theorem C40_new_accepts : forall rt a, float_codec rt -> distinct_names a -> ordinary_claims rt a ->
  acceptable a -> exists r, new_raw_jwt rt a = Ok r.
Proof. exact new_raw_jwt_accepts. Qed.
Print Assumptions C40_new_accepts.
Theorem C40_new_error : forall rt a e, float_codec rt -> ordinary_claims rt a ->
  new_raw_jwt rt a = Err e ->
  is_jwt_invalid_error e = true \/
  ((exists m, e = ValueError m) /\
   (if a_without_expiration a then a_expiration a <> None else a_expiration a = None)).
Proof. exact new_raw_jwt_err. Qed.
Print Assumptions C40_new_error.
Theorem C40_whole_seconds : forall us, representable us -> whole_seconds us (int_timestamp us).
Proof. exact int_timestamp_spec. Qed.
Print Assumptions C40_whole_seconds.

(** The accessors. *)
Theorem C40_accessors : forall rt r, well_typed r ->
  (forall n has get, In (n, has, get) [("iss", has_issuer, issuer); ("sub", has_subject, subject); ("jti", has_jwt_id, jwt_id)] ->
     (has r = true <-> exists v, has_value r n v) /\
     (forall v, get r = Ok v <-> has_value r n v) /\
     (forall v, get r = Ok v -> is_string v) /\
     (lacks r n -> get r = Err KeyError)) /\
  (forall n has get, In (n, has, get) [("exp", has_expiration, expiration); ("nbf", has_not_before, not_before);
                                       ("iat", has_issued_at, issued_at)] ->
     (has r = true <-> exists v, has_value r n v) /\
     (forall t, get rt r = Ok t -> dt_has_tz t = true /\ at_time rt r n (fun us => us = dt_us t)) /\
     (float_times_ok rt -> forall us, at_time rt r n (fun us' => us' = us) -> get rt r = Ok (mk_datetime true us)) /\
     (lacks r n -> get rt r = Err KeyError)) /\
  (lacks r "aud" -> audiences r = Err KeyError).
Proof. exact accessors_spec. Qed.
Print Assumptions C40_accessors.
Theorem C40_audiences : forall r, well_typed r ->
  if has_audiences r then exists l, audiences r = Ok l /\ l <> [] /\ Forall is_string l /\
    forall x, In (JStr x) l <-> has_value r "aud" (JStr x) \/ exists m, has_value r "aud" (JList m) /\ In (JStr x) m
  else lacks r "aud".
Proof. exact audiences_spec. Qed.
Print Assumptions C40_audiences.
Theorem C40_custom_claims : forall r, well_typed r ->
  (forall n, In n (custom_claim_names r) <-> ~ In n (map ulit registered_names) /\ exists v, In (n, v) (rj_payload r)) /\
  (forall n v, custom_claim r n = Ok v <-> ~ In n (map ulit registered_names) /\ In (n, v) (rj_payload r)) /\
  (forall n, In n (map ulit registered_names) -> exists m, custom_claim r n = Err (JwtInvalidError m)) /\
  (forall n, ~ In n (map ulit registered_names) -> (forall v, ~ In (n, v) (rj_payload r)) -> custom_claim r n = Err KeyError).
Proof. exact custom_claims_spec. Qed.
Print Assumptions C40_custom_claims.

(** ** The hypotheses can be met *)

Definition v_plain : jwt_validator := mk_jwt_validator None None None false false false false false 0 None.
Definition v_full : jwt_validator :=
  mk_jwt_validator (Some (ulit "JWT")) (Some (ulit "me")) (Some (ulit "b")) false false false false true 60000000 None.
Definition jwt_full : raw_jwt :=
  mk_raw_jwt (Some (JStr (ulit "JWT")))
    [(ulit "iss", JStr (ulit "me")); (ulit "exp", JInt 1000); (ulit "nbf", JInt 500); (ulit "iat", JInt 400);
     (ulit "aud", JList [JStr (ulit "a"); JStr (ulit "b")]); (ulit "extra", JDict [(ulit "k", JNull)])].
Lemma jwt_full_typed : well_typed jwt_full.
Proof.
  assert (N : NoDup (map fst (rj_payload jwt_full))).
  { cbn. repeat constructor; cbn; intros H; repeat (destruct H as [H | H]; [vm_compute in H; discriminate |]); contradiction. }
  exact (proj2 (proj1 (raw_jwt_init_iff (rj_type_header jwt_full) (rj_payload jwt_full) jwt_full N) eq_refl)).
Qed.
Lemma jwt_full_no_nan : no_nan_times jwt_full.
Proof.
  intros n Hn H. unfold has_value in H. cbn in H. repeat (destruct H as [H | H]; [discriminate |]). contradiction.
Qed.
(** With one minute of skew the token is good from 340 s (iat) and 440 s (nbf) to
    1060 s (exp) exclusive. *)
Example C38_boundaries :
  well_typed jwt_full /\ no_nan_times jwt_full /\ float_times_ok toy_rt /\
  (forall t, In t [440000000; 1059999999] ->
     representable (current_time v_full t - jv_clock_skew v_full) /\
     representable (current_time v_full t + jv_clock_skew v_full) /\
     validate toy_rt t v_full jwt_full = Ok tt) /\
  (forall t, In t [439999999; 1060000000] -> exists m, validate toy_rt t v_full jwt_full = Err (JwtInvalidError m)) /\
  exists m, validate toy_rt 500000000 v_plain jwt_full = Err (JwtInvalidError m).
Proof.
  split; [exact jwt_full_typed |]. split; [exact jwt_full_no_nan |]. split; [exact toy_float_times_ok |].
  split; [| split].
  - intros t Ht. unfold representable. destruct Ht as [<- | [<- | []]]; cbn; repeat split; lia.
  - intros t Ht. destruct Ht as [<- | [<- | []]]; eexists; vm_compute; reflexivity.
  - eexists; vm_compute; reflexivity.
Qed.

Example C39_cases :
  (exists v, new_validator (Some (ulit "a")) None (Some (ulit "b")) false true false false false (Some 600000000) None = Ok v) /\
  (exists m, new_validator (Some (ulit "a")) None None true false false false false None None = Err (ValueError m)) /\
  (exists m, new_validator None None None false false false false false (Some 600000001) None = Err (ValueError m)) /\
  (exists m, new_validator None None None false false false false false None (Some (mk_datetime false 0)) = Err (ValueError m)).
Proof. repeat split; eexists; reflexivity. Qed.

Definition args : raw_jwt_args :=
  mk_raw_jwt_args (Some (JStr (ulit "JWT"))) (Some (JStr (ulit "me"))) None None
    (Some (JList [JStr (ulit "a"); JStr (ulit "b")])) None (Some (mk_datetime true 1000500000)) false None None
    [(NameStr (ulit "extra"), ClaimJson (JList [JInt 5; JStr (ulit "x")]))].
Example C40_args : distinct_names args /\ ordinary_claims toy_rt args /\ acceptable args /\ float_codec toy_rt /\
  exists r, new_raw_jwt toy_rt args = Ok r /\ has_value r "exp" (JInt 1000).
Proof.
  assert (D : distinct_names args) by (cbn; repeat constructor; cbn; tauto).
  assert (O : ordinary_claims toy_rt args).
  { intros n v [E | []]. injection E as <- <-. apply ordinary_list.
    intros w [<- | [<- | []]]; [apply ordinary_int; reflexivity |].
    apply ordinary_str, ulit_valid; reflexivity. }
  assert (A : acceptable args).
  { split; [discriminate |]. split; [left; reflexivity |]. split; [| split; [| split; [| split]]].
    - intros v [E | [E | []]]; [| discriminate]. apply some_inj in E. subst v. right. eexists; reflexivity.
    - intros v E. discriminate.
    - intros v [E | [E | []]]; [discriminate |]. apply some_inj in E. subst v. right. eexists. split; [reflexivity |].
      split; [discriminate |]. repeat constructor; eexists; reflexivity.
    - intros t [E | [E | [E | []]]]; try discriminate. apply some_inj in E. subst t. unfold max_timestamp. cbn. split; [reflexivity | lia].
    - intros n v [E | []]. injection E as <- <-. split; [| eexists; reflexivity]. eexists. split; [reflexivity |].
      intros H. cbn in H. repeat (destruct H as [H | H]; [vm_compute in H; discriminate |]). contradiction. }
  split; [exact D |]. split; [exact O |]. split; [exact A |]. split; [exact toy_float_codec |].
  destruct (new_raw_jwt_accepts toy_rt args toy_float_codec D O A) as (r & Hr). exists r. split; [exact Hr |].
  destruct (new_raw_jwt_claims toy_rt args r toy_float_codec D O Hr) as (_ & _ & _ & T).
  specialize (T "exp" (or_introl eq_refl)). cbn in T. destruct T as (_ & T).
  destruct T as (s & (Hs & _) & H); [unfold representable; lia |]. cbn [dt_us] in Hs.
  destruct (Hs ltac:(lia)) as (_ & E & _). rewrite E in H by reflexivity. exact H.
Qed.

(** ** Findings *)

(** An empty issuer or subject is dropped without an error. *)
Theorem C40_empty_issuer_refuted : exists a r, a_issuer a = Some (JStr []) /\
  new_raw_jwt toy_rt a = Ok r /\ has_issuer r = false.
Proof.
  exists (mk_raw_jwt_args None (Some (JStr [])) None None None None None true None None []).
  eexists. repeat split.
Qed.
Print Assumptions C40_empty_issuer_refuted.

(** A token with NaN as expiration makes a raw JWT whose expiration cannot be read. *)
Theorem C40_nan_refuted : exists r, raw_jwt_from_json toy_rt None (ulit "{""exp"":NaN}") = Ok r /\
  has_expiration r = true /\ exists e, expiration toy_rt r = Err e /\ is_tink_error e = false.
Proof. eexists. split; [vm_compute; reflexivity |]. split; [reflexivity |]. eexists. split; reflexivity. Qed.
Print Assumptions C40_nan_refuted.

(** true and false pass as timestamps. *)
Theorem C40_bool_timestamp_refuted : exists r t, raw_jwt_from_json toy_rt None (ulit "{""exp"":true}") = Ok r /\
  expiration toy_rt r = Ok t.
Proof.
  exists (mk_raw_jwt None [(ulit "exp", JBool true)]), (mk_datetime true 1000000). split; vm_compute; reflexivity.
Qed.
Print Assumptions C40_bool_timestamp_refuted.

(** A time that datetime can represent, in the last microseconds of the year 9999, is
    rounded up to the year 10000 and refused. *)
Theorem C40_last_second_refuted : exists a t m, a_expiration a = Some t /\ representable (dt_us t) /\
  new_raw_jwt toy_rt a = Err (JwtInvalidError m).
Proof.
  exists (mk_raw_jwt_args None None None None None None (Some (mk_datetime true 253402300799999999)) false None None []).
  eexists. eexists. split; [reflexivity |]. split; [unfold representable; cbn; lia |]. vm_compute. reflexivity.
Qed.
Print Assumptions C40_last_second_refuted.

(** A negative clock skew, and an empty expected value together with the ignore flag,
    are not refused. *)
Theorem C39_contradictory_refuted : exists v,
  new_validator (Some []) None None true false false false false (Some (-1)) None = Ok v.
Proof. eexists. reflexivity. Qed.
Print Assumptions C39_contradictory_refuted.
