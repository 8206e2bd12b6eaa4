(** C38, C39, C40: validators and raw JWTs. *)
From Coq Require Import Strings.Byte Strings.String List NArith ZArith Bool Lia.
From Verif Require Import M_Base L_Base M_Proto M_JwtTypes M_Json M_RawJwt M_JwtValidator
  S_Keyset S_Json S_Jwt L_Json3 L_Jwt3 L_Jwt4 L_Jwt5 L_Jwt6 L_Jwt7 L_Jwt8 X_Rt X_Jwt.
Import ListNotations.
Open Scope list_scope.
Open Scope string_scope.
Open Scope list_scope.
Open Scope Z_scope.

(** ** C38: validation *)

(** [accepts] (S_Jwt.v) lists the documented conditions. *)
@thm C38_sound validate_sound
@thm C38_complete validate_complete
@thm C38_decides validate_decides
@thm C38_error validate_rejects

(** ** C39: construction of validators *)
@thm C39_accepted_iff new_validator_iff
@thm C39_error new_validator_err

(** ** C40: raw JWTs *)

(** A payload makes a raw JWT iff its registered claims are well typed. *)
@thm C40_init raw_jwt_init_iff
@thm C40_init_error raw_jwt_init_err

(** new_raw_jwt: the claims are those asked for, times in whole seconds. *)
@thm C40_new new_raw_jwt_claims
@thm C40_new_accepts new_raw_jwt_accepts
@thm C40_new_error new_raw_jwt_err
@thm C40_whole_seconds int_timestamp_spec

(** The accessors. *)
@thm C40_accessors accessors_spec
@thm C40_audiences audiences_spec
@thm C40_custom_claims custom_claims_spec

(** ** The hypotheses can be met *)

Definition v_plain : jwt_validator := mk_jwt_validator None None None false false false false false 0 None.
Definition v_full : jwt_validator :=
  mk_jwt_validator (Some (ulit "JWT")) (Some (ulit "me")) (Some (ulit "b")) false false false false true 60000000 None.
Definition jwt_full : raw_jwt :=
  mk_raw_jwt (Some (JStr (ulit "JWT")))
    [(ulit "iss", JStr (ulit "me")); (ulit "exp", JInt 1000); (ulit "nbf", JInt 500); (ulit "iat", JInt 400);
     (ulit "aud", JList [JStr (ulit "a"); JStr (ulit "b")]); (ulit "extra", JDict [(ulit "k", JNull)])].
Lemma jwt_full_typed : well_typed jwt_full.
Proof.
  assert (N : NoDup (map fst (rj_payload jwt_full))).
  { cbn. repeat constructor; cbn; intros H; repeat (destruct H as [H | H]; [vm_compute in H; discriminate |]); contradiction. }
  exact (proj2 (proj1 (raw_jwt_init_iff (rj_type_header jwt_full) (rj_payload jwt_full) jwt_full N) eq_refl)).
Qed.
Lemma jwt_full_no_nan : no_nan_times jwt_full.
Proof.
  intros n Hn H. unfold has_value in H. cbn in H. repeat (destruct H as [H | H]; [discriminate |]). contradiction.
Qed.
(** With one minute of skew the token is good from 340 s (iat) and 440 s (nbf) to
    1060 s (exp) exclusive. *)
Example C38_boundaries :
  well_typed jwt_full /\ no_nan_times jwt_full /\ float_times_ok toy_rt /\
  (forall t, In t [440000000; 1059999999] ->
     representable (current_time v_full t - jv_clock_skew v_full) /\
     representable (current_time v_full t + jv_clock_skew v_full) /\
     validate toy_rt t v_full jwt_full = Ok tt) /\
  (forall t, In t [439999999; 1060000000] -> exists m, validate toy_rt t v_full jwt_full = Err (JwtInvalidError m)) /\
  exists m, validate toy_rt 500000000 v_plain jwt_full = Err (JwtInvalidError m).
Proof.
  split; [exact jwt_full_typed |]. split; [exact jwt_full_no_nan |]. split; [exact toy_float_times_ok |].
  split; [| split].
  - intros t Ht. unfold representable. destruct Ht as [<- | [<- | []]]; cbn; repeat split; lia.
  - intros t Ht. destruct Ht as [<- | [<- | []]]; eexists; vm_compute; reflexivity.
  - eexists; vm_compute; reflexivity.
Qed.

Example C39_cases :
  (exists v, new_validator (Some (ulit "a")) None (Some (ulit "b")) false true false false false (Some 600000000) None = Ok v) /\
  (exists m, new_validator (Some (ulit "a")) None None true false false false false None None = Err (ValueError m)) /\
  (exists m, new_validator None None None false false false false false (Some 600000001) None = Err (ValueError m)) /\
  (exists m, new_validator None None None false false false false false None (Some (mk_datetime false 0)) = Err (ValueError m)).
Proof. repeat split; eexists; reflexivity. Qed.

Definition args : raw_jwt_args :=
  mk_raw_jwt_args (Some (JStr (ulit "JWT"))) (Some (JStr (ulit "me"))) None None
    (Some (JList [JStr (ulit "a"); JStr (ulit "b")])) None (Some (mk_datetime true 1000500000)) false None None
    [(NameStr (ulit "extra"), ClaimJson (JList [JInt 5; JStr (ulit "x")]))].
Example C40_args : distinct_names args /\ ordinary_claims toy_rt args /\ acceptable args /\ float_codec toy_rt /\
  exists r, new_raw_jwt toy_rt args = Ok r /\ has_value r "exp" (JInt 1000).
Proof.
  assert (D : distinct_names args) by (cbn; repeat constructor; cbn; tauto).
  assert (O : ordinary_claims toy_rt args).
  { intros n v [E | []]. injection E as <- <-. apply ordinary_list.
    intros w [<- | [<- | []]]; [apply ordinary_int; reflexivity |].
    apply ordinary_str, ulit_valid; reflexivity. }
  assert (A : acceptable args).
  { split; [discriminate |]. split; [left; reflexivity |]. split; [| split; [| split; [| split]]].
    - intros v [E | [E | []]]; [| discriminate]. apply some_inj in E. subst v. right. eexists; reflexivity.
    - intros v E. discriminate.
    - intros v [E | [E | []]]; [discriminate |]. apply some_inj in E. subst v. right. eexists. split; [reflexivity |].
      split; [discriminate |]. repeat constructor; eexists; reflexivity.
    - intros t [E | [E | [E | []]]]; try discriminate. apply some_inj in E. subst t. unfold max_timestamp. cbn. split; [reflexivity | lia].
    - intros n v [E | []]. injection E as <- <-. split; [| eexists; reflexivity]. eexists. split; [reflexivity |].
      intros H. cbn in H. repeat (destruct H as [H | H]; [vm_compute in H; discriminate |]). contradiction. }
  split; [exact D |]. split; [exact O |]. split; [exact A |]. split; [exact toy_float_codec |].
  destruct (new_raw_jwt_accepts toy_rt args toy_float_codec D O A) as (r & Hr). exists r. split; [exact Hr |].
  destruct (new_raw_jwt_claims toy_rt args r toy_float_codec D O Hr) as (_ & _ & _ & T).
  specialize (T "exp" (or_introl eq_refl)). cbn in T. destruct T as (_ & T).
  destruct T as (s & (Hs & _) & H); [unfold representable; lia |]. cbn [dt_us] in Hs.
  destruct (Hs ltac:(lia)) as (_ & E & _). rewrite E in H by reflexivity. exact H.
Qed.

(** ** Findings *)

(** An empty issuer or subject is dropped without an error. *)
Theorem C40_empty_issuer_refuted : exists a r, a_issuer a = Some (JStr []) /\
  new_raw_jwt toy_rt a = Ok r /\ has_issuer r = false.
Proof.
  exists (mk_raw_jwt_args None (Some (JStr [])) None None None None None true None None []).
  eexists. repeat split.
Qed.
Print Assumptions C40_empty_issuer_refuted.

(** A token with NaN as expiration makes a raw JWT whose expiration cannot be read. *)
Theorem C40_nan_refuted : exists r, raw_jwt_from_json toy_rt None (ulit "{""exp"":NaN}") = Ok r /\
  has_expiration r = true /\ exists e, expiration toy_rt r = Err e /\ is_tink_error e = false.
Proof. eexists. split; [vm_compute; reflexivity |]. split; [reflexivity |]. eexists. split; reflexivity. Qed.
Print Assumptions C40_nan_refuted.

(** true and false pass as timestamps. *)
Theorem C40_bool_timestamp_refuted : exists r t, raw_jwt_from_json toy_rt None (ulit "{""exp"":true}") = Ok r /\
  expiration toy_rt r = Ok t.
Proof.
  exists (mk_raw_jwt None [(ulit "exp", JBool true)]), (mk_datetime true 1000000). split; vm_compute; reflexivity.
Qed.
Print Assumptions C40_bool_timestamp_refuted.

(** A time that datetime can represent, in the last microseconds of the year 9999, is
    rounded up to the year 10000 and refused. *)
Theorem C40_last_second_refuted : exists a t m, a_expiration a = Some t /\ representable (dt_us t) /\
  new_raw_jwt toy_rt a = Err (JwtInvalidError m).
Proof.
  exists (mk_raw_jwt_args None None None None None None (Some (mk_datetime true 253402300799999999)) false None None []).
  eexists. eexists. split; [reflexivity |]. split; [unfold representable; cbn; lia |]. vm_compute. reflexivity.
Qed.
Print Assumptions C40_last_second_refuted.

(** A negative clock skew, and an empty expected value together with the ignore flag,
    are not refused. *)
Theorem C39_contradictory_refuted : exists v,
  new_validator (Some []) None None true false false false false (Some (-1)) None = Ok v.
Proof. eexists. reflexivity. Qed.
Print Assumptions C39_contradictory_refuted.
