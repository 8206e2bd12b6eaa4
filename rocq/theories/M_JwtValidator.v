(** jwt/_jwt_validator.py *)
From Coq Require Import Strings.Byte Strings.String List NArith ZArith Bool.
From Verif Require Import M_Base M_JwtTypes M_Json M_RawJwt.
Import ListNotations.
Open Scope list_scope.
Open Scope Z_scope.

(** jwt/_jwt_validator.py:21 in microseconds *)
Definition MAX_CLOCK_SKEW : Z := 600000000.

Definition nonempty (o : option pystr) : bool :=
  match o with Some (_ :: _) => true | _ => false end.

(** jwt/_jwt_validator.py:37-74 __init__, 119-142 new_validator. [clock_skew] in
    microseconds. *)
Definition new_validator (expected_type_header expected_issuer expected_audience : option pystr)
    (ignore_type_header ignore_issuer ignore_audiences allow_missing_expiration
     expect_issued_in_the_past : bool) (clock_skew : option Z) (fixed_now : option datetime)
  : result jwt_validator :=
  if nonempty expected_type_header && ignore_type_header then
    Err (ValueError "expected_type_header and ignore_type_header cannot be used together")
  else if nonempty expected_issuer && ignore_issuer then
    Err (ValueError "expected_issuer and ignore_issuer cannot be used together")
  else if nonempty expected_audience && ignore_audiences then
    Err (ValueError "expected_audience and ignore_audiences cannot be used together")
  else
    let skew := match clock_skew with Some z => z | None => 0 end in
    if MAX_CLOCK_SKEW <? skew then Err (ValueError "clock skew too large, max is 10 minutes")
    else
      let v := mk_jwt_validator expected_type_header expected_issuer expected_audience
                 ignore_type_header ignore_issuer ignore_audiences allow_missing_expiration
                 expect_issued_in_the_past skew fixed_now in
      match fixed_now with
      | Some t => if dt_has_tz t then Ok v else Err (ValueError "fixed_now without tzinfo")
      | None => Ok v
      end.

(** datetime + timedelta. Simplification: the range check is made in UTC. *)
Definition shift (now d : Z) : result Z :=
  if datetime_in_range (now + d) then Ok (now + d) else Err OverflowError.

(** [x == v] for a str and any value *)
Definition str_is (x : pystr) (v : json) : bool :=
  match v with JStr y => str_eqb x y | _ => false end.

(** One of the checks of the type header and the issuer (lines 179-203). *)
Definition check_expected (expected : option pystr) (ignore : bool) (has : bool) (value : result json)
  : result unit :=
  match expected with
  | Some x =>
      if negb has then Err (JwtInvalidError "invalid JWT; missing expected value")
      else v <- value ;;
           if str_is x v then Ok tt else Err (JwtInvalidError "invalid JWT; unexpected value")
  | None =>
      if has && negb ignore then Err (JwtInvalidError "invalid JWT; value set, but validator not.")
      else Ok tt
  end.

(** jwt/_jwt_validator.py:145-213. [clock] is the current time, used when the
    validator has no fixed time. *)
Definition validate (rt : py_rt) (clock : Z) (v : jwt_validator) (r : raw_jwt) : result unit :=
  let now := match jv_fixed_now v with Some t => dt_us t | None => clock end in
  let skew := jv_clock_skew v in
  _ <- (if negb (has_expiration r) && negb (jv_allow_missing_expiration v) then
          Err (JwtInvalidError "token is missing an expiration") else Ok tt) ;;
  _ <- (if has_expiration r then
          e <- expiration rt r ;;
          limit <- shift now (- skew) ;;
          if dt_us e <=? limit then Err (JwtInvalidError "token has expired") else Ok tt
        else Ok tt) ;;
  _ <- (if has_not_before r then
          e <- not_before rt r ;;
          limit <- shift now skew ;;
          if limit <? dt_us e then Err (JwtInvalidError "token cannot be used before") else Ok tt
        else Ok tt) ;;
  _ <- (if jv_expect_issued_in_the_past v then
          if negb (has_issued_at r) then Err (JwtInvalidError "token is missing iat claim")
          else
            e <- issued_at rt r ;;
            limit <- shift now skew ;;
            if limit <? dt_us e then Err (JwtInvalidError "iat claim in the future") else Ok tt
        else Ok tt) ;;
  _ <- check_expected (jv_expected_type_header v) (jv_ignore_type_header v)
         (has_type_header r) (type_header r) ;;
  _ <- check_expected (jv_expected_issuer v) (jv_ignore_issuer v) (has_issuer r) (issuer r) ;;
  match jv_expected_audience v with
  | Some x =>
      if negb (has_audiences r) then Err (JwtInvalidError "invalid JWT; missing expected audience")
      else l <- audiences r ;;
           if existsb (str_is x) l then Ok tt
           else Err (JwtInvalidError "invalid JWT; missing expected audience")
  | None =>
      if has_audiences r && negb (jv_ignore_audiences v) then
        Err (JwtInvalidError "invalid JWT; token has audience set, but validator not.")
      else Ok tt
  end.
