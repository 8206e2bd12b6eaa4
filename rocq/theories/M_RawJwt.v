(** jwt/_raw_jwt.py and jwt/_verified_jwt.py *)
From Coq Require Import Strings.Byte Strings.String List NArith ZArith Bool.
From Verif Require Import M_Base M_JwtTypes M_Json.
Import ListNotations.
Open Scope list_scope.
Open Scope Z_scope.

(** [bool(v)] *)
Definition truthy (v : json) : bool :=
  match v with
  | JNull => false
  | JBool b => b
  | JInt z => negb (z =? 0)
  | JFloat FNegZero => false
  | JFloat (FFin z) => negb (z =? 0)
  | JFloat _ => true
  | JStr [] | JList [] | JDict [] => false
  | JStr _ | JList _ | JDict _ => true
  end.
(** [if x:] for an optional argument *)
Definition truthy_opt (o : option json) : option json :=
  match o with Some v => if truthy v then Some v else None | None => None end.

(** jwt/_raw_jwt.py:25 *)
Definition REGISTERED_NAMES : list pystr :=
  map ulit ["iss"; "sub"; "jti"; "aud"; "exp"; "nbf"; "iat"]%string.
Definition registered (name : pystr) : bool := existsb (str_eqb name) REGISTERED_NAMES.

(** jwt/_raw_jwt.py:27 *)
Definition MAX_TIMESTAMP_VALUE : Z := 253402300799.

(** [t.timestamp()] followed by [int]: the exact number of seconds is rounded to a
    double (53 bits, half to even), then truncated towards zero. For |us| / 10^6 in
    [2^e, 2^(e+1)) the doubles are spaced 2^(e-52). *)
Definition round_half_even (num den : Z) : Z :=
  let q := num / den in
  let r := num mod den in
  if 2 * r <? den then q else if den <? 2 * r then q + 1 else if Z.even q then q else q + 1.
Definition int_timestamp_abs (us : Z) : Z :=
  let e := Z.log2 (us / 1000000) in
  round_half_even (us * 2 ^ (52 - e)) 1000000 / 2 ^ (52 - e).
Definition int_timestamp (us : Z) : Z :=
  if us <? 0 then - int_timestamp_abs (- us) else int_timestamp_abs us.

(** jwt/_raw_jwt.py:32-35 *)
Definition from_datetime (t : datetime) : result Z :=
  if negb (dt_has_tz t) then Err (JwtInvalidError "datetime must have tzinfo")
  else Ok (int_timestamp (dt_us t)).

(** jwt/_raw_jwt.py:38-39 [datetime.datetime.fromtimestamp(timestamp, utc)]. Values
    outside the range of datetime raise; [OtherError 1] stands for ValueError or
    OverflowError there. *)
Definition MIN_DATETIME_US : Z := -62135596800000000.
Definition MAX_DATETIME_US : Z := 253402300799999999.
Definition datetime_in_range (us : Z) : bool :=
  (MIN_DATETIME_US <=? us) && (us <=? MAX_DATETIME_US).
Definition to_datetime (rt : py_rt) (timestamp : json) : result datetime :=
  let from_us us := if datetime_in_range us then Ok (mk_datetime true us) else Err (OtherError 1) in
  match timestamp with
  | JInt z => from_us (z * 1000000)
  | JBool b => from_us (if b then 1000000 else 0)
  | JFloat FNaN => Err (ValueError "cannot convert float NaN to integer")
  | JFloat (FInf _) => Err OverflowError
  | JFloat f => from_us (float_us rt f)
  | _ => Err (TypeError "an integer is required")
  end.

(** jwt/_raw_jwt.py:42-45 *)
Definition validate_custom_claim_name (name : pystr) : result unit :=
  if registered name then Err (JwtInvalidError "registered name cannot be custom claim name")
  else Ok tt.

Definition payload_get (p : list (pystr * json)) (name : string) : option json :=
  dict_get str_eqb (ulit name) p.

(** jwt/_raw_jwt.py:76-79 *)
Definition validate_string_claim (p : list (pystr * json)) (name : string) : result unit :=
  match payload_get p name with
  | Some (JStr _) | None => Ok tt
  | Some _ => Err (JwtInvalidError "claim must be a String")
  end.

(** Comparison of a number with an int bound, as Python does (NaN compares false):
    [v > bound] and [v < 0]. [None]: not an int or float. *)
Definition two_1074 : Z := 2 ^ 1074.
Definition gt_bound (v : json) (bound : Z) : option bool :=
  match v with
  | JInt z => Some (bound <? z)
  | JBool b => Some (bound <? (if b then 1 else 0))
  | JFloat FNaN => Some false
  | JFloat (FInf neg) => Some (negb neg)
  | JFloat FNegZero => Some (bound <? 0)
  | JFloat (FFin z) => Some (bound * two_1074 <? z)
  | _ => None
  end.
Definition lt_zero (v : json) : option bool :=
  match v with
  | JInt z => Some (z <? 0)
  | JBool _ => Some false
  | JFloat FNaN => Some false
  | JFloat (FInf neg) => Some neg
  | JFloat FNegZero => Some false
  | JFloat (FFin z) => Some (z <? 0)
  | _ => None
  end.

(** jwt/_raw_jwt.py:81-88 *)
Definition validate_timestamp_claim (p : list (pystr * json)) (name : string) : result unit :=
  match payload_get p name with
  | None => Ok tt
  | Some v =>
      match gt_bound v MAX_TIMESTAMP_VALUE, lt_zero v with
      | Some g, Some l =>
          if g || l then Err (JwtInvalidError "timestamp is out of range") else Ok tt
      | _, _ => Err (JwtInvalidError "claim must be a Number")
      end
  end.

Definition is_str (v : json) : bool := match v with JStr _ => true | _ => false end.

(** jwt/_raw_jwt.py:90-99 *)
Definition validate_audience_claim (p : list (pystr * json)) : result unit :=
  match payload_get p "aud" with
  | None | Some (JStr _) => Ok tt
  | Some (JList []) => Err (JwtInvalidError "audiences cannot be an empty list")
  | Some (JList l) =>
      if forallb is_str l then Ok tt
      else Err (JwtInvalidError "audiences must only contain strings")
  | Some _ => Err (JwtInvalidError "audiences cannot be an empty list")
  end.

(** jwt/_raw_jwt.py:61-74 __init__ *)
Definition raw_jwt_init (type_header : option json) (payload : json) : result raw_jwt :=
  match payload with
  | JDict p =>
      _ <- validate_string_claim p "iss" ;;
      _ <- validate_string_claim p "sub" ;;
      _ <- validate_string_claim p "jti" ;;
      _ <- validate_timestamp_claim p "exp" ;;
      _ <- validate_timestamp_claim p "nbf" ;;
      _ <- validate_timestamp_claim p "iat" ;;
      _ <- validate_audience_claim p ;;
      Ok (mk_raw_jwt type_header p)
  | _ => Err (JwtInvalidError "payload must be a dict")
  end.

(** ** Accessors, jwt/_raw_jwt.py:101-167. jwt/_verified_jwt.py delegates to
    them. *)

Definition claim (r : raw_jwt) (name : string) : result json :=
  match payload_get (rj_payload r) name with Some v => Ok v | None => Err KeyError end.
Definition has_claim (r : raw_jwt) (name : string) : bool :=
  match payload_get (rj_payload r) name with Some _ => true | None => false end.

Definition has_type_header (r : raw_jwt) : bool :=
  match rj_type_header r with Some _ => true | None => false end.
Definition type_header (r : raw_jwt) : result json :=
  match rj_type_header r with Some v => Ok v | None => Err KeyError end.
Definition has_issuer (r : raw_jwt) : bool := has_claim r "iss".
Definition issuer (r : raw_jwt) : result json := claim r "iss".
Definition has_subject (r : raw_jwt) : bool := has_claim r "sub".
Definition subject (r : raw_jwt) : result json := claim r "sub".
Definition has_audiences (r : raw_jwt) : bool := has_claim r "aud".
(** lines 124-128: [list(aud)] of a list is a copy; other types cannot occur. *)
Definition audiences (r : raw_jwt) : result (list json) :=
  match claim r "aud" with
  | Ok (JStr x) => Ok [JStr x]
  | Ok (JList l) => Ok l
  | Ok _ => Err (TypeError "object is not iterable")
  | Err e => Err e
  end.
Definition has_jwt_id (r : raw_jwt) : bool := has_claim r "jti".
Definition jwt_id (r : raw_jwt) : result json := claim r "jti".
Definition has_expiration (r : raw_jwt) : bool := has_claim r "exp".
Definition expiration (rt : py_rt) (r : raw_jwt) : result datetime :=
  v <- claim r "exp" ;; to_datetime rt v.
Definition has_not_before (r : raw_jwt) : bool := has_claim r "nbf".
Definition not_before (rt : py_rt) (r : raw_jwt) : result datetime :=
  v <- claim r "nbf" ;; to_datetime rt v.
Definition has_issued_at (r : raw_jwt) : bool := has_claim r "iat".
Definition issued_at (rt : py_rt) (r : raw_jwt) : result datetime :=
  v <- claim r "iat" ;; to_datetime rt v.
(** lines 154-155: a set; the model keeps the order of the payload. *)
Definition custom_claim_names (r : raw_jwt) : list pystr :=
  filter (fun n => negb (registered n)) (map fst (rj_payload r)).
(** lines 157-163: the deep copy is equal to the value. *)
Definition custom_claim (r : raw_jwt) (name : pystr) : result json :=
  _ <- validate_custom_claim_name name ;;
  match dict_get str_eqb name (rj_payload r) with Some v => Ok v | None => Err KeyError end.
(** lines 165-167 *)
Definition json_payload (rt : py_rt) (r : raw_jwt) : result pystr :=
  json_dumps rt (JDict (rj_payload r)).

(** ** Construction *)

(** A key and a value of the mapping custom_claims. Other types than str for names,
    and values that are not None, bool, int, float, str, list or dict, are refused.
    Simplification: lists and dicts inside a claim only contain values of type
    [json]. *)
Inductive claim_name := NameStr (x : pystr) | NameOther.
Inductive claim_value := ClaimJson (v : json) | ClaimOther.

(** jwt/_raw_jwt.py:208-221: one pass of the loop over custom_claims. *)
Definition add_custom_claim (rt : py_rt) (p : list (pystr * json)) (c : claim_name * claim_value)
  : result (list (pystr * json)) :=
  match fst c with
  | NameOther => Err (JwtInvalidError "claim name must be Text")
  | NameStr name =>
      _ <- validate_custom_claim_name name ;;
      match snd c with
      | ClaimJson (JList _ as v) | ClaimJson (JDict _ as v) =>
          t <- json_dumps_default rt v ;;
          v' <- json_loads_plain rt t ;;
          Ok (dict_set str_eqb name v' p)
      | ClaimJson v => Ok (dict_set str_eqb name v p)
      | ClaimOther => Err (JwtInvalidError "claim has unknown type")
      end
  end.
Fixpoint add_custom_claims (rt : py_rt) (p : list (pystr * json)) (l : list (claim_name * claim_value))
  : result (list (pystr * json)) :=
  match l with
  | [] => Ok p
  | c :: r => p' <- add_custom_claim rt p c ;; add_custom_claims rt p' r
  end.

(** The arguments of new_raw_jwt. Strings are given as [json] so that values of a
    wrong type are covered. *)
Record raw_jwt_args := mk_raw_jwt_args {
  a_type_header : option json;
  a_issuer : option json;
  a_subject : option json;
  a_audience : option json;
  a_audiences : option json;
  a_jwt_id : option json;
  a_expiration : option datetime;
  a_without_expiration : bool;
  a_not_before : option datetime;
  a_issued_at : option datetime;
  a_custom_claims : list (claim_name * claim_value) }.

Definition set_opt (name : string) (o : option json) (p : list (pystr * json)) :=
  match o with Some v => dict_set str_eqb (ulit name) v p | None => p end.
Definition set_time (name : string) (o : option datetime) (p : list (pystr * json))
  : result (list (pystr * json)) :=
  match o with
  | Some t => s <- from_datetime t ;; Ok (dict_set str_eqb (ulit name) (JInt s) p)
  | None => Ok p
  end.
Definition is_some {A} (o : option A) : bool := match o with Some _ => true | None => false end.

(** jwt/_raw_jwt.py:169-224 create, 234-258 new_raw_jwt *)
Definition new_raw_jwt (rt : py_rt) (a : raw_jwt_args) : result raw_jwt :=
  if negb (is_some (a_expiration a)) && negb (a_without_expiration a) then
    Err (ValueError "either expiration or without_expiration must be set")
  else if is_some (a_expiration a) && a_without_expiration a then
    Err (ValueError "expiration and without_expiration cannot be set at the same time")
  else if is_some (a_audience a) && is_some (a_audiences a) then
    Err (JwtInvalidError "audience and audiences cannot be set at the same time")
  else
    let p := set_opt "iss" (truthy_opt (a_issuer a)) [] in
    let p := set_opt "sub" (truthy_opt (a_subject a)) p in
    let p := set_opt "jti" (a_jwt_id a) p in
    let p := set_opt "aud" (a_audience a) p in
    let p := set_opt "aud" (a_audiences a) p in
    p <- set_time "exp" (a_expiration a) p ;;
    p <- set_time "nbf" (a_not_before a) p ;;
    p <- set_time "iat" (a_issued_at a) p ;;
    p <- add_custom_claims rt p (a_custom_claims a) ;;
    raw_jwt_init (a_type_header a) (JDict p).

(** jwt/_raw_jwt.py:226-231 _from_json, 261-263 raw_jwt_from_json *)
Definition raw_jwt_from_json (rt : py_rt) (type_header : option json) (payload : pystr)
  : result raw_jwt :=
  v <- json_loads rt payload ;; raw_jwt_init type_header v.
