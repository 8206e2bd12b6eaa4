(** Data types of the JWT part: Python values that come out of / go into the
    [json] module, raw JWTs and validators. *)
From Coq Require Import List NArith ZArith Bool.
From Verif Require Import M_Base.
Import ListNotations.

(** Python floats. [FFin z] is the finite number z * 2^-1074 (every finite double
    is an integer multiple of 2^-1074; conversely the model also contains
    multiples that are not doubles). *)
Inductive pyfloat :=
| FNaN
| FInf (negative : bool)
| FNegZero
| FFin (z : Z).

(** Python values in the range of [json.loads]. Dicts are insertion-ordered
    association lists. *)
Inductive json :=
| JNull
| JBool (v : bool)
| JInt (z : Z)
| JFloat (f : pyfloat)
| JStr (v : pystr)
| JList (l : list json)
| JDict (l : list (pystr * json)).

(** jwt/_raw_jwt.py:48-74 class RawJwt: the fields [_type_header] and [_payload].
    The type header comes either from the user (a str) or from a parsed header,
    where it may be any JSON value; None is [None]. *)
Record raw_jwt := mk_raw_jwt {
  rj_type_header : option json;
  rj_payload : list (pystr * json) }.

(** jwt/_verified_jwt.py:23-46 class VerifiedJwt wraps a RawJwt; all accessors
    delegate (lines 48-100). *)
Record verified_jwt := mk_verified_jwt { vj_raw_jwt : raw_jwt }.

(** Python datetime: an instant in microseconds since the epoch, and whether
    tzinfo is set. *)
Record datetime := mk_datetime { dt_has_tz : bool; dt_us : Z }.

(** jwt/_jwt_validator.py:58-74: the fields of a constructed JwtValidator.
    [jv_clock_skew] in microseconds. *)
Record jwt_validator := mk_jwt_validator {
  jv_expected_type_header : option pystr;
  jv_expected_issuer : option pystr;
  jv_expected_audience : option pystr;
  jv_ignore_type_header : bool;
  jv_ignore_issuer : bool;
  jv_ignore_audiences : bool;
  jv_allow_missing_expiration : bool;
  jv_expect_issued_in_the_past : bool;
  jv_clock_skew : Z;
  jv_fixed_now : option datetime }.
