(** Specification of JSON Web Tokens: compact format, header rules, claims, validator.
    Uses the data types of the model and the JSON and base64 specifications, none of
    the functions under verification. *)
From Coq Require Import Strings.Byte Strings.String List NArith ZArith Bool.
From Verif Require Import M_Base M_Utf8 M_Proto M_JwtTypes M_Prims M_Registry M_Json M_RawJwt
  S_Keyset S_Base64 S_Json.
Import ListNotations.
Open Scope string_scope.
Open Scope list_scope.
Open Scope Z_scope.

(** ** Compact format *)

(** [text_of x s]: s is the unpadded base64url text of the bytes x. *)
Definition segment (x : bytes) (s : bytes) : Prop := base64_text_loose url_alphabet x s.

(** The token is [eh.ep.es]: three base64url segments; header and payload are UTF-8.
    [signed] are the bytes that are authenticated. *)
Definition compact_parts (token : pystr) (signed : bytes) (header payload : pystr) (tag : bytes) : Prop :=
  exists eh ep es xh xp,
    token = map Byte.to_N (eh ++ [x2e] ++ ep ++ [x2e] ++ es) /\
    signed = eh ++ [x2e] ++ ep /\
    segment xh eh /\ segment xp ep /\ segment tag es /\
    utf8_encode header = Some xh /\ utf8_encode payload = Some xp.

(** A JSON document with the value v that the parser accepts (see C34). *)
Definition document (rt : py_rt) (v : json) (s : pystr) : Prop :=
  json_text rt v s /\ no_repeated_names v /\ (forall x, member_string x v -> valid_unicode x).

(** ** Header *)

Definition algorithms : list string :=
  ["HS256"; "HS384"; "HS512"; "ES256"; "ES384"; "ES512";
   "RS256"; "RS384"; "RS512"; "PS256"; "PS384"; "PS512"].

(** [a] is the name [alg] up to upper and lower case (U+017F is another lower-case
    form of S). *)
Definition case_variant (a alg : pystr) : Prop :=
  Forall2 (fun c d => c = d \/ (65 <= d <= 90 /\ c = d + 32) \/ (d = 83 /\ c = 383))%N a alg.

(** What the header must say. [tink_kid] is the kid of a TINK key, [custom_kid] that
    configured for a RAW key. *)
Definition header_ok (alg : pystr) (tink_kid custom_kid : option pystr) (h : list (pystr * json)) : Prop :=
  (exists a, In (ulit "alg", JStr a) h /\ case_variant a alg) /\
  (forall v, ~ In (ulit "crit", v) h) /\
  (tink_kid = None \/ custom_kid = None) /\
  (forall k, tink_kid = Some k -> In (ulit "kid", JStr k) h) /\
  (forall k v, custom_kid = Some k -> In (ulit "kid", v) h -> v = JStr k).

(** The type header: the member typ, if it is there and not null. *)
Definition typ_of (h : list (pystr * json)) (th : option json) : Prop :=
  (exists v, In (ulit "typ", v) h /\ v <> JNull /\ th = Some v) \/
  (th = None /\ forall v, In (ulit "typ", v) h -> v = JNull).

(** ** Claims *)

Definition has_value (r : raw_jwt) (name : string) (v : json) : Prop := In (ulit name, v) (rj_payload r).
Definition lacks (r : raw_jwt) (name : string) : Prop := forall v, ~ has_value r name v.

Definition max_timestamp : Z := 253402300799.
(** A number of seconds from 0 to 9999-12-31T23:59:59. True and False count as
    numbers; so does NaN, which no comparison excludes. *)
Definition timestamp (v : json) : Prop :=
  match v with
  | JInt z => 0 <= z <= max_timestamp
  | JBool _ => True
  | JFloat (FFin z) => 0 <= z <= max_timestamp * 2 ^ 1074
  | JFloat FNegZero | JFloat FNaN => True
  | _ => False
  end.
Definition is_string (v : json) : Prop := exists x, v = JStr x.

Definition well_typed (r : raw_jwt) : Prop :=
  NoDup (map fst (rj_payload r)) /\
  (forall n v, In n ["iss"; "sub"; "jti"] -> has_value r n v -> is_string v) /\
  (forall n v, In n ["exp"; "nbf"; "iat"] -> has_value r n v -> timestamp v) /\
  (forall v, has_value r "aud" v ->
     is_string v \/ exists l, v = JList l /\ l <> [] /\ Forall is_string l).

(** ** Validator *)

(** The instant, in microseconds, of a timestamp. *)
Definition instant (rt : py_rt) (v : json) (us : Z) : Prop :=
  match v with
  | JInt z => us = z * 1000000
  | JBool b => us = (if b then 1000000 else 0)
  | JFloat (FFin z) => us = float_us rt (FFin z)
  | JFloat FNegZero => us = float_us rt FNegZero
  | _ => False
  end.
(** The claim is there and [P] holds of its instant. *)
Definition at_time (rt : py_rt) (r : raw_jwt) (name : string) (P : Z -> Prop) : Prop :=
  exists v us, has_value r name v /\ instant rt v us /\ P us.

Definition current_time (v : jwt_validator) (clock : Z) : Z :=
  match jv_fixed_now v with Some t => dt_us t | None => clock end.

(** A text claim against what the validator expects. *)
Definition matches (expected : option pystr) (ignore : bool) (actual : option json) : Prop :=
  match expected with
  | Some x => actual = Some (JStr x)
  | None => actual = None \/ ignore = true
  end.

Definition accepts (rt : py_rt) (clock : Z) (v : jwt_validator) (r : raw_jwt) : Prop :=
  let now := current_time v clock in
  let skew := jv_clock_skew v in
  (* expiration *)
  ((lacks r "exp" /\ jv_allow_missing_expiration v = true)
   \/ at_time rt r "exp" (fun t => t > now - skew)) /\
  (* not before *)
  (lacks r "nbf" \/ at_time rt r "nbf" (fun t => t <= now + skew)) /\
  (* issued at *)
  (jv_expect_issued_in_the_past v = true -> at_time rt r "iat" (fun t => t <= now + skew)) /\
  (* type header *)
  matches (jv_expected_type_header v) (jv_ignore_type_header v) (rj_type_header r) /\
  (* issuer *)
  (exists iss, (forall x, has_value r "iss" x <-> iss = Some x) /\
     matches (jv_expected_issuer v) (jv_ignore_issuer v) iss) /\
  (* audience *)
  (match jv_expected_audience v with
   | Some x => has_value r "aud" (JStr x) \/ exists l, has_value r "aud" (JList l) /\ In (JStr x) l
   | None => lacks r "aud" \/ jv_ignore_audiences v = true
   end).

(** Instants that Python's datetime can represent (years 1 to 9999). *)
Definition representable (us : Z) : Prop := -62135596800000000 <= us <= 253402300799999999.
(** Python's conversion of float seconds in the range of timestamps stays in the
    range of datetime. *)
Definition float_times_ok (rt : py_rt) : Prop :=
  forall f, timestamp (JFloat f) -> f <> FNaN -> representable (float_us rt f).
Definition no_nan_times (r : raw_jwt) : Prop :=
  forall n, In n ["exp"; "nbf"; "iat"] -> ~ has_value r n (JFloat FNaN).

(** ** Key ids *)

(** The kid of a key: none for RAW, for TINK the base64url text of the four
    big-endian bytes of the key id. *)
Definition kid_of (k : key) (kid : option pystr) : Prop :=
  (k_output_prefix_type k = RAW /\ kid = None) \/
  (k_output_prefix_type k = TINK /\ exists b3 b2 b1 b0 s,
     (Byte.to_N b3 * 2 ^ 24 + Byte.to_N b2 * 2 ^ 16 + Byte.to_N b1 * 2 ^ 8 + Byte.to_N b0
        = k_key_id k)%N /\
     base64_text url_alphabet [b3; b2; b1; b0] s /\ kid = Some (map Byte.to_N s)).


(** ** Construction (the record of the arguments is the only thing used of M_RawJwt) *)

(** Values that count as false in Python: iss and sub are dropped for them. *)
Definition empty_value (v : json) : Prop :=
  In v [JNull; JBool false; JInt 0; JFloat FNegZero; JFloat (FFin 0); JStr []; JList []; JDict []].

(** [s] is the time [us] in whole seconds: rounded down, except that in the last 15
    microseconds of a second after the year 2514 it may be rounded up. *)
Definition whole_seconds (us s : Z) : Prop :=
  (0 <= us -> us / 1000000 <= s <= us / 1000000 + 1 /\
     (us < 2 ^ 34 * 1000000 -> s = us / 1000000) /\
     (us mod 1000000 <= 999984 -> s = us / 1000000)) /\
  (-1000000 < us < 0 -> s = 0) /\
  (us <= -1000000 -> s < 0).

Definition registered_names : list string := ["iss"; "sub"; "jti"; "aud"; "exp"; "nbf"; "iat"].

(** custom_claims is a dict: no name twice. *)
Definition distinct_names (a : raw_jwt_args) : Prop := NoDup (map fst (a_custom_claims a)).
(** The values of custom claims are ordinary JSON data. *)
Definition ordinary_claims (rt : py_rt) (a : raw_jwt_args) : Prop :=
  forall n v, In (n, ClaimJson v) (a_custom_claims a) ->
    python_value v /\ (forall x, any_string x v -> valid_unicode x) /\ ints_convertible rt v.

(** The claims asked for, other than times. *)
Inductive asked (a : raw_jwt_args) : pystr -> json -> Prop :=
| Ask_iss : forall v, a_issuer a = Some v -> ~ empty_value v -> asked a (ulit "iss") v
| Ask_sub : forall v, a_subject a = Some v -> ~ empty_value v -> asked a (ulit "sub") v
| Ask_jti : forall v, a_jwt_id a = Some v -> asked a (ulit "jti") v
| Ask_aud : forall v, a_audience a = Some v -> asked a (ulit "aud") v
| Ask_auds : forall v, a_audiences a = Some v -> asked a (ulit "aud") v
| Ask_custom : forall n v, In (NameStr n, ClaimJson v) (a_custom_claims a) -> asked a n v.
Definition asked_time (a : raw_jwt_args) (n : string) : option datetime :=
  if String.eqb n "exp" then a_expiration a
  else if String.eqb n "nbf" then a_not_before a
  else if String.eqb n "iat" then a_issued_at a else None.

(** Arguments that must be accepted. *)
Definition acceptable (a : raw_jwt_args) : Prop :=
  (if a_without_expiration a then a_expiration a = None else a_expiration a <> None) /\
  (a_audience a = None \/ a_audiences a = None) /\
  (forall v, In (Some v) [a_issuer a; a_subject a] -> empty_value v \/ is_string v) /\
  (forall v, a_jwt_id a = Some v -> is_string v) /\
  (forall v, In (Some v) [a_audience a; a_audiences a] ->
     is_string v \/ exists l, v = JList l /\ l <> [] /\ Forall is_string l) /\
  (forall t, In (Some t) [a_expiration a; a_not_before a; a_issued_at a] ->
     dt_has_tz t = true /\ 0 <= dt_us t <= max_timestamp * 1000000) /\
  (forall n v, In (n, v) (a_custom_claims a) ->
     (exists x, n = NameStr x /\ ~ In x (map ulit registered_names)) /\ exists w, v = ClaimJson w).

(** ** Encoding *)

(** JSON data that Python can write and read back. *)
Definition ordinary (rt : py_rt) (v : json) : Prop :=
  python_value v /\ (forall x, any_string x v -> valid_unicode x) /\ ints_convertible rt v.
Definition ordinary_jwt (rt : py_rt) (r : raw_jwt) : Prop :=
  ordinary rt (JDict (rj_payload r)) /\ forall v, rj_type_header r = Some v -> ordinary rt v.

(** The header of an encoded token has alg, kid if there is one, typ if there is one,
    and nothing else. *)
Definition header_of (alg : pystr) (kid : option pystr) (th : option json) (h : list (pystr * json)) : Prop :=
  forall n v, In (n, v) h <->
    (n = ulit "alg" /\ v = JStr alg) \/
    (n = ulit "kid" /\ exists k, kid = Some k /\ k <> [] /\ v = JStr k) \/
    (n = ulit "typ" /\ th = Some v /\ ~ empty_value v).

(** The same claims and type header; an empty type header is lost. *)
Definition same_but_empty_type (r r' : raw_jwt) : Prop :=
  rj_payload r' = rj_payload r /\
  forall v, rj_type_header r' = Some v <-> rj_type_header r = Some v /\ ~ empty_value v.

(** ** Acceptance of a token by one key *)

(** The key has the algorithm [alg], the kid [tink_kid] or [custom_kid], and accepts
    the tag of a message iff [check] returns. *)
Definition token_accepted (rt : py_rt) (alg : pystr) (tink_kid custom_kid : option pystr)
    (check : bytes -> bytes -> result unit) (clock : Z) (v : jwt_validator) (token : pystr) (r : raw_jwt) : Prop :=
  exists signed header payload tag h,
    compact_parts token signed header payload tag /\
    check tag signed = Ok tt /\
    document rt (JDict h) header /\ header_ok alg tink_kid custom_kid h /\ typ_of h (rj_type_header r) /\
    document rt (JDict (rj_payload r)) payload /\
    well_typed r /\ accepts rt clock v r.

(** ** Keysets *)

(** Two keys with the same output prefix: RAW keys, TINK keys with the same id, LEGACY
    or CRUNCHY keys with the same id. *)
Definition same_prefix (k k' : key) : bool :=
  ((k_output_prefix_type k =? RAW) && (k_output_prefix_type k' =? RAW))
  || ((k_output_prefix_type k =? TINK) && (k_output_prefix_type k' =? TINK)
      && (k_key_id k =? k_key_id k')%N)
  || (((k_output_prefix_type k =? LEGACY) || (k_output_prefix_type k =? CRUNCHY))
      && ((k_output_prefix_type k' =? LEGACY) || (k_output_prefix_type k' =? CRUNCHY))
      && (k_key_id k =? k_key_id k')%N).

(** The order in which keys are tried: keyset order, except that keys with the same
    prefix are brought together at the place of the first of them. *)
Fixpoint grouped {P} (seen : list key) (l : list (key * P)) : list (key * P) :=
  match l with
  | [] => []
  | kp :: r =>
      if existsb (fun k => same_prefix k (fst kp)) seen then grouped seen r
      else kp :: filter (fun kp' => same_prefix (fst kp) (fst kp')) r ++ grouped (fst kp :: seen) r
  end.

(** The outcome of the attempts, in order: the first that is not a TinkError decides;
    if there is none, the last JwtInvalidError is raised, or another TinkError when
    there was no JwtInvalidError. *)
Definition verify_outcome {A} (attempts : list (result A)) (out : result A) : Prop :=
  (exists before r after, attempts = before ++ r :: after /\
     Forall raises_tink before /\ ~ raises_tink r /\ out = r) \/
  (Forall raises_tink attempts /\
   ((exists before e after, attempts = before ++ Err e :: after /\ is_jwt_invalid_error e = true /\
       Forall (fun r => forall e', r = Err e' -> is_jwt_invalid_error e' = false) after /\
       out = Err e)
    \/ (Forall (fun r => forall e', r = Err e' -> is_jwt_invalid_error e' = false) attempts /\
        exists e, out = Err e /\ is_tink_error e = true /\ is_jwt_invalid_error e = false))).

(** The attempts to verify with the keys of [l]: each key's own primitive is called
    with the key's own kid. *)
Definition jwt_attempts {P A} (call : P -> option pystr -> result A) (l : list (key * P)) (at_ : list (result A)) : Prop :=
  Forall2 (fun kp r => exists kid, kid_of (fst kp) kid /\ r = call (snd kp) kid) (grouped [] l) at_.

Definition raw_or_tink (k : key) : Prop := k_output_prefix_type k = RAW \/ k_output_prefix_type k = TINK.

(** A JWT primitive of a keyset: the primary key alone makes tokens, all enabled keys
    verify. *)
Definition jwt_maker_spec {P} (inj : P -> prim) (reg : registry) (c : pclass) (ks : keyset)
    (make : P -> option pystr -> result pystr) (out : result pystr) (l : list (key * P)) : Prop :=
  keys_with inj reg c ks l /\ Forall (fun kp => raw_or_tink (fst kp)) l /\
  (forall k p, is_primary ks l k p -> exists kid, kid_of k kid /\ out = make p kid) /\
  ((forall k p, ~ is_primary ks l k p) -> exists e, out = Err e /\ is_tink_error e = true).
Definition jwt_verifier_spec {P} (inj : P -> prim) (reg : registry) (c : pclass) (ks : keyset)
    (call : P -> option pystr -> result verified_jwt) (out : result verified_jwt) (l : list (key * P)) : Prop :=
  keys_with inj reg c ks l /\ Forall (fun kp => raw_or_tink (fst kp)) l /\
  exists at_, jwt_attempts call l at_ /\ verify_outcome at_ out.
