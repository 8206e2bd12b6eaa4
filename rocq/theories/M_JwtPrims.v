(** The JWT primitives of one key: jwt/_jwt_hmac_key_manager.py:39-96 and
    jwt/_jwt_signature_key_manager.py:61-130. *)
From Coq Require Import Strings.Byte Strings.String List NArith ZArith Bool.
From Verif Require Import M_Base M_JwtTypes M_Prims M_Json M_RawJwt M_JwtValidator M_JwtFormat.
Import ListNotations.
Open Scope list_scope.

(** jwt/_jwt_hmac_key_manager.py:56-78 compute_mac_and_encode_with_kid and
    jwt/_jwt_signature_key_manager.py:74-95 sign_and_encode_with_kid: the same code;
    [auth] is the MAC or signature of the C++ primitive. *)
Definition encode_with_kid (rt : py_rt) (algorithm : pystr) (custom_kid : option pystr)
    (auth : bytes -> result bytes) (r : raw_jwt) (kid : option pystr) : result pystr :=
  kid <- match custom_kid, kid with
         | Some _, Some _ => Err (JwtInvalidError "custom_kid must not be set for keys with output prefix type TINK")
         | Some k, None => Ok (Some k)
         | None, _ => Ok kid
         end ;;
  unsigned <- create_unsigned_compact rt algorithm kid r ;;
  tag <- use_tink_errors (auth unsigned) ;;
  Ok (create_signed_compact unsigned tag).

(** jwt/_jwt_hmac_key_manager.py:80-96 verify_mac_and_decode_with_kid and
    jwt/_jwt_signature_key_manager.py:111-127 verify_and_decode_with_kid. *)
Definition verify_with_kid (rt : py_rt) (algorithm : pystr) (custom_kid : option pystr)
    (check : bytes -> bytes -> result unit) (clock : Z) (compact : pystr) (v : jwt_validator)
    (kid : option pystr) : result verified_jwt :=
  '(unsigned, json_header, payload, tag) <- split_signed_compact compact ;;
  _ <- use_tink_errors (check tag unsigned) ;;
  header <- json_loads rt json_header ;;
  _ <- validate_header header algorithm kid custom_kid ;;
  r <- raw_jwt_from_json rt (get_type_header header) payload ;;
  _ <- validate rt clock v r ;;
  Ok (mk_verified_jwt r).

(** jwt/_jwt_hmac_key_manager.py:39-96 class _JwtHmac *)
Definition jwt_hmac (rt : py_rt) (algorithm : pystr) (custom_kid : option pystr) (cc : mac)
  : jwt_mac_internal :=
  mk_jwt_mac_internal
    (encode_with_kid rt algorithm custom_kid (mac_compute cc))
    (verify_with_kid rt algorithm custom_kid (mac_verify cc)).

(** jwt/_jwt_signature_key_manager.py:61-95 class _JwtPublicKeySign *)
Definition jwt_public_key_sign (rt : py_rt) (algorithm : pystr) (custom_kid : option pystr) (cc : signer)
  : jwt_sign_internal :=
  mk_jwt_sign_internal (fun rnd => encode_with_kid rt algorithm custom_kid (sign cc rnd)).

(** jwt/_jwt_signature_key_manager.py:98-127 class _JwtPublicKeyVerify *)
Definition jwt_public_key_verify (rt : py_rt) (algorithm : pystr) (custom_kid : option pystr) (cc : verifier)
  : jwt_verify_internal :=
  mk_jwt_verify_internal (verify_with_kid rt algorithm custom_kid (verify cc)).
