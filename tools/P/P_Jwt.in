(** C35, C36, C37, C41, C42, C43: JSON Web Tokens, from the keyset to the token. *)
From Coq Require Import Strings.Byte Strings.String List NArith ZArith Bool Lia Permutation.
From Verif Require Import M_Base L_Base M_Proto M_Utf8 M_Wire M_JwtTypes M_Prims M_Registry M_KeysetHandle M_Json M_RawJwt
  M_JwtValidator M_JwtFormat M_JwtPrims M_JwtKeys M_JwtWrappers M_JwtRegister M_Base64
  S_Keyset S_Json S_Base64 S_Jwt S_JwtKeys
  L_Keyset L_Json3 L_Jwt L_Jwt2 L_Jwt3 L_Jwt5 L_Jwt6 L_Jwt7 L_Jwt8 X_Rt X_Jwt.
Import ListNotations.
Open Scope list_scope.
Open Scope string_scope.
Open Scope list_scope.

(** ** C35: the compact form *)

(** Splitting succeeds on exactly the texts of three base64url segments with UTF-8
    header and payload, and returns these; the bytes that are authenticated are the
    first two segments as they stand in the token. *)
@thm C35_split split_iff

(** Other texts raise JwtInvalidError, whatever they are. *)
@thm C35_split_total split_total

(** A text has at most one reading. *)
@thm C35_unambiguous compact_parts_fun

(** ** C36: what is made is accepted *)

(** The token of one key: header, payload and tag. *)
@thm C36_encode encode_spec
@thm C36_kid_conflict encode_conflict

(** A token made with a key is accepted by a key with the same parameters and decodes
    to the same claims, if the validator accepts these. *)
@thm C36_round_trip_one_key jwt_round_trip

(** The same for keysets: MACs, with any keyset that contains the key; signatures,
    with any keyset that contains the public key. *)
@thm C36_round_trip_mac jwt_mac_keyset_round_trip
@thm C36_round_trip_signature jwt_signature_keyset_round_trip

(** What the token of a keyset says and what is authenticated. *)
@thm C36_token_mac jwt_mac_token
@thm C36_token_signature jwt_sign_token

(** ** C37: what is accepted *)

(** A key accepts a token only if its tag is valid for the first two segments, its
    header names the key's algorithm and kid, and the validator accepts the claims. *)
@thm C37_sound verify_sound
@thm C37_complete verify_complete

(** A keyset accepts a token iff one of its enabled keys does; the claims returned are
    those of the token. *)
@thm C37_mac_keyset jwt_mac_verify_iff
@thm C37_signature_keyset jwt_verify_iff

(** What each key contributes is what its message says. *)
@thm C37_hmac_manager jwt_hmac_manager_spec
@thm C37_sign_manager jwt_sign_manager_spec
@thm C37_verify_manager jwt_verify_manager_spec

(** The registries meant are those reached by the register functions, with any other
    registrations before, between and after. *)
@thm C37_registries jwt_registry_reached
@thm C37_register_functions jwt_register_functions

(** ** C41: keysets *)

(** Only the primary key makes tokens; all enabled keys are tried, each with its own
    kid, in keyset order except that keys with the same prefix are brought together;
    the first outcome that is not a TinkError decides. *)
@thm C41_mac jwt_mac_handle_spec
@thm C41_sign jwt_sign_handle_spec
@thm C41_verify jwt_verify_handle_spec

(** No key is left out or tried twice. *)
@thm C41_every_key_once grouped_permutation
@thm C41_keyset_order grouped_distinct

(** A token that one key accepts is decoded in the same way or refused with a TinkError
    by every other key, so that the order does not matter for accepted tokens. *)
@thm C41_keys_agree verify_agree

(** Keysets with an enabled key that is neither RAW nor TINK give no primitive. *)
@thm C41_prefix_types jwt_refuses_prefixed

(** Finding: the order of the attempts is not the keyset order. *)
Theorem C41_keyset_order_refuted : exists l : list (key * unit), grouped [] l <> l.
Proof.
  exists [(toy_k2, tt); (toy_k1, tt); (toy_k2, tt)]. intros H. vm_compute in H. discriminate.
Qed.
Print Assumptions C41_keyset_order_refuted.

(** ** C42: key ids *)

(** The kid is defined by RFC 4648 base64url of the four bytes of the id, for TINK
    keys; RAW keys have none. *)
@thm C42_kid get_kid_ok
@thm C42_kid_unique kid_of_fun
@thm C42_kid_injective kid_of_inj
@thm C42_kid_errors get_kid_err

(** A token is accepted by TINK keys with one id only. *)
@thm C42_one_key accepted_kid

(** ** C43: errors *)

(** A token that no key authenticates raises TinkError, whatever it contains. *)
@thm C43_mac_unauthenticated jwt_mac_verify_unauthenticated
@thm C43_signature_unauthenticated jwt_verify_unauthenticated
@thm C43_one_key verify_unauthenticated

(** The complete list of the errors of one key. *)
@thm C43_errors verify_errors
@thm C43_unknown_algorithm jwt_hmac_manager_unknown_algorithm

(** ** The hypotheses can be met *)

Definition toy_v (skew : Z) : jwt_validator :=
  mk_jwt_validator None (Some (ulit "me")) (Some (ulit "b")) true false false false false skew
    (Some (mk_datetime true 900000000000000)).
Definition toy_token : pystr := match jm_compute toy_jm toy_jwt with Ok t => t | Err _ => [] end.
Definition toy_token_raw : pystr := match jm_compute toy_jm2 toy_jwt with Ok t => t | Err _ => [] end.

Example toy_handles :
  handle_primitive toy_jwt_registry toy_jwt_handle ClsJwtMac = Ok (PrimJwtMac toy_jm) /\
  handle_primitive toy_jwt_registry toy_jwt_handle2 ClsJwtMac = Ok (PrimJwtMac toy_jm2) /\
  handle_primitive toy_jwt_registry toy_sign_handle ClsJwtSign = Ok (PrimJwtSign toy_js) /\
  handle_primitive toy_jwt_registry toy_verify_handle ClsJwtVerify = Ok (PrimJwtVerify toy_jv).
Proof. repeat split; vm_compute; reflexivity. Qed.
Example toy_tokens : jm_compute toy_jm toy_jwt = Ok toy_token /\ jm_compute toy_jm2 toy_jwt = Ok toy_token_raw /\
  str_eqb toy_token toy_token_raw = false.
Proof. repeat split; vm_compute; reflexivity. Qed.


(** The hypotheses about the registry, the runtime and the C++ primitives. *)
Example toy_world :
  dict_get pclass_eqb ClsJwtMac (r_wrappers toy_jwt_registry) = Some jwt_mac_wrapper /\
  dict_get pclass_eqb ClsJwtSign (r_wrappers toy_jwt_registry) = Some jwt_sign_wrapper /\
  dict_get pclass_eqb ClsJwtVerify (r_wrappers toy_jwt_registry) = Some jwt_verify_wrapper /\
  jwt_mac_registry toy_rt toy_cc_mac toy_jwt_registry /\ jwt_sign_registry toy_rt toy_ccs toy_jwt_registry /\
  jwt_verify_registry toy_rt toy_ccv toy_jwt_registry /\ float_codec toy_rt /\ float_times_ok toy_rt /\
  (forall k alg ck cc tag signed, jwt_mac_key toy_cc_mac k alg ck cc ->
     tink_total (use_tink_errors (mac_verify cc tag signed))) /\
  (forall k alg ck cc tag signed, jwt_verify_key toy_ccv k alg ck cc ->
     tink_total (use_tink_errors (verify cc tag signed))).
Proof.
  split; [reflexivity |]. split; [reflexivity |]. split; [reflexivity |].
  split; [exact toy_jwt_mac_registry |]. split; [exact toy_jwt_sign_registry |].
  split; [exact toy_jwt_verify_registry |]. split; [exact toy_float_codec |]. split; [exact toy_float_times_ok |].
  split; [exact toy_macs_total | exact toy_verifiers_total].
Qed.

(** The token of the TINK key and that of the RAW key with a custom kid are accepted
    by the two keysets; the hypotheses of the round trip hold. *)
Example toy_round_trip_hypotheses :
  ordinary_jwt toy_rt toy_jwt /\ well_typed toy_jwt /\ same_but_empty_type toy_jwt toy_jwt /\
  accepts toy_rt 0 (toy_v 0) toy_jwt /\
  representable (current_time (toy_v 0) 0 - jv_clock_skew (toy_v 0)) /\
  representable (current_time (toy_v 0) 0 + jv_clock_skew (toy_v 0)).
Proof.
  split; [exact toy_ordinary |]. split; [exact toy_well_typed |]. split; [exact toy_same |].
  split; [apply validate_sound; [exact toy_well_typed | vm_compute; reflexivity] |].
  unfold representable. cbn. lia.
Qed.
Example toy_accepted_by_all :
  jm_verify toy_jm 0 toy_token (toy_v 0) = Ok (mk_verified_jwt toy_jwt) /\
  jm_verify toy_jm2 0 toy_token (toy_v 0) = Ok (mk_verified_jwt toy_jwt) /\
  jm_verify toy_jm2 0 toy_token_raw (toy_v 0) = Ok (mk_verified_jwt toy_jwt).
Proof. repeat split; vm_compute; reflexivity. Qed.
Example toy_primary_key :
  In toy_k1 (enabled_keys (kh_keyset toy_jwt_handle)) /\
  k_key_id toy_k1 = ks_primary_key_id (kh_keyset toy_jwt_handle) /\
  In toy_k1 (enabled_keys (kh_keyset toy_jwt_handle2)) /\
  exists cc, jwt_mac_key toy_cc_mac toy_k1 (ulit "HS256") None cc /\
    forall data tag, mac_compute cc data = Ok tag -> mac_verify cc tag data = Ok tt.
Proof. exact toy_primary_facts. Qed.
Example toy_signature_keys :
  In toy_s1 (enabled_keys (kh_keyset toy_sign_handle)) /\
  k_key_id toy_s1 = ks_primary_key_id (kh_keyset toy_sign_handle) /\
  In toy_v1 (enabled_keys (kh_keyset toy_verify_handle)) /\
  exists g g', jwt_sign_key toy_ccs toy_s1 (ulit "ES256") (Some (ulit "abc")) g /\
    jwt_verify_key toy_ccv toy_v1 (ulit "ES256") (Some (ulit "abc")) g' /\
    forall rnd data tag, sign g rnd data = Ok tag -> verify g' tag data = Ok tt.
Proof. exact toy_signature_facts. Qed.
Definition toy_signed : pystr := match js_sign toy_js 0 toy_jwt with Ok t => t | Err _ => [] end.
Example toy_signature_round_trip :
  js_sign toy_js 0 toy_jwt = Ok toy_signed /\ jv_verify toy_jv 0 toy_signed (toy_v 0) = Ok (mk_verified_jwt toy_jwt).
Proof. split; vm_compute; reflexivity. Qed.
Lemma some_error : forall A (r : result A) (P : exn -> bool),
  match r with Err e => P e | Ok _ => false end = true -> exists e, r = Err e /\ P e = true.
Proof. intros A [x | e] P H; [discriminate |]. exists e. auto. Qed.
Lemma some_claims : forall (r : result verified_jwt),
  match r with Err _ => false | Ok _ => true end = true -> exists x, r = Ok (mk_verified_jwt x).
Proof. intros [[x] | e] H; [| discriminate]. exists x. reflexivity. Qed.

(** Changed tokens, other issuers and late times are refused. *)
Example toy_refusals :
  raises_tink (jm_verify toy_jm 0 (toy_token ++ ulit "A") (toy_v 0)) /\
  raises_tink (jm_verify toy_jm 0 (toy_token ++ ulit ".") (toy_v 0)) /\
  raises_tink (jm_verify toy_jm 0 toy_token (mk_jwt_validator None (Some (ulit "you")) (Some (ulit "b")) true false false false false 0 None)) /\
  raises_tink (jm_verify toy_jm 1000000000000000 toy_token (mk_jwt_validator None (Some (ulit "me")) (Some (ulit "b")) true false false false false 0 None)).
Proof. repeat split; apply some_error; vm_compute; reflexivity. Qed.
(** The TINK key's token carries the base64url form of 01 02 03 04. *)
Example toy_kid : kid_of toy_k1 (Some (ulit "AQIDBA")) /\ kid_of toy_k2 None.
Proof. split; apply get_kid_ok; vm_compute; reflexivity. Qed.

(** ** Findings *)

Definition forged (header payload : string) : pystr :=
  let signed := base64_encode (blit header) ++ blit "." ++ base64_encode (blit payload) in
  map Byte.to_N (signed ++ blit "." ++ base64_encode (toy_jwt_tag (blit "secret-one") signed)).

(** Authenticated tokens can raise other exceptions than TinkError: a header that is
    not an object, an algorithm that is not a string, NaN as expiration. *)
Theorem C43_authenticated_refuted : exists reg h m,
  handle_primitive reg h ClsJwtMac = Ok (PrimJwtMac m) /\
  jm_verify m 0 (forged "[]" "{}") (toy_v 0) = Err AttributeError /\
  jm_verify m 0 (forged "{""alg"":1}" "{}") (toy_v 0) = Err AttributeError /\
  exists e, jm_verify m 0 (forged "{""alg"":""HS256"",""kid"":""AQIDBA""}" "{""exp"":NaN}") (toy_v 0) = Err e /\
            negb (is_tink_error e) = true.
Proof.
  exists toy_jwt_registry, toy_jwt_handle, toy_jm. split; [exact (proj1 toy_handles) |].
  split; [vm_compute; reflexivity |]. split; [vm_compute; reflexivity |].
  apply some_error. vm_compute. reflexivity.
Qed.
Print Assumptions C43_authenticated_refuted.

(** The name of the algorithm in the header is compared without regard to case. *)
Theorem C37_algorithm_name_refuted : exists m r,
  handle_primitive toy_jwt_registry toy_jwt_handle ClsJwtMac = Ok (PrimJwtMac m) /\
  jm_verify m 0 (forged "{""alg"":""hs256"",""kid"":""AQIDBA""}" "{""exp"":1000000000,""iss"":""me"",""aud"":""b""}") (toy_v 0)
    = Ok (mk_verified_jwt r).
Proof.
  exists toy_jm. match goal with |- exists r, _ /\ jm_verify ?m 0 ?t ?v = _ =>
    destruct (some_claims (jm_verify m 0 t v)) as (r & E) end; [vm_compute; reflexivity |].
  exists r. split; [exact (proj1 toy_handles) | exact E].
Qed.
Print Assumptions C37_algorithm_name_refuted.

(** A JWT HMAC key with an unknown algorithm raises KeyError when the keyset is used. *)
Theorem C43_unknown_algorithm_refuted : exists h,
  handle_primitive toy_jwt_registry h ClsJwtMac = Err KeyError.
Proof.
  exists (mk_handle (mk_keyset 1 [toy_hmac_key 9 "secret-one" None 1 TINK])). vm_compute. reflexivity.
Qed.
Print Assumptions C43_unknown_algorithm_refuted.
