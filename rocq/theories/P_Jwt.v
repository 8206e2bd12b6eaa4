(** C35, C36, C37, C41, C42, C43: JSON Web Tokens, from the keyset to the token. *)
From Coq Require Import Strings.Byte Strings.String List NArith ZArith Bool Lia Permutation.
From Verif Require Import M_Base L_Base M_Proto M_Utf8 M_Wire M_JwtTypes M_Prims M_Registry M_KeysetHandle M_Json M_RawJwt
  M_JwtValidator M_JwtFormat M_JwtPrims M_JwtKeys M_JwtWrappers M_JwtRegister M_Base64
  S_Keyset S_Json S_Base64 S_Jwt S_JwtKeys
  L_Keyset L_Json3 L_Jwt L_Jwt2 L_Jwt3 L_Jwt5 L_Jwt6 L_Jwt7 L_Jwt8 X_Rt X_Jwt.
Import ListNotations.
Open Scope list_scope.
Open Scope string_scope.
Open Scope list_scope.

(** ** C35: the compact form *)

(** Splitting succeeds on exactly the texts of three base64url segments with UTF-8
    header and payload, and returns these; the bytes that are authenticated are the
    first two segments as they stand in the token. *)
Theorem C35_split : forall token signed h p tag,
  split_signed_compact token = Ok (signed, h, p, tag) <-> compact_parts token signed h p tag.
Proof. exact split_iff. Qed.
Print Assumptions C35_split.

(** Other texts raise JwtInvalidError, whatever they are. *)
Theorem C35_split_total : forall token, match split_signed_compact token with
  | Ok (signed, h, p, tag) => compact_parts token signed h p tag
  | Err e => is_jwt_invalid_error e = true /\ forall signed h p tag, ~ compact_parts token signed h p tag
  end.
Proof. exact split_total. Qed.
Print Assumptions C35_split_total.

(** A text has at most one reading. *)
Theorem C35_unambiguous : forall token s1 h1 p1 t1 s2 h2 p2 t2,
  compact_parts token s1 h1 p1 t1 -> compact_parts token s2 h2 p2 t2 ->
  s1 = s2 /\ h1 = h2 /\ p1 = p2 /\ t1 = t2.
Proof. exact compact_parts_fun. Qed.
Print Assumptions C35_unambiguous.

(** ** C36: what is made is accepted *)

(** The token of one key: header, payload and tag. *)
Theorem C36_encode : forall rt alg ck auth r kid,
  float_codec rt -> In alg (map ulit algorithms) -> ordinary_jwt rt r ->
  (forall k, ck = Some k \/ kid = Some k -> valid_unicode k) ->
  (ck = None \/ kid = None) ->
  exists signed header payload h,
    document rt (JDict h) header /\ header_of alg (effective_kid ck kid) (rj_type_header r) h /\
    document rt (JDict (rj_payload r)) payload /\
    match auth signed with
    | Ok tag => exists token, encode_with_kid rt alg ck auth r kid = Ok token /\
                  compact_parts token signed header payload tag
    | Err e => encode_with_kid rt alg ck auth r kid = Err (match e with CcStatusNotOk m => TinkError m | _ => e end)
    end.
Proof. exact encode_spec. Qed.
Print Assumptions C36_encode.
Theorem C36_kid_conflict : forall rt alg c auth r k,
  exists m, encode_with_kid rt alg (Some c) auth r (Some k) = Err (JwtInvalidError m).
Proof. exact encode_conflict. Qed.
Print Assumptions C36_kid_conflict.

(** A token made with a key is accepted by a key with the same parameters and decodes
    to the same claims, if the validator accepts these. *)
Theorem C36_round_trip_one_key : forall rt alg ck auth check r r' kid token clock v,
  float_codec rt -> float_times_ok rt -> In alg (map ulit algorithms) -> ordinary_jwt rt r -> well_typed r ->
  (forall k, ck = Some k \/ kid = Some k -> valid_unicode k) -> kid <> Some [] ->
  (forall signed tag, auth signed = Ok tag -> check tag signed = Ok tt) ->
  same_but_empty_type r r' ->
  representable (current_time v clock - jv_clock_skew v) ->
  representable (current_time v clock + jv_clock_skew v) ->
  encode_with_kid rt alg ck auth r kid = Ok token ->
  accepts rt clock v r' ->
  verify_with_kid rt alg ck check clock token v kid = Ok (mk_verified_jwt r').
Proof. exact jwt_round_trip. Qed.
Print Assumptions C36_round_trip_one_key.

(** The same for keysets: MACs, with any keyset that contains the key; signatures,
    with any keyset that contains the public key. *)
Theorem C36_round_trip_mac : forall rt ccm ccm' reg reg' h h' m m',
  dict_get pclass_eqb ClsJwtMac (r_wrappers reg) = Some jwt_mac_wrapper ->
  dict_get pclass_eqb ClsJwtMac (r_wrappers reg') = Some jwt_mac_wrapper ->
  jwt_mac_registry rt ccm reg -> jwt_mac_registry rt ccm' reg' ->
  handle_primitive reg h ClsJwtMac = Ok (PrimJwtMac m) ->
  handle_primitive reg' h' ClsJwtMac = Ok (PrimJwtMac m') ->
  (forall k alg ck cc tag signed, In k (enabled_keys (kh_keyset h')) -> jwt_mac_key ccm' k alg ck cc ->
     tink_total (use_tink_errors (mac_verify cc tag signed))) ->
  forall k alg ck cc k' cc',
  In k (enabled_keys (kh_keyset h)) -> k_key_id k = ks_primary_key_id (kh_keyset h) ->
  jwt_mac_key ccm k alg ck cc ->
  In k' (enabled_keys (kh_keyset h')) -> jwt_mac_key ccm' k' alg ck cc' ->
  k_key_id k' = k_key_id k -> k_output_prefix_type k' = k_output_prefix_type k ->
  (forall data tag, mac_compute cc data = Ok tag -> mac_verify cc' tag data = Ok tt) ->
  forall clock token v r r', float_codec rt -> float_times_ok rt -> ordinary_jwt rt r -> well_typed r ->
  representable (current_time v clock - jv_clock_skew v) ->
  representable (current_time v clock + jv_clock_skew v) ->
  jm_compute m r = Ok token -> same_but_empty_type r r' -> accepts rt clock v r' ->
  jm_verify m' clock token v = Ok (mk_verified_jwt r').
Proof. exact jwt_mac_keyset_round_trip. Qed.
Print Assumptions C36_round_trip_mac.
Theorem C36_round_trip_signature : forall rt ccs ccv reg reg' h h' s vf,
  dict_get pclass_eqb ClsJwtSign (r_wrappers reg) = Some jwt_sign_wrapper ->
  dict_get pclass_eqb ClsJwtVerify (r_wrappers reg') = Some jwt_verify_wrapper ->
  jwt_sign_registry rt ccs reg -> jwt_verify_registry rt ccv reg' ->
  handle_primitive reg h ClsJwtSign = Ok (PrimJwtSign s) ->
  handle_primitive reg' h' ClsJwtVerify = Ok (PrimJwtVerify vf) ->
  (forall k alg ck cc tag signed, In k (enabled_keys (kh_keyset h')) -> jwt_verify_key ccv k alg ck cc ->
     tink_total (use_tink_errors (verify cc tag signed))) ->
  forall k alg ck cc k' cc',
  In k (enabled_keys (kh_keyset h)) -> k_key_id k = ks_primary_key_id (kh_keyset h) ->
  jwt_sign_key ccs k alg ck cc ->
  In k' (enabled_keys (kh_keyset h')) -> jwt_verify_key ccv k' alg ck cc' ->
  k_key_id k' = k_key_id k -> k_output_prefix_type k' = k_output_prefix_type k ->
  forall rnd,
  (forall data tag, sign cc rnd data = Ok tag -> verify cc' tag data = Ok tt) ->
  forall clock token v r r', float_codec rt -> float_times_ok rt -> ordinary_jwt rt r -> well_typed r ->
  representable (current_time v clock - jv_clock_skew v) ->
  representable (current_time v clock + jv_clock_skew v) ->
  js_sign s rnd r = Ok token -> same_but_empty_type r r' -> accepts rt clock v r' ->
  jv_verify vf clock token v = Ok (mk_verified_jwt r').
Proof. exact jwt_signature_keyset_round_trip. Qed.
Print Assumptions C36_round_trip_signature.

(** What the token of a keyset says and what is authenticated. *)
Theorem C36_token_mac : forall rt ccm reg h m,
  dict_get pclass_eqb ClsJwtMac (r_wrappers reg) = Some jwt_mac_wrapper ->
  jwt_mac_registry rt ccm reg -> handle_primitive reg h ClsJwtMac = Ok (PrimJwtMac m) ->
  forall k alg ck cc, In k (enabled_keys (kh_keyset h)) -> k_key_id k = ks_primary_key_id (kh_keyset h) ->
  jwt_mac_key ccm k alg ck cc ->
  forall token r, float_codec rt -> ordinary_jwt rt r -> jm_compute m r = Ok token ->
  exists kid signed header payload tag hd, kid_of k kid /\
    compact_parts token signed header payload tag /\
    document rt (JDict hd) header /\
    header_of alg (match kid with Some _ => kid | None => ck end) (rj_type_header r) hd /\
    document rt (JDict (rj_payload r)) payload /\
    mac_compute cc signed = Ok tag.
Proof. exact jwt_mac_token. Qed.
Print Assumptions C36_token_mac.
Theorem C36_token_signature : forall rt ccs reg h s,
  dict_get pclass_eqb ClsJwtSign (r_wrappers reg) = Some jwt_sign_wrapper ->
  jwt_sign_registry rt ccs reg -> handle_primitive reg h ClsJwtSign = Ok (PrimJwtSign s) ->
  forall k alg ck cc, In k (enabled_keys (kh_keyset h)) -> k_key_id k = ks_primary_key_id (kh_keyset h) ->
  jwt_sign_key ccs k alg ck cc ->
  forall token rnd r, float_codec rt -> ordinary_jwt rt r -> js_sign s rnd r = Ok token ->
  exists kid signed header payload tag hd, kid_of k kid /\
    compact_parts token signed header payload tag /\
    document rt (JDict hd) header /\
    header_of alg (match kid with Some _ => kid | None => ck end) (rj_type_header r) hd /\
    document rt (JDict (rj_payload r)) payload /\
    sign cc rnd signed = Ok tag.
Proof. exact jwt_sign_token. Qed.
Print Assumptions C36_token_signature.

(** ** C37: what is accepted *)

(** A key accepts a token only if its tag is valid for the first two segments, its
    header names the key's algorithm and kid, and the validator accepts the claims. *)
Theorem C37_sound : forall rt alg ck check clock token v kid r,
  verify_with_kid rt alg ck check clock token v kid = Ok (mk_verified_jwt r) ->
  token_accepted rt alg kid ck check clock v token r.
Proof. exact verify_sound. Qed.
Print Assumptions C37_sound.
Theorem C37_complete : forall rt alg ck check clock token v kid r,
  In alg (map ulit algorithms) -> float_times_ok rt ->
  representable (current_time v clock - jv_clock_skew v) ->
  representable (current_time v clock + jv_clock_skew v) ->
  token_accepted rt alg kid ck check clock v token r ->
  verify_with_kid rt alg ck check clock token v kid = Ok (mk_verified_jwt r).
Proof. exact verify_complete. Qed.
Print Assumptions C37_complete.

(** A keyset accepts a token iff one of its enabled keys does; the claims returned are
    those of the token. *)
Theorem C37_mac_keyset : forall rt ccm reg h m,
  dict_get pclass_eqb ClsJwtMac (r_wrappers reg) = Some jwt_mac_wrapper ->
  jwt_mac_registry rt ccm reg -> handle_primitive reg h ClsJwtMac = Ok (PrimJwtMac m) ->
  (forall k alg ck cc tag signed, In k (enabled_keys (kh_keyset h)) -> jwt_mac_key ccm k alg ck cc ->
     tink_total (use_tink_errors (mac_verify cc tag signed))) ->
  forall clock token v r, float_times_ok rt ->
  representable (current_time v clock - jv_clock_skew v) ->
  representable (current_time v clock + jv_clock_skew v) ->
  (jm_verify m clock token v = Ok (mk_verified_jwt r) <->
   exists k alg ck cc kid, In k (enabled_keys (kh_keyset h)) /\ jwt_mac_key ccm k alg ck cc /\ kid_of k kid /\
     token_accepted rt alg kid ck (mac_verify cc) clock v token r).
Proof. exact jwt_mac_verify_iff. Qed.
Print Assumptions C37_mac_keyset.
Theorem C37_signature_keyset : forall rt ccv reg h vf,
  dict_get pclass_eqb ClsJwtVerify (r_wrappers reg) = Some jwt_verify_wrapper ->
  jwt_verify_registry rt ccv reg -> handle_primitive reg h ClsJwtVerify = Ok (PrimJwtVerify vf) ->
  (forall k alg ck cc tag signed, In k (enabled_keys (kh_keyset h)) -> jwt_verify_key ccv k alg ck cc ->
     tink_total (use_tink_errors (verify cc tag signed))) ->
  forall clock token v r, float_times_ok rt ->
  representable (current_time v clock - jv_clock_skew v) ->
  representable (current_time v clock + jv_clock_skew v) ->
  (jv_verify vf clock token v = Ok (mk_verified_jwt r) <->
   exists k alg ck cc kid, In k (enabled_keys (kh_keyset h)) /\ jwt_verify_key ccv k alg ck cc /\ kid_of k kid /\
     token_accepted rt alg kid ck (verify cc) clock v token r).
Proof. exact jwt_verify_iff. Qed.
Print Assumptions C37_signature_keyset.

(** What each key contributes is what its message says. *)
Theorem C37_hmac_manager : forall rt cc d p,
  km_primitive (jwt_hmac_manager rt cc) d = Ok p <->
  exists message alg m,
    kd_type_url d = ulit "type.googleapis.com/google.crypto.tink.JwtHmacKey" /\
    parse_jwt_hmac_key (kd_value d) = Some message /\ names_algorithm "HS" (jhk_algorithm message) alg /\
    cc_primitive cc (serialize_key_data d) = Ok m /\
    p = PrimJwtMacInternal (jwt_hmac rt alg (jhk_custom_kid message) m).
Proof. exact jwt_hmac_manager_spec. Qed.
Print Assumptions C37_hmac_manager.
Theorem C37_sign_manager : forall rt n cc f t akid d p, In (f, t, akid) private_families ->
  km_primitive (jwt_sign_manager rt n cc akid) d = Ok p <->
  exists message alg g,
    kd_type_url d = ulit ("type.googleapis.com/google.crypto.tink." ++ t) /\
    parse_jwt_private_key (kd_value d) = Some message /\ names_algorithm f (jpk_algorithm message) alg /\
    cc_primitive cc (serialize_key_data d) = Ok g /\
    p = PrimJwtSignInternal (jwt_public_key_sign rt alg (jpk_custom_kid message) g).
Proof. exact jwt_sign_manager_spec. Qed.
Print Assumptions C37_sign_manager.
Theorem C37_verify_manager : forall rt n cc f t akid d p, In (f, t, akid) public_families ->
  km_primitive (jwt_verify_manager rt n cc akid) d = Ok p <->
  exists message alg g,
    kd_type_url d = ulit ("type.googleapis.com/google.crypto.tink." ++ t) /\
    parse_jwt_public_key (kd_value d) = Some message /\ names_algorithm f (jpk_algorithm message) alg /\
    cc_primitive cc (serialize_key_data d) = Ok g /\
    p = PrimJwtVerifyInternal (jwt_public_key_verify rt alg (jpk_custom_kid message) g).
Proof. exact jwt_verify_manager_spec. Qed.
Print Assumptions C37_verify_manager.

(** The registries meant are those reached by the register functions, with any other
    registrations before, between and after. *)
Theorem C37_registries : forall rt ccm ccs ccv ops, jwt_registrations rt ccm ccs ccv ops ->
  let reg := registry_run empty_registry ops in
  jwt_mac_registry rt ccm reg /\ jwt_sign_registry rt ccs reg /\ jwt_verify_registry rt ccv reg /\
  (In (OpRegisterWrapper jwt_mac_wrapper) ops ->
     dict_get pclass_eqb ClsJwtMac (r_wrappers reg) = Some jwt_mac_wrapper) /\
  (In (OpRegisterWrapper jwt_sign_wrapper) ops ->
     dict_get pclass_eqb ClsJwtSign (r_wrappers reg) = Some jwt_sign_wrapper) /\
  (In (OpRegisterWrapper jwt_verify_wrapper) ops ->
     dict_get pclass_eqb ClsJwtVerify (r_wrappers reg) = Some jwt_verify_wrapper).
Proof. exact jwt_registry_reached. Qed.
Print Assumptions C37_registries.
Theorem C37_register_functions : forall rt ccm ccs ccv ops,
  ops = register_jwt_mac rt ccm ++ register_jwt_signature rt
          (ccs "JwtEcdsaPrivateKey", ccv "JwtEcdsaPublicKey")
          (ccs "JwtRsaSsaPkcs1PrivateKey", ccv "JwtRsaSsaPkcs1PublicKey")
          (ccs "JwtRsaSsaPssPrivateKey", ccv "JwtRsaSsaPssPublicKey") ->
  jwt_registrations rt ccm ccs ccv ops /\
  In (OpRegisterWrapper jwt_mac_wrapper) ops /\ In (OpRegisterWrapper jwt_sign_wrapper) ops /\
  In (OpRegisterWrapper jwt_verify_wrapper) ops.
Proof. exact jwt_register_functions. Qed.
Print Assumptions C37_register_functions.

(** ** C41: keysets *)

(** Only the primary key makes tokens; all enabled keys are tried, each with its own
    kid, in keyset order except that keys with the same prefix are brought together;
    the first outcome that is not a TinkError decides. *)
Theorem C41_mac : forall reg h m,
  dict_get pclass_eqb ClsJwtMac (r_wrappers reg) = Some jwt_mac_wrapper ->
  handle_primitive reg h ClsJwtMac = Ok (PrimJwtMac m) ->
  valid_keyset (kh_keyset h) /\ exists l,
    (forall r, jwt_maker_spec PrimJwtMacInternal reg ClsJwtMacInternal (kh_keyset h)
                 (fun p kid => jmi_compute p r kid) (jm_compute m r) l) /\
    (forall now token v, jwt_verifier_spec PrimJwtMacInternal reg ClsJwtMacInternal (kh_keyset h)
                 (fun p kid => jmi_verify p now token v kid) (jm_verify m now token v) l).
Proof. exact jwt_mac_handle_spec. Qed.
Print Assumptions C41_mac.
Theorem C41_sign : forall reg h s,
  dict_get pclass_eqb ClsJwtSign (r_wrappers reg) = Some jwt_sign_wrapper ->
  handle_primitive reg h ClsJwtSign = Ok (PrimJwtSign s) ->
  valid_keyset (kh_keyset h) /\ exists l,
    (forall rnd r, jwt_maker_spec PrimJwtSignInternal reg ClsJwtSignInternal (kh_keyset h)
                 (fun p kid => jsi_sign p rnd r kid) (js_sign s rnd r) l).
Proof. exact jwt_sign_handle_spec. Qed.
Print Assumptions C41_sign.
Theorem C41_verify : forall reg h vf,
  dict_get pclass_eqb ClsJwtVerify (r_wrappers reg) = Some jwt_verify_wrapper ->
  handle_primitive reg h ClsJwtVerify = Ok (PrimJwtVerify vf) ->
  valid_keyset (kh_keyset h) /\ exists l,
    (forall now token v, jwt_verifier_spec PrimJwtVerifyInternal reg ClsJwtVerifyInternal (kh_keyset h)
                 (fun p kid => jvi_verify p now token v kid) (jv_verify vf now token v) l).
Proof. exact jwt_verify_handle_spec. Qed.
Print Assumptions C41_verify.

(** No key is left out or tried twice. *)
Theorem C41_every_key_once : forall P (l : list (key * P)), Permutation (grouped [] l) l.
Proof. exact grouped_permutation. Qed.
Print Assumptions C41_every_key_once.
Theorem C41_keyset_order : forall P (l : list (key * P)),
  ForallOrdPairs (fun a b => same_prefix (fst a) (fst b) = false) l -> grouped [] l = l.
Proof. exact grouped_distinct. Qed.
Print Assumptions C41_keyset_order.

(** A token that one key accepts is decoded in the same way or refused with a TinkError
    by every other key, so that the order does not matter for accepted tokens. *)
Theorem C41_keys_agree : forall rt alg ck check clock token v kid r alg' ck' check' kid',
  verify_with_kid rt alg ck check clock token v kid = Ok (mk_verified_jwt r) ->
  (forall tag signed e, use_tink_errors (check' tag signed) = Err e -> is_tink_error e = true) ->
  let out := verify_with_kid rt alg' ck' check' clock token v kid' in
  out = Ok (mk_verified_jwt r) \/ raises_tink out.
Proof. exact verify_agree. Qed.
Print Assumptions C41_keys_agree.

(** Keysets with an enabled key that is neither RAW nor TINK give no primitive. *)
Theorem C41_prefix_types : forall reg h k c Q,
  In c [ClsJwtMac; ClsJwtSign; ClsJwtVerify] ->
  dict_get pclass_eqb ClsJwtMac (r_wrappers reg) = Some jwt_mac_wrapper ->
  dict_get pclass_eqb ClsJwtSign (r_wrappers reg) = Some jwt_sign_wrapper ->
  dict_get pclass_eqb ClsJwtVerify (r_wrappers reg) = Some jwt_verify_wrapper ->
  In k (enabled_keys (kh_keyset h)) -> ~ raw_or_tink k ->
  handle_primitive reg h c <> Ok Q.
Proof. exact jwt_refuses_prefixed. Qed.
Print Assumptions C41_prefix_types.

(** Finding: the order of the attempts is not the keyset order. *)
Theorem C41_keyset_order_refuted : exists l : list (key * unit), grouped [] l <> l.
Proof.
  exists [(toy_k2, tt); (toy_k1, tt); (toy_k2, tt)]. intros H. vm_compute in H. discriminate.
Qed.
Print Assumptions C41_keyset_order_refuted.

(** ** C42: key ids *)

(** The kid is defined by RFC 4648 base64url of the four bytes of the id, for TINK
    keys; RAW keys have none. *)
Theorem C42_kid : forall k kid,
  get_kid (Z.of_N (k_key_id k)) (k_output_prefix_type k) = Ok kid <-> kid_of k kid.
Proof. exact get_kid_ok. Qed.
Print Assumptions C42_kid.
Theorem C42_kid_unique : forall k kid kid', kid_of k kid -> kid_of k kid' -> kid = kid'.
Proof. exact kid_of_fun. Qed.
Print Assumptions C42_kid_unique.
Theorem C42_kid_injective : forall k k' kid, kid_of k (Some kid) -> kid_of k' (Some kid) ->
  k_key_id k = k_key_id k'.
Proof. exact kid_of_inj. Qed.
Print Assumptions C42_kid_injective.
Theorem C42_kid_errors : forall k e,
  get_kid (Z.of_N (k_key_id k)) (k_output_prefix_type k) = Err e ->
  k_output_prefix_type k <> RAW /\
  (is_jwt_invalid_error e = true \/ (e = StructError /\ (2 ^ 32 <= k_key_id k))).
Proof. exact get_kid_err. Qed.
Print Assumptions C42_kid_errors.

(** A token is accepted by TINK keys with one id only. *)
Theorem C42_one_key : forall rt alg kid ck check clock v token r alg' kid' ck' check' clock' v' r',
  token_accepted rt alg (Some kid) ck check clock v token r ->
  token_accepted rt alg' (Some kid') ck' check' clock' v' token r' -> kid = kid' /\ r = r'.
Proof. exact accepted_kid. Qed.
Print Assumptions C42_one_key.

(** ** C43: errors *)

(** A token that no key authenticates raises TinkError, whatever it contains. *)
Theorem C43_mac_unauthenticated : forall rt ccm reg h m,
  dict_get pclass_eqb ClsJwtMac (r_wrappers reg) = Some jwt_mac_wrapper ->
  jwt_mac_registry rt ccm reg -> handle_primitive reg h ClsJwtMac = Ok (PrimJwtMac m) ->
  (forall k alg ck cc tag signed, In k (enabled_keys (kh_keyset h)) -> jwt_mac_key ccm k alg ck cc ->
     tink_total (use_tink_errors (mac_verify cc tag signed))) ->
  forall clock token v,
  (forall k alg ck cc signed header payload tag,
     In k (enabled_keys (kh_keyset h)) -> jwt_mac_key ccm k alg ck cc ->
     compact_parts token signed header payload tag -> mac_verify cc tag signed <> Ok tt) ->
  raises_tink (jm_verify m clock token v).
Proof. exact jwt_mac_verify_unauthenticated. Qed.
Print Assumptions C43_mac_unauthenticated.
Theorem C43_signature_unauthenticated : forall rt ccv reg h vf,
  dict_get pclass_eqb ClsJwtVerify (r_wrappers reg) = Some jwt_verify_wrapper ->
  jwt_verify_registry rt ccv reg -> handle_primitive reg h ClsJwtVerify = Ok (PrimJwtVerify vf) ->
  (forall k alg ck cc tag signed, In k (enabled_keys (kh_keyset h)) -> jwt_verify_key ccv k alg ck cc ->
     tink_total (use_tink_errors (verify cc tag signed))) ->
  forall clock token v,
  (forall k alg ck cc signed header payload tag,
     In k (enabled_keys (kh_keyset h)) -> jwt_verify_key ccv k alg ck cc ->
     compact_parts token signed header payload tag -> verify cc tag signed <> Ok tt) ->
  raises_tink (jv_verify vf clock token v).
Proof. exact jwt_verify_unauthenticated. Qed.
Print Assumptions C43_signature_unauthenticated.
Theorem C43_one_key : forall rt alg ck check clock token v kid,
  (forall signed h p tag, compact_parts token signed h p tag -> check tag signed <> Ok tt) ->
  exists e, verify_with_kid rt alg ck check clock token v kid = Err e /\
    (is_jwt_invalid_error e = true \/
     exists signed tag, use_tink_errors (check tag signed) = Err e).
Proof. exact verify_unauthenticated. Qed.
Print Assumptions C43_one_key.

(** The complete list of the errors of one key. *)
Theorem C43_errors : forall rt alg ck check clock token v kid e, float_times_ok rt ->
  representable (current_time v clock - jv_clock_skew v) ->
  representable (current_time v clock + jv_clock_skew v) ->
  verify_with_kid rt alg ck check clock token v kid = Err e ->
  is_jwt_invalid_error e = true \/
  exists signed header payload tag, compact_parts token signed header payload tag /\
   (use_tink_errors (check tag signed) = Err e \/
    (check tag signed = Ok tt /\
     ((e = ValueError "integer string conversion" /\ int_max_str_digits rt <> 0%N) \/
      (e = AttributeError /\ exists hd, document rt hd header /\
         ((forall h, hd <> JDict h) \/ exists h x, hd = JDict h /\ In (ulit "alg", x) h /\ ~ is_string x)) \/
      (exists l n, document rt (JDict l) payload /\ In n ["exp"; "nbf"; "iat"] /\ In (ulit n, JFloat FNaN) l)))).
Proof. exact verify_errors. Qed.
Print Assumptions C43_errors.
Theorem C43_unknown_algorithm : forall rt cc d message,
  kd_type_url d = ulit "type.googleapis.com/google.crypto.tink.JwtHmacKey" ->
  parse_jwt_hmac_key (kd_value d) = Some message ->
  (forall alg, ~ names_algorithm "HS" (jhk_algorithm message) alg) ->
  km_primitive (jwt_hmac_manager rt cc) d = Err KeyError.
Proof. exact jwt_hmac_manager_unknown_algorithm. Qed.
Print Assumptions C43_unknown_algorithm.

(** ** The hypotheses can be met *)

Definition toy_v (skew : Z) : jwt_validator :=
  mk_jwt_validator None (Some (ulit "me")) (Some (ulit "b")) true false false false false skew
    (Some (mk_datetime true 900000000000000)).
Definition toy_token : pystr := match jm_compute toy_jm toy_jwt with Ok t => t | Err _ => [] end.
Definition toy_token_raw : pystr := match jm_compute toy_jm2 toy_jwt with Ok t => t | Err _ => [] end.

Example toy_handles :
  handle_primitive toy_jwt_registry toy_jwt_handle ClsJwtMac = Ok (PrimJwtMac toy_jm) /\
  handle_primitive toy_jwt_registry toy_jwt_handle2 ClsJwtMac = Ok (PrimJwtMac toy_jm2) /\
  handle_primitive toy_jwt_registry toy_sign_handle ClsJwtSign = Ok (PrimJwtSign toy_js) /\
  handle_primitive toy_jwt_registry toy_verify_handle ClsJwtVerify = Ok (PrimJwtVerify toy_jv).
Proof. repeat split; vm_compute; reflexivity. Qed.
Example toy_tokens : jm_compute toy_jm toy_jwt = Ok toy_token /\ jm_compute toy_jm2 toy_jwt = Ok toy_token_raw /\
  str_eqb toy_token toy_token_raw = false.
Proof. repeat split; vm_compute; reflexivity. Qed.


(** The hypotheses about the registry, the runtime and the C++ primitives. *)
Example toy_world :
  dict_get pclass_eqb ClsJwtMac (r_wrappers toy_jwt_registry) = Some jwt_mac_wrapper /\
  dict_get pclass_eqb ClsJwtSign (r_wrappers toy_jwt_registry) = Some jwt_sign_wrapper /\
  dict_get pclass_eqb ClsJwtVerify (r_wrappers toy_jwt_registry) = Some jwt_verify_wrapper /\
  jwt_mac_registry toy_rt toy_cc_mac toy_jwt_registry /\ jwt_sign_registry toy_rt toy_ccs toy_jwt_registry /\
  jwt_verify_registry toy_rt toy_ccv toy_jwt_registry /\ float_codec toy_rt /\ float_times_ok toy_rt /\
  (forall k alg ck cc tag signed, jwt_mac_key toy_cc_mac k alg ck cc ->
     tink_total (use_tink_errors (mac_verify cc tag signed))) /\
  (forall k alg ck cc tag signed, jwt_verify_key toy_ccv k alg ck cc ->
     tink_total (use_tink_errors (verify cc tag signed))).
Proof.
  split; [reflexivity |]. split; [reflexivity |]. split; [reflexivity |].
  split; [exact toy_jwt_mac_registry |]. split; [exact toy_jwt_sign_registry |].
  split; [exact toy_jwt_verify_registry |]. split; [exact toy_float_codec |]. split; [exact toy_float_times_ok |].
  split; [exact toy_macs_total | exact toy_verifiers_total].
Qed.

(** The token of the TINK key and that of the RAW key with a custom kid are accepted
    by the two keysets; the hypotheses of the round trip hold. *)
Example toy_round_trip_hypotheses :
  ordinary_jwt toy_rt toy_jwt /\ well_typed toy_jwt /\ same_but_empty_type toy_jwt toy_jwt /\
  accepts toy_rt 0 (toy_v 0) toy_jwt /\
  representable (current_time (toy_v 0) 0 - jv_clock_skew (toy_v 0)) /\
  representable (current_time (toy_v 0) 0 + jv_clock_skew (toy_v 0)).
Proof.
  split; [exact toy_ordinary |]. split; [exact toy_well_typed |]. split; [exact toy_same |].
  split; [apply validate_sound; [exact toy_well_typed | vm_compute; reflexivity] |].
  unfold representable. cbn. lia.
Qed.
Example toy_accepted_by_all :
  jm_verify toy_jm 0 toy_token (toy_v 0) = Ok (mk_verified_jwt toy_jwt) /\
  jm_verify toy_jm2 0 toy_token (toy_v 0) = Ok (mk_verified_jwt toy_jwt) /\
  jm_verify toy_jm2 0 toy_token_raw (toy_v 0) = Ok (mk_verified_jwt toy_jwt).
Proof. repeat split; vm_compute; reflexivity. Qed.
Example toy_primary_key :
  In toy_k1 (enabled_keys (kh_keyset toy_jwt_handle)) /\
  k_key_id toy_k1 = ks_primary_key_id (kh_keyset toy_jwt_handle) /\
  In toy_k1 (enabled_keys (kh_keyset toy_jwt_handle2)) /\
  exists cc, jwt_mac_key toy_cc_mac toy_k1 (ulit "HS256") None cc /\
    forall data tag, mac_compute cc data = Ok tag -> mac_verify cc tag data = Ok tt.
Proof. exact toy_primary_facts. Qed.
Example toy_signature_keys :
  In toy_s1 (enabled_keys (kh_keyset toy_sign_handle)) /\
  k_key_id toy_s1 = ks_primary_key_id (kh_keyset toy_sign_handle) /\
  In toy_v1 (enabled_keys (kh_keyset toy_verify_handle)) /\
  exists g g', jwt_sign_key toy_ccs toy_s1 (ulit "ES256") (Some (ulit "abc")) g /\
    jwt_verify_key toy_ccv toy_v1 (ulit "ES256") (Some (ulit "abc")) g' /\
    forall rnd data tag, sign g rnd data = Ok tag -> verify g' tag data = Ok tt.
Proof. exact toy_signature_facts. Qed.
Definition toy_signed : pystr := match js_sign toy_js 0 toy_jwt with Ok t => t | Err _ => [] end.
Example toy_signature_round_trip :
  js_sign toy_js 0 toy_jwt = Ok toy_signed /\ jv_verify toy_jv 0 toy_signed (toy_v 0) = Ok (mk_verified_jwt toy_jwt).
Proof. split; vm_compute; reflexivity. Qed.
Lemma some_error : forall A (r : result A) (P : exn -> bool),
  match r with Err e => P e | Ok _ => false end = true -> exists e, r = Err e /\ P e = true.
Proof. intros A [x | e] P H; [discriminate |]. exists e. auto. Qed.
Lemma some_claims : forall (r : result verified_jwt),
  match r with Err _ => false | Ok _ => true end = true -> exists x, r = Ok (mk_verified_jwt x).
Proof. intros [[x] | e] H; [| discriminate]. exists x. reflexivity. Qed.

(** Changed tokens, other issuers and late times are refused. *)
Example toy_refusals :
  raises_tink (jm_verify toy_jm 0 (toy_token ++ ulit "A") (toy_v 0)) /\
  raises_tink (jm_verify toy_jm 0 (toy_token ++ ulit ".") (toy_v 0)) /\
  raises_tink (jm_verify toy_jm 0 toy_token (mk_jwt_validator None (Some (ulit "you")) (Some (ulit "b")) true false false false false 0 None)) /\
  raises_tink (jm_verify toy_jm 1000000000000000 toy_token (mk_jwt_validator None (Some (ulit "me")) (Some (ulit "b")) true false false false false 0 None)).
Proof. repeat split; apply some_error; vm_compute; reflexivity. Qed.
(** The TINK key's token carries the base64url form of 01 02 03 04. *)
Example toy_kid : kid_of toy_k1 (Some (ulit "AQIDBA")) /\ kid_of toy_k2 None.
Proof. split; apply get_kid_ok; vm_compute; reflexivity. Qed.

(** ** Findings *)

Definition forged (header payload : string) : pystr :=
  let signed := base64_encode (blit header) ++ blit "." ++ base64_encode (blit payload) in
  map Byte.to_N (signed ++ blit "." ++ base64_encode (toy_jwt_tag (blit "secret-one") signed)).

(** Authenticated tokens can raise other exceptions than TinkError: a header that is
    not an object, an algorithm that is not a string, NaN as expiration. *)
Theorem C43_authenticated_refuted : exists reg h m,
  handle_primitive reg h ClsJwtMac = Ok (PrimJwtMac m) /\
  jm_verify m 0 (forged "[]" "{}") (toy_v 0) = Err AttributeError /\
  jm_verify m 0 (forged "{""alg"":1}" "{}") (toy_v 0) = Err AttributeError /\
  exists e, jm_verify m 0 (forged "{""alg"":""HS256"",""kid"":""AQIDBA""}" "{""exp"":NaN}") (toy_v 0) = Err e /\
            negb (is_tink_error e) = true.
Proof.
  exists toy_jwt_registry, toy_jwt_handle, toy_jm. split; [exact (proj1 toy_handles) |].
  split; [vm_compute; reflexivity |]. split; [vm_compute; reflexivity |].
  apply some_error. vm_compute. reflexivity.
Qed.
Print Assumptions C43_authenticated_refuted.

(** The name of the algorithm in the header is compared without regard to case. *)
Theorem C37_algorithm_name_refuted : exists m r,
  handle_primitive toy_jwt_registry toy_jwt_handle ClsJwtMac = Ok (PrimJwtMac m) /\
  jm_verify m 0 (forged "{""alg"":""hs256"",""kid"":""AQIDBA""}" "{""exp"":1000000000,""iss"":""me"",""aud"":""b""}") (toy_v 0)
    = Ok (mk_verified_jwt r).
Proof.
  exists toy_jm. match goal with |- exists r, _ /\ jm_verify ?m 0 ?t ?v = _ =>
    destruct (some_claims (jm_verify m 0 t v)) as (r & E) end; [vm_compute; reflexivity |].
  exists r. split; [exact (proj1 toy_handles) | exact E].
Qed.
Print Assumptions C37_algorithm_name_refuted.

(** A JWT HMAC key with an unknown algorithm raises KeyError when the keyset is used. *)
Theorem C43_unknown_algorithm_refuted : exists h,
  handle_primitive toy_jwt_registry h ClsJwtMac = Err KeyError.
Proof.
  exists (mk_handle (mk_keyset 1 [toy_hmac_key 9 "secret-one" None 1 TINK])). vm_compute. reflexivity.
Qed.
Print Assumptions C43_unknown_algorithm_refuted.
