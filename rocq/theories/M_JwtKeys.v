(** The key messages of proto/jwt_hmac.proto, proto/jwt_ecdsa.proto,
    proto/jwt_rsa_ssa_pkcs1.proto and proto/jwt_rsa_ssa_pss.proto, on the wire, and the
    key managers jwt/_jwt_hmac_key_manager.py and jwt/_jwt_signature_key_manager.py. *)
From Coq Require Import Strings.Byte Strings.String List NArith ZArith Bool.
From Verif Require Import M_Base M_Proto M_Utf8 M_Wire M_JwtTypes M_Prims M_Registry M_Json M_JwtPrims.
Import ListNotations.
Open Scope list_scope.
Open Scope string_scope.
Open Scope list_scope.
Open Scope N_scope.

(** message CustomKid: value = 1 *)
Definition custom_kid_step (v : pystr) (f : field) : option pystr :=
  match f with
  | (1, WLen x) => utf8_decode x
  | _ => Some v
  end.
Definition serialize_custom_kid (v : pystr) : bytes := encode_fields (f_string 1 v).
Definition merge_custom_kid (o : option pystr) (x : bytes) : option (option pystr) :=
  option_map Some (merge_message custom_kid_step (match o with Some v => v | None => [] end) x).

(** message JwtHmacKey: version = 1, algorithm = 2, key_value = 3, custom_kid = 4
    (proto/jwt_hmac.proto:34-46) *)
Record jwt_hmac_key := mk_jwt_hmac_key {
  jhk_version : N;
  jhk_algorithm : Z;
  jhk_key_value : bytes;
  jhk_custom_kid : option pystr }.
Definition jwt_hmac_key_step (k : jwt_hmac_key) (f : field) : option jwt_hmac_key :=
  match f with
  | (1, WVarint n) =>
      Some (mk_jwt_hmac_key (uint32_of_varint n) (jhk_algorithm k) (jhk_key_value k) (jhk_custom_kid k))
  | (2, WVarint n) =>
      Some (mk_jwt_hmac_key (jhk_version k) (int32_of_varint n) (jhk_key_value k) (jhk_custom_kid k))
  | (3, WLen x) =>
      Some (mk_jwt_hmac_key (jhk_version k) (jhk_algorithm k) x (jhk_custom_kid k))
  | (4, WLen x) =>
      option_map (mk_jwt_hmac_key (jhk_version k) (jhk_algorithm k) (jhk_key_value k))
        (merge_custom_kid (jhk_custom_kid k) x)
  | _ => Some k
  end.
Definition fields_of_jwt_hmac_key (k : jwt_hmac_key) : list field :=
  f_uint32 1 (jhk_version k) ++ f_enum 2 (jhk_algorithm k) ++ f_bytes 3 (jhk_key_value k)
  ++ match jhk_custom_kid k with Some v => [(4, WLen (serialize_custom_kid v))] | None => [] end.
Definition serialize_jwt_hmac_key (k : jwt_hmac_key) : bytes := encode_fields (fields_of_jwt_hmac_key k).
Definition parse_jwt_hmac_key (x : bytes) : option jwt_hmac_key :=
  merge_message jwt_hmac_key_step (mk_jwt_hmac_key 0 0 [] None) x.

(** messages JwtEcdsaPublicKey (version = 1, algorithm = 2, x = 3, y = 4,
    custom_kid = 5; proto/jwt_ecdsa.proto:34-48), JwtRsaSsaPkcs1PublicKey and
    JwtRsaSsaPssPublicKey (version = 1, algorithm = 2, n = 3, e = 4, custom_kid = 5;
    proto/jwt_rsa_ssa_pkcs1.proto:34-49, proto/jwt_rsa_ssa_pss.proto:34-49): the same
    format. *)
Record jwt_public_key := mk_jwt_public_key {
  jpk_version : N;
  jpk_algorithm : Z;
  jpk_3 : bytes;
  jpk_4 : bytes;
  jpk_custom_kid : option pystr }.
Definition empty_jwt_public_key : jwt_public_key := mk_jwt_public_key 0 0 [] [] None.
Definition jwt_public_key_step (k : jwt_public_key) (f : field) : option jwt_public_key :=
  match f with
  | (1, WVarint n) =>
      Some (mk_jwt_public_key (uint32_of_varint n) (jpk_algorithm k) (jpk_3 k) (jpk_4 k) (jpk_custom_kid k))
  | (2, WVarint n) =>
      Some (mk_jwt_public_key (jpk_version k) (int32_of_varint n) (jpk_3 k) (jpk_4 k) (jpk_custom_kid k))
  | (3, WLen x) =>
      Some (mk_jwt_public_key (jpk_version k) (jpk_algorithm k) x (jpk_4 k) (jpk_custom_kid k))
  | (4, WLen x) =>
      Some (mk_jwt_public_key (jpk_version k) (jpk_algorithm k) (jpk_3 k) x (jpk_custom_kid k))
  | (5, WLen x) =>
      option_map (mk_jwt_public_key (jpk_version k) (jpk_algorithm k) (jpk_3 k) (jpk_4 k))
        (merge_custom_kid (jpk_custom_kid k) x)
  | _ => Some k
  end.
Definition fields_of_jwt_public_key (k : jwt_public_key) : list field :=
  f_uint32 1 (jpk_version k) ++ f_enum 2 (jpk_algorithm k) ++ f_bytes 3 (jpk_3 k) ++ f_bytes 4 (jpk_4 k)
  ++ match jpk_custom_kid k with Some v => [(5, WLen (serialize_custom_kid v))] | None => [] end.
Definition serialize_jwt_public_key (k : jwt_public_key) : bytes :=
  encode_fields (fields_of_jwt_public_key k).
Definition parse_jwt_public_key (x : bytes) : option jwt_public_key :=
  merge_message jwt_public_key_step empty_jwt_public_key x.

(** messages JwtEcdsaPrivateKey, JwtRsaSsaPkcs1PrivateKey, JwtRsaSsaPssPrivateKey:
    version = 1, public_key = 2, further bytes fields. Only public_key is read by the
    Python code; the other fields are bytes or integers, which cannot fail to parse,
    and are not represented. *)
Definition jwt_private_key_step (k : option jwt_public_key) (f : field) : option (option jwt_public_key) :=
  match f with
  | (2, WLen x) =>
      option_map Some (merge_message jwt_public_key_step
                         (match k with Some p => p | None => empty_jwt_public_key end) x)
  | _ => Some k
  end.
(** [key.public_key] of the parsed message *)
Definition parse_jwt_private_key (x : bytes) : option jwt_public_key :=
  option_map (fun o => match o with Some p => p | None => empty_jwt_public_key end)
    (merge_message jwt_private_key_step None x).

(** Algorithm names: jwt/_jwt_hmac_key_manager.py:32-36,
    jwt/_jwt_signature_key_manager.py:42-58. *)
Definition alg_text (names : list string) (a : Z) : option pystr :=
  if ((a <? 1) || (3 <? a))%Z then None else option_map ulit (nth_error names (Z.to_nat (a - 1))).
Definition HMAC_ALGORITHM_STRING := alg_text ["HS256"; "HS384"; "HS512"].
Definition ECDSA_ALGORITHM_TEXTS := alg_text ["ES256"; "ES384"; "ES512"].
Definition RSA_SSA_PKCS1_ALGORITHM_TEXTS := alg_text ["RS256"; "RS384"; "RS512"].
Definition RSA_SSA_PSS_ALGORITHM_TEXTS := alg_text ["PS256"; "PS384"; "PS512"].

Definition u_jwt (x : string) : pystr := ulit "type.googleapis.com/google.crypto.tink." ++ ulit x.
Definition JWT_HMAC_KEY_TYPE := u_jwt "JwtHmacKey".
Definition JWT_ECDSA_PRIVATE_KEY_TYPE := u_jwt "JwtEcdsaPrivateKey".
Definition JWT_ECDSA_PUBLIC_KEY_TYPE := u_jwt "JwtEcdsaPublicKey".
Definition JWT_RSA_SSA_PKCS1_PRIVATE_KEY_TYPE := u_jwt "JwtRsaSsaPkcs1PrivateKey".
Definition JWT_RSA_SSA_PKCS1_PUBLIC_KEY_TYPE := u_jwt "JwtRsaSsaPkcs1PublicKey".
Definition JWT_RSA_SSA_PSS_PRIVATE_KEY_TYPE := u_jwt "JwtRsaSsaPssPrivateKey".
Definition JWT_RSA_SSA_PSS_PUBLIC_KEY_TYPE := u_jwt "JwtRsaSsaPssPublicKey".

(** A C++ key manager, tink_bindings.XKeyManager.from_cc_registry(url), as the Python
    code sees it: serialized messages in and out, StatusNotOk raised on failure. *)
Record cc_manager (P : Type) := mk_cc_manager {
  cc_key_type : pystr;
  cc_primitive : bytes -> result P;
  cc_new_key_data : coins -> bytes -> result bytes;
  cc_public_key_data : bytes -> result bytes }.
Arguments mk_cc_manager {P}.
Arguments cc_key_type {P}.
Arguments cc_primitive {P}.
Arguments cc_new_key_data {P}.
Arguments cc_public_key_data {P}.

(** [KeyData.FromString(x)] *)
Definition key_data_from_string (x : bytes) : result key_data :=
  match parse_key_data x with Some d => Ok d | None => Err DecodeError end.
(** new_key_data and public_key_data of all managers over C++ managers:
    jwt/_jwt_hmac_key_manager.py:125-129, jwt/_jwt_signature_key_manager.py:155-164,
    192-196, core/_key_manager.py:113-120, 138-156. *)
Definition cc_new_key {P} (cc : cc_manager P) (rnd : coins) (t : key_template) : result key_data :=
  use_tink_errors (x <- cc_new_key_data cc rnd (serialize_key_template t) ;; key_data_from_string x).
Definition cc_public_key {P} (cc : cc_manager P) (d : key_data) : result key_data :=
  use_tink_errors (x <- cc_public_key_data cc (serialize_key_data d) ;; key_data_from_string x).

(** jwt/_jwt_hmac_key_manager.py:109-120 *)
Definition jwt_hmac_primitive (rt : py_rt) (cc : cc_manager mac) (d : key_data) : result prim :=
  use_tink_errors
    (if negb (str_eqb (kd_type_url d) JWT_HMAC_KEY_TYPE) then
       Err (JwtInvalidError "Invalid key data key type")
     else
       match parse_jwt_hmac_key (kd_value d) with
       | None => Err DecodeError
       | Some k =>
           match HMAC_ALGORITHM_STRING (jhk_algorithm k) with
           | None => Err KeyError
           | Some algorithm =>
               m <- cc_primitive cc (serialize_key_data d) ;;
               Ok (PrimJwtMacInternal (jwt_hmac rt algorithm (jhk_custom_kid k) m))
           end
       end).

(** jwt/_jwt_hmac_key_manager.py:99-129 *)
Definition jwt_hmac_manager (rt : py_rt) (cc : cc_manager mac) : key_manager :=
  mk_key_manager 30 30 (cc_key_type cc) ClsJwtMacInternal (str_eqb (cc_key_type cc))
    (jwt_hmac_primitive rt cc) (cc_new_key cc) None.

(** jwt/_jwt_signature_key_manager.py:199-275: the algorithm and custom kid of a
    public or private key, after the check of the type url. *)
Definition alg_kid (url : pystr) (texts : Z -> option pystr) (parse : bytes -> option jwt_public_key)
    (d : key_data) : result (pystr * option pystr) :=
  if negb (str_eqb (kd_type_url d) url) then Err (JwtInvalidError "Invalid key data key type")
  else
    match parse (kd_value d) with
    | None => Err DecodeError
    | Some k =>
        match texts (jpk_algorithm k) with
        | None => Err (JwtInvalidError "Invalid algorithm")
        | Some a => Ok (a, jpk_custom_kid k)
        end
    end.

(** jwt/_jwt_signature_key_manager.py:130-164. [n] identifies the manager object. *)
Definition jwt_sign_manager (rt : py_rt) (n : N) (cc : cc_manager signer)
    (akid : key_data -> result (pystr * option pystr)) : key_manager :=
  mk_key_manager n 31 (cc_key_type cc) ClsJwtSignInternal (str_eqb (cc_key_type cc))
    (fun d => use_tink_errors
       (g <- cc_primitive cc (serialize_key_data d) ;;
        '(algorithm, custom_kid) <- akid d ;;
        Ok (PrimJwtSignInternal (jwt_public_key_sign rt algorithm custom_kid g))))
    (cc_new_key cc) (Some (cc_public_key cc)).

(** jwt/_jwt_signature_key_manager.py:167-196 *)
Definition jwt_verify_manager (rt : py_rt) (n : N) (cc : cc_manager verifier)
    (akid : key_data -> result (pystr * option pystr)) : key_manager :=
  mk_key_manager n 32 (cc_key_type cc) ClsJwtVerifyInternal (str_eqb (cc_key_type cc))
    (fun d => use_tink_errors
       (g <- cc_primitive cc (serialize_key_data d) ;;
        '(algorithm, custom_kid) <- akid d ;;
        Ok (PrimJwtVerifyInternal (jwt_public_key_verify rt algorithm custom_kid g))))
    (cc_new_key cc) None.

Definition ecdsa_private_alg_kid := alg_kid JWT_ECDSA_PRIVATE_KEY_TYPE ECDSA_ALGORITHM_TEXTS parse_jwt_private_key.
Definition ecdsa_public_alg_kid := alg_kid JWT_ECDSA_PUBLIC_KEY_TYPE ECDSA_ALGORITHM_TEXTS parse_jwt_public_key.
Definition pkcs1_private_alg_kid :=
  alg_kid JWT_RSA_SSA_PKCS1_PRIVATE_KEY_TYPE RSA_SSA_PKCS1_ALGORITHM_TEXTS parse_jwt_private_key.
Definition pkcs1_public_alg_kid :=
  alg_kid JWT_RSA_SSA_PKCS1_PUBLIC_KEY_TYPE RSA_SSA_PKCS1_ALGORITHM_TEXTS parse_jwt_public_key.
Definition pss_private_alg_kid :=
  alg_kid JWT_RSA_SSA_PSS_PRIVATE_KEY_TYPE RSA_SSA_PSS_ALGORITHM_TEXTS parse_jwt_private_key.
Definition pss_public_alg_kid :=
  alg_kid JWT_RSA_SSA_PSS_PUBLIC_KEY_TYPE RSA_SSA_PSS_ALGORITHM_TEXTS parse_jwt_public_key.
