(** A concrete world for the JWT examples: toy C++ managers, registered by the
    register functions of the model, and keysets. Nothing here models code of /repo. *)
From Coq Require Import Strings.Byte Strings.String List NArith ZArith Bool.
From Verif Require Import M_Base M_Proto M_Wire M_JwtTypes M_Prims M_Registry M_KeysetHandle M_Json M_RawJwt M_JwtValidator
  M_JwtFormat M_JwtPrims M_JwtKeys M_JwtWrappers M_JwtRegister X_Rt.
Import ListNotations.
Open Scope list_scope.

(** The tag of a message: its length and the last four bytes of the key. *)
Definition toy_jwt_tag (key data : bytes) : bytes :=
  byte_of_N (N.of_nat (length data) mod 256) :: skipn (length key - 4) key.
Definition toy_jwt_check (key tag data : bytes) : result unit :=
  if bytes_eqb tag (toy_jwt_tag key data) then Ok tt else Err (CcStatusNotOk "toy").

(** The bytes of the key that the C++ code uses. *)
Definition toy_material (serialized : bytes) : bytes :=
  match parse_key_data serialized with
  | Some d => match parse_jwt_hmac_key (kd_value d) with Some k => jhk_key_value k | None => [] end
  | None => []
  end.
Definition toy_cc_mac : cc_manager mac :=
  mk_cc_manager JWT_HMAC_KEY_TYPE
    (fun x => Ok (mk_mac (fun data => Ok (toy_jwt_tag (toy_material x) data)) (toy_jwt_check (toy_material x))))
    (fun _ _ => Err (CcStatusNotOk "toy")) (fun _ => Err (CcStatusNotOk "toy")).

(** Signatures: the field 3 of the public key is the key of the toy MAC. *)
Definition toy_public_material (parse : bytes -> option jwt_public_key) (serialized : bytes) : bytes :=
  match parse_key_data serialized with
  | Some d => match parse (kd_value d) with Some k => jpk_3 k | None => [] end
  | None => []
  end.
Definition toy_cc_sign (url : pystr) : cc_manager signer :=
  mk_cc_manager url
    (fun x => Ok (mk_signer (fun _ data => Ok (toy_jwt_tag (toy_public_material parse_jwt_private_key x) data))))
    (fun _ _ => Err (CcStatusNotOk "toy")) (fun _ => Err (CcStatusNotOk "toy")).
Definition toy_cc_verify (url : pystr) : cc_manager verifier :=
  mk_cc_manager url
    (fun x => Ok (mk_verifier (toy_jwt_check (toy_public_material parse_jwt_public_key x))))
    (fun _ _ => Err (CcStatusNotOk "toy")) (fun _ => Err (CcStatusNotOk "toy")).

Definition toy_ccs (t : string) := toy_cc_sign (u_jwt t).
Definition toy_ccv (t : string) := toy_cc_verify (u_jwt t).

Definition toy_jwt_ops : list registry_op :=
  register_jwt_mac toy_rt toy_cc_mac
  ++ register_jwt_signature toy_rt
       (toy_ccs "JwtEcdsaPrivateKey", toy_ccv "JwtEcdsaPublicKey")
       (toy_ccs "JwtRsaSsaPkcs1PrivateKey", toy_ccv "JwtRsaSsaPkcs1PublicKey")
       (toy_ccs "JwtRsaSsaPssPrivateKey", toy_ccv "JwtRsaSsaPssPublicKey").
Definition toy_jwt_registry : registry := registry_run empty_registry toy_jwt_ops.

Definition toy_hmac_key (alg : Z) (v : string) (kid : option string) (id : N) (prefix : Z) : key :=
  mk_key (Some (mk_key_data JWT_HMAC_KEY_TYPE
                  (serialize_jwt_hmac_key (mk_jwt_hmac_key 0 alg (blit v) (option_map ulit kid))) SYMMETRIC))
    ENABLED id prefix.
Definition toy_public (alg : Z) (v : string) (kid : option string) : jwt_public_key :=
  mk_jwt_public_key 0 alg (blit v) (blit "") (option_map ulit kid).
Definition toy_sign_key (alg : Z) (v : string) (kid : option string) (id : N) (prefix : Z) : key :=
  mk_key (Some (mk_key_data JWT_ECDSA_PRIVATE_KEY_TYPE
                  (encode_fields [(2%N, WLen (serialize_jwt_public_key (toy_public alg v kid)))]) ASYMMETRIC_PRIVATE))
    ENABLED id prefix.
Definition toy_verify_key (alg : Z) (v : string) (kid : option string) (id : N) (prefix : Z) : key :=
  mk_key (Some (mk_key_data JWT_ECDSA_PUBLIC_KEY_TYPE
                  (serialize_jwt_public_key (toy_public alg v kid)) ASYMMETRIC_PUBLIC))
    ENABLED id prefix.

(** Primary: a TINK HS256 key; then a RAW HS512 key with a custom kid. *)
Definition toy_k1 : key := toy_hmac_key 1 "secret-one" None 16909060 TINK.
Definition toy_k2 : key := toy_hmac_key 3 "secret-two" (Some "my kid"%string) 7 RAW.
Definition toy_jwt_handle : keyset_handle := mk_handle (mk_keyset 16909060 [toy_k1; toy_k2]).
(** The same keys, the RAW key being the primary, and one more TINK key first. *)
Definition toy_k0 : key := toy_hmac_key 1 "other" None 99 TINK.
Definition toy_jwt_handle2 : keyset_handle := mk_handle (mk_keyset 7 [toy_k0; toy_k2; toy_k1]).
Definition toy_s1 : key := toy_sign_key 1 "sign-key" (Some "abc"%string) 5 RAW.
Definition toy_v1 : key := toy_verify_key 1 "sign-key" (Some "abc"%string) 5 RAW.
Definition toy_v2 : key := toy_verify_key 2 "sign-key2" None 6 TINK.
Definition toy_sign_handle : keyset_handle := mk_handle (mk_keyset 5 [toy_s1]).
Definition toy_verify_handle : keyset_handle := mk_handle (mk_keyset 6 [toy_v2; toy_v1]).

Definition the_jwt_mac (r : result prim) : jwt_mac :=
  match r with Ok (PrimJwtMac m) => m | _ => mk_jwt_mac (fun _ => Err KeyError) (fun _ _ _ => Err KeyError) end.
Definition the_jwt_sign (r : result prim) : jwt_sign :=
  match r with Ok (PrimJwtSign m) => m | _ => mk_jwt_sign (fun _ _ => Err KeyError) end.
Definition the_jwt_verify (r : result prim) : jwt_verify :=
  match r with Ok (PrimJwtVerify m) => m | _ => mk_jwt_verify (fun _ _ _ => Err KeyError) end.
Definition toy_jm : jwt_mac := the_jwt_mac (handle_primitive toy_jwt_registry toy_jwt_handle ClsJwtMac).
Definition toy_jm2 : jwt_mac := the_jwt_mac (handle_primitive toy_jwt_registry toy_jwt_handle2 ClsJwtMac).
Definition toy_js : jwt_sign := the_jwt_sign (handle_primitive toy_jwt_registry toy_sign_handle ClsJwtSign).
Definition toy_jv : jwt_verify := the_jwt_verify (handle_primitive toy_jwt_registry toy_verify_handle ClsJwtVerify).

(** A JWT that expires in 2001, and a validator. *)
Definition toy_jwt : raw_jwt :=
  mk_raw_jwt (Some (JStr (ulit "JWT")))
    [(ulit "iss", JStr (ulit "me")); (ulit "exp", JInt 1000000000);
     (ulit "aud", JList [JStr (ulit "a"); JStr (ulit "b")])].
