(** Specification vocabulary for JWT keys in keysets: which algorithm, custom kid and
    C++ primitive the registry gives to a key. *)
From Coq Require Import Strings.Byte Strings.String List NArith ZArith Bool.
From Verif Require Import M_Base M_Proto M_Wire M_Prims M_Registry M_JwtTypes M_Json M_JwtKeys S_Keyset.
Import ListNotations.
Open Scope list_scope.

(** The algorithm of a key is the one its message names. *)
Definition names_algorithm (family : string) (algorithm : Z) (alg : pystr) : Prop :=
  (algorithm = 1%Z /\ alg = ulit (family ++ "256")) \/
  (algorithm = 2%Z /\ alg = ulit (family ++ "384")) \/
  (algorithm = 3%Z /\ alg = ulit (family ++ "512")).

(** In the registry, JWT MACs come from the JWT HMAC key manager over the C++ manager
    [cc] only. *)
Definition jwt_mac_registry (rt : py_rt) (cc : cc_manager mac) (reg : registry) : Prop :=
  forall u km b, dict_get str_eqb u (r_key_managers reg) = Some (km, b) ->
    km_primitive_class km = ClsJwtMacInternal -> km = jwt_hmac_manager rt cc.

(** [k] is a JWT HMAC key with algorithm [alg], custom kid [ck] and C++ MAC [m]. *)
Definition jwt_mac_key (cc : cc_manager mac) (k : key) (alg : pystr) (ck : option pystr) (m : mac) : Prop :=
  kd_type_url (k_key_data k) = ulit "type.googleapis.com/google.crypto.tink.JwtHmacKey" /\
  exists message, parse_jwt_hmac_key (kd_value (k_key_data k)) = Some message /\
    names_algorithm "HS" (jhk_algorithm message) alg /\ ck = jhk_custom_kid message /\
    cc_primitive cc (serialize_key_data (k_key_data k)) = Ok m.

(** The three families of signature keys: algorithm family, type of the key, and the
    function of the key manager that reads the key. *)
Definition private_families :=
  [("ES", "JwtEcdsaPrivateKey", ecdsa_private_alg_kid);
   ("RS", "JwtRsaSsaPkcs1PrivateKey", pkcs1_private_alg_kid);
   ("PS", "JwtRsaSsaPssPrivateKey", pss_private_alg_kid)]%string.
Definition public_families :=
  [("ES", "JwtEcdsaPublicKey", ecdsa_public_alg_kid);
   ("RS", "JwtRsaSsaPkcs1PublicKey", pkcs1_public_alg_kid);
   ("PS", "JwtRsaSsaPssPublicKey", pss_public_alg_kid)]%string.

(** In the registry, JWT signature primitives come from the JWT key managers over the
    C++ managers [ccs] only, one for each type. *)
Definition jwt_sign_registry (rt : py_rt) (ccs : string -> cc_manager signer) (reg : registry) : Prop :=
  forall u km b, dict_get str_eqb u (r_key_managers reg) = Some (km, b) ->
    km_primitive_class km = ClsJwtSignInternal ->
    exists n f t akid, In (f, t, akid) private_families /\ km = jwt_sign_manager rt n (ccs t) akid.
Definition jwt_verify_registry (rt : py_rt) (ccs : string -> cc_manager verifier) (reg : registry) : Prop :=
  forall u km b, dict_get str_eqb u (r_key_managers reg) = Some (km, b) ->
    km_primitive_class km = ClsJwtVerifyInternal ->
    exists n f t akid, In (f, t, akid) public_families /\ km = jwt_verify_manager rt n (ccs t) akid.

(** [k] is a private or public signature key of one of the families, with algorithm
    [alg], custom kid [ck] and C++ primitive [g]. *)
Definition jwt_sign_key (ccs : string -> cc_manager signer) (k : key) (alg : pystr) (ck : option pystr) (g : signer) : Prop :=
  exists family type message,
    In (family, type) [("ES", "JwtEcdsaPrivateKey"); ("RS", "JwtRsaSsaPkcs1PrivateKey");
                       ("PS", "JwtRsaSsaPssPrivateKey")]%string /\
    kd_type_url (k_key_data k) = ulit ("type.googleapis.com/google.crypto.tink." ++ type) /\
    parse_jwt_private_key (kd_value (k_key_data k)) = Some message /\
    names_algorithm family (jpk_algorithm message) alg /\ ck = jpk_custom_kid message /\
    cc_primitive (ccs type) (serialize_key_data (k_key_data k)) = Ok g.
Definition jwt_verify_key (ccs : string -> cc_manager verifier) (k : key) (alg : pystr) (ck : option pystr) (g : verifier) : Prop :=
  exists family type message,
    In (family, type) [("ES", "JwtEcdsaPublicKey"); ("RS", "JwtRsaSsaPkcs1PublicKey");
                       ("PS", "JwtRsaSsaPssPublicKey")]%string /\
    kd_type_url (k_key_data k) = ulit ("type.googleapis.com/google.crypto.tink." ++ type) /\
    parse_jwt_public_key (kd_value (k_key_data k)) = Some message /\
    names_algorithm family (jpk_algorithm message) alg /\ ck = jpk_custom_kid message /\
    cc_primitive (ccs type) (serialize_key_data (k_key_data k)) = Ok g.
