(** The raw JWT key managers of the C++ library: /repo/cc/jwt/internal/raw_jwt_hmac_key_manager.{h,cc} and
    /repo/cc/jwt/internal/raw_jwt_{ecdsa,rsa_ssa_pkcs1,rsa_ssa_pss}_{sign,verify}_key_manager.cc, with the keys of
    /repo/proto/jwt_{hmac,ecdsa,rsa_ssa_pkcs1,rsa_ssa_pss}.proto. The Python package uses them for JWTs.

    Not modelled: DeriveKey (not implemented), FIPS mode. *)
From Coq Require Import Strings.Byte Strings.String List NArith ZArith Bool.
From Verif Require Import M_Base M_Proto M_Wire M_ProtoMsg M_KeyFormats M_Prims M_StreamTypes M_CcStream M_CcManagers M_CcAes
  M_CcStreamKeys M_CcModes M_CcSymmetric M_CcSymKeys M_CcEcies M_CcEciesKeys M_CcSignatures.
Import ListNotations.
Open Scope string_scope.
Open Scope list_scope.
Open Scope nat_scope.

(** ** Messages *)

(** CustomKid of every one of the files: jwt_hmac.proto:40-44 *)
Definition CustomKid : schema := [("value", 1%N, TString)].
(** jwt_hmac.proto:34-45 *)
Definition JwtHmacKey : schema :=
  [("version", 1%N, TUint32); ("algorithm", 2%N, TEnum); ("key_value", 3%N, TBytes); ("custom_kid", 4%N, TMsg CustomKid)].
(** jwt_ecdsa.proto:34-56 *)
Definition JwtEcdsaPublicKey : schema :=
  [("version", 1%N, TUint32); ("algorithm", 2%N, TEnum); ("x", 3%N, TBytes); ("y", 4%N, TBytes); ("custom_kid", 5%N, TMsg CustomKid)].
Definition JwtEcdsaPrivateKey : schema :=
  [("version", 1%N, TUint32); ("public_key", 2%N, TMsg JwtEcdsaPublicKey); ("key_value", 3%N, TBytes)].
(** jwt_rsa_ssa_pkcs1.proto:34-76, jwt_rsa_ssa_pss.proto:34-76: the same fields *)
Definition JwtRsaPublicKey : schema :=
  [("version", 1%N, TUint32); ("algorithm", 2%N, TEnum); ("n", 3%N, TBytes); ("e", 4%N, TBytes); ("custom_kid", 5%N, TMsg CustomKid)].
Definition JwtRsaPrivateKey : schema :=
  [("version", 1%N, TUint32); ("public_key", 2%N, TMsg JwtRsaPublicKey); ("d", 3%N, TBytes); ("p", 4%N, TBytes);
   ("q", 5%N, TBytes); ("dp", 6%N, TBytes); ("dq", 7%N, TBytes); ("crt", 8%N, TBytes)].

(** ** HMAC *)
Section Hmac.
  Variable lib : crypto.

  (** raw_jwt_hmac_key_manager.cc:50-62 MinimumKeySize *)
  Definition jwt_minimum_key_size (algorithm : Z) : option Z :=
    match algorithm with 1 => Some 32 | 2 => Some 48 | 3 => Some 64 | _ => None end%Z.
  (** The check of a size in 83-95 ValidateKey and in 98-109 ValidateKeyFormat *)
  Definition jwt_check_key_size (algorithm size : Z) : option cc_status :=
    match jwt_minimum_key_size algorithm with
    | None => Some (NotOk "Unsupported algorithm.")
    | Some min_key_size => check (size <? min_key_size)%Z "key_value is too short."
    end.
  (** 66-74 CreateKey; raw_jwt_hmac_key_manager.h:54-80 Create *)
  Definition jwt_hmac_key_manager : key_type_manager cc_mac :=
    mk_key_type_manager "JwtHmacKey" JwtHmacKey JwtHmacKeyFormat
      (fun key =>
         and_then (validate_version (num_at JwtHmacKey key ["version"]) 0)
           (jwt_check_key_size (num_at JwtHmacKey key ["algorithm"]) (size_at JwtHmacKey key ["key_value"])))
      (fun key_format =>
         jwt_check_key_size (num_at JwtHmacKeyFormat key_format ["algorithm"]) (num_at JwtHmacKeyFormat key_format ["key_size"]))
      (fun get_random_bytes key_format =>
         [Some (VNum 0); Some (VNum (num_at JwtHmacKeyFormat key_format ["algorithm"]));
          Some (VBytes (get_random_bytes 0%N (num_at JwtHmacKeyFormat key_format ["key_size"]))); None])
      (fun key =>
         let value := bytes_at JwtHmacKey key ["key_value"] in
         match num_at JwtHmacKey key ["algorithm"] with
         | 1%Z => hmac_new lib M_CcAes.SHA256 32 value
         | 2%Z => hmac_new lib M_CcAes.SHA384 48 value
         | 3%Z => hmac_new lib M_CcAes.SHA512 64 value
         | _ => StErr (NotOk "Unknown algorithm.")
         end).
End Hmac.
(** The manager that cc/jwt/jwt_mac_config.cc:32-41 registers: cc/core/key_manager_impl.h of that one *)
Definition jwt_mac_manager (lib : crypto) (random : coins -> Z -> bytes) : cc_lib_manager cc_mac := key_manager_impl random (jwt_hmac_key_manager lib).

(** ** Signatures *)
Section JwtSignatures.
  Variable ec : ec_crypto.
  Variable sg : sig_crypto.
  Variable self_test : coins.

  (** ValidateAlgorithm: raw_jwt_ecdsa_verify_key_manager.cc:103-115,
      raw_jwt_rsa_ssa_pkcs1_verify_key_manager.cc:91-103, raw_jwt_rsa_ssa_pss_verify_key_manager.cc:101-113 *)
  Definition jwt_validate_algorithm (algorithm : Z) : option cc_status :=
    match algorithm with 1 | 2 | 3 => None | _ => Some (NotOk "Unsupported Algorithm") end%Z.
  (** HashForEcdsaAlgorithm, HashForPkcs1Algorithm, HashForPssAlgorithm: lines 88-101, 105-118, 115-128 *)
  Definition jwt_hash_for (algorithm : Z) : st_or hash_type :=
    match algorithm with
    | 1%Z => StOk M_CcAes.SHA256 | 2%Z => StOk M_CcAes.SHA384 | 3%Z => StOk M_CcAes.SHA512
    | _ => StErr (NotOk "Unsupported Algorithm")
    end.
  (** raw_jwt_ecdsa_verify_key_manager.cc:72-86 CurveForEcdsaAlgorithm *)
  Definition jwt_curve_for (algorithm : Z) : st_or curve_type :=
    match algorithm with 1%Z => StOk P256 | 2%Z => StOk P384 | 3%Z => StOk P521 | _ => StErr (NotOk "Unsupported Ecdsa Algorithm") end.
  (** raw_jwt_rsa_ssa_pss_verify_key_manager.cc:130-143 SaltLengthForPssAlgorithm *)
  Definition jwt_salt_length_for (algorithm : Z) : st_or Z :=
    match algorithm with 1 => StOk 32 | 2 => StOk 48 | 3 => StOk 64 | _ => StErr (NotOk "Unsupported RSA SSA PSS Algorithm") end%Z.

  (** raw_jwt_ecdsa_verify_key_manager.cc:117-122 ValidateKey, of the public key at [at_] *)
  Definition jwt_ecdsa_validate_public (fs : schema) (at_ : list string -> list string) (m : message) : option cc_status :=
    and_then (validate_version (num_at fs m (at_ ["version"])) 0) (jwt_validate_algorithm (num_at fs m (at_ ["algorithm"]))).
  (** Lines 48-70 Create *)
  Definition jwt_ecdsa_create_verify (m : message) : st_or cc_verifier :=
    let fs := JwtEcdsaPublicKey in
    bind_st (jwt_curve_for (num_at fs m ["algorithm"])) (fun curve =>
    bind_st (jwt_hash_for (num_at fs m ["algorithm"])) (fun hash =>
    ecdsa_verifier ec sg curve hash EncIeee (bytes_at fs m ["x"]) (bytes_at fs m ["y"]))).
  (** raw_jwt_ecdsa_sign_key_manager.cc:107-112 ValidateKey, 114-117 ValidateKeyFormat, 78-105 Create, 51-76 CreateKey *)
  Definition jwt_ecdsa_validate_private (m : message) : option cc_status :=
    and_then (validate_version (num_at JwtEcdsaPrivateKey m ["version"]) 0) (jwt_ecdsa_validate_public JwtEcdsaPrivateKey (cons "public_key") m).
  Definition jwt_ecdsa_validate_format (m : message) : option cc_status := jwt_validate_algorithm (num_at JwtEcdsaKeyFormat m ["algorithm"]).
  Definition jwt_ecdsa_create_sign (m : message) : st_or cc_signer :=
    let fs := JwtEcdsaPrivateKey in
    bind_st (jwt_curve_for (num_at fs m ["public_key"; "algorithm"])) (fun curve =>
    bind_st (jwt_hash_for (num_at fs m ["public_key"; "algorithm"])) (fun hash =>
    ecdsa_signer ec sg curve hash EncIeee (bytes_at fs m ["public_key"; "x"]) (bytes_at fs m ["public_key"; "y"]) (bytes_at fs m ["key_value"]))).
  Definition jwt_ecdsa_create_key (rnd : coins) (m : message) : st_or message :=
    let algorithm := num_at JwtEcdsaKeyFormat m ["algorithm"] in
    bind_st (jwt_curve_for algorithm) (fun curve =>
    bind_st (new_ec_key ec curve rnd) (fun '(priv, pub_x, pub_y) =>
    StOk [Some (VNum 0);
          Some (VMsg [Some (VNum 0); Some (VNum algorithm); Some (VBytes pub_x); Some (VBytes pub_y); None]);
          Some (VBytes priv)])).

  (** raw_jwt_rsa_ssa_pkcs1_verify_key_manager.cc:70-89 and raw_jwt_rsa_ssa_pss_verify_key_manager.cc:78-99 ValidateKey *)
  Definition jwt_rsa_validate_public (fs : schema) (at_ : list string -> list string) (m : message) : option cc_status :=
    and_then (validate_version (num_at fs m (at_ ["version"])) 0)
      (and_then (validate_modulus_size (N.size (BN_bin2bn (bytes_at fs m (at_ ["n"])))))
         (and_then (validate_exponent (BN_bin2bn (bytes_at fs m (at_ ["e"]))))
            (jwt_validate_algorithm (num_at fs m (at_ ["algorithm"]))))).
  (** raw_jwt_rsa_ssa_pkcs1_sign_key_manager.cc:143-148 and raw_jwt_rsa_ssa_pss_sign_key_manager.cc:152-157 ValidateKey *)
  Definition jwt_rsa_validate_private (m : message) : option cc_status :=
    and_then (validate_version (num_at JwtRsaPrivateKey m ["version"]) 0) (jwt_rsa_validate_public JwtRsaPrivateKey (cons "public_key") m).
  (** Lines 150-164 and 159-173 ValidateKeyFormat *)
  Definition jwt_rsa_validate_format (fs : schema) (m : message) : option cc_status :=
    and_then (validate_modulus_size (Z.to_N (num_at fs m ["modulus_size_in_bits"])))
      (and_then (validate_exponent (BN_bin2bn (bytes_at fs m ["public_exponent"])))
         (jwt_validate_algorithm (num_at fs m ["algorithm"]))).
  (** Lines 88-110 and 92-112 CreateKey, with RsaPrivateKeySubtleToProto *)
  Definition jwt_rsa_create_key (fs : schema) (rnd : coins) (m : message) : st_or message :=
    bind_st (new_rsa_key_pair sg (to_int (Z.to_N (num_at fs m ["modulus_size_in_bits"]))) (BN_bin2bn (bytes_at fs m ["public_exponent"])) rnd) (fun k =>
    let b n := Some (VBytes (BN_bn2bin n)) in
    StOk [Some (VNum 0);
          Some (VMsg [Some (VNum 0); Some (VNum (num_at fs m ["algorithm"])); b (rsa_n k); b (rsa_e k); None]);
          b (rsa_d k); b (rsa_p k); b (rsa_q k); b (rsa_dp k); b (rsa_dq k); b (rsa_crt k)]).
  (** raw_jwt_rsa_ssa_pkcs1_verify_key_manager.cc:48-68 Create *)
  Definition jwt_pkcs1_create_verify (fs : schema) (at_ : list string -> list string) (m : message) : st_or cc_verifier :=
    bind_st (jwt_hash_for (num_at fs m (at_ ["algorithm"]))) (fun hash => pkcs1_verifier sg (rsa_public_of fs at_ m) hash).
  (** raw_jwt_rsa_ssa_pkcs1_sign_key_manager.cc:112-141 Create *)
  Definition jwt_pkcs1_create_sign (m : message) : st_or cc_signer :=
    bind_st (jwt_hash_for (num_at JwtRsaPrivateKey m ["public_key"; "algorithm"])) (fun hash =>
    tried self_test (pkcs1_signer sg (rsa_key_of JwtRsaPrivateKey m) hash) (jwt_pkcs1_create_verify JwtRsaPrivateKey (cons "public_key") m)).
  (** raw_jwt_rsa_ssa_pss_verify_key_manager.cc:50-76 Create *)
  Definition jwt_pss_create_verify (fs : schema) (at_ : list string -> list string) (m : message) : st_or cc_verifier :=
    bind_st (jwt_hash_for (num_at fs m (at_ ["algorithm"]))) (fun hash =>
    bind_st (jwt_salt_length_for (num_at fs m (at_ ["algorithm"]))) (fun salt_length =>
    pss_verifier sg (rsa_public_of fs at_ m) hash hash salt_length)).
  (** raw_jwt_rsa_ssa_pss_sign_key_manager.cc:114-150 Create *)
  Definition jwt_pss_create_sign (m : message) : st_or cc_signer :=
    bind_st (jwt_hash_for (num_at JwtRsaPrivateKey m ["public_key"; "algorithm"])) (fun hash =>
    bind_st (jwt_salt_length_for (num_at JwtRsaPrivateKey m ["public_key"; "algorithm"])) (fun salt_length =>
    tried self_test (pss_signer sg (rsa_key_of JwtRsaPrivateKey m) hash hash salt_length) (jwt_pss_create_verify JwtRsaPrivateKey (cons "public_key") m))).

  Inductive jwt_family := ES | RS | PS.
  (** The managers that cc/jwt/jwt_signature_config.cc:38-66 registers, by the algorithms they are for *)
  Definition jwt_verify_cc_manager (f : jwt_family) : cc_lib_manager cc_verifier :=
    let here := fun q : list string => q in
    match f with
    | ES => verify_manager_of "JwtEcdsaPublicKey" JwtEcdsaPublicKey (jwt_ecdsa_validate_public JwtEcdsaPublicKey here) jwt_ecdsa_create_verify
    | RS => verify_manager_of "JwtRsaSsaPkcs1PublicKey" JwtRsaPublicKey (jwt_rsa_validate_public JwtRsaPublicKey here) (jwt_pkcs1_create_verify JwtRsaPublicKey here)
    | PS => verify_manager_of "JwtRsaSsaPssPublicKey" JwtRsaPublicKey (jwt_rsa_validate_public JwtRsaPublicKey here) (jwt_pss_create_verify JwtRsaPublicKey here)
    end.
  Definition jwt_sign_cc_manager (f : jwt_family) : cc_lib_manager cc_signer :=
    match f with
    | ES => sign_manager_of "JwtEcdsaPrivateKey" "JwtEcdsaPublicKey" JwtEcdsaPrivateKey JwtEcdsaPublicKey JwtEcdsaKeyFormat
              jwt_ecdsa_validate_private jwt_ecdsa_validate_format jwt_ecdsa_create_sign jwt_ecdsa_create_key
    | RS => sign_manager_of "JwtRsaSsaPkcs1PrivateKey" "JwtRsaSsaPkcs1PublicKey" JwtRsaPrivateKey JwtRsaPublicKey JwtRsaSsaPkcs1KeyFormat
              jwt_rsa_validate_private (jwt_rsa_validate_format JwtRsaSsaPkcs1KeyFormat) jwt_pkcs1_create_sign (jwt_rsa_create_key JwtRsaSsaPkcs1KeyFormat)
    | PS => sign_manager_of "JwtRsaSsaPssPrivateKey" "JwtRsaSsaPssPublicKey" JwtRsaPrivateKey JwtRsaPublicKey JwtRsaSsaPssKeyFormat
              jwt_rsa_validate_private (jwt_rsa_validate_format JwtRsaSsaPssKeyFormat) jwt_pss_create_sign (jwt_rsa_create_key JwtRsaSsaPssKeyFormat)
    end.
End JwtSignatures.
