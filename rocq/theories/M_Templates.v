(** The key template constructors and the predefined templates of
    aead/_aead_key_templates.py, daead/_deterministic_aead_key_templates.py,
    hybrid/_hybrid_key_templates.py, jwt/_jwt_key_templates.py,
    mac/_mac_key_templates.py, prf/_prf_key_templates.py,
    signature/_signature_key_templates.py and
    streaming_aead/_streaming_aead_key_templates.py.
    Simplifications: the deprecation warnings of the public constructors are not
    modelled (they return what the private one returns); int arguments are
    integers and str arguments are str. *)
From Coq Require Import Strings.Byte Strings.String List NArith ZArith Bool.
From Verif Require Import M_Base M_Proto M_ProtoMsg M_KeyFormats M_BigInt.
Import ListNotations.
Open Scope string_scope.
Open Scope list_scope.
Open Scope Z_scope.

(** tink_pb2.KeyTemplate(value=..., type_url=..., output_prefix_type=...) *)
Definition new_key_template (type_url : string) (value : bytes) (prefix : Z) : result key_template :=
  match check_value TEnum (VNum prefix) with
  | Ok _ => Ok (mk_key_template (ulit type_url) value prefix)
  | Err e => Err e
  end.

(** A KeyTemplate message as a field value. *)
Definition template_value (t : key_template) : pval :=
  VMsg [Some (VString (kt_type_url t)); Some (VBytes (kt_value t)); Some (VNum (kt_output_prefix_type t))].

(** aead :48-62 _create_aes_eax_key_template *)
Definition create_aes_eax (key_size iv_size prefix : Z) : result key_template :=
  m <- build AesEaxKeyFormat
         [(["params"; "iv_size"], VNum iv_size); (["key_size"], VNum key_size)] ;;
  new_key_template "type.googleapis.com/google.crypto.tink.AesEaxKey"
    (serialize_message AesEaxKeyFormat m) prefix.

(** aead :65-76 _create_aes_gcm_key_template *)
Definition create_aes_gcm (key_size prefix : Z) : result key_template :=
  m <- build AesGcmKeyFormat [(["key_size"], VNum key_size)] ;;
  new_key_template "type.googleapis.com/google.crypto.tink.AesGcmKey"
    (serialize_message AesGcmKeyFormat m) prefix.

(** aead :79-92 _create_aes_gcm_siv_key_template *)
Definition create_aes_gcm_siv (key_size prefix : Z) : result key_template :=
  m <- build AesGcmSivKeyFormat [(["key_size"], VNum key_size)] ;;
  new_key_template "type.googleapis.com/google.crypto.tink.AesGcmSivKey"
    (serialize_message AesGcmSivKeyFormat m) prefix.

(** aead :95-115 _create_aes_ctr_hmac_aead_key_template *)
Definition create_aes_ctr_hmac_aead
    (aes_key_size iv_size hmac_key_size tag_size hash_type prefix : Z) : result key_template :=
  m <- build AesCtrHmacAeadKeyFormat
         [(["aes_ctr_key_format"; "params"; "iv_size"], VNum iv_size);
          (["aes_ctr_key_format"; "key_size"], VNum aes_key_size);
          (["hmac_key_format"; "params"; "hash"], VNum hash_type);
          (["hmac_key_format"; "params"; "tag_size"], VNum tag_size);
          (["hmac_key_format"; "key_size"], VNum hmac_key_size)] ;;
  new_key_template "type.googleapis.com/google.crypto.tink.AesCtrHmacAeadKey"
    (serialize_message AesCtrHmacAeadKeyFormat m) prefix.

(** aead :118-149 create_kms_aead_key_template *)
Definition create_kms_aead (key_uri : pystr) : result key_template :=
  m <- build KmsAeadKeyFormat [(["key_uri"], VString key_uri)] ;;
  new_key_template "type.googleapis.com/google.crypto.tink.KmsAeadKey"
    (serialize_message KmsAeadKeyFormat m) RAW.

(** aead :152-189 create_kms_envelope_aead_key_template *)
Definition create_kms_envelope_aead (kek_uri : pystr) (dek_template : key_template) : result key_template :=
  m <- build KmsEnvelopeAeadKeyFormat
         [(["kek_uri"], VString kek_uri); (["dek_template"], template_value dek_template)] ;;
  new_key_template "type.googleapis.com/google.crypto.tink.KmsEnvelopeAeadKey"
    (serialize_message KmsEnvelopeAeadKeyFormat m) RAW.

(** daead :32-42 _create_aes_siv_key_template *)
Definition create_aes_siv (key_size : Z) : result key_template :=
  m <- build AesSivKeyFormat [(["key_size"], VNum key_size)] ;;
  new_key_template "type.googleapis.com/google.crypto.tink.AesSivKey"
    (serialize_message AesSivKeyFormat m) TINK.

(** mac :30-43 _create_hmac_key_template *)
Definition create_hmac (key_size tag_size hash_type : Z) : result key_template :=
  m <- build HmacKeyFormat
         [(["params"; "hash"], VNum hash_type); (["params"; "tag_size"], VNum tag_size);
          (["key_size"], VNum key_size)] ;;
  new_key_template "type.googleapis.com/google.crypto.tink.HmacKey"
    (serialize_message HmacKeyFormat m) TINK.

(** mac :46-56 _create_aes_cmac_key_template *)
Definition create_aes_cmac (key_size tag_size : Z) : result key_template :=
  m <- build AesCmacKeyFormat [(["key_size"], VNum key_size); (["params"; "tag_size"], VNum tag_size)] ;;
  new_key_template "type.googleapis.com/google.crypto.tink.AesCmacKey"
    (serialize_message AesCmacKeyFormat m) TINK.

(** prf :35-45 _create_aes_cmac_key_template *)
Definition create_aes_cmac_prf (key_size : Z) : result key_template :=
  m <- build AesCmacPrfKeyFormat [(["key_size"], VNum key_size); (["version"], VNum 0)] ;;
  new_key_template "type.googleapis.com/google.crypto.tink.AesCmacPrfKey"
    (serialize_message AesCmacPrfKeyFormat m) RAW.

(** prf :48-60 _create_hmac_key_template *)
Definition create_hmac_prf (key_size hash_type : Z) : result key_template :=
  m <- build HmacPrfKeyFormat
         [(["params"; "hash"], VNum hash_type); (["key_size"], VNum key_size); (["version"], VNum 0)] ;;
  new_key_template "type.googleapis.com/google.crypto.tink.HmacPrfKey"
    (serialize_message HmacPrfKeyFormat m) RAW.

(** prf :63-74 _create_hkdf_key_template *)
Definition create_hkdf_prf (key_size hash_type : Z) : result key_template :=
  m <- build HkdfPrfKeyFormat
         [(["params"; "hash"], VNum hash_type); (["key_size"], VNum key_size); (["version"], VNum 0)] ;;
  new_key_template "type.googleapis.com/google.crypto.tink.HkdfPrfKey"
    (serialize_message HkdfPrfKeyFormat m) RAW.

(** streaming_aead :41-56 _create_aes_gcm_hkdf_streaming_key_template *)
Definition create_aes_gcm_hkdf_streaming
    (aes_key_size hash_type derived_key_size ciphertext_segment_size : Z) : result key_template :=
  m <- build AesGcmHkdfStreamingKeyFormat
         [(["key_size"], VNum aes_key_size);
          (["params"; "hkdf_hash_type"], VNum hash_type);
          (["params"; "derived_key_size"], VNum derived_key_size);
          (["params"; "ciphertext_segment_size"], VNum ciphertext_segment_size)] ;;
  new_key_template "type.googleapis.com/google.crypto.tink.AesGcmHkdfStreamingKey"
    (serialize_message AesGcmHkdfStreamingKeyFormat m) RAW.

(** streaming_aead :59-79 _create_aes_ctr_hmac_streaming_key_template *)
Definition create_aes_ctr_hmac_streaming
    (aes_key_size hkdf_hash_type derived_key_size mac_hash_type tag_size ciphertext_segment_size : Z)
    : result key_template :=
  m <- build AesCtrHmacStreamingKeyFormat
         [(["key_size"], VNum aes_key_size);
          (["params"; "ciphertext_segment_size"], VNum ciphertext_segment_size);
          (["params"; "derived_key_size"], VNum derived_key_size);
          (["params"; "hkdf_hash_type"], VNum hkdf_hash_type);
          (["params"; "hmac_params"; "hash"], VNum mac_hash_type);
          (["params"; "hmac_params"; "tag_size"], VNum tag_size)] ;;
  new_key_template "type.googleapis.com/google.crypto.tink.AesCtrHmacStreamingKey"
    (serialize_message AesCtrHmacStreamingKeyFormat m) RAW.

(** signature :42-57 _create_ecdsa_key_template *)
Definition create_ecdsa (hash_type curve encoding prefix : Z) : result key_template :=
  p <- build EcdsaParams
         [(["hash_type"], VNum hash_type); (["curve"], VNum curve); (["encoding"], VNum encoding)] ;;
  m <- build EcdsaKeyFormat [(["params"], VMsg p)] ;;
  new_key_template "type.googleapis.com/google.crypto.tink.EcdsaPrivateKey"
    (serialize_message EcdsaKeyFormat m) prefix.

(** signature :60-74 _create_rsa_ssa_pkcs1_key_template *)
Definition create_rsa_ssa_pkcs1 (hash_type modulus_size public_exponent : Z) : result key_template :=
  p <- build RsaSsaPkcs1Params [(["hash_type"], VNum hash_type)] ;;
  e <- num_to_bytes public_exponent ;;
  m <- build RsaSsaPkcs1KeyFormat
         [(["params"], VMsg p); (["modulus_size_in_bits"], VNum modulus_size);
          (["public_exponent"], VBytes e)] ;;
  new_key_template "type.googleapis.com/google.crypto.tink.RsaSsaPkcs1PrivateKey"
    (serialize_message RsaSsaPkcs1KeyFormat m) TINK.

(** signature :77-93 _create_rsa_ssa_pss_key_template *)
Definition create_rsa_ssa_pss (sig_hash mgf1_hash salt_length modulus_size public_exponent : Z)
    : result key_template :=
  p <- build RsaSsaPssParams
         [(["sig_hash"], VNum sig_hash); (["mgf1_hash"], VNum mgf1_hash);
          (["salt_length"], VNum salt_length)] ;;
  e <- num_to_bytes public_exponent ;;
  m <- build RsaSsaPssKeyFormat
         [(["params"], VMsg p); (["modulus_size_in_bits"], VNum modulus_size);
          (["public_exponent"], VBytes e)] ;;
  new_key_template "type.googleapis.com/google.crypto.tink.RsaSsaPssPrivateKey"
    (serialize_message RsaSsaPssKeyFormat m) TINK.

(** hybrid :32-48 _create_ecies_aead_hkdf_key_template *)
Definition create_ecies_aead_hkdf (curve_type ec_point_format hash_type : Z) (dem : key_template)
    : result key_template :=
  m <- build EciesAeadHkdfKeyFormat
         [(["params"; "kem_params"; "curve_type"], VNum curve_type);
          (["params"; "kem_params"; "hkdf_hash_type"], VNum hash_type);
          (["params"; "dem_params"; "aead_dem"], template_value dem);
          (["params"; "ec_point_format"], VNum ec_point_format)] ;;
  new_key_template "type.googleapis.com/google.crypto.tink.EciesAeadHkdfPrivateKey"
    (serialize_message EciesAeadHkdfKeyFormat m) TINK.

(** hybrid :51-66 _create_hpke_key_template *)
Definition create_hpke (kem kdf aead prefix : Z) : result key_template :=
  m <- build HpkeKeyFormat
         [(["params"; "kem"], VNum kem); (["params"; "kdf"], VNum kdf); (["params"; "aead"], VNum aead)] ;;
  new_key_template "type.googleapis.com/google.crypto.tink.HpkePrivateKey"
    (serialize_message HpkeKeyFormat m) prefix.

(** jwt :26-34 _create_jwt_hmac_template *)
Definition create_jwt_hmac (algorithm key_size prefix : Z) : result key_template :=
  m <- build JwtHmacKeyFormat [(["algorithm"], VNum algorithm); (["key_size"], VNum key_size)] ;;
  new_key_template "type.googleapis.com/google.crypto.tink.JwtHmacKey"
    (serialize_message JwtHmacKeyFormat m) prefix.

(** jwt :37-45 _create_jwt_ecdsa_template *)
Definition create_jwt_ecdsa (algorithm prefix : Z) : result key_template :=
  m <- build JwtEcdsaKeyFormat [(["algorithm"], VNum algorithm)] ;;
  new_key_template "type.googleapis.com/google.crypto.tink.JwtEcdsaPrivateKey"
    (serialize_message JwtEcdsaKeyFormat m) prefix.

(** jwt :23 _F4 *)
Definition F4 := 65537.

(** jwt :48-58 _create_jwt_rsa_ssa_pkcs1_template *)
Definition create_jwt_rsa_ssa_pkcs1 (algorithm modulus_size prefix : Z) : result key_template :=
  e <- num_to_bytes F4 ;;
  m <- build JwtRsaSsaPkcs1KeyFormat
         [(["algorithm"], VNum algorithm); (["modulus_size_in_bits"], VNum modulus_size);
          (["public_exponent"], VBytes e)] ;;
  new_key_template "type.googleapis.com/google.crypto.tink.JwtRsaSsaPkcs1PrivateKey"
    (serialize_message JwtRsaSsaPkcs1KeyFormat m) prefix.

(** jwt :61-71 _create_jwt_rsa_ssa_pss_template *)
Definition create_jwt_rsa_ssa_pss (algorithm modulus_size prefix : Z) : result key_template :=
  e <- num_to_bytes F4 ;;
  m <- build JwtRsaSsaPssKeyFormat
         [(["algorithm"], VNum algorithm); (["modulus_size_in_bits"], VNum modulus_size);
          (["public_exponent"], VBytes e)] ;;
  new_key_template "type.googleapis.com/google.crypto.tink.JwtRsaSsaPssPrivateKey"
    (serialize_message JwtRsaSsaPssKeyFormat m) prefix.

(** aead :236-240 XCHACHA20_POLY1305, XCHACHA20_POLY1305_RAW: KeyTemplate
    messages without a value. *)
Definition xchacha20_poly1305 (prefix : Z) : result key_template :=
  new_key_template "type.googleapis.com/google.crypto.tink.XChaCha20Poly1305Key" [] prefix.
(** signature :134-135 ED25519 *)
Definition ed25519 : result key_template :=
  new_key_template "type.googleapis.com/google.crypto.tink.Ed25519PrivateKey" [] TINK.

(** aead :192-240 *)
Definition aead_templates : list (string * result key_template) :=
  [("AES128_EAX", create_aes_eax 16 16 TINK);
   ("AES128_EAX_RAW", create_aes_eax 16 16 RAW);
   ("AES256_EAX", create_aes_eax 32 16 TINK);
   ("AES256_EAX_RAW", create_aes_eax 32 16 RAW);
   ("AES128_GCM", create_aes_gcm 16 TINK);
   ("AES128_GCM_RAW", create_aes_gcm 16 RAW);
   ("AES256_GCM", create_aes_gcm 32 TINK);
   ("AES256_GCM_RAW", create_aes_gcm 32 RAW);
   ("AES128_GCM_SIV", create_aes_gcm_siv 16 TINK);
   ("AES128_GCM_SIV_RAW", create_aes_gcm_siv 16 RAW);
   ("AES256_GCM_SIV", create_aes_gcm_siv 32 TINK);
   ("AES256_GCM_SIV_RAW", create_aes_gcm_siv 32 RAW);
   ("AES128_CTR_HMAC_SHA256", create_aes_ctr_hmac_aead 16 16 32 16 SHA256 TINK);
   ("AES128_CTR_HMAC_SHA256_RAW", create_aes_ctr_hmac_aead 16 16 32 16 SHA256 RAW);
   ("AES256_CTR_HMAC_SHA256", create_aes_ctr_hmac_aead 32 16 32 32 SHA256 TINK);
   ("AES256_CTR_HMAC_SHA256_RAW", create_aes_ctr_hmac_aead 32 16 32 32 SHA256 RAW);
   ("XCHACHA20_POLY1305", xchacha20_poly1305 TINK);
   ("XCHACHA20_POLY1305_RAW", xchacha20_poly1305 RAW)].

(** daead :45 *)
Definition daead_templates : list (string * result key_template) :=
  [("AES256_SIV", create_aes_siv 64)].

(** mac :59-67 *)
Definition mac_templates : list (string * result key_template) :=
  [("AES_CMAC", create_aes_cmac 32 16);
   ("HMAC_SHA256_128BITTAG", create_hmac 32 16 SHA256);
   ("HMAC_SHA256_256BITTAG", create_hmac 32 32 SHA256);
   ("HMAC_SHA512_256BITTAG", create_hmac 64 32 SHA512);
   ("HMAC_SHA512_512BITTAG", create_hmac 64 64 SHA512)].

(** prf :77-83 *)
Definition prf_templates : list (string * result key_template) :=
  [("AES_CMAC", create_aes_cmac_prf 32);
   ("HMAC_SHA256", create_hmac_prf 32 SHA256);
   ("HMAC_SHA512", create_hmac_prf 64 SHA512);
   ("HKDF_SHA256", create_hkdf_prf 32 SHA256)].

(** streaming_aead :37-38 *)
Definition SEGMENT_SIZE_1MB := 1024 * 1024.
Definition SEGMENT_SIZE_4KB := 4 * 1024.
(** streaming_aead :82-136 *)
Definition streaming_templates : list (string * result key_template) :=
  [("AES128_GCM_HKDF_4KB", create_aes_gcm_hkdf_streaming 16 SHA256 16 SEGMENT_SIZE_4KB);
   ("AES128_GCM_HKDF_1MB", create_aes_gcm_hkdf_streaming 16 SHA256 16 SEGMENT_SIZE_1MB);
   ("AES256_GCM_HKDF_4KB", create_aes_gcm_hkdf_streaming 32 SHA256 32 SEGMENT_SIZE_4KB);
   ("AES256_GCM_HKDF_1MB", create_aes_gcm_hkdf_streaming 32 SHA256 32 SEGMENT_SIZE_1MB);
   ("AES128_CTR_HMAC_SHA256_4KB", create_aes_ctr_hmac_streaming 16 SHA256 16 SHA256 32 SEGMENT_SIZE_4KB);
   ("AES128_CTR_HMAC_SHA256_1MB", create_aes_ctr_hmac_streaming 16 SHA256 16 SHA256 32 SEGMENT_SIZE_1MB);
   ("AES256_CTR_HMAC_SHA256_4KB", create_aes_ctr_hmac_streaming 32 SHA256 32 SHA256 32 SEGMENT_SIZE_4KB);
   ("AES256_CTR_HMAC_SHA256_1MB", create_aes_ctr_hmac_streaming 32 SHA256 32 SHA256 32 SEGMENT_SIZE_1MB)].

(** signature :39 *)
Definition RSA_F4 := 65537.
(** signature :96-145 *)
Definition signature_templates : list (string * result key_template) :=
  [("ECDSA_P256", create_ecdsa SHA256 NIST_P256 DER TINK);
   ("ECDSA_P256_RAW", create_ecdsa SHA256 NIST_P256 IEEE_P1363 RAW);
   ("ECDSA_P384", create_ecdsa SHA512 NIST_P384 DER TINK);
   ("ECDSA_P384_SHA384", create_ecdsa SHA384 NIST_P384 DER TINK);
   ("ECDSA_P384_SHA512", create_ecdsa SHA512 NIST_P384 DER TINK);
   ("ECDSA_P521", create_ecdsa SHA512 NIST_P521 DER TINK);
   ("ECDSA_P256_IEEE_P1363", create_ecdsa SHA256 NIST_P256 IEEE_P1363 TINK);
   ("ECDSA_P384_IEEE_P1363", create_ecdsa SHA512 NIST_P384 IEEE_P1363 TINK);
   ("ECDSA_P384_SHA384_IEEE_P1363", create_ecdsa SHA384 NIST_P384 IEEE_P1363 TINK);
   ("ECDSA_P521_IEEE_P1363", create_ecdsa SHA512 NIST_P521 IEEE_P1363 TINK);
   ("ED25519", ed25519);
   ("RSA_SSA_PKCS1_3072_SHA256_F4", create_rsa_ssa_pkcs1 SHA256 3072 RSA_F4);
   ("RSA_SSA_PKCS1_4096_SHA512_F4", create_rsa_ssa_pkcs1 SHA512 4096 RSA_F4);
   ("RSA_SSA_PSS_3072_SHA256_SHA256_32_F4", create_rsa_ssa_pss SHA256 SHA256 32 3072 RSA_F4);
   ("RSA_SSA_PSS_4096_SHA512_SHA512_64_F4", create_rsa_ssa_pss SHA512 SHA512 64 4096 RSA_F4)].

(** hybrid :69-135 *)
Definition hybrid_templates : list (string * result key_template) :=
  [("ECIES_P256_HKDF_HMAC_SHA256_AES128_GCM",
      d <- create_aes_gcm 16 TINK ;; create_ecies_aead_hkdf NIST_P256 UNCOMPRESSED SHA256 d);
   ("ECIES_P256_COMPRESSED_HKDF_HMAC_SHA256_AES128_GCM",
      d <- create_aes_gcm 16 TINK ;; create_ecies_aead_hkdf NIST_P256 COMPRESSED SHA256 d);
   ("ECIES_P256_HKDF_HMAC_SHA256_AES128_CTR_HMAC_SHA256",
      d <- create_aes_ctr_hmac_aead 16 16 32 16 SHA256 TINK ;;
      create_ecies_aead_hkdf NIST_P256 UNCOMPRESSED SHA256 d);
   ("ECIES_P256_COMPRESSED_HKDF_HMAC_SHA256_AES128_CTR_HMAC_SHA256",
      d <- create_aes_ctr_hmac_aead 16 16 32 16 SHA256 TINK ;;
      create_ecies_aead_hkdf NIST_P256 COMPRESSED SHA256 d);
   ("DHKEM_X25519_HKDF_SHA256_HKDF_SHA256_AES_128_GCM",
      create_hpke DHKEM_X25519_HKDF_SHA256 HPKE_HKDF_SHA256 HPKE_AES_128_GCM TINK);
   ("DHKEM_X25519_HKDF_SHA256_HKDF_SHA256_AES_128_GCM_RAW",
      create_hpke DHKEM_X25519_HKDF_SHA256 HPKE_HKDF_SHA256 HPKE_AES_128_GCM RAW);
   ("DHKEM_X25519_HKDF_SHA256_HKDF_SHA256_AES_256_GCM",
      create_hpke DHKEM_X25519_HKDF_SHA256 HPKE_HKDF_SHA256 HPKE_AES_256_GCM TINK);
   ("DHKEM_X25519_HKDF_SHA256_HKDF_SHA256_AES_256_GCM_RAW",
      create_hpke DHKEM_X25519_HKDF_SHA256 HPKE_HKDF_SHA256 HPKE_AES_256_GCM RAW);
   ("DHKEM_X25519_HKDF_SHA256_HKDF_SHA256_CHACHA20_POLY1305",
      create_hpke DHKEM_X25519_HKDF_SHA256 HPKE_HKDF_SHA256 HPKE_CHACHA20_POLY1305 TINK);
   ("DHKEM_X25519_HKDF_SHA256_HKDF_SHA256_CHACHA20_POLY1305_RAW",
      create_hpke DHKEM_X25519_HKDF_SHA256 HPKE_HKDF_SHA256 HPKE_CHACHA20_POLY1305 RAW)].

(** jwt :74-203 *)
Definition jwt_templates : list (string * result key_template) :=
  [("jwt_hs256_template", create_jwt_hmac HS256 32 TINK);
   ("raw_jwt_hs256_template", create_jwt_hmac HS256 32 RAW);
   ("jwt_hs384_template", create_jwt_hmac HS384 48 TINK);
   ("raw_jwt_hs384_template", create_jwt_hmac HS384 48 RAW);
   ("jwt_hs512_template", create_jwt_hmac HS512 64 TINK);
   ("raw_jwt_hs512_template", create_jwt_hmac HS512 64 RAW);
   ("jwt_es256_template", create_jwt_ecdsa ES256 TINK);
   ("raw_jwt_es256_template", create_jwt_ecdsa ES256 RAW);
   ("jwt_es384_template", create_jwt_ecdsa ES384 TINK);
   ("raw_jwt_es384_template", create_jwt_ecdsa ES384 RAW);
   ("jwt_es512_template", create_jwt_ecdsa ES512 TINK);
   ("raw_jwt_es512_template", create_jwt_ecdsa ES512 RAW);
   ("jwt_rs256_2048_f4_template", create_jwt_rsa_ssa_pkcs1 RS256 2048 TINK);
   ("raw_jwt_rs256_2048_f4_template", create_jwt_rsa_ssa_pkcs1 RS256 2048 RAW);
   ("jwt_rs256_3072_f4_template", create_jwt_rsa_ssa_pkcs1 RS256 3072 TINK);
   ("raw_jwt_rs256_3072_f4_template", create_jwt_rsa_ssa_pkcs1 RS256 3072 RAW);
   ("jwt_rs384_3072_f4_template", create_jwt_rsa_ssa_pkcs1 RS384 3072 TINK);
   ("raw_jwt_rs384_3072_f4_template", create_jwt_rsa_ssa_pkcs1 RS384 3072 RAW);
   ("jwt_rs512_4096_f4_template", create_jwt_rsa_ssa_pkcs1 RS512 4096 TINK);
   ("raw_jwt_rs512_4096_f4_template", create_jwt_rsa_ssa_pkcs1 RS512 4096 RAW);
   ("jwt_ps256_2048_f4_template", create_jwt_rsa_ssa_pss PS256 2048 TINK);
   ("raw_jwt_ps256_2048_f4_template", create_jwt_rsa_ssa_pss PS256 2048 RAW);
   ("jwt_ps256_3072_f4_template", create_jwt_rsa_ssa_pss PS256 3072 TINK);
   ("raw_jwt_ps256_3072_f4_template", create_jwt_rsa_ssa_pss PS256 3072 RAW);
   ("jwt_ps384_3072_f4_template", create_jwt_rsa_ssa_pss PS384 3072 TINK);
   ("raw_jwt_ps384_3072_f4_template", create_jwt_rsa_ssa_pss PS384 3072 RAW);
   ("jwt_ps512_4096_f4_template", create_jwt_rsa_ssa_pss PS512 4096 TINK);
   ("raw_jwt_ps512_4096_f4_template", create_jwt_rsa_ssa_pss PS512 4096 RAW)].

(** Every template name the package exports, with the module that exports it. *)
Definition predefined_templates : list (string * list (string * result key_template)) :=
  [("aead", aead_templates); ("daead", daead_templates); ("mac", mac_templates);
   ("prf", prf_templates); ("streaming_aead", streaming_templates);
   ("signature", signature_templates); ("hybrid", hybrid_templates); ("jwt", jwt_templates)].
