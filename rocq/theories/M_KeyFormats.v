(** The key format messages and enums of python/tink/proto (field numbers and
    types; fields listed in field-number order). *)
From Coq Require Import Strings.Byte Strings.String List NArith ZArith Bool.
From Verif Require Import M_Base M_ProtoMsg.
Import ListNotations.
Open Scope string_scope.
Open Scope list_scope.
Open Scope N_scope.

(** proto/common.proto:26-32 EllipticCurveType, proto/common.proto:34-41 EcPointFormat, proto/common.proto:43-51 HashType *)
Definition NIST_P256 := 2%Z.
Definition NIST_P384 := 3%Z.
Definition NIST_P521 := 4%Z.
Definition UNCOMPRESSED := 1%Z.
Definition COMPRESSED := 2%Z.
Definition SHA384 := 2%Z.
Definition SHA256 := 3%Z.
Definition SHA512 := 4%Z.
(** proto/ecdsa.proto:28-41 *)
Definition IEEE_P1363 := 1%Z.
Definition DER := 2%Z.
(** proto/hpke.proto:25-31 HpkeKem, proto/hpke.proto:33-38 HpkeKdf, proto/hpke.proto:40-45 HpkeAead *)
Definition DHKEM_X25519_HKDF_SHA256 := 1%Z.
Definition HPKE_HKDF_SHA256 := 1%Z.
Definition HPKE_AES_128_GCM := 1%Z.
Definition HPKE_AES_256_GCM := 2%Z.
Definition HPKE_CHACHA20_POLY1305 := 3%Z.
(** proto/jwt_hmac.proto:26-31, proto/jwt_ecdsa.proto:26-31,
    proto/jwt_rsa_ssa_pkcs1.proto:26-31, proto/jwt_rsa_ssa_pss.proto:26-31 *)
Definition HS256 := 1%Z.
Definition HS384 := 2%Z.
Definition HS512 := 3%Z.
Definition ES256 := 1%Z.
Definition ES384 := 2%Z.
Definition ES512 := 3%Z.
Definition RS256 := 1%Z.
Definition RS384 := 2%Z.
Definition RS512 := 3%Z.
Definition PS256 := 1%Z.
Definition PS384 := 2%Z.
Definition PS512 := 3%Z.

Definition schema := list (string * N * ptype).

(** proto/tink.proto:52-65 *)
Definition KeyTemplate : schema :=
  [("type_url", 1, TString); ("value", 2, TBytes); ("output_prefix_type", 3, TEnum)].
(** proto/aes_eax.proto:26-29 *)
Definition AesEaxParams : schema := [("iv_size", 1, TUint32)].
(** proto/aes_eax.proto:31-34 *)
Definition AesEaxKeyFormat : schema := [("params", 1, TMsg AesEaxParams); ("key_size", 2, TUint32)].
(** proto/aes_gcm.proto:26-29 *)
Definition AesGcmKeyFormat : schema := [("key_size", 2, TUint32); ("version", 3, TUint32)].
(** proto/aes_gcm_siv.proto:27-30 *)
Definition AesGcmSivKeyFormat : schema := [("version", 1, TUint32); ("key_size", 2, TUint32)].
(** proto/aes_ctr.proto:25-27 *)
Definition AesCtrParams : schema := [("iv_size", 1, TUint32)].
(** proto/aes_ctr.proto:29-32 *)
Definition AesCtrKeyFormat : schema := [("params", 1, TMsg AesCtrParams); ("key_size", 2, TUint32)].
(** proto/hmac.proto:27-30 *)
Definition HmacParams : schema := [("hash", 1, TEnum); ("tag_size", 2, TUint32)].
(** proto/hmac.proto:39-43 *)
Definition HmacKeyFormat : schema :=
  [("params", 1, TMsg HmacParams); ("key_size", 2, TUint32); ("version", 3, TUint32)].
(** proto/aes_ctr_hmac_aead.proto:28-31 *)
Definition AesCtrHmacAeadKeyFormat : schema :=
  [("aes_ctr_key_format", 1, TMsg AesCtrKeyFormat); ("hmac_key_format", 2, TMsg HmacKeyFormat)].
(** proto/xchacha20_poly1305.proto:25-27 *)
Definition XChaCha20Poly1305KeyFormat : schema := [("version", 1, TUint32)].
(** proto/kms_aead.proto:25-33 *)
Definition KmsAeadKeyFormat : schema := [("key_uri", 1, TString)].
(** proto/kms_envelope.proto:27-38 *)
Definition KmsEnvelopeAeadKeyFormat : schema :=
  [("kek_uri", 1, TString); ("dek_template", 2, TMsg KeyTemplate)].
(** proto/aes_siv.proto:33-37 *)
Definition AesSivKeyFormat : schema := [("key_size", 1, TUint32); ("version", 2, TUint32)].
(** proto/aes_cmac.proto:25-27 *)
Definition AesCmacParams : schema := [("tag_size", 1, TUint32)].
(** proto/aes_cmac.proto:36-39 *)
Definition AesCmacKeyFormat : schema := [("key_size", 1, TUint32); ("params", 2, TMsg AesCmacParams)].
(** proto/aes_cmac_prf.proto:31-34 *)
Definition AesCmacPrfKeyFormat : schema := [("key_size", 1, TUint32); ("version", 2, TUint32)].
(** proto/hmac_prf.proto:27-29 *)
Definition HmacPrfParams : schema := [("hash", 1, TEnum)].
(** proto/hmac_prf.proto:38-42 *)
Definition HmacPrfKeyFormat : schema :=
  [("params", 1, TMsg HmacPrfParams); ("key_size", 2, TUint32); ("version", 3, TUint32)].
(** proto/hkdf_prf.proto:27-36 *)
Definition HkdfPrfParams : schema := [("hash", 1, TEnum); ("salt", 2, TBytes)].
(** proto/hkdf_prf.proto:44-48 *)
Definition HkdfPrfKeyFormat : schema :=
  [("params", 1, TMsg HkdfPrfParams); ("key_size", 2, TUint32); ("version", 3, TUint32)].
(** proto/aes_gcm_hkdf_streaming.proto:29-33 *)
Definition AesGcmHkdfStreamingParams : schema :=
  [("ciphertext_segment_size", 1, TUint32); ("derived_key_size", 2, TUint32); ("hkdf_hash_type", 3, TEnum)].
(** proto/aes_gcm_hkdf_streaming.proto:35-39 *)
Definition AesGcmHkdfStreamingKeyFormat : schema :=
  [("params", 1, TMsg AesGcmHkdfStreamingParams); ("key_size", 2, TUint32); ("version", 3, TUint32)].
(** proto/aes_ctr_hmac_streaming.proto:28-33 *)
Definition AesCtrHmacStreamingParams : schema :=
  [("ciphertext_segment_size", 1, TUint32); ("derived_key_size", 2, TUint32);
   ("hkdf_hash_type", 3, TEnum); ("hmac_params", 4, TMsg HmacParams)].
(** proto/aes_ctr_hmac_streaming.proto:35-39 *)
Definition AesCtrHmacStreamingKeyFormat : schema :=
  [("params", 1, TMsg AesCtrHmacStreamingParams); ("key_size", 2, TUint32); ("version", 3, TUint32)].
(** proto/ecdsa.proto:44-51 *)
Definition EcdsaParams : schema := [("hash_type", 1, TEnum); ("curve", 2, TEnum); ("encoding", 3, TEnum)].
(** proto/ecdsa.proto:80-84 *)
Definition EcdsaKeyFormat : schema := [("params", 2, TMsg EcdsaParams); ("version", 3, TUint32)].
(** proto/ed25519.proto:28-30 *)
Definition Ed25519KeyFormat : schema := [("version", 1, TUint32)].
(** proto/rsa_ssa_pkcs1.proto:29-34 *)
Definition RsaSsaPkcs1Params : schema := [("hash_type", 1, TEnum)].
(** proto/rsa_ssa_pkcs1.proto:84-91 *)
Definition RsaSsaPkcs1KeyFormat : schema :=
  [("params", 1, TMsg RsaSsaPkcs1Params); ("modulus_size_in_bits", 2, TUint32); ("public_exponent", 3, TBytes)].
(** proto/rsa_ssa_pss.proto:30-42 *)
Definition RsaSsaPssParams : schema :=
  [("sig_hash", 1, TEnum); ("mgf1_hash", 2, TEnum); ("salt_length", 3, TInt32)].
(** proto/rsa_ssa_pss.proto:92-99 *)
Definition RsaSsaPssKeyFormat : schema :=
  [("params", 1, TMsg RsaSsaPssParams); ("modulus_size_in_bits", 2, TUint32); ("public_exponent", 3, TBytes)].
(** proto/ecies_aead_hkdf.proto:48-57 *)
Definition EciesHkdfKemParams : schema :=
  [("curve_type", 1, TEnum); ("hkdf_hash_type", 2, TEnum); ("hkdf_salt", 11, TBytes)].
(** proto/ecies_aead_hkdf.proto:60-66 *)
Definition EciesAeadDemParams : schema := [("aead_dem", 2, TMsg KeyTemplate)].
(** proto/ecies_aead_hkdf.proto:68-80 *)
Definition EciesAeadHkdfParams : schema :=
  [("kem_params", 1, TMsg EciesHkdfKemParams); ("dem_params", 2, TMsg EciesAeadDemParams);
   ("ec_point_format", 3, TEnum)].
(** proto/ecies_aead_hkdf.proto:111-114 *)
Definition EciesAeadHkdfKeyFormat : schema := [("params", 1, TMsg EciesAeadHkdfParams)].
(** proto/hpke.proto:47-51 *)
Definition HpkeParams : schema := [("kem", 1, TEnum); ("kdf", 2, TEnum); ("aead", 3, TEnum)].
(** proto/hpke.proto:69-71 *)
Definition HpkeKeyFormat : schema := [("params", 1, TMsg HpkeParams)].
(** proto/jwt_hmac.proto:47-51 *)
Definition JwtHmacKeyFormat : schema :=
  [("version", 1, TUint32); ("algorithm", 2, TEnum); ("key_size", 3, TUint32)].
(** proto/jwt_ecdsa.proto:58-61 *)
Definition JwtEcdsaKeyFormat : schema := [("version", 1, TUint32); ("algorithm", 2, TEnum)].
(** proto/jwt_rsa_ssa_pkcs1.proto:78-83 *)
Definition JwtRsaSsaPkcs1KeyFormat : schema :=
  [("version", 1, TUint32); ("algorithm", 2, TEnum); ("modulus_size_in_bits", 3, TUint32);
   ("public_exponent", 4, TBytes)].
(** proto/jwt_rsa_ssa_pss.proto:78-83 *)
Definition JwtRsaSsaPssKeyFormat : schema :=
  [("version", 1, TUint32); ("algorithm", 2, TEnum); ("modulus_size_in_bits", 3, TUint32);
   ("public_exponent", 4, TBytes)].
