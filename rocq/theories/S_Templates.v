(** What a key template promises: the key type, the output prefix type and the
    parameters a key manager reads from the template's value. *)
From Coq Require Import Strings.Byte Strings.String List NArith ZArith Bool.
From Verif Require Import M_Base M_Proto M_ProtoMsg M_KeyFormats M_Templates S_Wire S_BigInt.
Import ListNotations.
Open Scope string_scope.
Open Scope list_scope.
Open Scope Z_scope.

(** A parameter value. [Integer] is an int stored as big-endian bytes. *)
Inductive param :=
| Num (z : Z)
| Text (s : pystr)
| Blob (x : bytes)
| Integer (z : Z).

(** The field [v], as read from a message, has the parameter value. *)
Definition reads (v : option pval) (p : param) : Prop :=
  match p with
  | Num z => v = Some (VNum z)
  | Text s => v = Some (VString s)
  | Blob x => v = Some (VBytes x)
  | Integer z => exists x, v = Some (VBytes x) /\ x <> [] /\ big_endian x = z
  end.
Definition reads_default (v : option pval) : Prop :=
  v = Some (VNum 0) \/ v = Some (VBytes []) \/ v = Some (VString []).

(** The scalar fields of a message type, as attribute paths, with their types. *)
Fixpoint scalar_fields (t : ptype) : list (list string * ptype) :=
  match t with
  | TMsg fs =>
      (fix go (fs : list (string * N * ptype)) :=
         match fs with
         | [] => []
         | (n, _, t') :: r => map (fun p => (n :: fst p, snd p)) (scalar_fields t') ++ go r
         end) fs
  | _ => [([], t)]
  end.

(** Parsed as a [format] message, [x] has exactly the given parameters: the
    listed fields read as listed, every other scalar field as its default. *)
Definition carries (format : schema) (x : bytes) (params : list (list string * param)) : Prop :=
  exists m, parse_message format x = Some m /\
  let read path := get_path (TMsg format) (Some (VMsg m)) path in
  (forall path p, In (path, p) params -> reads (read path) p) /\
  (forall path t, In (path, t) (scalar_fields (TMsg format)) ->
     (forall p, ~ In (path, p) params) -> reads_default (read path)).

(** A parameter fits a field of the given type. *)
Definition fits (t : ptype) (p : param) : Prop :=
  match t, p with
  | TUint32, Num z => 0 <= z < 2 ^ 32
  | TInt32, Num z | TEnum, Num z => - 2 ^ 31 <= z < 2 ^ 31
  | TString, Text s => valid_text s
  | TBytes, Blob _ => True
  | TBytes, Integer z => 0 <= z
  | _, _ => False
  end.

(** Requests for a template: one constructor per public function, arguments in
    the order of its signature. *)
Inductive request :=
| AesEax (key_size iv_size prefix : Z)
| AesGcm (key_size prefix : Z)
| AesGcmSiv (key_size prefix : Z)
| AesCtrHmacAead (aes_key_size iv_size hmac_key_size tag_size hash_type prefix : Z)
| XChaCha20Poly1305 (prefix : Z)
| KmsAead (key_uri : pystr)
| KmsEnvelopeAead (kek_uri : pystr) (dek_template : key_template)
| AesSiv (key_size : Z)
| Hmac (key_size tag_size hash_type : Z)
| AesCmac (key_size tag_size : Z)
| AesCmacPrf (key_size : Z)
| HmacPrf (key_size hash_type : Z)
| HkdfPrf (key_size hash_type : Z)
| AesGcmHkdfStreaming (aes_key_size hash_type derived_key_size ciphertext_segment_size : Z)
| AesCtrHmacStreaming (aes_key_size hkdf_hash_type derived_key_size mac_hash_type tag_size ciphertext_segment_size : Z)
| Ecdsa (hash_type curve encoding prefix : Z)
| Ed25519
| RsaSsaPkcs1 (hash_type modulus_size public_exponent : Z)
| RsaSsaPss (sig_hash mgf1_hash salt_length modulus_size public_exponent : Z)
| EciesAeadHkdf (curve_type ec_point_format hash_type : Z) (dem_key_template : key_template)
| Hpke (kem kdf aead prefix : Z)
| JwtHmac (algorithm key_size prefix : Z)
| JwtEcdsa (algorithm prefix : Z)
| JwtRsaSsaPkcs1 (algorithm modulus_size prefix : Z)
| JwtRsaSsaPss (algorithm modulus_size prefix : Z).

Definition create (r : request) : result key_template :=
  match r with
  | AesEax k i p => create_aes_eax k i p
  | AesGcm k p => create_aes_gcm k p
  | AesGcmSiv k p => create_aes_gcm_siv k p
  | AesCtrHmacAead a i h t s p => create_aes_ctr_hmac_aead a i h t s p
  | XChaCha20Poly1305 p => xchacha20_poly1305 p
  | KmsAead u => create_kms_aead u
  | KmsEnvelopeAead u d => create_kms_envelope_aead u d
  | AesSiv k => create_aes_siv k
  | Hmac k t h => create_hmac k t h
  | AesCmac k t => create_aes_cmac k t
  | AesCmacPrf k => create_aes_cmac_prf k
  | HmacPrf k h => create_hmac_prf k h
  | HkdfPrf k h => create_hkdf_prf k h
  | AesGcmHkdfStreaming a h d c => create_aes_gcm_hkdf_streaming a h d c
  | AesCtrHmacStreaming a h d m t c => create_aes_ctr_hmac_streaming a h d m t c
  | Ecdsa h c e p => create_ecdsa h c e p
  | Ed25519 => ed25519
  | RsaSsaPkcs1 h m e => create_rsa_ssa_pkcs1 h m e
  | RsaSsaPss s g l m e => create_rsa_ssa_pss s g l m e
  | EciesAeadHkdf c f h d => create_ecies_aead_hkdf c f h d
  | Hpke k d a p => create_hpke k d a p
  | JwtHmac a k p => create_jwt_hmac a k p
  | JwtEcdsa a p => create_jwt_ecdsa a p
  | JwtRsaSsaPkcs1 a m p => create_jwt_rsa_ssa_pkcs1 a m p
  | JwtRsaSsaPss a m p => create_jwt_rsa_ssa_pss a m p
  end.

(** What was asked for. *)
Record promise := {
  key_type : string;
  output_prefix : Z;
  format : schema;
  parameters : list (list string * param) }.

Definition template_parameters (path : list string) (t : key_template) : list (list string * param) :=
  [(path ++ ["type_url"], Text (kt_type_url t)); (path ++ ["value"], Blob (kt_value t));
   (path ++ ["output_prefix_type"], Num (kt_output_prefix_type t))].

Definition promised (r : request) : promise :=
  match r with
  | AesEax key_size iv_size prefix =>
      {| key_type := "AesEaxKey"; output_prefix := prefix; format := AesEaxKeyFormat;
         parameters := [(["key_size"], Num key_size); (["params"; "iv_size"], Num iv_size)] |}
  | AesGcm key_size prefix =>
      {| key_type := "AesGcmKey"; output_prefix := prefix; format := AesGcmKeyFormat;
         parameters := [(["key_size"], Num key_size)] |}
  | AesGcmSiv key_size prefix =>
      {| key_type := "AesGcmSivKey"; output_prefix := prefix; format := AesGcmSivKeyFormat;
         parameters := [(["key_size"], Num key_size)] |}
  | AesCtrHmacAead aes_key_size iv_size hmac_key_size tag_size hash_type prefix =>
      {| key_type := "AesCtrHmacAeadKey"; output_prefix := prefix; format := AesCtrHmacAeadKeyFormat;
         parameters :=
           [(["aes_ctr_key_format"; "key_size"], Num aes_key_size);
            (["aes_ctr_key_format"; "params"; "iv_size"], Num iv_size);
            (["hmac_key_format"; "key_size"], Num hmac_key_size);
            (["hmac_key_format"; "params"; "tag_size"], Num tag_size);
            (["hmac_key_format"; "params"; "hash"], Num hash_type)] |}
  | XChaCha20Poly1305 prefix =>
      {| key_type := "XChaCha20Poly1305Key"; output_prefix := prefix; format := XChaCha20Poly1305KeyFormat;
         parameters := [] |}
  | KmsAead key_uri =>
      {| key_type := "KmsAeadKey"; output_prefix := RAW; format := KmsAeadKeyFormat;
         parameters := [(["key_uri"], Text key_uri)] |}
  | KmsEnvelopeAead kek_uri dek_template =>
      {| key_type := "KmsEnvelopeAeadKey"; output_prefix := RAW; format := KmsEnvelopeAeadKeyFormat;
         parameters := (["kek_uri"], Text kek_uri) :: template_parameters ["dek_template"] dek_template |}
  | AesSiv key_size =>
      {| key_type := "AesSivKey"; output_prefix := TINK; format := AesSivKeyFormat;
         parameters := [(["key_size"], Num key_size)] |}
  | Hmac key_size tag_size hash_type =>
      {| key_type := "HmacKey"; output_prefix := TINK; format := HmacKeyFormat;
         parameters := [(["key_size"], Num key_size); (["params"; "tag_size"], Num tag_size);
                        (["params"; "hash"], Num hash_type)] |}
  | AesCmac key_size tag_size =>
      {| key_type := "AesCmacKey"; output_prefix := TINK; format := AesCmacKeyFormat;
         parameters := [(["key_size"], Num key_size); (["params"; "tag_size"], Num tag_size)] |}
  | AesCmacPrf key_size =>
      {| key_type := "AesCmacPrfKey"; output_prefix := RAW; format := AesCmacPrfKeyFormat;
         parameters := [(["key_size"], Num key_size)] |}
  | HmacPrf key_size hash_type =>
      {| key_type := "HmacPrfKey"; output_prefix := RAW; format := HmacPrfKeyFormat;
         parameters := [(["key_size"], Num key_size); (["params"; "hash"], Num hash_type)] |}
  | HkdfPrf key_size hash_type =>
      {| key_type := "HkdfPrfKey"; output_prefix := RAW; format := HkdfPrfKeyFormat;
         parameters := [(["key_size"], Num key_size); (["params"; "hash"], Num hash_type)] |}
  | AesGcmHkdfStreaming aes_key_size hash_type derived_key_size ciphertext_segment_size =>
      {| key_type := "AesGcmHkdfStreamingKey"; output_prefix := RAW; format := AesGcmHkdfStreamingKeyFormat;
         parameters := [(["key_size"], Num aes_key_size); (["params"; "hkdf_hash_type"], Num hash_type);
                        (["params"; "derived_key_size"], Num derived_key_size);
                        (["params"; "ciphertext_segment_size"], Num ciphertext_segment_size)] |}
  | AesCtrHmacStreaming aes_key_size hkdf_hash_type derived_key_size mac_hash_type tag_size ciphertext_segment_size =>
      {| key_type := "AesCtrHmacStreamingKey"; output_prefix := RAW; format := AesCtrHmacStreamingKeyFormat;
         parameters := [(["key_size"], Num aes_key_size); (["params"; "hkdf_hash_type"], Num hkdf_hash_type);
                        (["params"; "derived_key_size"], Num derived_key_size);
                        (["params"; "hmac_params"; "hash"], Num mac_hash_type);
                        (["params"; "hmac_params"; "tag_size"], Num tag_size);
                        (["params"; "ciphertext_segment_size"], Num ciphertext_segment_size)] |}
  | Ecdsa hash_type curve encoding prefix =>
      {| key_type := "EcdsaPrivateKey"; output_prefix := prefix; format := EcdsaKeyFormat;
         parameters := [(["params"; "hash_type"], Num hash_type); (["params"; "curve"], Num curve);
                        (["params"; "encoding"], Num encoding)] |}
  | Ed25519 =>
      {| key_type := "Ed25519PrivateKey"; output_prefix := TINK; format := Ed25519KeyFormat; parameters := [] |}
  | RsaSsaPkcs1 hash_type modulus_size public_exponent =>
      {| key_type := "RsaSsaPkcs1PrivateKey"; output_prefix := TINK; format := RsaSsaPkcs1KeyFormat;
         parameters := [(["params"; "hash_type"], Num hash_type);
                        (["modulus_size_in_bits"], Num modulus_size);
                        (["public_exponent"], Integer public_exponent)] |}
  | RsaSsaPss sig_hash mgf1_hash salt_length modulus_size public_exponent =>
      {| key_type := "RsaSsaPssPrivateKey"; output_prefix := TINK; format := RsaSsaPssKeyFormat;
         parameters := [(["params"; "sig_hash"], Num sig_hash); (["params"; "mgf1_hash"], Num mgf1_hash);
                        (["params"; "salt_length"], Num salt_length);
                        (["modulus_size_in_bits"], Num modulus_size);
                        (["public_exponent"], Integer public_exponent)] |}
  | EciesAeadHkdf curve_type ec_point_format hash_type dem_key_template =>
      {| key_type := "EciesAeadHkdfPrivateKey"; output_prefix := TINK; format := EciesAeadHkdfKeyFormat;
         parameters := [(["params"; "kem_params"; "curve_type"], Num curve_type);
                        (["params"; "kem_params"; "hkdf_hash_type"], Num hash_type);
                        (["params"; "ec_point_format"], Num ec_point_format)] ++
                       template_parameters ["params"; "dem_params"; "aead_dem"] dem_key_template |}
  | Hpke kem kdf aead prefix =>
      {| key_type := "HpkePrivateKey"; output_prefix := prefix; format := HpkeKeyFormat;
         parameters := [(["params"; "kem"], Num kem); (["params"; "kdf"], Num kdf);
                        (["params"; "aead"], Num aead)] |}
  | JwtHmac algorithm key_size prefix =>
      {| key_type := "JwtHmacKey"; output_prefix := prefix; format := JwtHmacKeyFormat;
         parameters := [(["algorithm"], Num algorithm); (["key_size"], Num key_size)] |}
  | JwtEcdsa algorithm prefix =>
      {| key_type := "JwtEcdsaPrivateKey"; output_prefix := prefix; format := JwtEcdsaKeyFormat;
         parameters := [(["algorithm"], Num algorithm)] |}
  | JwtRsaSsaPkcs1 algorithm modulus_size prefix =>
      {| key_type := "JwtRsaSsaPkcs1PrivateKey"; output_prefix := prefix; format := JwtRsaSsaPkcs1KeyFormat;
         parameters := [(["algorithm"], Num algorithm); (["modulus_size_in_bits"], Num modulus_size);
                        (["public_exponent"], Integer 65537)] |}
  | JwtRsaSsaPss algorithm modulus_size prefix =>
      {| key_type := "JwtRsaSsaPssPrivateKey"; output_prefix := prefix; format := JwtRsaSsaPssKeyFormat;
         parameters := [(["algorithm"], Num algorithm); (["modulus_size_in_bits"], Num modulus_size);
                        (["public_exponent"], Integer 65537)] |}
  end.

(** The template delivers what was promised. *)
Definition delivers (t : key_template) (p : promise) : Prop :=
  kt_type_url t = ulit ("type.googleapis.com/google.crypto.tink." ++ key_type p) /\
  kt_output_prefix_type t = output_prefix p /\
  carries (format p) (kt_value t) (parameters p).

(** The request's values can be represented in the messages. *)
Definition representable (r : request) : Prop :=
  (forall path p, In (path, p) (parameters (promised r)) ->
     exists t, In (path, t) (scalar_fields (TMsg (format (promised r)))) /\ fits t p) /\
  - 2 ^ 31 <= output_prefix (promised r) < 2 ^ 31.

(** A request's nested templates are KeyTemplate messages. *)
Definition sane (r : request) : Prop :=
  match r with
  | KmsEnvelopeAead _ d | EciesAeadHkdf _ _ _ d => wf_key_template d
  | _ => True
  end.

(** What the documentation promises for the predefined templates. Key sizes of
    symmetric keys are given in bits in the names. *)
Definition bits (n : Z) : Z := n / 8.
Definition sha256 := 3.
Definition sha384 := 2.
Definition sha512 := 4.
Definition p256 := 2.
Definition p384 := 3.
Definition p521 := 4.
Definition ieee := 1.
Definition der := 2.
Definition dem (r : request) (f : key_template -> request) : option request :=
  match create r with Ok d => Some (f d) | Err _ => None end.

Definition catalogue : list (string * list (string * option request)) :=
  [("aead",
    [("AES128_EAX", Some (AesEax (bits 128) (bits 128) TINK));
     ("AES128_EAX_RAW", Some (AesEax (bits 128) (bits 128) RAW));
     ("AES256_EAX", Some (AesEax (bits 256) (bits 128) TINK));
     ("AES256_EAX_RAW", Some (AesEax (bits 256) (bits 128) RAW));
     ("AES128_GCM", Some (AesGcm (bits 128) TINK));
     ("AES128_GCM_RAW", Some (AesGcm (bits 128) RAW));
     ("AES256_GCM", Some (AesGcm (bits 256) TINK));
     ("AES256_GCM_RAW", Some (AesGcm (bits 256) RAW));
     ("AES128_GCM_SIV", Some (AesGcmSiv (bits 128) TINK));
     ("AES128_GCM_SIV_RAW", Some (AesGcmSiv (bits 128) RAW));
     ("AES256_GCM_SIV", Some (AesGcmSiv (bits 256) TINK));
     ("AES256_GCM_SIV_RAW", Some (AesGcmSiv (bits 256) RAW));
     ("AES128_CTR_HMAC_SHA256", Some (AesCtrHmacAead (bits 128) (bits 128) (bits 256) (bits 128) sha256 TINK));
     ("AES128_CTR_HMAC_SHA256_RAW", Some (AesCtrHmacAead (bits 128) (bits 128) (bits 256) (bits 128) sha256 RAW));
     ("AES256_CTR_HMAC_SHA256", Some (AesCtrHmacAead (bits 256) (bits 128) (bits 256) (bits 256) sha256 TINK));
     ("AES256_CTR_HMAC_SHA256_RAW", Some (AesCtrHmacAead (bits 256) (bits 128) (bits 256) (bits 256) sha256 RAW));
     ("XCHACHA20_POLY1305", Some (XChaCha20Poly1305 TINK));
     ("XCHACHA20_POLY1305_RAW", Some (XChaCha20Poly1305 RAW))]);
   ("daead", [("AES256_SIV", Some (AesSiv (bits (2 * 256))))]);
   ("mac",
    [("AES_CMAC", Some (AesCmac (bits 256) (bits 128)));
     ("HMAC_SHA256_128BITTAG", Some (Hmac (bits 256) (bits 128) sha256));
     ("HMAC_SHA256_256BITTAG", Some (Hmac (bits 256) (bits 256) sha256));
     ("HMAC_SHA512_256BITTAG", Some (Hmac (bits 512) (bits 256) sha512));
     ("HMAC_SHA512_512BITTAG", Some (Hmac (bits 512) (bits 512) sha512))]);
   ("prf",
    [("AES_CMAC", Some (AesCmacPrf (bits 256)));
     ("HMAC_SHA256", Some (HmacPrf (bits 256) sha256));
     ("HMAC_SHA512", Some (HmacPrf (bits 512) sha512));
     ("HKDF_SHA256", Some (HkdfPrf (bits 256) sha256))]);
   ("streaming_aead",
    [("AES128_GCM_HKDF_4KB", Some (AesGcmHkdfStreaming (bits 128) sha256 (bits 128) (2 ^ 12)));
     ("AES128_GCM_HKDF_1MB", Some (AesGcmHkdfStreaming (bits 128) sha256 (bits 128) (2 ^ 20)));
     ("AES256_GCM_HKDF_4KB", Some (AesGcmHkdfStreaming (bits 256) sha256 (bits 256) (2 ^ 12)));
     ("AES256_GCM_HKDF_1MB", Some (AesGcmHkdfStreaming (bits 256) sha256 (bits 256) (2 ^ 20)));
     ("AES128_CTR_HMAC_SHA256_4KB", Some (AesCtrHmacStreaming (bits 128) sha256 (bits 128) sha256 (bits 256) (2 ^ 12)));
     ("AES128_CTR_HMAC_SHA256_1MB", Some (AesCtrHmacStreaming (bits 128) sha256 (bits 128) sha256 (bits 256) (2 ^ 20)));
     ("AES256_CTR_HMAC_SHA256_4KB", Some (AesCtrHmacStreaming (bits 256) sha256 (bits 256) sha256 (bits 256) (2 ^ 12)));
     ("AES256_CTR_HMAC_SHA256_1MB", Some (AesCtrHmacStreaming (bits 256) sha256 (bits 256) sha256 (bits 256) (2 ^ 20)))]);
   ("signature",
    [("ECDSA_P256", Some (Ecdsa sha256 p256 der TINK));
     ("ECDSA_P256_RAW", Some (Ecdsa sha256 p256 ieee RAW));
     ("ECDSA_P384", Some (Ecdsa sha512 p384 der TINK));
     ("ECDSA_P384_SHA384", Some (Ecdsa sha384 p384 der TINK));
     ("ECDSA_P384_SHA512", Some (Ecdsa sha512 p384 der TINK));
     ("ECDSA_P521", Some (Ecdsa sha512 p521 der TINK));
     ("ECDSA_P256_IEEE_P1363", Some (Ecdsa sha256 p256 ieee TINK));
     ("ECDSA_P384_IEEE_P1363", Some (Ecdsa sha512 p384 ieee TINK));
     ("ECDSA_P384_SHA384_IEEE_P1363", Some (Ecdsa sha384 p384 ieee TINK));
     ("ECDSA_P521_IEEE_P1363", Some (Ecdsa sha512 p521 ieee TINK));
     ("ED25519", Some Ed25519);
     ("RSA_SSA_PKCS1_3072_SHA256_F4", Some (RsaSsaPkcs1 sha256 3072 (2 ^ 16 + 1)));
     ("RSA_SSA_PKCS1_4096_SHA512_F4", Some (RsaSsaPkcs1 sha512 4096 (2 ^ 16 + 1)));
     ("RSA_SSA_PSS_3072_SHA256_SHA256_32_F4", Some (RsaSsaPss sha256 sha256 32 3072 (2 ^ 16 + 1)));
     ("RSA_SSA_PSS_4096_SHA512_SHA512_64_F4", Some (RsaSsaPss sha512 sha512 64 4096 (2 ^ 16 + 1)))]);
   ("hybrid",
    [("ECIES_P256_HKDF_HMAC_SHA256_AES128_GCM",
        dem (AesGcm (bits 128) TINK) (EciesAeadHkdf p256 1 sha256));
     ("ECIES_P256_COMPRESSED_HKDF_HMAC_SHA256_AES128_GCM",
        dem (AesGcm (bits 128) TINK) (EciesAeadHkdf p256 2 sha256));
     ("ECIES_P256_HKDF_HMAC_SHA256_AES128_CTR_HMAC_SHA256",
        dem (AesCtrHmacAead (bits 128) (bits 128) (bits 256) (bits 128) sha256 TINK) (EciesAeadHkdf p256 1 sha256));
     ("ECIES_P256_COMPRESSED_HKDF_HMAC_SHA256_AES128_CTR_HMAC_SHA256",
        dem (AesCtrHmacAead (bits 128) (bits 128) (bits 256) (bits 128) sha256 TINK) (EciesAeadHkdf p256 2 sha256));
     ("DHKEM_X25519_HKDF_SHA256_HKDF_SHA256_AES_128_GCM", Some (Hpke 1 1 1 TINK));
     ("DHKEM_X25519_HKDF_SHA256_HKDF_SHA256_AES_128_GCM_RAW", Some (Hpke 1 1 1 RAW));
     ("DHKEM_X25519_HKDF_SHA256_HKDF_SHA256_AES_256_GCM", Some (Hpke 1 1 2 TINK));
     ("DHKEM_X25519_HKDF_SHA256_HKDF_SHA256_AES_256_GCM_RAW", Some (Hpke 1 1 2 RAW));
     ("DHKEM_X25519_HKDF_SHA256_HKDF_SHA256_CHACHA20_POLY1305", Some (Hpke 1 1 3 TINK));
     ("DHKEM_X25519_HKDF_SHA256_HKDF_SHA256_CHACHA20_POLY1305_RAW", Some (Hpke 1 1 3 RAW))]);
   ("jwt",
    [("jwt_hs256_template", Some (JwtHmac 1 (bits 256) TINK));
     ("raw_jwt_hs256_template", Some (JwtHmac 1 (bits 256) RAW));
     ("jwt_hs384_template", Some (JwtHmac 2 (bits 384) TINK));
     ("raw_jwt_hs384_template", Some (JwtHmac 2 (bits 384) RAW));
     ("jwt_hs512_template", Some (JwtHmac 3 (bits 512) TINK));
     ("raw_jwt_hs512_template", Some (JwtHmac 3 (bits 512) RAW));
     ("jwt_es256_template", Some (JwtEcdsa 1 TINK));
     ("raw_jwt_es256_template", Some (JwtEcdsa 1 RAW));
     ("jwt_es384_template", Some (JwtEcdsa 2 TINK));
     ("raw_jwt_es384_template", Some (JwtEcdsa 2 RAW));
     ("jwt_es512_template", Some (JwtEcdsa 3 TINK));
     ("raw_jwt_es512_template", Some (JwtEcdsa 3 RAW));
     ("jwt_rs256_2048_f4_template", Some (JwtRsaSsaPkcs1 1 2048 TINK));
     ("raw_jwt_rs256_2048_f4_template", Some (JwtRsaSsaPkcs1 1 2048 RAW));
     ("jwt_rs256_3072_f4_template", Some (JwtRsaSsaPkcs1 1 3072 TINK));
     ("raw_jwt_rs256_3072_f4_template", Some (JwtRsaSsaPkcs1 1 3072 RAW));
     ("jwt_rs384_3072_f4_template", Some (JwtRsaSsaPkcs1 2 3072 TINK));
     ("raw_jwt_rs384_3072_f4_template", Some (JwtRsaSsaPkcs1 2 3072 RAW));
     ("jwt_rs512_4096_f4_template", Some (JwtRsaSsaPkcs1 3 4096 TINK));
     ("raw_jwt_rs512_4096_f4_template", Some (JwtRsaSsaPkcs1 3 4096 RAW));
     ("jwt_ps256_2048_f4_template", Some (JwtRsaSsaPss 1 2048 TINK));
     ("raw_jwt_ps256_2048_f4_template", Some (JwtRsaSsaPss 1 2048 RAW));
     ("jwt_ps256_3072_f4_template", Some (JwtRsaSsaPss 1 3072 TINK));
     ("raw_jwt_ps256_3072_f4_template", Some (JwtRsaSsaPss 1 3072 RAW));
     ("jwt_ps384_3072_f4_template", Some (JwtRsaSsaPss 2 3072 TINK));
     ("raw_jwt_ps384_3072_f4_template", Some (JwtRsaSsaPss 2 3072 RAW));
     ("jwt_ps512_4096_f4_template", Some (JwtRsaSsaPss 3 4096 TINK));
     ("raw_jwt_ps512_4096_f4_template", Some (JwtRsaSsaPss 3 4096 RAW))])].
