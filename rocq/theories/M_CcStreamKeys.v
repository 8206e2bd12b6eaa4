(** The key managers of streaming AEAD in the C++ library:
    /repo/cc/streamingaead/aes_gcm_hkdf_streaming_key_manager.{h,cc},
    aes_ctr_hmac_streaming_key_manager.{h,cc}, with cc/core/key_manager_impl.h,
    cc/util/validation.cc, cc/util/enums.cc, and their registration in
    streaming_aead_config.cc.

    Not modelled: DeriveKey, FIPS mode. *)
From Coq Require Import Strings.Byte Strings.String List NArith ZArith Bool.
From Verif Require Import M_Base M_Proto M_Wire M_ProtoMsg M_KeyFormats M_Prims M_StreamTypes M_CcStream M_CcManagers M_CcAes.
Import ListNotations.
Open Scope string_scope.
Open Scope list_scope.
Open Scope Z_scope.

(** proto/aes_gcm_hkdf_streaming.proto:42-46 *)
Definition AesGcmHkdfStreamingKey : schema :=
  [("version", 1%N, TUint32); ("params", 2%N, TMsg AesGcmHkdfStreamingParams); ("key_value", 3%N, TBytes)].
(** proto/aes_ctr_hmac_streaming.proto:42-46 *)
Definition AesCtrHmacStreamingKey : schema :=
  [("version", 1%N, TUint32); ("params", 2%N, TMsg AesCtrHmacStreamingParams); ("key_value", 3%N, TBytes)].

(** Attributes of messages *)
Definition message := list (option pval).
Definition num_at (fs : schema) (m : message) (path : list string) : Z :=
  match get_path (TMsg fs) (Some (VMsg m)) path with Some (VNum z) => z | _ => 0 end.
Definition bytes_at (fs : schema) (m : message) (path : list string) : bytes :=
  match get_path (TMsg fs) (Some (VMsg m)) path with Some (VBytes x) => x | _ => [] end.

(** proto/common.proto:43-51, cc/util/enums.cc:114-129 Enums::ProtoToSubtle *)
Definition proto_to_subtle (z : Z) : hash_type :=
  match z with
  | 1 => M_CcAes.SHA1 | 5 => M_CcAes.SHA224 | 3 => M_CcAes.SHA256 | 2 => M_CcAes.SHA384 | 4 => M_CcAes.SHA512
  | _ => UNKNOWN_HASH
  end.
(** [type == HashType::SHA1 || type == HashType::SHA256 || type == HashType::SHA512] *)
Definition hash_supported (z : Z) : bool := (z =? 1) || (z =? 3) || (z =? 4).
(** Arithmetic of uint32_t *)
Definition uint32 (z : Z) : Z := z mod 4294967296.
(** cc/util/validation.cc:33-40 ValidateAesKeySize *)
Definition validate_aes_key_size (key_size : Z) : option cc_status :=
  if negb (key_size =? 16) && negb (key_size =? 32) then Some (NotOk "AES key size") else None.
(** cc/util/validation.cc:116-124 ValidateVersion *)
Definition validate_version (candidate max_expected : Z) : option cc_status :=
  if max_expected <? candidate then Some (NotOk "version") else None.
(** aes_gcm_hkdf_streaming_key_manager.cc:44-59 ValidateParams. [at_ p] is the
    attribute [p] of the params. [header_size] is an int that
    is converted back to uint32_t in the comparison; an overflow of int in the sum, which is
    undefined and possible only if derived_key_size is neither 16 nor 32, is taken to wrap. *)
Definition gcm_validate_params (at_ : list string -> Z) : option cc_status :=
  if negb (hash_supported (at_ ["hkdf_hash_type"])) then Some (NotOk "unsupported hkdf_hash_type")
  else
    let header_size := uint32 (1 + at_ ["derived_key_size"] + Z.of_nat nonce_prefix_size) in
    if at_ ["ciphertext_segment_size"] <=? uint32 (header_size + Z.of_nat gcm_tag_size)
    then Some (NotOk "ciphertext_segment_size too small")
    else validate_aes_key_size (at_ ["derived_key_size"]).
(** aes_ctr_hmac_streaming_key_manager.cc:44-82 ValidateParams *)
Definition ctr_validate_params (at_ : list string -> Z) : option cc_status :=
  let tag_size := at_ ["hmac_params"; "tag_size"] in
  let hash := at_ ["hmac_params"; "hash"] in
  if negb (hash_supported (at_ ["hkdf_hash_type"])) then Some (NotOk "unsupported hkdf_hash_type")
  else if negb (hash_supported hash) then Some (NotOk "unsupported hmac_params.hash")
  else if tag_size <? 10 then Some (NotOk "hmac_params.tag_size too small")
  else if ((hash =? 1) && (20 <? tag_size) || (hash =? 3) && (32 <? tag_size) || (hash =? 4) && (64 <? tag_size))%bool
  then Some (NotOk "hmac_params.tag_size too big")
  else
    let header_size := uint32 (1 + at_ ["derived_key_size"] + Z.of_nat nonce_prefix_size) in
    if at_ ["ciphertext_segment_size"] <=? uint32 (header_size + tag_size)
    then Some (NotOk "ciphertext_segment_size too small")
    else if 2147483647 <? at_ ["ciphertext_segment_size"] then Some (NotOk "ciphertext_segment_size too big")
    else validate_aes_key_size (at_ ["derived_key_size"]).

(** ValidateKey: aes_gcm_hkdf_streaming_key_manager.cc:94-103,
    aes_ctr_hmac_streaming_key_manager.cc:117-126; [fs] is the type of the key *)
Definition validate_key (fs : schema) (validate_params : (list string -> Z) -> option cc_status) (key : message) : option cc_status :=
  match validate_version (num_at fs key ["version"]) 0 with
  | Some s => Some s
  | None =>
      if Z.of_nat (length (bytes_at fs key ["key_value"])) <? num_at fs key ["params"; "derived_key_size"]
      then Some (NotOk "key_value (i.e. ikm) too short")
      else validate_params (fun p => num_at fs key ("params" :: p))
  end.
(** ValidateKeyFormat: lines 105-112 and 128-135 *)
Definition validate_key_format (fs : schema) (validate_params : (list string -> Z) -> option cc_status) (key_format : message)
  : option cc_status :=
  if num_at fs key_format ["key_size"] <? num_at fs key_format ["params"; "derived_key_size"]
  then Some (NotOk "key_size must not be smaller than derived_key_size")
  else validate_params (fun p => num_at fs key_format ("params" :: p)).
(** CreateKey: lines 63-72 and 86-95. Both types of key formats have the params, of type
    [params_type], first; both types of keys have version, params and key_value. *)
Definition create_key (random : Z -> bytes) (fs params_type : schema) (key_format : message) : message :=
  [Some (VNum 0);
   Some (match nth 0 key_format None with Some p => p | None => VMsg (empty_message params_type) end);
   Some (VBytes (random (num_at fs key_format ["key_size"])))].

(** Create: aes_gcm_hkdf_streaming_key_manager.h:51-66. A segment size of 2^31 or more
    becomes a negative int, which AesGcmHkdfStreaming::New refuses as too small. *)
Definition gcm_create (n : nat) (lib : ssl) (salt nonce_prefix : bytes) (key : message) : st_or cc_streaming_aead :=
  let at_ p := num_at AesGcmHkdfStreamingKey key ("params" :: p) in
  if 2147483647 <? at_ ["ciphertext_segment_size"] then StErr (NotOk "ciphertext_segment_size too small")
  else
    aes_gcm_hkdf_streaming n lib
      (mk_gcm_hkdf_params (bytes_at AesGcmHkdfStreamingKey key ["key_value"])
         (proto_to_subtle (at_ ["hkdf_hash_type"]))
         (Z.to_nat (at_ ["derived_key_size"]))
         (Z.to_nat (at_ ["ciphertext_segment_size"]))
         0)
      salt nonce_prefix.
(** aes_ctr_hmac_streaming_key_manager.h:52-73 *)
Definition ctr_create (n : nat) (lib : ssl) (salt nonce_prefix : bytes) (key : message) : st_or cc_streaming_aead :=
  let at_ p := num_at AesCtrHmacStreamingKey key ("params" :: p) in
  aes_ctr_hmac_streaming n lib
    (mk_ctr_hmac_params (bytes_at AesCtrHmacStreamingKey key ["key_value"])
       (proto_to_subtle (at_ ["hkdf_hash_type"]))
       (Z.to_nat (at_ ["derived_key_size"]))
       (Z.to_nat (at_ ["ciphertext_segment_size"]))
       0
       (proto_to_subtle (at_ ["hmac_params"; "hash"]))
       (Z.to_nat (at_ ["hmac_params"; "tag_size"])))
    salt nonce_prefix.

(** cc/core/key_manager_impl.h:183-200 GetPrimitive *)
Definition get_primitive (url : pystr) (key_type : schema) (validate_params : (list string -> Z) -> option cc_status)
    (create : message -> st_or cc_streaming_aead) (d : key_data) : st_or cc_streaming_aead :=
  if negb (str_eqb url (kd_type_url d)) then StErr (NotOk "Key type is not supported by this manager.")
  else match parse_message key_type (kd_value d) with
       | None => StErr (NotOk "Could not parse key_data.value")
       | Some key =>
           match validate_key key_type validate_params key with
           | Some s => StErr s
           | None => create key
           end
       end.
(** cc/core/key_manager_impl.h:87-114 NewKey, NewKeyData *)
Definition new_key_data (url : pystr) (format_type params_type key_type : schema)
    (validate_params : (list string -> Z) -> option cc_status) (random : Z -> bytes) (serialized_key_format : bytes)
  : st_or key_data :=
  match parse_message format_type serialized_key_format with
  | None => StErr (NotOk "Could not parse the passed string")
  | Some key_format =>
      match validate_key_format format_type validate_params key_format with
      | Some s => StErr s
      | None =>
          StOk (mk_key_data url (serialize_message key_type (create_key random format_type params_type key_format)) SYMMETRIC)
      end
  end.

(** The managers. [n] bounds the loops of streams. [salt] and [nonce_prefix] are the random
    choices of the encrypting streams of the primitives; [random rnd size] are [size] random
    bytes. *)
Definition aes_gcm_hkdf_streaming_key_manager (n : nat) (lib : ssl) (salt nonce_prefix : bytes) (random : coins -> Z -> bytes)
  : cc_lib_manager cc_streaming_aead :=
  let url := ulit "type.googleapis.com/google.crypto.tink.AesGcmHkdfStreamingKey" in
  mk_cc_lib_manager url
    (get_primitive url AesGcmHkdfStreamingKey gcm_validate_params (gcm_create n lib salt nonce_prefix))
    (fun rnd =>
       new_key_data url AesGcmHkdfStreamingKeyFormat AesGcmHkdfStreamingParams AesGcmHkdfStreamingKey gcm_validate_params (random rnd))
    None.
Definition aes_ctr_hmac_streaming_key_manager (n : nat) (lib : ssl) (salt nonce_prefix : bytes) (random : coins -> Z -> bytes)
  : cc_lib_manager cc_streaming_aead :=
  let url := ulit "type.googleapis.com/google.crypto.tink.AesCtrHmacStreamingKey" in
  mk_cc_lib_manager url
    (get_primitive url AesCtrHmacStreamingKey ctr_validate_params (ctr_create n lib salt nonce_prefix))
    (fun rnd =>
       new_key_data url AesCtrHmacStreamingKeyFormat AesCtrHmacStreamingParams AesCtrHmacStreamingKey ctr_validate_params (random rnd))
    None.
(** cc/streamingaead/streaming_aead_config.cc:32-53 StreamingAeadConfig::Register; then
    Registry::get_key_manager<StreamingAead>. *)
Definition streaming_managers (n : nat) (lib : ssl) (salt nonce_prefix : bytes) (random : coins -> Z -> bytes) (url : pystr)
  : option (cc_lib_manager cc_streaming_aead) :=
  find (fun m => str_eqb (cl_key_type m) url)
    [aes_gcm_hkdf_streaming_key_manager n lib salt nonce_prefix random;
     aes_ctr_hmac_streaming_key_manager n lib salt nonce_prefix random].
