(** The key managers of the symmetric primitives in the C++ library:
    /repo/cc/aead/{aes_eax,aes_gcm,aes_gcm_siv,xchacha20_poly1305,aes_ctr_hmac_aead}_key_manager.{h,cc},
    cc/daead/aes_siv_key_manager.h, cc/mac/{hmac,aes_cmac}_key_manager.{h,cc},
    cc/prf/{hmac_prf,hkdf_prf,aes_cmac_prf}_key_manager.{h,cc}, with
    cc/core/key_manager_impl.h, and their registration in the *_config.cc files.

    Not modelled: DeriveKey, FIPS mode, the primitives CordAead, ChunkedMac and
    StreamingPrf. Fields of type bytes are shorter than 2^31 bytes, as protobuf has it, so
    their sizes are not cut to uint32_t or int; messages of 2^31 bytes and more are not
    serialized by protobuf, and here they are. *)
From Coq Require Import Strings.Byte Strings.String List NArith ZArith Bool.
From Verif Require Import M_Base M_Proto M_Wire M_ProtoMsg M_KeyFormats M_Prims M_StreamTypes M_CcStream M_CcManagers M_CcAes
  M_CcStreamKeys M_CcModes M_CcSymmetric.
Import ListNotations.
Open Scope string_scope.
Open Scope list_scope.
Open Scope Z_scope.

(** ** Keys *)

(** proto/aes_eax.proto:37-41 *)
Definition AesEaxKey : schema := [("version", 1%N, TUint32); ("params", 2%N, TMsg AesEaxParams); ("key_value", 3%N, TBytes)].
(** proto/aes_gcm.proto:64-67, proto/aes_gcm_siv.proto:33-36, proto/xchacha20_poly1305.proto:30-33 *)
Definition AesGcmKey : schema := [("version", 1%N, TUint32); ("key_value", 3%N, TBytes)].
Definition AesGcmSivKey : schema := [("version", 1%N, TUint32); ("key_value", 3%N, TBytes)].
Definition XChaCha20Poly1305Key : schema := [("version", 1%N, TUint32); ("key_value", 3%N, TBytes)].
(** proto/aes_ctr.proto:35-39 *)
Definition AesCtrKey : schema := [("version", 1%N, TUint32); ("params", 2%N, TMsg AesCtrParams); ("key_value", 3%N, TBytes)].
(** proto/hmac.proto:33-37 *)
Definition HmacKey : schema := [("version", 1%N, TUint32); ("params", 2%N, TMsg HmacParams); ("key_value", 3%N, TBytes)].
(** proto/aes_ctr_hmac_aead.proto:34-38 *)
Definition AesCtrHmacAeadKey : schema :=
  [("version", 1%N, TUint32); ("aes_ctr_key", 2%N, TMsg AesCtrKey); ("hmac_key", 3%N, TMsg HmacKey)].
(** proto/aes_siv.proto:40-44 *)
Definition AesSivKey : schema := [("version", 1%N, TUint32); ("key_value", 2%N, TBytes)].
(** proto/aes_cmac.proto:30-34 *)
Definition AesCmacKey : schema := [("version", 1%N, TUint32); ("key_value", 2%N, TBytes); ("params", 3%N, TMsg AesCmacParams)].
(** proto/hmac_prf.proto:32-36 *)
Definition HmacPrfKey : schema := [("version", 1%N, TUint32); ("params", 2%N, TMsg HmacPrfParams); ("key_value", 3%N, TBytes)].
(** proto/hkdf_prf.proto:38-42 *)
Definition HkdfPrfKey : schema := [("version", 1%N, TUint32); ("params", 2%N, TMsg HkdfPrfParams); ("key_value", 3%N, TBytes)].
(** proto/aes_cmac_prf.proto:26-29 *)
Definition AesCmacPrfKey : schema := [("version", 1%N, TUint32); ("key_value", 2%N, TBytes)].

(** ** KeyTypeManager *)

(** KeyTypeManager<KeyProto, KeyFormatProto, List<P>>: the name of KeyProto, the two types
    of messages, ValidateKey, ValidateKeyFormat, CreateKey and Create of the factory for P.
    All of them have get_version() == 0 and key_material_type() == SYMMETRIC. The argument
    of CreateKey is GetRandomBytes; each of its calls has its own random choices. *)
Record key_type_manager (P : Type) := mk_key_type_manager {
  kt_name : string;
  kt_key : schema;
  kt_format : schema;
  kt_validate_key : message -> option cc_status;
  kt_validate_key_format : message -> option cc_status;
  kt_create_key : (N -> Z -> bytes) -> message -> message;
  kt_create : message -> st_or P }.
Arguments mk_key_type_manager {P}.
Arguments kt_name {P}.
Arguments kt_key {P}.
Arguments kt_format {P}.
Arguments kt_validate_key {P}.
Arguments kt_validate_key_format {P}.
Arguments kt_create_key {P}.
Arguments kt_create {P}.

(** cc/core/key_manager_impl.h:183-200 GetPrimitive, 87-114 NewKey and NewKeyData. The
    random choices of the two calls of GetRandomBytes are [2 * rnd] and [2 * rnd + 1]. *)
Definition key_manager_impl {P} (random : coins -> Z -> bytes) (t : key_type_manager P) : cc_lib_manager P :=
  let url := ulit ("type.googleapis.com/google.crypto.tink." ++ kt_name t) in
  mk_cc_lib_manager url
    (fun d =>
       if negb (str_eqb url (kd_type_url d)) then StErr (NotOk "Key type is not supported by this manager.")
       else match parse_message (kt_key t) (kd_value d) with
            | None => StErr (NotOk "Could not parse key_data.value")
            | Some key =>
                match kt_validate_key t key with
                | Some s => StErr s
                | None => kt_create t key
                end
            end)
    (fun rnd serialized_key_format =>
       match parse_message (kt_format t) serialized_key_format with
       | None => StErr (NotOk "Could not parse the passed string")
       | Some key_format =>
           match kt_validate_key_format t key_format with
           | Some s => StErr s
           | None =>
               StOk (mk_key_data url
                 (serialize_message (kt_key t) (kt_create_key t (fun i => random (2 * rnd + i)%N) key_format))
                 SYMMETRIC)
           end
       end)
    None.

(** A check, and the next one if it passes *)
Definition and_then (a b : option cc_status) : option cc_status := match a with Some s => Some s | None => b end.
Definition check (fails : bool) (s : string) : option cc_status := if fails then Some (NotOk s) else None.
(** The size of a field of type bytes *)
Definition size_at (fs : schema) (m : message) (path : list string) : Z := Z.of_nat (length (bytes_at fs m path)).
(** [*key.mutable_params() = key_format.params()] *)
Definition message_or_empty (fs : schema) (v : option pval) : option pval :=
  Some (match v with Some p => p | None => VMsg (empty_message fs) end).

(** ** AEAD *)
Section Managers.
  Variable lib : crypto.
  Variable random : coins -> Z -> bytes.

  (** aead/aes_eax_key_manager.h:96-104 ValidateKeySize, 106-114 ValidateIvSize *)
  Definition eax_validate_key_size (key_size : Z) : option cc_status :=
    check (negb (key_size =? 16) && negb (key_size =? 32)) "Invalid key size".
  Definition eax_validate_iv_size (iv_size : Z) : option cc_status :=
    check (negb (iv_size =? 12) && negb (iv_size =? 16)) "Invalid IV size".
  (** lines 67-75, 77-82, 84-93, 48-53 *)
  Definition aes_eax_key_manager : key_type_manager cc_aead :=
    mk_key_type_manager "AesEaxKey" AesEaxKey AesEaxKeyFormat
      (fun key =>
         and_then (validate_version (num_at AesEaxKey key ["version"]) 0)
           (and_then (eax_validate_key_size (size_at AesEaxKey key ["key_value"]))
              (eax_validate_iv_size (num_at AesEaxKey key ["params"; "iv_size"]))))
      (fun key_format =>
         and_then (eax_validate_key_size (num_at AesEaxKeyFormat key_format ["key_size"]))
           (eax_validate_iv_size (num_at AesEaxKeyFormat key_format ["params"; "iv_size"])))
      (fun get_random_bytes key_format =>
         [Some (VNum 0);
          Some (VMsg [Some (VNum (num_at AesEaxKeyFormat key_format ["params"; "iv_size"]))]);
          Some (VBytes (get_random_bytes 0%N (num_at AesEaxKeyFormat key_format ["key_size"])))])
      (fun key =>
         aes_eax_new (aes_encrypt lib) random (bytes_at AesEaxKey key ["key_value"])
           (Z.to_nat (num_at AesEaxKey key ["params"; "iv_size"]))).

  (** aead/aes_gcm_key_manager.h:90-96, 98-101, 103-110, 56-62 *)
  Definition aes_gcm_key_manager : key_type_manager cc_aead :=
    mk_key_type_manager "AesGcmKey" AesGcmKey AesGcmKeyFormat
      (fun key =>
         and_then (validate_version (num_at AesGcmKey key ["version"]) 0)
           (validate_aes_key_size (size_at AesGcmKey key ["key_value"])))
      (fun key_format => validate_aes_key_size (num_at AesGcmKeyFormat key_format ["key_size"]))
      (fun get_random_bytes key_format =>
         [Some (VNum 0); Some (VBytes (get_random_bytes 0%N (num_at AesGcmKeyFormat key_format ["key_size"])))])
      (fun key => aes_gcm_new lib random (bytes_at AesGcmKey key ["key_value"])).

  (** aead/aes_gcm_siv_key_manager.h:66-72, 74-77, 79-86, 48-52 *)
  Definition aes_gcm_siv_key_manager : key_type_manager cc_aead :=
    mk_key_type_manager "AesGcmSivKey" AesGcmSivKey AesGcmSivKeyFormat
      (fun key =>
         and_then (validate_version (num_at AesGcmSivKey key ["version"]) 0)
           (validate_aes_key_size (size_at AesGcmSivKey key ["key_value"])))
      (fun key_format => validate_aes_key_size (num_at AesGcmSivKeyFormat key_format ["key_size"]))
      (fun get_random_bytes key_format =>
         [Some (VNum 0); Some (VBytes (get_random_bytes 0%N (num_at AesGcmSivKeyFormat key_format ["key_size"])))])
      (fun key => aes_gcm_siv_new lib random (bytes_at AesGcmSivKey key ["key_value"])).

  (** aead/xchacha20_poly1305_key_manager.h:70-83, 85-89, 91-98, 51-55 *)
  Definition xchacha20_poly1305_key_manager : key_type_manager cc_aead :=
    mk_key_type_manager "XChaCha20Poly1305Key" XChaCha20Poly1305Key XChaCha20Poly1305KeyFormat
      (fun key =>
         and_then (validate_version (num_at XChaCha20Poly1305Key key ["version"]) 0)
           (check (negb (size_at XChaCha20Poly1305Key key ["key_value"] =? 32)) "Invalid XChaCha20Poly1305Key"))
      (fun _ => None)
      (fun get_random_bytes _ => [Some (VNum 0); Some (VBytes (get_random_bytes 0%N 32))])
      (fun key => xchacha20_poly1305_new lib random (bytes_at XChaCha20Poly1305Key key ["key_value"])).

  (** The maps from hash types to sizes: mac/hmac_key_manager.cc:98-102,
      aead/aes_ctr_hmac_aead_key_manager.cc:160-164; proto/common.proto:43-51 *)
  Definition max_tag_size (hash : Z) : option Z :=
    match hash with 1 => Some 20 | 5 => Some 28 | 3 => Some 32 | 2 => Some 48 | 4 => Some 64 | _ => None end.
  (** mac/hmac_key_manager.cc:92-116 ValidateParams *)
  Definition hmac_validate_params (hash tag_size : Z) : option cc_status :=
    if tag_size <? 10 then Some (NotOk "Invalid HmacParams: tag_size is too small.")
    else match max_tag_size hash with
         | None => Some (NotOk "Invalid HmacParams: HashType not supported.")
         | Some max => check (max <? tag_size) "Invalid HmacParams: tag_size is too big"
         end.
  (** Lines 118-126 ValidateKey and 129-136 ValidateKeyFormat, of a message of type [fs] in which
      [at_] leads to the HmacKey or HmacKeyFormat *)
  Definition hmac_validate_key (fs : schema) (at_ : list string -> list string) (m : message) : option cc_status :=
    and_then (validate_version (num_at fs m (at_ ["version"])) 0)
      (and_then (check (size_at fs m (at_ ["key_value"]) <? 16) "Invalid HmacKey: key_value is too short.")
         (hmac_validate_params (num_at fs m (at_ ["params"; "hash"])) (num_at fs m (at_ ["params"; "tag_size"])))).
  Definition hmac_validate_key_format (fs : schema) (at_ : list string -> list string) (m : message) : option cc_status :=
    and_then (check (num_at fs m (at_ ["key_size"]) <? 16) "Invalid HmacKeyFormat: key_size is too small.")
      (hmac_validate_params (num_at fs m (at_ ["params"; "hash"])) (num_at fs m (at_ ["params"; "tag_size"]))).
  (** aead/aes_ctr_hmac_aead_key_manager.cc:109-130 ValidateKey, 132-181 ValidateKeyFormat (with the
      checks of the HmacKeyFormat made twice), 66-88 CreateKey, 90-107 Create *)
  Definition validate_iv_size (iv_size : Z) : option cc_status := check ((iv_size <? 12) || (16 <? iv_size)) "IV size out of range.".
  Definition aes_ctr_hmac_aead_key_manager : key_type_manager cc_aead :=
    mk_key_type_manager "AesCtrHmacAeadKey" AesCtrHmacAeadKey AesCtrHmacAeadKeyFormat
      (fun key =>
         let fs := AesCtrHmacAeadKey in
         and_then (validate_version (num_at fs key ["version"]) 0)
           (and_then (validate_version (num_at fs key ["aes_ctr_key"; "version"]) 0)
              (and_then (validate_aes_key_size (size_at fs key ["aes_ctr_key"; "key_value"]))
                 (and_then (validate_iv_size (num_at fs key ["aes_ctr_key"; "params"; "iv_size"]))
                    (hmac_validate_key fs (cons "hmac_key") key)))))
      (fun key_format =>
         let fs := AesCtrHmacAeadKeyFormat in
         and_then (validate_aes_key_size (num_at fs key_format ["aes_ctr_key_format"; "key_size"]))
           (and_then (validate_iv_size (num_at fs key_format ["aes_ctr_key_format"; "params"; "iv_size"]))
              (and_then (hmac_validate_key_format fs (cons "hmac_key_format") key_format)
                 (hmac_validate_key_format fs (cons "hmac_key_format") key_format))))
      (fun get_random_bytes key_format =>
         let fs := AesCtrHmacAeadKeyFormat in
         let params_of (fs' : schema) (path : list string) := message_or_empty fs' (get_path (TMsg fs) (Some (VMsg key_format)) path) in
         [Some (VNum 0);
          Some (VMsg [Some (VNum 0);
                      params_of AesCtrParams ["aes_ctr_key_format"; "params"];
                      Some (VBytes (get_random_bytes 0%N (num_at fs key_format ["aes_ctr_key_format"; "key_size"])))]);
          Some (VMsg [Some (VNum 0);
                      params_of HmacParams ["hmac_key_format"; "params"];
                      Some (VBytes (get_random_bytes 1%N (num_at fs key_format ["hmac_key_format"; "key_size"])))])])
      (fun key =>
         let fs := AesCtrHmacAeadKey in
         aes_ctr_hmac_new lib random
           (bytes_at fs key ["aes_ctr_key"; "key_value"])
           (Z.to_nat (num_at fs key ["aes_ctr_key"; "params"; "iv_size"]))
           (proto_to_subtle (num_at fs key ["hmac_key"; "params"; "hash"]))
           (Z.to_nat (num_at fs key ["hmac_key"; "params"; "tag_size"]))
           (bytes_at fs key ["hmac_key"; "key_value"])).

  (** ** Deterministic AEAD: daead/aes_siv_key_manager.h:71-77, 79-82, 84-90, 52-56, 117-125 *)
  Definition siv_validate_key_size (key_size : Z) : option cc_status := check (negb (key_size =? 64)) "Invalid key size".
  Definition aes_siv_key_manager : key_type_manager cc_daead :=
    mk_key_type_manager "AesSivKey" AesSivKey AesSivKeyFormat
      (fun key =>
         and_then (validate_version (num_at AesSivKey key ["version"]) 0)
           (siv_validate_key_size (size_at AesSivKey key ["key_value"])))
      (fun key_format => siv_validate_key_size (num_at AesSivKeyFormat key_format ["key_size"]))
      (fun get_random_bytes key_format =>
         [Some (VNum 0); Some (VBytes (get_random_bytes 0%N (num_at AesSivKeyFormat key_format ["key_size"])))])
      (fun key => aes_siv_new (aes_encrypt lib) (bytes_at AesSivKey key ["key_value"])).

  (** ** MAC *)

  (** mac/hmac_key_manager.cc:118-126, 129-136, 58-66; hmac_key_manager.h:52-58 *)
  Definition hmac_key_manager : key_type_manager cc_mac :=
    mk_key_type_manager "HmacKey" HmacKey HmacKeyFormat
      (hmac_validate_key HmacKey (fun p => p))
      (hmac_validate_key_format HmacKeyFormat (fun p => p))
      (fun get_random_bytes key_format =>
         [Some (VNum 0); message_or_empty HmacParams (nth 0 key_format None);
          Some (VBytes (get_random_bytes 0%N (num_at HmacKeyFormat key_format ["key_size"])))])
      (fun key =>
         hmac_new lib (proto_to_subtle (num_at HmacKey key ["params"; "hash"]))
           (Z.to_nat (num_at HmacKey key ["params"; "tag_size"]))
           (bytes_at HmacKey key ["key_value"])).
  (** mac/aes_cmac_key_manager.h:82-93, 95-103, 105-113, 116-129, 53-58 *)
  Definition cmac_validate_params (tag_size : Z) : option cc_status :=
    and_then (check (tag_size <? 10) "Invalid AesCmacParams: tag_size is too small.")
      (check (16 <? tag_size) "Invalid AesCmacParams: tag_size is too big.").
  Definition aes_cmac_key_manager : key_type_manager cc_mac :=
    mk_key_type_manager "AesCmacKey" AesCmacKey AesCmacKeyFormat
      (fun key =>
         and_then (validate_version (num_at AesCmacKey key ["version"]) 0)
           (and_then (check (negb (size_at AesCmacKey key ["key_value"] =? 32)) "Invalid AesCmacKey: key_value wrong length.")
              (cmac_validate_params (num_at AesCmacKey key ["params"; "tag_size"]))))
      (fun key_format =>
         and_then (check (negb (num_at AesCmacKeyFormat key_format ["key_size"] =? 32)) "Invalid AesCmacKeyFormat: invalid key_size.")
           (cmac_validate_params (num_at AesCmacKeyFormat key_format ["params"; "tag_size"])))
      (fun get_random_bytes key_format =>
         [Some (VNum 0);
          Some (VBytes (get_random_bytes 0%N (num_at AesCmacKeyFormat key_format ["key_size"])));
          message_or_empty AesCmacParams (nth 1 key_format None)])
      (fun key =>
         cmac_new lib (bytes_at AesCmacKey key ["key_value"]) (Z.to_nat (num_at AesCmacKey key ["params"; "tag_size"]))).

  (** ** PRF *)

  (** prf/hmac_prf_key_manager.cc:50-58, 60-69, 71-78, 99-111 ValidateParams, 113-127 MaxOutputLength;
      hmac_prf_key_manager.h:60-75 *)
  Definition hmac_prf_validate_params (hash : Z) : option cc_status :=
    match proto_to_subtle hash with
    | M_CcAes.SHA1 | M_CcAes.SHA224 | M_CcAes.SHA256 | M_CcAes.SHA384 | M_CcAes.SHA512 => None
    | _ => Some (NotOk "Invalid HmacParams: HashType not supported.")
    end.
  Definition hmac_prf_max_output_length (h : hash_type) : option nat :=
    match h with
    | M_CcAes.SHA1 => Some 20 | M_CcAes.SHA224 => Some 28 | M_CcAes.SHA256 => Some 32 | M_CcAes.SHA384 => Some 48
    | M_CcAes.SHA512 => Some 64 | UNKNOWN_HASH => None
    end%nat.
  Definition hmac_prf_key_manager : key_type_manager cc_prf :=
    mk_key_type_manager "HmacPrfKey" HmacPrfKey HmacPrfKeyFormat
      (fun key =>
         and_then (validate_version (num_at HmacPrfKey key ["version"]) 0)
           (and_then (check (size_at HmacPrfKey key ["key_value"] <? 16) "Invalid HmacPrfKey: key_value wrong length.")
              (hmac_prf_validate_params (num_at HmacPrfKey key ["params"; "hash"]))))
      (fun key_format =>
         and_then (validate_version (num_at HmacPrfKeyFormat key_format ["version"]) 0)
           (and_then (check (num_at HmacPrfKeyFormat key_format ["key_size"] <? 16) "Invalid HmacPrfKeyFormat: invalid key_size.")
              (hmac_prf_validate_params (num_at HmacPrfKeyFormat key_format ["params"; "hash"]))))
      (fun get_random_bytes key_format =>
         [Some (VNum 0); message_or_empty HmacPrfParams (nth 0 key_format None);
          Some (VBytes (get_random_bytes 0%N (num_at HmacPrfKeyFormat key_format ["key_size"])))])
      (fun key =>
         let hash := proto_to_subtle (num_at HmacPrfKey key ["params"; "hash"]) in
         match hmac_prf_max_output_length hash with
         | None => StErr (NotOk "Unknown hash when constructing HMAC PRF")
         | Some max_output_length =>
             StOk (prf_from_stateful_mac (stateful_hmac lib hash max_output_length (bytes_at HmacPrfKey key ["key_value"])))
         end).
  (** prf/hkdf_prf_key_manager.h:90-98, 100-108, 110-118, 140-147 ValidateKeySize (of an int),
      149-159 ValidateParams, 65-74 *)
  Definition hkdf_prf_validate_key_size (key_size : Z) : option cc_status :=
    check (key_size <? 32) "Invalid HkdfPrfKey: key_value is too short.".
  Definition hkdf_prf_validate_params (hash : Z) : option cc_status :=
    check (negb (hash =? 3) && negb (hash =? 4)) "Invalid HkdfPrfKey: unsupported hash.".
  Definition hkdf_prf_key_manager : key_type_manager cc_prf :=
    mk_key_type_manager "HkdfPrfKey" HkdfPrfKey HkdfPrfKeyFormat
      (fun key =>
         and_then (validate_version (num_at HkdfPrfKey key ["version"]) 0)
           (and_then (hkdf_prf_validate_key_size (size_at HkdfPrfKey key ["key_value"]))
              (hkdf_prf_validate_params (num_at HkdfPrfKey key ["params"; "hash"]))))
      (fun key_format =>
         and_then (validate_version (num_at HkdfPrfKeyFormat key_format ["version"]) 0)
           (and_then (hkdf_prf_validate_key_size (to_int (Z.to_N (num_at HkdfPrfKeyFormat key_format ["key_size"]))))
              (hkdf_prf_validate_params (num_at HkdfPrfKeyFormat key_format ["params"; "hash"]))))
      (fun get_random_bytes key_format =>
         [Some (VNum 0); message_or_empty HkdfPrfParams (nth 0 key_format None);
          Some (VBytes (get_random_bytes 0%N (num_at HkdfPrfKeyFormat key_format ["key_size"])))])
      (fun key =>
         hkdf_prf_new lib (proto_to_subtle (num_at HkdfPrfKey key ["params"; "hash"]))
           (bytes_at HkdfPrfKey key ["key_value"]) (bytes_at HkdfPrfKey key ["params"; "salt"])).
  (** prf/aes_cmac_prf_key_manager.h:80-91, 93-105, 107-114, 57-63, 77 *)
  Definition aes_cmac_prf_key_manager : key_type_manager cc_prf :=
    mk_key_type_manager "AesCmacPrfKey" AesCmacPrfKey AesCmacPrfKeyFormat
      (fun key =>
         and_then (validate_version (num_at AesCmacPrfKey key ["version"]) 0)
           (check (negb (size_at AesCmacPrfKey key ["key_value"] =? 32)) "Invalid AesCmacPrfKey: key_value wrong length."))
      (fun key_format =>
         and_then (validate_version (num_at AesCmacPrfKeyFormat key_format ["version"]) 0)
           (check (negb (num_at AesCmacPrfKeyFormat key_format ["key_size"] =? 32)) "Invalid AesCmacPrfKeyFormat: invalid key_size."))
      (fun get_random_bytes key_format =>
         [Some (VNum 0); Some (VBytes (get_random_bytes 0%N (num_at AesCmacPrfKeyFormat key_format ["key_size"])))])
      (fun key => StOk (prf_from_stateful_mac (stateful_cmac lib 16 (bytes_at AesCmacPrfKey key ["key_value"])))).

  (** ** Registration, and Registry::get_key_manager *)
  Definition find_manager {P} (l : list (key_type_manager P)) (url : pystr) : option (cc_lib_manager P) :=
    find (fun m => str_eqb (cl_key_type m) url) (map (key_manager_impl random) l).
  (** cc/aead/aead_config.cc:42-120 AeadConfig::Register. Simplification: without the managers
      of KmsAeadKey and KmsEnvelopeAeadKey, which Python does not ask for. *)
  Definition aead_managers : pystr -> option (cc_lib_manager cc_aead) :=
    find_manager [aes_ctr_hmac_aead_key_manager; aes_gcm_key_manager; aes_gcm_siv_key_manager; aes_eax_key_manager;
                  xchacha20_poly1305_key_manager].
  (** cc/daead/deterministic_aead_config.cc:31-50 *)
  Definition daead_managers : pystr -> option (cc_lib_manager cc_daead) := find_manager [aes_siv_key_manager].
  (** cc/mac/mac_config.cc:36-69. Simplification: without the managers of JWT. *)
  Definition mac_managers : pystr -> option (cc_lib_manager cc_mac) := find_manager [hmac_key_manager; aes_cmac_key_manager].
  (** cc/prf/prf_config.cc:29-52 *)
  Definition prf_managers : pystr -> option (cc_lib_manager cc_prf) :=
    find_manager [hmac_prf_key_manager; hkdf_prf_key_manager; aes_cmac_prf_key_manager].
End Managers.
