(** AES-GCM-HKDF and AES-CTR-HMAC streaming: /repo/cc/subtle/aes_gcm_hkdf_streaming.cc,
    aes_gcm_hkdf_stream_segment_encrypter.cc, aes_gcm_hkdf_stream_segment_decrypter.cc,
    aes_ctr_hmac_streaming.cc.

    BoringSSL is an argument. Sizes are natural numbers, so that the checks for negative
    ones have no counterpart. Not modelled: FIPS mode, null pointers and failing
    allocations. *)
From Coq Require Import Strings.Byte Strings.String List NArith ZArith Bool.
From Verif Require Import M_Base M_StreamTypes M_CcStream M_CcSegments.
Import ListNotations.
Open Scope string_scope.
Open Scope list_scope.

(** cc/subtle/common_enums.h HashType *)
Inductive hash_type := SHA1 | SHA224 | SHA256 | SHA384 | SHA512 | UNKNOWN_HASH.
(** What is used of BoringSSL: Hkdf::ComputeHkdf, AES-GCM with 16 byte tags and no
    associated data, AES-CTR, HMAC (the whole tag). *)
Record ssl := mk_ssl {
  hkdf : hash_type -> bytes -> bytes -> bytes -> nat -> st_or bytes;
  gcm_encrypt : bytes -> bytes -> bytes -> bytes;
  gcm_decrypt : bytes -> bytes -> bytes -> option bytes;
  ctr : bytes -> bytes -> bytes -> bytes;
  hmac : hash_type -> bytes -> bytes -> bytes }.

Definition known_hash (h : hash_type) : bool :=
  match h with SHA1 | SHA256 | SHA512 => true | _ => false end.
(** "too many segments": aes_gcm_hkdf_stream_segment_encrypter.cc:154-159,
    aes_gcm_hkdf_stream_segment_decrypter.cc:186-191, aes_ctr_hmac_streaming.cc:203-208,
    330-335 *)
Definition too_many_segments (segment_number : N) (is_last_segment : bool) : bool :=
  ((4294967295 <? segment_number) || (segment_number =? 4294967295) && negb is_last_segment)%N%bool.
Definition nonce_prefix_size : nat := 7.

(** ** AES-GCM-HKDF *)

(** aes_gcm_hkdf_streaming.h:38-44 Params *)
Record gcm_hkdf_params := mk_gcm_hkdf_params {
  gh_ikm : bytes;
  gh_hash : hash_type;
  gh_derived_key_size : nat;
  gh_ciphertext_segment_size : nat;
  gh_ciphertext_offset : nat }.
Definition gcm_tag_size : nat := 16.

(** aes_gcm_hkdf_streaming.cc:42-66 Validate *)
Definition gcm_hkdf_validate (p : gcm_hkdf_params) : option cc_status :=
  if negb (known_hash (gh_hash p)) then Some (NotOk "unsupported hkdf_hash")
  else if (Nat.ltb (length (gh_ikm p)) 16 || Nat.ltb (length (gh_ikm p)) (gh_derived_key_size p))%bool then Some (NotOk "ikm too small")
  else if negb (Nat.eqb (gh_derived_key_size p) 16 || Nat.eqb (gh_derived_key_size p) 32)
  then Some (NotOk "derived_key_size must be 16 or 32")
  else if Nat.leb (gh_ciphertext_segment_size p) (gh_ciphertext_offset p + gh_derived_key_size p + gcm_tag_size)
  then Some (NotOk "ciphertext_segment_size too small")
  else None.

(** aes_gcm_hkdf_stream_segment_encrypter.cc:86-96 CreateHeader *)
Definition gcm_header (salt nonce_prefix : bytes) : bytes :=
  byte_of_N (N.of_nat (1 + length salt + nonce_prefix_size)) :: salt ++ nonce_prefix.
(** lines 98-112 ConstructNonce *)
Definition gcm_nonce (nonce_prefix : bytes) (segment_number : N) (is_last_segment : bool) : bytes :=
  nonce_prefix ++ be32 segment_number ++ [if is_last_segment then x01 else x00].
(** lines 62-84 Validate, 128-141 New, 143-182 EncryptSegment. [key] is the derived key,
    [nonce_prefix] is random. *)
Definition gcm_segment_encrypter (lib : ssl) (key salt nonce_prefix : bytes) (offset segment_size : nat)
  : st_or segment_encrypter :=
  if negb (Nat.eqb (length key) 16 || Nat.eqb (length key) 32) then StErr (NotOk "key must have 16 or 32 bytes")
  else if negb (Nat.eqb (length key) (length salt)) then StErr (NotOk "salt must have same size as the key")
  else if Nat.leb segment_size (offset + (1 + length salt + nonce_prefix_size) + gcm_tag_size)
  then StErr (NotOk "ciphertext_segment_size too small")
  else
    StOk (mk_segment_encrypter (gcm_header salt nonce_prefix) (segment_size - gcm_tag_size) offset
      (fun segment_number is_last_segment plaintext =>
         if Nat.ltb (segment_size - gcm_tag_size) (length plaintext) then StErr (NotOk "plaintext too long")
         else if too_many_segments segment_number is_last_segment then StErr (NotOk "too many segments")
         else StOk (gcm_encrypt lib key (gcm_nonce nonce_prefix segment_number is_last_segment) plaintext))).
(** aes_gcm_hkdf_streaming.cc:79-91 NewSegmentEncrypter; [salt] is random. *)
Definition gcm_new_segment_encrypter (lib : ssl) (p : gcm_hkdf_params) (salt nonce_prefix associated_data : bytes)
  : st_or segment_encrypter :=
  match hkdf lib (gh_hash p) (gh_ikm p) salt associated_data (gh_derived_key_size p) with
  | StErr s => StErr s
  | StOk key => gcm_segment_encrypter lib key salt nonce_prefix (gh_ciphertext_offset p) (gh_ciphertext_segment_size p)
  end.

(** aes_gcm_hkdf_stream_segment_decrypter.cc:64-90 Validate *)
Definition gcm_decrypter_validate (p : gcm_hkdf_params) : option cc_status :=
  if negb (known_hash (gh_hash p)) then Some (NotOk "unsupported hkdf_hash")
  else if negb (Nat.eqb (gh_derived_key_size p) 16 || Nat.eqb (gh_derived_key_size p) 32)
  then Some (NotOk "derived_key_size must be 16 or 32")
  else if (Nat.ltb (length (gh_ikm p)) 16 || Nat.ltb (length (gh_ikm p)) (gh_derived_key_size p))%bool then Some (NotOk "ikm too small")
  else if Nat.leb (gh_ciphertext_segment_size p)
            (gh_ciphertext_offset p + (1 + gh_derived_key_size p + nonce_prefix_size) + gcm_tag_size)
  then Some (NotOk "ciphertext_segment_size too small")
  else None.
(** lines 116-160 Init *)
Definition gcm_init (lib : ssl) (p : gcm_hkdf_params) (associated_data header : bytes)
  : st_or (N -> bool -> bytes -> st_or bytes) :=
  let header_size := (1 + gh_derived_key_size p + nonce_prefix_size)%nat in
  if negb (Nat.eqb (length header) header_size) then StErr (NotOk "wrong header size")
  else if negb (N.eqb (Byte.to_N (hd x00 header)) (N.of_nat header_size)) then StErr (NotOk "corrupted header")
  else
    let salt := firstn (gh_derived_key_size p) (skipn 1 header) in
    let nonce_prefix := firstn nonce_prefix_size (skipn (1 + gh_derived_key_size p) header) in
    match hkdf lib (gh_hash p) (gh_ikm p) salt associated_data (gh_derived_key_size p) with
    | StErr s => StErr s
    | StOk key =>
        (* lines 167-216 DecryptSegment *)
        StOk (fun segment_number is_last_segment ciphertext =>
          if Nat.ltb (gh_ciphertext_segment_size p) (length ciphertext) then StErr (NotOk "ciphertext too long")
          else if Nat.ltb (length ciphertext) gcm_tag_size then StErr (NotOk "ciphertext too short")
          else if too_many_segments segment_number is_last_segment then StErr (NotOk "too many segments")
          else
            match gcm_decrypt lib key (gcm_nonce nonce_prefix segment_number is_last_segment) ciphertext with
            | Some plaintext => StOk plaintext
            | None => StErr (NotOk "Authentication failed")
            end)
    end.
(** lines 106-114 New; aes_gcm_hkdf_streaming.cc:93-104 NewSegmentDecrypter *)
Definition gcm_new_segment_decrypter (lib : ssl) (p : gcm_hkdf_params) (associated_data : bytes) : st_or segment_decrypter :=
  match gcm_decrypter_validate p with
  | Some s => StErr s
  | None =>
      StOk (mk_segment_decrypter (1 + gh_derived_key_size p + nonce_prefix_size) (gh_ciphertext_segment_size p)
              (gh_ciphertext_offset p) (gcm_init lib p associated_data))
  end.
(** aes_gcm_hkdf_streaming.cc:69-77 New. [salt] and [nonce_prefix] are what the encrypting
    stream gets from Random. *)
Definition aes_gcm_hkdf_streaming (n : nat) (lib : ssl) (p : gcm_hkdf_params) (salt nonce_prefix : bytes)
  : st_or cc_streaming_aead :=
  match gcm_hkdf_validate p with
  | Some s => StErr s
  | None =>
      StOk (nonce_based_streaming_aead n (gcm_new_segment_encrypter lib p salt nonce_prefix) (gcm_new_segment_decrypter lib p))
  end.

(** ** AES-CTR-HMAC (aes_ctr_hmac_streaming.cc) *)

(** aes_ctr_hmac_streaming.h:67-75 Params *)
Record ctr_hmac_params := mk_ctr_hmac_params {
  ch_ikm : bytes;
  ch_hkdf_algo : hash_type;
  ch_key_size : nat;
  ch_ciphertext_segment_size : nat;
  ch_ciphertext_offset : nat;
  ch_tag_algo : hash_type;
  ch_tag_size : nat }.
Definition hmac_key_size : nat := 32.

(** lines 53-60 NonceForSegment *)
Definition ctr_nonce (nonce_prefix : bytes) (segment_number : N) (is_last_segment : bool) : bytes :=
  nonce_prefix ++ be32 segment_number ++ [if is_last_segment then x01 else x00] ++ repeat x00 4.
(** lines 62-78 DeriveKeys *)
Definition ctr_derive_keys (lib : ssl) (p : ctr_hmac_params) (salt associated_data : bytes) : st_or (bytes * bytes) :=
  match hkdf lib (ch_hkdf_algo p) (ch_ikm p) salt associated_data (ch_key_size p + hmac_key_size) with
  | StErr s => StErr s
  | StOk key_material => StOk (firstn (ch_key_size p) key_material, skipn (ch_key_size p) key_material)
  end.
(** lines 80-121 Validate *)
Definition ctr_hmac_validate (p : ctr_hmac_params) : option cc_status :=
  if Nat.ltb (length (ch_ikm p)) (Nat.max 16 (ch_key_size p)) then Some (NotOk "input key material too small")
  else if negb (known_hash (ch_hkdf_algo p)) then Some (NotOk "unsupported hkdf_algo")
  else if negb (Nat.eqb (ch_key_size p) 16 || Nat.eqb (ch_key_size p) 32) then Some (NotOk "key_size must be 16 or 32")
  else if Nat.leb (ch_ciphertext_segment_size p)
            (ch_ciphertext_offset p + (1 + ch_key_size p + nonce_prefix_size) + ch_tag_size p)
  then Some (NotOk "ciphertext_segment_size too small")
  else if Nat.ltb (ch_tag_size p) 10 then Some (NotOk "tag_size too small")
  else if negb (known_hash (ch_tag_algo p)) then Some (NotOk "unsupported tag_algo")
  else if match ch_tag_algo p with
          | SHA1 => Nat.ltb 20 (ch_tag_size p)
          | SHA256 => Nat.ltb 32 (ch_tag_size p)
          | _ => Nat.ltb 64 (ch_tag_size p)
          end
  then Some (NotOk "tag_size too big")
  else None.
(** lines 149-155 MakeHeader *)
Definition ctr_header (salt nonce_prefix : bytes) : bytes :=
  byte_of_N (N.of_nat (1 + length salt + length nonce_prefix)) :: salt ++ nonce_prefix.
(** hmac_boringssl.cc:66-85 ComputeMac *)
Definition compute_mac (lib : ssl) (p : ctr_hmac_params) (key data : bytes) : bytes :=
  firstn (ch_tag_size p) (hmac lib (ch_tag_algo p) key data).
(** lines 157-190 New, 192-251 EncryptSegment. HmacBoringSsl::New does not fail for these
    parameters. *)
Definition ctr_new_segment_encrypter (lib : ssl) (p : ctr_hmac_params) (salt nonce_prefix associated_data : bytes)
  : st_or segment_encrypter :=
  match ctr_hmac_validate p with
  | Some s => StErr s
  | None =>
      match ctr_derive_keys lib p salt associated_data with
      | StErr s => StErr s
      | StOk (key_value, hmac_key_value) =>
          let plaintext_segment_size := (ch_ciphertext_segment_size p - ch_tag_size p)%nat in
          StOk (mk_segment_encrypter (ctr_header salt nonce_prefix) plaintext_segment_size (ch_ciphertext_offset p)
            (fun segment_number is_last_segment plaintext =>
               if Nat.ltb plaintext_segment_size (length plaintext) then StErr (NotOk "plaintext too long")
               else if too_many_segments segment_number is_last_segment then StErr (NotOk "too many segments")
               else
                 let nonce := ctr_nonce nonce_prefix segment_number is_last_segment in
                 let ciphertext := ctr lib key_value nonce plaintext in
                 StOk (ciphertext ++ compute_mac lib p hmac_key_value (nonce ++ ciphertext))))
      end
  end.
(** lines 267-308 Init *)
Definition ctr_init (lib : ssl) (p : ctr_hmac_params) (associated_data header : bytes)
  : st_or (N -> bool -> bytes -> st_or bytes) :=
  let header_size := (1 + ch_key_size p + nonce_prefix_size)%nat in
  if negb (Nat.eqb (length header) header_size) then StErr (NotOk "wrong header size")
  else if negb (N.eqb (Byte.to_N (hd x00 header)) (N.of_nat (length header))) then StErr (NotOk "corrupted header")
  else
    let salt := firstn (ch_key_size p) (skipn 1 header) in
    let nonce_prefix := firstn nonce_prefix_size (skipn (1 + ch_key_size p) header) in
    match ctr_derive_keys lib p salt associated_data with
    | StErr s => StErr s
    | StOk (key_value, hmac_key_value) =>
        (* lines 310-374 DecryptSegment, hmac_boringssl.cc:87-111 VerifyMac *)
        StOk (fun segment_number is_last_segment ciphertext =>
          if Nat.ltb (ch_ciphertext_segment_size p) (length ciphertext) then StErr (NotOk "ciphertext too long")
          else if Nat.ltb (length ciphertext) (ch_tag_size p) then StErr (NotOk "ciphertext too short")
          else if too_many_segments segment_number is_last_segment then StErr (NotOk "too many segments")
          else
            let pt_size := (length ciphertext - ch_tag_size p)%nat in
            let nonce := ctr_nonce nonce_prefix segment_number is_last_segment in
            if bytes_eqb (compute_mac lib p hmac_key_value (nonce ++ firstn pt_size ciphertext)) (skipn pt_size ciphertext)
            then StOk (ctr lib key_value nonce (firstn pt_size ciphertext))
            else StErr (NotOk "verification failed"))
    end.
(** lines 253-265 New *)
Definition ctr_new_segment_decrypter (lib : ssl) (p : ctr_hmac_params) (associated_data : bytes) : st_or segment_decrypter :=
  match ctr_hmac_validate p with
  | Some s => StErr s
  | None =>
      StOk (mk_segment_decrypter (1 + ch_key_size p + nonce_prefix_size) (ch_ciphertext_segment_size p)
              (ch_ciphertext_offset p) (ctr_init lib p associated_data))
  end.
(** lines 123-147 New, NewSegmentEncrypter, NewSegmentDecrypter *)
Definition aes_ctr_hmac_streaming (n : nat) (lib : ssl) (p : ctr_hmac_params) (salt nonce_prefix : bytes)
  : st_or cc_streaming_aead :=
  match ctr_hmac_validate p with
  | Some s => StErr s
  | None =>
      StOk (nonce_based_streaming_aead n (ctr_new_segment_encrypter lib p salt nonce_prefix) (ctr_new_segment_decrypter lib p))
  end.

(** ** Both *)
Inductive stream_params := GcmHkdf (p : gcm_hkdf_params) | CtrHmac (p : ctr_hmac_params).
(** AesGcmHkdfStreaming::New or AesCtrHmacStreaming::New *)
Definition aes_streaming (n : nat) (lib : ssl) (sp : stream_params) (salt nonce_prefix : bytes) : st_or cc_streaming_aead :=
  match sp with
  | GcmHkdf p => aes_gcm_hkdf_streaming n lib p salt nonce_prefix
  | CtrHmac p => aes_ctr_hmac_streaming n lib p salt nonce_prefix
  end.
