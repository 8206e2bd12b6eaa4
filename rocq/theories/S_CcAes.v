(** Specification of AES-GCM-HKDF and AES-CTR-HMAC streaming: the format of the
    ciphertexts (aes_gcm_hkdf_stream_segment_encrypter.h:35-75, aes_ctr_hmac_streaming.h:42-89)
    and the laws of the cryptography. *)
From Coq Require Import Strings.Byte Strings.String List NArith ZArith Bool.
From Verif Require Import M_Base M_StreamTypes M_CcStream M_CcSegments M_CcAes S_CcSegments.
Import ListNotations.
Open Scope list_scope.
Open Scope nat_scope.

(** ** The cryptography

    HKDF gives as many bytes as are asked for. *)
Definition hkdf_law (lib : ssl) : Prop :=
  forall h ikm salt info size, h = SHA1 \/ h = SHA256 \/ h = SHA512 -> size <= 64 ->
    exists key, hkdf lib h ikm salt info size = StOk key /\ length key = size.
(** AES-GCM: 16 bytes of tag. Decryption fails with the nonce whose last byte is 0 instead
    of 1; for the real AES-GCM this holds except with negligible probability. *)
Definition gcm_law (lib : ssl) : Prop :=
  (forall key nonce s, length nonce = 12 ->
     length (gcm_encrypt lib key nonce s) = length s + 16 /\
     gcm_decrypt lib key nonce (gcm_encrypt lib key nonce s) = Some s) /\
  (forall key a s, length a = 11 -> gcm_decrypt lib key (a ++ [x00]) (gcm_encrypt lib key (a ++ [x01]) s) = None).
(** AES-CTR keeps the length, and is its own inverse. *)
Definition ctr_law (lib : ssl) : Prop :=
  forall key nonce s, length (ctr lib key nonce s) = length s /\ ctr lib key nonce (ctr lib key nonce s) = s.
(** HMAC: the length of the hash; truncated tags differ for messages that differ in the
    byte 11 only (again except with negligible probability). *)
Definition hash_size (h : hash_type) : nat :=
  match h with SHA1 => 20 | SHA224 => 28 | SHA256 => 32 | SHA384 => 48 | SHA512 => 64 | UNKNOWN_HASH => 0 end.
Definition hmac_law (lib : ssl) (tag_algo : hash_type) (tag_size : nat) : Prop :=
  (forall key data, length (hmac lib tag_algo key data) = hash_size tag_algo) /\
  (forall key a data, length a = 11 ->
     firstn tag_size (hmac lib tag_algo key (a ++ [x00] ++ data)) <> firstn tag_size (hmac lib tag_algo key (a ++ [x01] ++ data))).

(** ** The ciphertexts *)

(** The size of the header, the salt, a nonce prefix of 7 bytes, and the segments of
    [size] bytes, tag included, that start with the header and [offset] other bytes.
    [seal nonce s]: a segment. *)
Definition stream_format (key_size size offset tag_size : nat) (salt prefix : bytes) (trailer : bytes)
  (seal : bytes -> bytes -> bytes) (P C : bytes) : Prop :=
  exists segments D,
    segmented (size - tag_size) (size - tag_size - offset - (key_size + 8)) P segments /\
    sealed (fun i is_last s => StOk (seal (prefix ++ be32 i ++ [if is_last then x01 else x00] ++ trailer) s)) 0 segments D /\
    C = [byte_of_N (N.of_nat (key_size + 8))] ++ salt ++ prefix ++ D.
Definition gcm_hkdf_ciphertext (lib : ssl) (p : gcm_hkdf_params) (ad salt prefix P C : bytes) : Prop :=
  exists key, hkdf lib (gh_hash p) (gh_ikm p) salt ad (gh_derived_key_size p) = StOk key /\
    stream_format (gh_derived_key_size p) (gh_ciphertext_segment_size p) (gh_ciphertext_offset p) 16 salt prefix []
      (gcm_encrypt lib key) P C.
(** A segment of AES-CTR-HMAC *)
Definition ctr_hmac_seal (lib : ssl) (p : ctr_hmac_params) (keys nonce s : bytes) : bytes :=
  let c := ctr lib (firstn (ch_key_size p) keys) nonce s in
  c ++ firstn (ch_tag_size p) (hmac lib (ch_tag_algo p) (skipn (ch_key_size p) keys) (nonce ++ c)).
Definition ctr_hmac_ciphertext (lib : ssl) (p : ctr_hmac_params) (ad salt prefix P C : bytes) : Prop :=
  exists keys, hkdf lib (ch_hkdf_algo p) (ch_ikm p) salt ad (ch_key_size p + 32) = StOk keys /\
    stream_format (ch_key_size p) (ch_ciphertext_segment_size p) (ch_ciphertext_offset p) (ch_tag_size p) salt prefix (repeat x00 4)
      (ctr_hmac_seal lib p keys) P C.

(** 2^32 segments fit into a stream. *)
Definition stream_capacity (key_size size offset tag_size : nat) : nat :=
  (size - tag_size - offset - (key_size + 8)) + N.to_nat (2 ^ 32 - 1) * (size - tag_size).

(** Parameters with which streams can be made. *)
Definition usable (ikm : bytes) (h : hash_type) (key_size size offset tag_size : nat) : Prop :=
  (h = SHA1 \/ h = SHA256 \/ h = SHA512) /\ (key_size = 16 \/ key_size = 32) /\ key_size <= length ikm /\
  offset + (key_size + 8) + tag_size < size.
Definition gcm_hkdf_usable (p : gcm_hkdf_params) : Prop :=
  usable (gh_ikm p) (gh_hash p) (gh_derived_key_size p) (gh_ciphertext_segment_size p) (gh_ciphertext_offset p) 16.
Definition ctr_hmac_usable (p : ctr_hmac_params) : Prop :=
  usable (ch_ikm p) (ch_hkdf_algo p) (ch_key_size p) (ch_ciphertext_segment_size p) (ch_ciphertext_offset p) (ch_tag_size p) /\
  (ch_tag_algo p = SHA1 \/ ch_tag_algo p = SHA256 \/ ch_tag_algo p = SHA512) /\ 10 <= ch_tag_size p <= hash_size (ch_tag_algo p).

(** ** Other ciphertexts

    [sent]: salt, nonce prefix and plaintext of the streams that were encrypted with some
    key and associated data. The random choices differ. *)
Definition sent_streams (key_size : nat) (sent : list (bytes * bytes * bytes)) : Prop :=
  Forall (fun x => length (fst (fst x)) = key_size /\ length (snd (fst x)) = 7) sent /\ NoDup (map fst sent).
(** The parts of any bytes [C] *)
Definition salt_of (key_size : nat) (C : bytes) : bytes := firstn key_size (skipn 1 C).
Definition prefix_of (key_size : nat) (C : bytes) : bytes := firstn 7 (skipn (1 + key_size) C).
Definition stream_segment (key_size size offset : nat) (C : bytes) (i : N) : bytes :=
  if N.eqb i 0 then firstn (size - offset - (key_size + 8)) (skipn (key_size + 8) C)
  else firstn size (skipn (N.to_nat i * size - offset) C).
(** [C] contains no forged segments: those that can be opened are segments of the streams
    that were sent. *)
Definition no_forgery (key_size size offset tag_size : nat) (trailer : bytes) (seal : bytes -> bytes -> bytes)
  (open : bytes -> bytes -> option bytes) (sent : list (bytes * bytes * bytes)) (C : bytes) : Prop :=
  forall (i : N) (is_last : bool) (s : bytes), (i < 2 ^ 32)%N ->
    let nonce := prefix_of key_size C ++ be32 i ++ [if is_last then x01 else x00] ++ trailer in
    open nonce (stream_segment key_size size offset C i) = Some s ->
    exists P segments, In (salt_of key_size C, prefix_of key_size C, P) sent /\
      segmented (size - tag_size) (size - tag_size - offset - (key_size + 8)) P segments /\
      nth_error segments (N.to_nat i) = Some s /\ is_last = Nat.eqb (N.to_nat i + 1) (length segments) /\
      stream_segment key_size size offset C i = seal nonce s.
Definition gcm_hkdf_no_forgery (lib : ssl) (p : gcm_hkdf_params) (ad : bytes) (sent : list (bytes * bytes * bytes)) (C : bytes) : Prop :=
  forall key, hkdf lib (gh_hash p) (gh_ikm p) (salt_of (gh_derived_key_size p) C) ad (gh_derived_key_size p) = StOk key ->
    no_forgery (gh_derived_key_size p) (gh_ciphertext_segment_size p) (gh_ciphertext_offset p) 16 []
      (gcm_encrypt lib key) (gcm_decrypt lib key) sent C.
(** What AES-CTR-HMAC opens: segments with the right tag. *)
Definition ctr_hmac_open (lib : ssl) (p : ctr_hmac_params) (keys nonce c : bytes) : option bytes :=
  let body := firstn (length c - ch_tag_size p) c in
  if bytes_eqb (firstn (ch_tag_size p) (hmac lib (ch_tag_algo p) (skipn (ch_key_size p) keys) (nonce ++ body)))
       (skipn (length c - ch_tag_size p) c)
  then Some (ctr lib (firstn (ch_key_size p) keys) nonce body) else None.
Definition ctr_hmac_no_forgery (lib : ssl) (p : ctr_hmac_params) (ad : bytes) (sent : list (bytes * bytes * bytes)) (C : bytes) : Prop :=
  forall keys, hkdf lib (ch_hkdf_algo p) (ch_ikm p) (salt_of (ch_key_size p) C) ad (ch_key_size p + 32) = StOk keys ->
    no_forgery (ch_key_size p) (ch_ciphertext_segment_size p) (ch_ciphertext_offset p) (ch_tag_size p) (repeat x00 4)
      (ctr_hmac_seal lib p keys) (ctr_hmac_open lib p keys) sent C.

(** ** Both kinds of parameters *)
Definition params_usable (sp : stream_params) : Prop :=
  match sp with GcmHkdf p => gcm_hkdf_usable p | CtrHmac p => ctr_hmac_usable p end.
Definition ssl_laws (lib : ssl) (sp : stream_params) : Prop :=
  hkdf_law lib /\ match sp with GcmHkdf p => gcm_law lib | CtrHmac p => ctr_law lib /\ hmac_law lib (ch_tag_algo p) (ch_tag_size p) end.
Definition salt_size (sp : stream_params) : nat :=
  match sp with GcmHkdf p => gh_derived_key_size p | CtrHmac p => ch_key_size p end.
Definition tag_size (sp : stream_params) : nat := match sp with GcmHkdf p => 16 | CtrHmac p => ch_tag_size p end.
Definition segment_size (sp : stream_params) : nat :=
  match sp with GcmHkdf p => gh_ciphertext_segment_size p | CtrHmac p => ch_ciphertext_segment_size p end.
Definition stream_offset (sp : stream_params) : nat :=
  match sp with GcmHkdf p => gh_ciphertext_offset p | CtrHmac p => ch_ciphertext_offset p end.
Definition params_capacity (sp : stream_params) : nat :=
  stream_capacity (salt_size sp) (segment_size sp) (stream_offset sp) (tag_size sp).
(** The bytes that fit into [k + 1] segments *)
Definition full_segments (sp : stream_params) (k : nat) : nat :=
  segment_size sp - tag_size sp - stream_offset sp - (salt_size sp + 8) + k * (segment_size sp - tag_size sp).
Definition stream_ciphertext (lib : ssl) (sp : stream_params) (ad salt prefix P C : bytes) : Prop :=
  match sp with
  | GcmHkdf p => gcm_hkdf_ciphertext lib p ad salt prefix P C
  | CtrHmac p => ctr_hmac_ciphertext lib p ad salt prefix P C
  end.
Definition no_forged_segment (lib : ssl) (sp : stream_params) (ad : bytes) (sent : list (bytes * bytes * bytes)) (C : bytes) : Prop :=
  match sp with
  | GcmHkdf p => gcm_hkdf_no_forgery lib p ad sent C
  | CtrHmac p => ctr_hmac_no_forgery lib p ad sent C
  end.
(** [C] begins with the header of a stream. *)
Definition has_header (sp : stream_params) (salt prefix C : bytes) : Prop :=
  firstn (salt_size sp + 8) C = byte_of_N (N.of_nat (salt_size sp + 8)) :: salt ++ prefix.
