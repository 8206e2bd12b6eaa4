(** Specification of ciphertexts in segments. *)
From Coq Require Import Strings.String List NArith ZArith Bool.
From Verif Require Import M_Base M_StreamTypes M_CcStream M_CcSegments.
Import ListNotations.
Open Scope list_scope.
Open Scope nat_scope.

(** ** The layout (stream_segment_encrypter.h:29-64)

    [P] in segments: the first has [size] bytes and the others [rest] bytes, except for the
    last, which may be shorter, but is empty only if there is nothing to encrypt. *)
Inductive segmented (rest : nat) : nat -> bytes -> list bytes -> Prop :=
| Segmented_last : forall size s, length s <= size -> segmented rest size s [s]
| Segmented_more : forall size s P l, length s = size -> P <> [] -> segmented rest rest P l ->
    segmented rest size (s ++ P) (s :: l).
(** The segments are encrypted one by one, with their number and whether they are the
    last. *)
Inductive sealed (encrypt : N -> bool -> bytes -> st_or bytes) : N -> list bytes -> bytes -> Prop :=
| Sealed_last : forall i s c, encrypt i true s = StOk c -> sealed encrypt i [s] c
| Sealed_more : forall i s c l C, encrypt i false s = StOk c -> l <> [] -> sealed encrypt (i + 1) l C ->
    sealed encrypt i (s :: l) (c ++ C).
(** [C] is the ciphertext of [P]. *)
Definition segment_encryption (se : segment_encrypter) (P C : bytes) : Prop :=
  exists segments D,
    segmented (se_plaintext_segment_size se)
      (se_plaintext_segment_size se - se_ciphertext_offset se - length (se_header se)) P segments /\
    sealed (se_encrypt se) 0 segments D /\ C = se_header se ++ D.

(** The encrypter takes [m] segments of the right size. *)
Definition takes_segments (se : segment_encrypter) (m : N) : Prop :=
  (1 <= m)%N /\
  forall i is_last s, length s <= se_plaintext_segment_size se ->
    (i + 1 < m \/ i + 1 = m /\ is_last = true)%N -> exists c, se_encrypt se i is_last s = StOk c.
(** The bytes that fit into [m] segments. *)
Definition capacity (se : segment_encrypter) (m : N) : nat :=
  se_plaintext_segment_size se - se_ciphertext_offset se - length (se_header se)
  + N.to_nat (m - 1) * se_plaintext_segment_size se.
(** There is space for plaintext behind the header. *)
Definition has_space (se : segment_encrypter) : Prop :=
  se_ciphertext_offset se + length (se_header se) < se_plaintext_segment_size se.

(** ** Decryption

    The decrypter [sd] belongs to the encrypter [se]: it has the same layout, and opens
    each segment with its number, and as what it is. A last segment is not taken for
    another one. *)
Definition opens_segments (se : segment_encrypter) (sd : segment_decrypter) : Prop :=
  exists overhead decrypt,
    sd_header_size sd = length (se_header se) /\ 0 < length (se_header se) /\
    sd_ciphertext_offset sd = se_ciphertext_offset se /\
    sd_ciphertext_segment_size sd = se_plaintext_segment_size se + overhead /\
    sd_init sd (se_header se) = StOk decrypt /\
    forall i is_last s c, se_encrypt se i is_last s = StOk c ->
      length c = length s + overhead /\ decrypt i is_last c = StOk s /\
      (is_last = true -> exists m, decrypt i false c = StErr m).

(** What a decrypter makes of any bytes [C]: segments of [rest] bytes, the first of [size]
    bytes, are opened until one of them is the last. [P]: the plaintexts; [whole]: a last
    segment was found. *)
Inductive unsealed (decrypt : N -> bool -> bytes -> st_or bytes) (rest : nat) : nat -> N -> bytes -> bytes -> bool -> Prop :=
| Unsealed_short : forall size i C P, length C < size -> decrypt i true C = StOk P ->
    unsealed decrypt rest size i C P true
| Unsealed_short_bad : forall size i C e, length C < size -> decrypt i true C = StErr e ->
    unsealed decrypt rest size i C [] false
| Unsealed_more : forall size i C s P whole, size <= length C -> decrypt i false (firstn size C) = StOk s ->
    unsealed decrypt rest rest (i + 1) (skipn size C) P whole -> unsealed decrypt rest size i C (s ++ P) whole
| Unsealed_last : forall size i C e P, size <= length C -> decrypt i false (firstn size C) = StErr e ->
    decrypt i true (firstn size C) = StOk P -> unsealed decrypt rest size i C P true
| Unsealed_bad : forall size i C e e', size <= length C -> decrypt i false (firstn size C) = StErr e ->
    decrypt i true (firstn size C) = StErr e' -> unsealed decrypt rest size i C [] false.
(** The same with the header. *)
Inductive unsealed_stream (sd : segment_decrypter) (C : bytes) : bytes -> bool -> Prop :=
| Unsealed_no_header : length C < sd_header_size sd -> unsealed_stream sd C [] false
| Unsealed_bad_header : forall e, sd_header_size sd <= length C -> sd_init sd (firstn (sd_header_size sd) C) = StErr e ->
    unsealed_stream sd C [] false
| Unsealed_stream : forall decrypt P whole, sd_header_size sd <= length C ->
    sd_init sd (firstn (sd_header_size sd) C) = StOk decrypt ->
    unsealed decrypt (sd_ciphertext_segment_size sd)
      (sd_ciphertext_segment_size sd - sd_ciphertext_offset sd - sd_header_size sd) 0
      (skipn (sd_header_size sd) C) P whole ->
    unsealed_stream sd C P whole.
(** Errors of a decrypter are not OUT_OF_RANGE, which is the end of a stream. *)
Definition errors_are_errors (sd : segment_decrypter) : Prop :=
  (forall h e, sd_init sd h = StErr e -> exists m, e = NotOk m) /\
  (forall h decrypt i is_last c e, sd_init sd h = StOk decrypt -> decrypt i is_last c = StErr e -> exists m, e = NotOk m).

(** ** Other ciphertexts

    [streams]: what was encrypted, each stream with its own encrypter. The segments of
    their ciphertexts: *)
Definition segment_of (streams : list (segment_encrypter * bytes)) (header : bytes) (i : N) (is_last : bool) (c s : bytes) : Prop :=
  exists se P segments, In (se, P) streams /\ se_header se = header /\
    segmented (se_plaintext_segment_size se)
      (se_plaintext_segment_size se - se_ciphertext_offset se - length (se_header se)) P segments /\
    nth_error segments (N.to_nat i) = Some s /\ is_last = Nat.eqb (N.to_nat i + 1) (length segments) /\
    se_encrypt se i is_last s = StOk c.
(** The segment [i] of the bytes [C], as the decrypter reads them. *)
Definition segment_at (sd : segment_decrypter) (C : bytes) (i : N) : bytes :=
  if N.eqb i 0
  then firstn (sd_ciphertext_segment_size sd - sd_ciphertext_offset sd - sd_header_size sd) (skipn (sd_header_size sd) C)
  else firstn (sd_ciphertext_segment_size sd) (skipn (N.to_nat i * sd_ciphertext_segment_size sd - sd_ciphertext_offset sd) C).
(** [C] contains no forged segment: those that the decrypter opens are segments of
    [streams], with the same header and in the same place. *)
Definition opens_only (sd : segment_decrypter) (streams : list (segment_encrypter * bytes)) (C : bytes) : Prop :=
  forall decrypt i is_last s, sd_init sd (firstn (sd_header_size sd) C) = StOk decrypt ->
    decrypt i is_last (segment_at sd C i) = StOk s ->
    segment_of streams (firstn (sd_header_size sd) C) i is_last (segment_at sd C i) s.
(** The headers are random, and differ. *)
Definition headers_differ (streams : list (segment_encrypter * bytes)) : Prop :=
  NoDup (map (fun x => se_header (fst x)) streams).
