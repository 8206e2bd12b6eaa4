(** Specification of streams. *)
From Coq Require Import List NArith ZArith Bool.
From Verif Require Import M_Base M_StreamTypes M_Stream.
Import ListNotations.
Open Scope list_scope.
Open Scope Z_scope.

(** ** Files *)

(** The legal answers to read(size) on a file with content [C] at position [p]: some of
    the next bytes, b'' at the end or for size 0, None or an exception of [X] at any
    time. An exception does not move the position, except that the bytes read by a
    read(-1) that fails half way may be lost. *)
Inductive file_read (X : exn -> Prop) (C : bytes) (p : nat) (size : Z) : read_result -> nat -> Prop :=
| FR_data : forall d, d <> [] -> size < 0 \/ Z.of_nat (length d) <= size ->
    firstn (length d) (skipn p C) = d -> file_read X C p size (Ok (Some d)) (p + length d)
| FR_empty : p = length C \/ size = 0 -> file_read X C p size (Ok (Some [])) p
| FR_none : file_read X C p size (Ok None) p
| FR_error : forall e p', X e -> (p <= p' <= length C)%nat -> (0 <= size -> p' = p) ->
    file_read X C p size (Err e) p'.

(** All exceptions; only BlockingIOError, which stands for "no data at the moment". *)
Definition any_exception (e : exn) : Prop := True.
Definition only_blocking (e : exn) : Prop := exists n, e = BlockingIOError n.

(** The file object in state [s] is at position [p] of a file with content [C], and
    will behave like that for ever. *)
Definition plays {S} (X : exn -> Prop) (src : py_source S) (C : bytes) (s : S) (p : nat) : Prop :=
  exists at_ : S -> nat -> Prop, at_ s p /\
    forall s p size, at_ s p -> (p <= length C)%nat /\
      exists p', file_read X C p size (fst (src_read src s size)) p' /\ at_ (snd (src_read src s size)) p'.

(** A program that reads a file with content [C], from position [p]. *)
Inductive reads {A} (X : exn -> Prop) (C : bytes) : nat -> rio A -> A -> nat -> Prop :=
| Reads_ret : forall p a, reads X C p (RRet a) a p
| Reads_read : forall p n k r p' a p'', file_read X C p n r p' -> reads X C p' (k r) a p'' ->
    reads X C p (RRead n k) a p''.

(** ** Rewinding (C46) *)

(** Operations on a rewindable stream, and what they return. *)
Inductive rw_op := Read (size : Z) | Rewind | DisableRewind.
Definition rw_out : Type := result (option bytes).

(** The bytes of an answer. *)
Definition data_of (r : read_result) : bytes := match r with Ok (Some d) => d | _ => [] end.

(** The source, with a record of all bytes it has returned. *)
Definition logged {S} (src : py_source S) : py_source (S * bytes) :=
  mk_py_source (fun s => src_readable src (fst s))
    (fun s n => let (r, s') := src_read src (fst s) n in (r, (s', snd s ++ data_of r)))
    (fun s => let (r, s') := src_close src (fst s) in (r, (s', snd s))).

(** The bytes returned since the last rewind that succeeded. *)
Fixpoint since_rewind (acc : bytes) (h : list (rw_op * rw_out)) : bytes :=
  match h with
  | [] => acc
  | (Read _, r) :: rest => since_rewind (acc ++ data_of r) rest
  | (Rewind, Ok _) :: rest => since_rewind [] rest
  | (_, _) :: rest => since_rewind acc rest
  end.

Inductive rw_history {S} (src : py_source S) (fuel : nat) : rewindable S -> list (rw_op * rw_out) -> rewindable S -> Prop :=
| RH_nil : forall r, rw_history src fuel r [] r
| RH_read : forall r size x r' h r'', rewindable_read src fuel r size = Some (x, r') ->
    rw_history src fuel r' h r'' -> rw_history src fuel r ((Read size, x) :: h) r''
| RH_rewind : forall r r' h r'', rewindable_rewind r = Ok r' ->
    rw_history src fuel r' h r'' -> rw_history src fuel r ((Rewind, Ok None) :: h) r''
| RH_no_rewind : forall r e h r'', rewindable_rewind r = Err e ->
    rw_history src fuel r h r'' -> rw_history src fuel r ((Rewind, Err e) :: h) r''
| RH_disable : forall r h r'', rw_history src fuel (rewindable_disable_rewind r) h r'' ->
    rw_history src fuel r ((DisableRewind, Ok None) :: h) r''.

(** No read(-1) of the history raised an exception. *)
Definition readalls_return (h : list (rw_op * rw_out)) : Prop :=
  forall size e, In (Read size, Err e) h -> 0 <= size.

(** What the source answers, BlockingIOError being shown as None. *)
Definition unblocked (r : read_result) : read_result :=
  match r with Err (BlockingIOError _) => Ok None | _ => r end.

(** ** Decryption with several keys (C47) *)

(** A stream of one key, used on its own on a file with content [C]: successive reads
    and their results. *)
Inductive stream_history (X : exn -> Prop) (C : bytes) : nat -> live_stream -> list (Z * read_result) -> nat -> live_stream -> Prop :=
| SH_nil : forall p l, stream_history X C p l [] p l
| SH_read : forall p l size r l' p' h p'' l'',
    reads X C p (live_read l size) (r, l') p' ->
    stream_history X C p' l' h p'' l'' ->
    stream_history X C p l ((size, r) :: h) p'' l''.
Definition alone (X : exn -> Prop) (C ad : bytes) (k : raw_streaming_aead) (h : list (Z * read_result)) : Prop :=
  exists o p p' l, reads X C 0 (rsa_new_raw_decrypting_stream k ad) (Ok o) p /\
    stream_history X C p (new_live o) h p' l.

(** What the decrypting stream of a keyset does, if every key has its own copy of the
    file: either no key has matched yet, a stream being tried and the keys [ks] being
    left, or a key has matched. *)
Inductive dstate :=
| Trying (ks : list raw_streaming_aead) (l : live_stream) (p : nat)
| Reading (l : live_stream) (p : nat).

Definition tink_failure (r : read_result) : Prop := exists e, r = Err e /\ is_tink_error e = true.

Inductive dread (X : exn -> Prop) (C ad : bytes) : dstate -> Z -> read_result -> dstate -> Prop :=
| D_zero : forall st, dread X C ad st 0 (Ok (Some [])) st
| D_reading : forall l p size r l' p', size <> 0 ->
    reads X C p (live_read l size) (r, l') p' -> dread X C ad (Reading l p) size r (Reading l' p')
| D_match : forall ks l p size d l' p', size <> 0 ->
    reads X C p (live_read l size) (Ok (Some d), l') p' ->
    dread X C ad (Trying ks l p) size (Ok (Some d)) (Reading l' p')
| D_same : forall ks l p size r l' p', size <> 0 ->
    reads X C p (live_read l size) (r, l') p' -> (forall d, r <> Ok (Some d)) -> ~ tink_failure r ->
    dread X C ad (Trying ks l p) size r (Trying ks l' p')
| D_last : forall l p size r l' p' e, size <> 0 ->
    reads X C p (live_read l size) (r, l') p' -> tink_failure r -> is_tink_error e = true ->
    dread X C ad (Trying [] l p) size (Err e) (Trying [] l' p')
| D_next : forall k ks l p size r l' p' o p2 r2 st, size <> 0 ->
    reads X C p (live_read l size) (r, l') p' -> tink_failure r ->
    reads X C 0 (rsa_new_raw_decrypting_stream k ad) (Ok o) p2 ->
    dread X C ad (Trying ks (new_live o) p2) size r2 st ->
    dread X C ad (Trying (k :: ks) l p) size r2 st
| D_broken : forall k ks l p size r l' p' e p2, size <> 0 ->
    reads X C p (live_read l size) (r, l') p' -> tink_failure r ->
    reads X C 0 (rsa_new_raw_decrypting_stream k ad) (Err e) p2 ->
    dread X C ad (Trying (k :: ks) l p) size (Err e) (Trying ks l' p2).

Inductive dhistory (X : exn -> Prop) (C ad : bytes) : dstate -> list (Z * read_result) -> dstate -> Prop :=
| DH_nil : forall st, dhistory X C ad st [] st
| DH_read : forall st size r st' h st'', dread X C ad st size r st' -> dhistory X C ad st' h st'' ->
    dhistory X C ad st ((size, r) :: h) st''.

(** The reads of a history that are not for 0 bytes; the data returned. *)
Definition proper (h : list (Z * read_result)) : list (Z * read_result) :=
  filter (fun x => negb (fst x =? 0)) h.
Definition data (h : list (Z * read_result)) : bytes := concat (map (fun x => data_of (snd x)) h).
Definition no_data (h : list (Z * read_result)) : Prop := forall size d, ~ In (size, Ok (Some d)) h.

(** No key fails when its stream is made. *)
Definition creation_works (X : exn -> Prop) (C ad : bytes) (k : raw_streaming_aead) : Prop :=
  forall r p, reads X C 0 (rsa_new_raw_decrypting_stream k ad) r p -> exists o, r = Ok o.

(** No read of 0 bytes. *)
Definition nonzero (h : list (Z * read_result)) : Prop := forall size r, In (size, r) h -> size <> 0.
(** The stream of a key ends in a TinkError before it returned any data. *)
Definition rejected (X : exn -> Prop) (C ad : bytes) (k : raw_streaming_aead) : Prop :=
  exists h size r, alone X C ad k (h ++ [(size, r)]) /\ nonzero (h ++ [(size, r)]) /\ no_data h /\ tink_failure r.

(** What a read of the decrypting stream of a keyset with keys [prims] answers, after the
    reads [h]: the answer of the stream of one key [k], which has a copy of the file of
    its own. The keys before [k] have been rejected; either no data was returned so far,
    or all of it is by [k]. *)
Definition starts_with_data (h : list (Z * read_result)) : Prop := exists size d t, h = (size, Ok (Some d)) :: t.

Definition answered (X : exn -> Prop) (C ad : bytes) (prims : list raw_streaming_aead)
    (h : list (Z * read_result)) (size : Z) (r : read_result) : Prop :=
  exists before k after h0 hk h1 r0,
    prims = before ++ k :: after /\ (forall k', In k' before -> rejected X C ad k') /\
    proper h = h0 ++ h1 /\ no_data h0 /\ no_data hk /\ (h1 = [] \/ starts_with_data h1) /\
    alone X C ad k (hk ++ h1 ++ [(size, r0)]) /\ nonzero (hk ++ h1 ++ [(size, r0)]) /\
    (r = r0 /\ (h1 = [] -> ~ tink_failure r) \/
     h1 = [] /\ after = [] /\ tink_failure r0 /\ tink_failure r).

(** A key decrypts [C] to [P]: whatever way the file is read, its stream returns the
    bytes of [P] in order, b'' only after the last one, and no errors. *)
Definition decrypts_to (X : exn -> Prop) (k : raw_streaming_aead) (ad C P : bytes) : Prop :=
  creation_works X C ad k /\
  forall h size r, alone X C ad k (h ++ [(size, r)]) -> nonzero (h ++ [(size, r)]) ->
    match r with
    | Ok (Some []) => data h = P
    | Ok (Some d) => exists rest, P = data h ++ d ++ rest
    | Ok None => True
    | Err _ => False
    end.
(** A key refuses [C]: its stream returns no data, and a TinkError unless it waits for
    data. *)
Definition refuses (X : exn -> Prop) (k : raw_streaming_aead) (ad C : bytes) : Prop :=
  creation_works X C ad k /\
  forall h size r, alone X C ad k (h ++ [(size, r)]) -> nonzero (h ++ [(size, r)]) -> no_data h ->
    r = Ok None \/ tink_failure r.

(** Reads of a wrapped stream in sequence. *)
Inductive wrapper_history {S} (src : py_source S) (fuel : nat)
  : dec_wrapper S -> list (Z * read_result) -> dec_wrapper S -> Prop :=
| WH_nil : forall w, wrapper_history src fuel w [] w
| WH_read : forall w size r w' h w'', dec_wrapper_read src fuel w size = Some (r, w') ->
    wrapper_history src fuel w' h w'' -> wrapper_history src fuel w ((size, r) :: h) w''.

(** ** Closing the decrypting stream (C47) *)

(** Calls of the decrypting stream of a keyset, and what they return; close() returns
    nothing. *)
Inductive stream_call := CallRead (size : Z) | CallClose.
Inductive call_history {S} (src : py_source S) (fuel : nat)
  : dec_wrapper S -> list (stream_call * read_result) -> dec_wrapper S -> Prop :=
| CH_nil : forall w, call_history src fuel w [] w
| CH_read : forall w size x w' h w'', dec_wrapper_read src fuel w size = Some (x, w') ->
    call_history src fuel w' h w'' -> call_history src fuel w ((CallRead size, x) :: h) w''
| CH_close : forall w x w' h w'', dec_wrapper_close src w = (x, w') ->
    call_history src fuel w' h w'' ->
    call_history src fuel w
      ((CallClose, match x with Ok _ => Ok None | Err e => Err e end) :: h) w''.
(** The source as the stream has left it. *)
Definition source_of {S} (w : dec_wrapper S) : S := rw_input_stream (dw_ciphertext_source w).
Definition closed_answer (c : stream_call) (x : read_result) : Prop :=
  match c with
  | CallRead _ => exists m, x = Err (ValueError m)
  | CallClose => x = Ok None
  end.
