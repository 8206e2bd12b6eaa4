(** streaming_aead/_rewindable_input_stream.py and
    streaming_aead/_streaming_aead_wrapper.py *)
From Coq Require Import Strings.String List NArith ZArith Bool.
From Verif Require Import M_Base M_StreamTypes M_Prims M_PrimitiveSet M_Registry.
Import ListNotations.
Open Scope list_scope.

(** A Python file object used as ciphertext source: its state and its methods
    readable(), read(size) and close(). *)
Record py_source (S : Type) := mk_py_source {
  src_readable : S -> bool;
  src_read : S -> Z -> read_result * S;
  src_close : S -> result unit * S }.
Arguments src_readable {S} _ _.
Arguments src_read {S} _ _ _.
Arguments src_close {S} _ _.
Arguments mk_py_source {S} _ _ _.

(** io.RawIOBase.readall (CPython, Modules/_io/iobase.c): reads of 8192 bytes until
    b'' or None. A call that needs more than [fuel] reads has not returned: [None]. *)
Fixpoint readall {S} (read : S -> Z -> option (read_result * S)) (fuel : nat) (acc : bytes) (s : S)
  : option (read_result * S) :=
  match fuel with
  | O => None
  | Datatypes.S f =>
      match read s 8192%Z with
      | None => None
      | Some (Err e, s') => Some (Err e, s')
      | Some (Ok None, s') => Some (Ok (match acc with [] => None | _ => Some acc end), s')
      | Some (Ok (Some []), s') => Some (Ok (Some acc), s')
      | Some (Ok (Some d), s') => readall read f (acc ++ d) s'
      end
  end.

(** ** _rewindable_input_stream.py *)

(** lines 20-33: the fields of RewindableInputStream. *)
Record rewindable (S : Type) := mk_rewindable {
  rw_input_stream : S;
  rw_buffer : bytes;
  rw_pos : nat;
  rw_rewindable : bool;
  rw_closed : bool }.
Arguments mk_rewindable {S} _ _ _ _ _.
Arguments rw_input_stream {S} _.
Arguments rw_buffer {S} _.
Arguments rw_pos {S} _.
Arguments rw_rewindable {S} _.
Arguments rw_closed {S} _.

Section Rewindable.
  Context {S : Type} (src : py_source S).

  (** lines 26-33 __init__ *)
  Definition rewindable_init (s : S) : result (rewindable S) :=
    if src_readable src s then Ok (mk_rewindable s [] 0 true false)
    else Err (ValueError "input_stream must be readable").

  (** lines 51-73: read with size >= 0 *)
  Definition rewindable_read_some (r : rewindable S) (size : Z) : read_result * rewindable S :=
    if Nat.ltb (rw_pos r) (length (rw_buffer r)) then
      let new_pos := Nat.min (length (rw_buffer r)) (rw_pos r + Z.to_nat size) in
      (Ok (Some (firstn (new_pos - rw_pos r) (skipn (rw_pos r) (rw_buffer r)))),
       mk_rewindable (rw_input_stream r) (rw_buffer r) new_pos (rw_rewindable r) (rw_closed r))
    else
      let drop := negb (rw_rewindable r) && negb (match rw_buffer r with [] => true | _ => false end) in
      let buffer := if drop then [] else rw_buffer r in
      let pos := if drop then O else rw_pos r in
      let (data, s') := src_read src (rw_input_stream r) size in
      let same := mk_rewindable s' buffer pos (rw_rewindable r) (rw_closed r) in
      match data with
      | Err (BlockingIOError _) => (Ok None, same)
      | Err e => (Err e, same)
      | Ok None => (Ok None, same)
      | Ok (Some d) =>
          (Ok (Some d),
           if rw_rewindable r then mk_rewindable s' (buffer ++ d) (pos + length d) true (rw_closed r)
           else same)
      end.
  (** lines 35-73 read. A size of None counts as -1. *)
  Definition rewindable_read (fuel : nat) (r : rewindable S) (size : Z)
    : option (read_result * rewindable S) :=
    if (size <? 0)%Z then readall (fun r n => Some (rewindable_read_some r n)) fuel [] r
    else Some (rewindable_read_some r size).

  (** lines 75-78 *)
  Definition rewindable_rewind (r : rewindable S) : result (rewindable S) :=
    if rw_rewindable r then Ok (mk_rewindable (rw_input_stream r) (rw_buffer r) 0 true (rw_closed r))
    else Err (ValueError "rewind is disabled").
  (** lines 80-81 *)
  Definition rewindable_disable_rewind (r : rewindable S) : rewindable S :=
    mk_rewindable (rw_input_stream r) (rw_buffer r) (rw_pos r) false (rw_closed r).
  (** lines 86-91 *)
  Definition rewindable_close (r : rewindable S) : result unit * rewindable S :=
    if rw_closed r then (Ok tt, r)
    else
      let (x, s') := src_close src (rw_input_stream r) in
      (x, mk_rewindable s' (rw_buffer r) (rw_pos r) (rw_rewindable r)
            (match x with Ok _ => true | Err _ => false end)).
End Rewindable.

(** ** _streaming_aead_wrapper.py *)

(** A program over the source is run by answering its reads. *)
Fixpoint run_rio {S A} (read : S -> Z -> option (read_result * S)) (m : rio A) (s : S) : option (A * S) :=
  match m with
  | RRet a => Some (a, s)
  | RRead n k =>
      match read s n with
      | Some (r, s') => run_rio read (k r) s'
      | None => None
      end
  | RNever => None
  end.

(** A raw decrypting stream object in use. *)
Record live_stream := mk_live { lv_obj : raw_dec_stream; lv_state : rds_state lv_obj }.
Definition new_live (o : raw_dec_stream) : live_stream := mk_live o (rds_init o).
(** [stream.read(size)] *)
Definition live_read (l : live_stream) (size : Z) : rio (read_result * live_stream) :=
  rio_bind (rds_read (lv_obj l) (lv_state l) size) (fun x => RRet (fst x, mk_live (lv_obj l) (snd x))).

(** lines 25-56: the fields of _DecryptingStreamWrapper. *)
Record dec_wrapper (S : Type) := mk_dec_wrapper {
  dw_ciphertext_source : rewindable S;
  dw_associated_data : bytes;
  dw_matching_stream : option live_stream;
  dw_remaining_primitives : list raw_streaming_aead;
  dw_attempting_stream : option live_stream;
  dw_closed : bool }.
Arguments mk_dec_wrapper {S} _ _ _ _ _ _.
Arguments dw_ciphertext_source {S} _.
Arguments dw_associated_data {S} _.
Arguments dw_matching_stream {S} _.
Arguments dw_remaining_primitives {S} _.
Arguments dw_attempting_stream {S} _.
Arguments dw_closed {S} _.

Section DecWrapper.
  Context {S : Type} (src : py_source S) (fuel : nat).
  Notation rw_read := (rewindable_read src fuel).

  (** lines 58-69 _next_decrypting_stream: the primitive is taken off the list before
      it is used. *)
  Definition next_decrypting_stream (prims : list raw_streaming_aead) (ad : bytes) (source : rewindable S)
    : option (result live_stream * list raw_streaming_aead * rewindable S) :=
    match prims with
    | [] => Some (Err (ValueError "No primitive remaining."), [], source)
    | p :: rest =>
        match run_rio rw_read (rsa_new_raw_decrypting_stream p ad) source with
        | None => None
        | Some (Ok o, source') => Some (Ok (new_live o), rest, source')
        | Some (Err e, source') => Some (Err e, rest, source')
        end
    end.

  (** lines 33-56 __init__; [prims] are the primitives of primitive_set.all(), in this
      order. *)
  Definition dec_wrapper_init (prims : list raw_streaming_aead) (s : S) (ad : bytes)
    : option (result (dec_wrapper S)) :=
    if src_readable src s then
      match rewindable_init src s with
      | Err e => Some (Err e)
      | Ok source =>
          match next_decrypting_stream prims ad source with
          | None => None
          | Some (Ok l, rest, source') => Some (Ok (mk_dec_wrapper source' ad None rest (Some l) false))
          | Some (Err e, _, _) => Some (Err e)
          end
      end
    else Some (Err (ValueError "ciphertext_source must be readable")).

  (** lines 93-113: the loop over the keys. [attempting] is the current stream and
      [prims] the remaining primitives. Each pass after the first takes one of them. *)
  Fixpoint attempt_loop (ad : bytes) (closed : bool) (size : Z) (prims : list raw_streaming_aead)
      (attempting : live_stream) (source : rewindable S)
    : option (read_result * dec_wrapper S) :=
    match run_rio rw_read (live_read attempting size) source with
    | None => None
    | Some ((Ok None, a'), source') =>
        Some (Ok None, mk_dec_wrapper source' ad None prims (Some a') closed)
    | Some ((Ok (Some d), a'), source') =>
        Some (Ok (Some d),
              mk_dec_wrapper (rewindable_disable_rewind source') ad (Some a') prims None closed)
    | Some ((Err e, a'), source') =>
        if is_tink_error e then
          match prims with
          | [] => Some (Err (TinkError "No matching key found for the ciphertext in the stream"),
                        mk_dec_wrapper source' ad None [] (Some a') closed)
          | p :: rest =>
              match rewindable_rewind source' with
              | Err e' => Some (Err e', mk_dec_wrapper source' ad None prims (Some a') closed)
              | Ok source2 =>
                  match run_rio rw_read (rsa_new_raw_decrypting_stream p ad) source2 with
                  | None => None
                  | Some (Ok o, source3) => attempt_loop ad closed size rest (new_live o) source3
                  | Some (Err e', source3) =>
                      Some (Err e', mk_dec_wrapper source3 ad None rest (Some a') closed)
                  end
              end
          end
        else Some (Err e, mk_dec_wrapper source' ad None prims (Some a') closed)
    end.

  (** lines 71-113 read. A size of None counts as -1. *)
  Definition dec_wrapper_read (w : dec_wrapper S) (size : Z) : option (read_result * dec_wrapper S) :=
    if dw_closed w then Some (Err (ValueError "read on closed file."), w)
    else if (size =? 0)%Z then Some (Ok (Some []), w)
    else
      match dw_matching_stream w with
      | Some m =>
          match run_rio rw_read (live_read m size) (dw_ciphertext_source w) with
          | None => None
          | Some ((x, m'), source') =>
              Some (x, mk_dec_wrapper source' (dw_associated_data w) (Some m') (dw_remaining_primitives w)
                         (dw_attempting_stream w) (dw_closed w))
          end
      | None =>
          match dw_attempting_stream w with
          | Some a => attempt_loop (dw_associated_data w) (dw_closed w) size (dw_remaining_primitives w) a
                        (dw_ciphertext_source w)
          | None => Some (Err AttributeError, w)
          end
      end.

  (** lines 115-122 readinto(b): [size] is len(b); the result is what is copied into b. *)
  Definition dec_wrapper_readinto (w : dec_wrapper S) (size : nat) : option (read_result * dec_wrapper S) :=
    dec_wrapper_read w (Z.of_nat size).

  (** lines 124-132 close. The raw streams do not close the source
      (close_ciphertext_source=False); marking them closed is not modelled, as they
      cannot be used any more. *)
  Definition dec_wrapper_close (w : dec_wrapper S) : result unit * dec_wrapper S :=
    if dw_closed w then (Ok tt, w)
    else
      let (x, source') := rewindable_close src (dw_ciphertext_source w) in
      (x, mk_dec_wrapper source' (dw_associated_data w) (dw_matching_stream w) (dw_remaining_primitives w)
            (dw_attempting_stream w) (match x with Ok _ => true | Err _ => false end)).
End DecWrapper.

Definition as_raw_streaming_aead (p : prim) : option raw_streaming_aead :=
  match p with PrimRawStreamingAead r => Some r | _ => None end.
Fixpoint all_raw (l : list prim) : list raw_streaming_aead :=
  match l with
  | [] => []
  | p :: r => match as_raw_streaming_aead p with Some x => x :: all_raw r | None => all_raw r end
  end.

(** lines 138-142 _WrappedStreamingAead. The object keeps the primitive of the primary
    key, or the exception raised for it, and all primitives. *)
Definition wrapped_streaming_aead (ps : pset) : prim :=
  PrimStreamingAead (e <- primary ps ;; Ok (e_primitive e)) (map e_primitive (concat (ps_all ps))).
(** lines 157-172 *)
Definition streaming_aead_wrapper : wrapper :=
  mk_wrapper 9 9 ClsStreamingAead ClsRawStreamingAead (fun ps => Ok (wrapped_streaming_aead ps)).
(** lines 144-148 new_encrypting_stream, up to the BufferedWriter. *)
Definition new_encrypting_stream (w : prim) (ad : bytes) : wio (result raw_enc_stream) :=
  match w with
  | PrimStreamingAead (Ok (PrimRawStreamingAead p)) _ => rsa_new_raw_encrypting_stream p ad
  | PrimStreamingAead (Ok _) _ => WRet (Err AttributeError)
  | PrimStreamingAead (Err e) _ => WRet (Err e)
  | _ => WRet (Err AttributeError)
  end.
(** lines 150-154 new_decrypting_stream, up to the BufferedReader. Simplification:
    primitives of another class than RawStreamingAead are left out; the registry does
    not produce them (C24). *)
Definition new_decrypting_stream {S} (src : py_source S) (fuel : nat) (w : prim) (s : S) (ad : bytes)
  : option (result (dec_wrapper S)) :=
  match w with
  | PrimStreamingAead _ l => dec_wrapper_init src fuel (all_raw l) s ad
  | _ => Some (Err AttributeError)
  end.
