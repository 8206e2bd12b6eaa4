(** streaming_aead/_decrypting_stream.py: the file object RawDecryptingStream together
    with its source. *)
From Coq Require Import Strings.String List NArith ZArith Bool.
From Verif Require Import M_Base M_StreamTypes M_Stream M_CcStream.
Import ListNotations.
Open Scope list_scope.

(** lines 33-55: the fields, and the [closed] property of io.RawIOBase. *)
Record raw_file (S : Type) := mk_raw_file {
  rf_stream : live_stream;
  rf_source : S;
  rf_close_source : bool;
  rf_closed : bool }.
Arguments mk_raw_file {S} _ _ _ _.
Arguments rf_stream {S} _.
Arguments rf_source {S} _.
Arguments rf_close_source {S} _.
Arguments rf_closed {S} _.

Section RawFile.
  Context {S : Type} (src : py_source S).
  Let read (s : S) (n : Z) : option (read_result * S) := Some (src_read src s n).

  (** lines 33-55 __init__; [None]: it has not returned. *)
  Definition new_raw_file (k : raw_streaming_aead) (s : S) (ad : bytes) (close_source : bool)
    : option (result (raw_file S)) :=
    if src_readable src s then
      match run_rio read (rsa_new_raw_decrypting_stream k ad) s with
      | None => None
      | Some (Ok o, s') => Some (Ok (mk_raw_file (new_live o) s' close_source false))
      | Some (Err e, _) => Some (Err e)
      end
    else Some (Err (ValueError "ciphertext_source must be readable")).
  (** lines 69-102 read *)
  Definition raw_file_read (f : raw_file S) (size : Z) : option (read_result * raw_file S) :=
    if rf_closed f then Some (Err (ValueError "read on closed file."), f)
    else
      match run_rio read (live_read (rf_stream f) size) (rf_source f) with
      | None => None
      | Some ((r, l), s') => Some (r, mk_raw_file l s' (rf_close_source f) false)
      end.
  (** lines 104-120 readinto(b): [size] is len(b); the result is what is copied into b. *)
  Definition raw_file_readinto (f : raw_file S) (size : nat) : option (read_result * raw_file S) :=
    raw_file_read f (Z.of_nat size).
  (** lines 122-128 close *)
  Definition raw_file_close (f : raw_file S) : result unit * raw_file S :=
    if rf_closed f then (Ok tt, f)
    else if rf_close_source f then
      let (x, s') := src_close src (rf_source f) in
      (x, mk_raw_file (rf_stream f) s' true (match x with Ok _ => true | Err _ => false end))
    else (Ok tt, mk_raw_file (rf_stream f) (rf_source f) false true).
End RawFile.
