(** Interfaces of file objects and raw streams.

    A raw decrypting stream interacts with its ciphertext source only by calling
    read(size) on it; a raw encrypting stream with its destination only by
    write(data), flush-free, and close(). Such interactions are programs of type
    [rio] / [wio]; what the file object answers is not part of the program, so
    theorems can quantify over every behaviour of the file object. *)
From Coq Require Import List NArith ZArith Bool.
From Verif Require Import M_Base.
Import ListNotations.

(** Outcome of [file.read(n)]: bytes, None (no data at the moment), or an
    exception. *)
Definition read_result := result (option bytes).

(** A computation that may call read(size) on one ciphertext source. [RNever] is one
    that has not returned within the number of loop passes that are followed. *)
Inductive rio (A : Type) :=
| RRet (a : A)
| RRead (size : Z) (k : read_result -> rio A)
| RNever.
Arguments RRet {A} _.
Arguments RRead {A} _ _.
Arguments RNever {A}.

Fixpoint rio_bind {A B} (m : rio A) (f : A -> rio B) : rio B :=
  match m with
  | RRet a => f a
  | RRead n k => RRead n (fun r => rio_bind (k r) f)
  | RNever => RNever
  end.

(** Outcome of [file.write(data)]: number of bytes written, None, or an
    exception. *)
Definition write_result := result (option Z).

(** A computation that may call write and close on one destination; [WNever] as
    above. *)
Inductive wio (A : Type) :=
| WRet (a : A)
| WWrite (data : bytes) (k : write_result -> wio A)
| WClose (k : result unit -> wio A)
| WNever.
Arguments WRet {A} _.
Arguments WWrite {A} _ _.
Arguments WClose {A} _.
Arguments WNever {A}.

Fixpoint wio_bind {A B} (m : wio A) (f : A -> wio B) : wio B :=
  match m with
  | WRet a => f a
  | WWrite d k => WWrite d (fun r => wio_bind (k r) f)
  | WClose k => WClose (fun r => wio_bind (k r) f)
  | WNever => WNever
  end.

(** streaming_aead/_raw_streaming_aead.py:72-106: the object returned by
    new_raw_decrypting_stream, as a state machine. *)
Record raw_dec_stream := mk_raw_dec_stream {
  rds_state : Type;
  rds_init : rds_state;
  rds_read : rds_state -> Z -> rio (read_result * rds_state) }.

(** streaming_aead/_raw_streaming_aead.py:35-70: the object returned by
    new_raw_encrypting_stream. *)
Record raw_enc_stream := mk_raw_enc_stream {
  res_state : Type;
  res_init : res_state;
  res_write : res_state -> bytes -> wio (result Z * res_state);
  res_close : res_state -> wio (result unit * res_state) }.

(** streaming_aead/_raw_streaming_aead.py:21 class RawStreamingAead. *)
Record raw_streaming_aead := mk_raw_streaming_aead {
  rsa_new_raw_encrypting_stream : bytes -> wio (result raw_enc_stream);
  rsa_new_raw_decrypting_stream : bytes -> rio (result raw_dec_stream) }.
