(** The keyset writers on an arbitrary stream: _keyset_writer.py with the calls of the
    stream's own methods, which M_KeysetIO and M_JsonKeyset simplify to appending. *)
From Coq Require Import Strings.Byte Strings.String List NArith ZArith Bool.
From Verif Require Import M_Base M_Proto M_Wire M_Prims M_KeysetHandle M_KeysetIO M_JwtTypes
  M_Json M_JsonKeyset.
Import ListNotations.
Open Scope list_scope.

(** The stream given to a keyset writer: a state, write(data) and flush(). The number
    that write returns is left out: the writers ignore it. *)
Record out_stream (A St : Type) := mk_out_stream {
  os_write : list A -> St -> result unit * St;
  os_flush : St -> result unit * St
}.
Arguments mk_out_stream {A St}. Arguments os_write {A St}. Arguments os_flush {A St}.

(** [self._io_stream.write(data); self._io_stream.flush()] *)
Definition write_and_flush {A St} (io : out_stream A St) (data : list A) (st : St)
  : result unit * St :=
  match os_write io data st with
  | (Ok _, st') => os_flush io st'
  | (Err e, st') => (Err e, st')
  end.

(** _keyset_writer.py:67-93 BinaryKeysetWriter. Simplification: the argument always has
    the type that the code checks for. *)
Definition binary_keyset_writer_on {St} (io : out_stream byte St) : keyset_writer St :=
  mk_keyset_writer
    (fun ks st => write_and_flush io (serialize_keyset ks) st)
    (fun ek st => write_and_flush io
       (serialize_encrypted_keyset (mk_encrypted_keyset (ek_encrypted_keyset ek) None)) st).

(** _keyset_writer.py:40-63 JsonKeysetWriter: the text is complete before the stream is
    touched. *)
Definition json_keyset_writer_on {St} (rt : py_rt) (io : out_stream N St) : keyset_writer St :=
  let write js st := match dumps_indent rt 0 js with
                     | Err e => (Err e, st)
                     | Ok t => write_and_flush io t st
                     end in
  mk_keyset_writer
    (fun ks st => write (keyset_json ks) st)
    (fun ek st => write (encrypted_keyset_json ek) st).

(** io.BytesIO and io.StringIO: everything is stored, nothing fails. *)
Definition memory_stream {A} : out_stream A (list A) :=
  mk_out_stream (fun data st => (Ok tt, st ++ data)) (fun st => (Ok tt, st)).
