(** _keyset_reader.py and _keyset_writer.py (binary), _proto_keyset_format.py.
    The JSON reader and writer are in M_JsonKeyset. *)
From Coq Require Import Strings.Byte Strings.String List NArith ZArith Bool.
From Verif Require Import M_Base M_Proto M_Wire M_Prims M_PrimitiveSet M_Registry
  M_KeysetHandle.
Import ListNotations.
Open Scope list_scope.
Open Scope Z_scope.

(** [except message.DecodeError as e: raise core.TinkError(e)] *)
Definition decode_error_to_tink {A} (r : result A) : result A :=
  except_decode_error r (TinkError "DecodeError").

(** _keyset_reader.py:64-85 BinaryKeysetReader *)
Definition binary_keyset_reader (serialized_keyset : bytes) : keyset_reader :=
  mk_keyset_reader
    (match serialized_keyset with
     | [] => Err (TinkError "No keyset found")
     | _ => decode_error_to_tink (keyset_from_string serialized_keyset)
     end)
    (match serialized_keyset with
     | [] => Err (TinkError "No keyset found")
     | _ => decode_error_to_tink (encrypted_keyset_from_string serialized_keyset)
     end).

(** _keyset_writer.py:68-93 BinaryKeysetWriter on a stream whose content is the
    state. Simplification: the stream's own write and flush do not raise. *)
Definition binary_keyset_writer : keyset_writer bytes :=
  mk_keyset_writer
    (fun ks st => (Ok tt, st ++ serialize_keyset ks))
    (fun ek st =>
       (Ok tt, st ++ serialize_encrypted_keyset
                       (mk_encrypted_keyset (ek_encrypted_keyset ek) None))).

(** _proto_keyset_format.py:25-30 *)
Definition proto_parse (x : bytes) (t : token) : result keyset_handle :=
  ks <- kr_read (binary_keyset_reader x) ;; from_proto_keyset ks t.

(** io.BytesIO() ; writer ; getvalue() *)
Definition getvalue (r : result unit * bytes) : result bytes :=
  match r with (Ok _, st) => Ok st | (Err e, _) => Err e end.

(** _proto_keyset_format.py:33-40 *)
Definition proto_serialize (h : keyset_handle) (t : token) : result bytes :=
  ks <- to_proto_keyset h t ;;
  getvalue (kw_write binary_keyset_writer ks []).

(** _proto_keyset_format.py:43-49 *)
Definition proto_parse_without_secret (x : bytes) : result keyset_handle :=
  read_no_secret_keyset_handle (binary_keyset_reader x).

(** _proto_keyset_format.py:52-59 *)
Definition proto_serialize_without_secret (h : keyset_handle) : result bytes :=
  getvalue (write_no_secret h binary_keyset_writer []).

(** _proto_keyset_format.py:62-72 *)
Definition proto_parse_encrypted (x : bytes) (a : aead) (ad : bytes) : result keyset_handle :=
  read_keyset_handle_with_associated_data (binary_keyset_reader x) a ad.

(** _proto_keyset_format.py:75-88 *)
Definition proto_serialize_encrypted (h : keyset_handle) (a : aead) (rnd : coins) (ad : bytes)
  : result bytes :=
  getvalue (write_with_associated_data h binary_keyset_writer a rnd ad []).
