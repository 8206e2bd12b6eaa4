(** Histories of a RawDecryptingStream (C51). *)
From Coq Require Import List NArith ZArith Bool.
From Verif Require Import M_Base M_StreamTypes M_Stream M_RawFile.
Import ListNotations.
Open Scope list_scope.

(** Operations on the file object, and what they return. *)
Inductive rf_op := FRead (size : Z) | FReadinto (size : nat) | FClose.
Inductive rf_step {S} (src : py_source S) : raw_file S -> rf_op -> read_result -> raw_file S -> Prop :=
| RF_read : forall f size r f', raw_file_read src f size = Some (r, f') -> rf_step src f (FRead size) r f'
| RF_readinto : forall f size r f', raw_file_readinto src f size = Some (r, f') -> rf_step src f (FReadinto size) r f'
| RF_close : forall f f', raw_file_close src f = (Ok tt, f') -> rf_step src f FClose (Ok None) f'
| RF_close_fails : forall f e f', raw_file_close src f = (Err e, f') -> rf_step src f FClose (Err e) f'.
Inductive rf_history {S} (src : py_source S) : raw_file S -> list (rf_op * read_result) -> raw_file S -> Prop :=
| RF_nil : forall f, rf_history src f [] f
| RF_cons : forall f op r f' h f'', rf_step src f op r f' -> rf_history src f' h f'' ->
    rf_history src f ((op, r) :: h) f''.

(** The size asked for by a read; the data returned. *)
Definition asked (op : rf_op) : option Z :=
  match op with FRead n => Some n | FReadinto n => Some (Z.of_nat n) | FClose => None end.
Definition file_data (h : list (rf_op * read_result)) : bytes :=
  concat (map (fun x => match snd x with Ok (Some d) => d | _ => [] end) h).
Definition never_closed (h : list (rf_op * read_result)) : Prop := forall r, ~ In (FClose, r) h.
