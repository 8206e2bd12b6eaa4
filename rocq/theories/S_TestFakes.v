(** Specification of the test doubles. *)
From Coq Require Import Strings.Byte Strings.String List NArith ZArith Bool.
From Verif Require Import M_Base M_Utf8 M_TestFakes.
Import ListNotations.
Open Scope list_scope.

(** [name] is [n] in UTF-8. *)
Definition named (name : pystr) (n : bytes) : Prop := utf8_encode name = Some n.
Definition no_bar (x : bytes) : Prop := ~ In "|"%byte x.
(** TinkError, or the UnicodeDecodeError of a message about bytes that are not UTF-8. *)
Definition refuses {A} (x : bytes) (r : result A) : Prop :=
  match utf8_decode x with
  | Some _ => exists e, r = Err e /\ is_tink_error e = true
  | None => r = Err UnicodeError
  end.

(** The bytes that calls returned. *)
Definition returned (rs : list (result bytes)) : bytes :=
  concat (map (fun r => match r with Ok d => d | Err _ => [] end) rs).
Definition returned_raw (rs : list (result (option bytes))) : bytes :=
  concat (map (fun r => match r with Ok (Some d) => d | _ => [] end) rs).

(** What the reads of a slow stream return, of which [n] for a positive number of bytes
    have been made and which has [rest] left. *)
Inductive slow_answers : N -> bytes -> list (option Z) -> list (result bytes) -> bytes -> Prop :=
| SA_nil : forall n rest, slow_answers n rest [] [] rest
| SA_blocks : forall n rest z l rs rest', (0 < z)%Z -> (n mod 3 = 0)%N ->
    slow_answers (n + 1) rest l rs rest' ->
    slow_answers n rest (Some z :: l) (Err (BlockingIOError 0) :: rs) rest'
| SA_some : forall n d rest z l rs rest', (0 < z)%Z -> (n mod 3 <> 0)%N ->
    (length d <= 5)%nat -> (Z.of_nat (length d) <= z)%Z ->
    (Z.of_nat (length d) = z \/ length d = 5%nat \/ rest = []) ->
    slow_answers (n + 1) rest l rs rest' ->
    slow_answers n (d ++ rest) (Some z :: l) (Ok d :: rs) rest'
| SA_zero : forall n rest l rs rest', slow_answers n rest l rs rest' ->
    slow_answers n rest (Some 0%Z :: l) (Ok [] :: rs) rest'
| SA_all : forall n rest z l rs rest', (forall k, z = Some k -> (k < 0)%Z) ->
    slow_answers n [] l rs rest' ->
    slow_answers n rest (z :: l) (Ok rest :: rs) rest'.
Inductive slow_raw_answers : N -> bytes -> list (result (option bytes)) -> bytes -> Prop :=
| RA_nil : forall n rest, slow_raw_answers n rest [] rest
| RA_none : forall n rest rs rest', (n mod 3 = 0)%N -> slow_raw_answers (n + 1) rest rs rest' ->
    slow_raw_answers n rest (Ok None :: rs) rest'
| RA_some : forall n d rest rs rest', (n mod 3 <> 0)%N -> (length d <= 5)%nat -> (length d = 5%nat \/ rest = []) ->
    slow_raw_answers (n + 1) rest rs rest' -> slow_raw_answers n (d ++ rest) (Ok (Some d) :: rs) rest'.
