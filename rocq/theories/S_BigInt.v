(** Big-endian numbers. *)
From Coq Require Import Strings.Byte List NArith ZArith.
From Verif Require Import M_Base.
Import ListNotations.
Open Scope list_scope.

(** The number written by the bytes, most significant first. *)
Fixpoint big_endian (x : bytes) : Z :=
  match x with
  | [] => 0
  | b :: r => Z.of_N (Byte.to_N b) * 256 ^ Z.of_nat (length r) + big_endian r
  end%Z.
