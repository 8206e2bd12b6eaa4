(** internal/big_integer_util.py *)
From Coq Require Import Strings.Byte Strings.String List NArith ZArith Bool.
From Verif Require Import M_Base.
Import ListNotations.
Open Scope list_scope.

(** Python's int.bit_length *)
Definition bit_length (n : Z) : N :=
  match n with
  | Z0 => 0
  | Zpos p | Zneg p => N.size (Npos p)
  end.

(** Python's int.to_bytes(length, byteorder='big') *)
Fixpoint be_digits (length : nat) (n : N) : bytes :=
  match length with
  | O => []
  | S l => be_digits l (n / 256)%N ++ [byte_of_N n]
  end.
Definition to_bytes_big (n : Z) (length : N) : result bytes :=
  if (n <? 0)%Z then Err OverflowError
  else if (256 ^ length <=? Z.to_N n)%N then Err OverflowError
  else Ok (be_digits (N.to_nat length) (Z.to_N n)).

(** :17-23 num_to_bytes *)
Definition num_to_bytes (n : Z) : result bytes :=
  if (n <? 0)%Z then Err OverflowError
  else if (n =? 0)%Z then Ok [x00]
  else to_bytes_big n ((bit_length n + 7) / 8)%N.
