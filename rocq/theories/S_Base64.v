(** Specification of base64: characters and bit groups, RFC 4648. *)
From Coq Require Import Strings.Byte Strings.String List NArith Bool.
From Verif Require Import M_Base.
Import ListNotations.
Open Scope list_scope.
Open Scope N_scope.

(** The alphabets, written out. *)
Definition url_alphabet : bytes :=
  blit "ABCDEFGHIJKLMNOPQRSTUVWXYZabcdefghijklmnopqrstuvwxyz0123456789-_".
Definition std_alphabet : bytes :=
  blit "ABCDEFGHIJKLMNOPQRSTUVWXYZabcdefghijklmnopqrstuvwxyz0123456789+/".

(** Bits of a byte string and of a string of digits below 64, most significant
    first. *)
Definition bits (width : nat) (n : N) : list bool :=
  map (fun i => N.testbit n (N.of_nat (width - 1 - i))) (seq 0 width).
Definition bits_of_bytes (x : bytes) : list bool := concat (map (fun b => bits 8 (Byte.to_N b)) x).
Definition bits_of_sextets (l : list N) : list bool := concat (map (bits 6) l).

(** [s] is a base64 text (without padding) of [x] over [alphabet]: the characters
    are digits whose bits are those of [x] followed by fewer than six zero bits. *)
Definition base64_text (alphabet : bytes) (x s : bytes) : Prop :=
  exists (digits : list N) (fill : list bool),
    Forall (fun d => d < 64) digits /\
    s = map (fun d => nth (N.to_nat d) alphabet x00) digits /\
    bits_of_sextets digits = bits_of_bytes x ++ fill /\
    (length fill < 6)%nat /\ Forall (fun b => b = false) fill.
(** As [base64_text], with any value of the unused bits. *)
Definition base64_text_loose (alphabet : bytes) (x s : bytes) : Prop :=
  exists (digits : list N) (fill : list bool),
    Forall (fun d => d < 64) digits /\
    s = map (fun d => nth (N.to_nat d) alphabet x00) digits /\
    bits_of_sextets digits = bits_of_bytes x ++ fill /\
    (length fill < 6)%nat.
