(** Specification of the modes of operation: CMAC (RFC 4493), counter mode, EAX (Bellare,
    Rogaway, Wagner, "The EAX mode of operation") and SIV (RFC 5297). [E] is a block
    cipher with a key. *)
From Coq Require Import Strings.Byte Strings.String List NArith ZArith Bool.
From Verif Require Import M_Base.
Import ListNotations.
Open Scope list_scope.
Open Scope nat_scope.

Definition block_cipher (E : bytes -> bytes) : Prop := forall x, length x = 16 -> length (E x) = 16.
(** Blocks as numbers of 128 bits, the first byte being the most significant one *)
Definition num (b : bytes) : N := fold_left (fun n c => (n * 256 + Byte.to_N c)%N) b 0%N.
Fixpoint be_bytes (k : nat) (n : N) : bytes :=
  match k with O => [] | S k => be_bytes k (n / 256) ++ [byte_of_N n] end.
Definition block_of (n : N) : bytes := be_bytes 16 n.
Definition zero_block : bytes := repeat x00 16.
(** The exclusive or of strings of the same length *)
Definition xors (a b : bytes) : bytes :=
  map (fun p => byte_of_N (N.lxor (Byte.to_N (fst p)) (Byte.to_N (snd p)))) (combine a b).
(** The product with x in GF(2)[x]/(x^128 + x^7 + x^2 + x + 1) *)
Definition dbl (b : bytes) : bytes :=
  block_of (N.lxor ((2 * num b) mod 2 ^ 128) (if (num b <? 2 ^ 127)%N then 0 else 135)).

(** CMAC. The message is cut into blocks of which only the last may be incomplete, and
    only the one of an empty message is empty. *)
Definition pad (last : bytes) : bytes := last ++ x80 :: repeat x00 (15 - length last).
Definition cbc (E : bytes -> bytes) (blocks : list bytes) : bytes := fold_left (fun x m => E (xors x m)) blocks zero_block.
Definition cmac (E : bytes -> bytes) (M T : bytes) : Prop :=
  exists full last, M = concat full ++ last /\ Forall (fun b => length b = 16) full /\
    length last <= 16 /\ (last = [] -> full = []) /\
    let k1 := dbl (E zero_block) in
    let k2 := dbl k1 in
    T = E (xors (cbc E full) (if Nat.eqb (length last) 16 then xors last k1 else xors (pad last) k2)).
(** Counter mode *)
Definition ctr_mode (E : bytes -> bytes) (iv P C : bytes) : Prop :=
  length C = length P /\
  forall i, i < length P ->
    [nth i C x00] = xors [nth i P x00] [nth (i mod 16) (E (block_of (num iv + N.of_nat (i / 16)))) x00].

(** EAX with tags of 16 bytes, behind the nonce *)
Definition eax_ciphertext (E : bytes -> bytes) (nonce ad P C : bytes) : Prop :=
  exists n h c t,
    cmac E (block_of 0 ++ nonce) n /\ cmac E (block_of 1 ++ ad) h /\
    ctr_mode E n P c /\ cmac E (block_of 2 ++ c) t /\
    C = nonce ++ c ++ xors (xors n h) t.

(** SIV with one string of associated data *)
Definition s2v (E : bytes -> bytes) (ad P V : bytes) : Prop :=
  exists z a, cmac E zero_block z /\ cmac E ad a /\
    let d := xors (dbl z) a in
    cmac E (if Nat.leb 16 (length P)
            then firstn (length P - 16) P ++ xors (skipn (length P - 16) P) d
            else xors (dbl d) (pad P)) V.
Definition siv_ciphertext (E1 E2 : bytes -> bytes) (ad P C : bytes) : Prop :=
  exists v c, s2v E1 ad P v /\ ctr_mode E2 (block_of (N.ldiff (num v) (2 ^ 63 + 2 ^ 31))) P c /\ C = v ++ c.

(** AES: a block cipher for every key of a size that it has *)
Definition aes_law (aes : bytes -> bytes -> bytes) : Prop :=
  forall key, In (length key) [16; 24; 32] -> block_cipher (aes key).
(** Messages and associated data that AES-EAX in C++ is defined for *)
Definition eax_sizes (P ad : bytes) : Prop :=
  (N.of_nat (length P) <= 2 ^ 31)%N /\ (N.of_nat (length ad) <= 2 ^ 31)%N.
