(** AES (FIPS 197), for keys of 16 and 32 bytes: a block cipher for the examples. *)
From Coq Require Import Strings.Byte Strings.String List NArith ZArith Bool Lia.
From Verif Require Import M_Base M_CcModes S_CcModes.
Import ListNotations.
Open Scope list_scope.
Open Scope nat_scope.

Definition sbox : list byte :=
  [x63; x7c; x77; x7b; xf2; x6b; x6f; xc5; x30; x01; x67; x2b; xfe; xd7; xab; x76;
   xca; x82; xc9; x7d; xfa; x59; x47; xf0; xad; xd4; xa2; xaf; x9c; xa4; x72; xc0;
   xb7; xfd; x93; x26; x36; x3f; xf7; xcc; x34; xa5; xe5; xf1; x71; xd8; x31; x15;
   x04; xc7; x23; xc3; x18; x96; x05; x9a; x07; x12; x80; xe2; xeb; x27; xb2; x75;
   x09; x83; x2c; x1a; x1b; x6e; x5a; xa0; x52; x3b; xd6; xb3; x29; xe3; x2f; x84;
   x53; xd1; x00; xed; x20; xfc; xb1; x5b; x6a; xcb; xbe; x39; x4a; x4c; x58; xcf;
   xd0; xef; xaa; xfb; x43; x4d; x33; x85; x45; xf9; x02; x7f; x50; x3c; x9f; xa8;
   x51; xa3; x40; x8f; x92; x9d; x38; xf5; xbc; xb6; xda; x21; x10; xff; xf3; xd2;
   xcd; x0c; x13; xec; x5f; x97; x44; x17; xc4; xa7; x7e; x3d; x64; x5d; x19; x73;
   x60; x81; x4f; xdc; x22; x2a; x90; x88; x46; xee; xb8; x14; xde; x5e; x0b; xdb;
   xe0; x32; x3a; x0a; x49; x06; x24; x5c; xc2; xd3; xac; x62; x91; x95; xe4; x79;
   xe7; xc8; x37; x6d; x8d; xd5; x4e; xa9; x6c; x56; xf4; xea; x65; x7a; xae; x08;
   xba; x78; x25; x2e; x1c; xa6; xb4; xc6; xe8; xdd; x74; x1f; x4b; xbd; x8b; x8a;
   x70; x3e; xb5; x66; x48; x03; xf6; x0e; x61; x35; x57; xb9; x86; xc1; x1d; x9e;
   xe1; xf8; x98; x11; x69; xd9; x8e; x94; x9b; x1e; x87; xe9; xce; x55; x28; xdf;
   x8c; xa1; x89; x0d; xbf; xe6; x42; x68; x41; x99; x2d; x0f; xb0; x54; xbb; x16].
Definition sub (a : byte) : byte := nth (N.to_nat (Byte.to_N a)) sbox x00.
Definition xtime (a : byte) : byte :=
  let d := byte_of_N (2 * Byte.to_N a) in if (Byte.to_N a <? 128)%N then d else xor_byte d x1b.
(** The key schedule: words of 4 bytes, the last one first *)
Fixpoint expand (nk steps i : nat) (rcon : byte) (w : list bytes) : list bytes :=
  match steps with
  | O => w
  | S steps =>
      let prev := hd [] w in
      let back := nth (nk - 1) w [] in
      let first := Nat.eqb (i mod nk) 0 in
      let t :=
        if first then
          match map sub prev with a :: b => match b ++ [a] with c :: d => xor_byte c rcon :: d | [] => [] end | [] => [] end
        else if (Nat.ltb 6 nk && Nat.eqb (i mod nk) 4)%bool then map sub prev else prev in
      expand nk steps (S i) (if first then xtime rcon else rcon) (xor_bytes back t :: w)
  end.
Fixpoint words (l : bytes) : list bytes :=
  match l with a :: b :: c :: d :: r => [a; b; c; d] :: words r | _ => [] end.
Definition round_keys (key : bytes) : list bytes :=
  let nk := length key / 4 in
  let n := 4 * (nk + 7) in
  map (@concat byte) ((fix four (l : list bytes) := match l with a :: b :: c :: d :: r => [a; b; c; d] :: four r | _ => [] end)
    (rev (expand nk (n - nk) nk x01 (rev (words key))))).
Definition shift_rows (s : bytes) : bytes := map (fun i => nth ((i + 4 * (i mod 4)) mod 16) s x00) (seq 0 16).
Definition mix_column (c : bytes) : bytes :=
  match c with
  | [a; b; c; d] =>
      let m x y z t := xor_byte (xor_byte (xtime x) (xor_byte (xtime y) y)) (xor_byte z t) in
      [m a b c d; m b c d a; m c d a b; m d a b c]
  | _ => c
  end.
Fixpoint rounds (s : bytes) (ks : list bytes) : bytes :=
  match ks with
  | [] => s
  | [k] => xor_bytes (shift_rows (map sub s)) k
  | k :: ks => rounds (xor_bytes (concat (map mix_column (words (shift_rows (map sub s))))) k) ks
  end.
(** A result of any length but 16 could only come from keys of other lengths. *)
Definition aes (key block : bytes) : bytes :=
  match round_keys key with
  | k :: ks => let r := rounds (xor_bytes block k) ks in firstn 16 (r ++ repeat x00 16)
  | [] => repeat x00 16
  end.
Lemma aes_block_cipher : forall key, block_cipher (aes key).
Proof.
  intros key x _. unfold aes. destruct (round_keys key) as [| k ks]; [reflexivity |].
  rewrite firstn_length, app_length, repeat_length. lia.
Qed.
Definition hex_digit (c : byte) : N :=
  let n := Byte.to_N c in if (n <? 58)%N then (n - 48)%N else (n - 87)%N.
Fixpoint hex_bytes (l : bytes) : bytes :=
  match l with a :: b :: r => byte_of_N (16 * hex_digit a + hex_digit b) :: hex_bytes r | _ => [] end.
Definition hex (s : string) : bytes := hex_bytes (list_byte_of_string s).
