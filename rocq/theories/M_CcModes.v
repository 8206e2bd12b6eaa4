(** AES-EAX and AES-SIV, whose modes of operation are written out in C++:
    /repo/cc/subtle/aes_eax_boringssl.{h,cc}, aes_siv_boringssl.{h,cc}.

    AES_encrypt of BoringSSL is an argument, a function of the key and a block; blocks are
    byte strings of length 16. Not modelled: FIPS mode, null pointers, failing allocations,
    overflows of size_t. *)
From Coq Require Import Strings.Byte Strings.String List NArith ZArith Bool.
From Verif Require Import M_Base M_Prims M_StreamTypes M_CcStream M_CcManagers.
Import ListNotations.
Open Scope string_scope.
Open Scope list_scope.

Definition kBlockSize : nat := 16.
Definition kTagSize : nat := 16.
(** ^ of uint8_t *)
Definition xor_byte (a b : byte) : byte := byte_of_N (N.lxor (Byte.to_N a) (Byte.to_N b)).

(** ** BoringSSL: AES_set_encrypt_key and AES_ctr128_encrypt *)
Definition aes_key_size_ok (n : nat) : bool := (Nat.eqb n 16 || Nat.eqb n 24 || Nat.eqb n 32)%bool.
(** The counter is a big-endian number that wraps. *)
Fixpoint increment_le (c : bytes) : bytes :=
  match c with
  | [] => []
  | x :: r => if Byte.eqb x xff then x00 :: increment_le r else byte_of_N (Byte.to_N x + 1) :: r
  end.
Definition increment (iv : bytes) : bytes := rev (increment_le (rev iv)).
(** [num]: the bytes of [ecount_buf] that have been used *)
Fixpoint aes_ctr128 (E : bytes -> bytes) (iv ecount_buf : bytes) (num : nat) (data : bytes) : bytes :=
  match data with
  | [] => []
  | c :: r =>
      let fresh := Nat.eqb num 0 in
      let ecount_buf := if fresh then E iv else ecount_buf in
      let iv := if fresh then increment iv else iv in
      xor_byte c (nth num ecount_buf x00) :: aes_ctr128 E iv ecount_buf (Nat.modulo (num + 1) 16) r
  end.
(** cc/internal/aes_util.cc:40-74 AesCtr128Crypt. The callers give it disjoint buffers of
    sufficient size. *)
Definition AesCtr128Crypt (E : bytes -> bytes) (data iv : bytes) : bytes := aes_ctr128 E iv (repeat x00 16) 0 data.

(** ** AES-EAX *)

(** uint64_t. aes_eax_boringssl.cc:53-61 Load64, Store64, on a little-endian machine *)
Definition u64 (n : N) : N := (n mod 18446744073709551616)%N.
Fixpoint load_le (src : bytes) : N :=
  match src with [] => 0%N | c :: r => (Byte.to_N c + 256 * load_le r)%N end.
Fixpoint store_le (k : nat) (v : N) : bytes :=
  match k with O => [] | S k => byte_of_N v :: store_le k (v / 256) end.
Definition Load64 (src : bytes) : N := load_le (firstn 8 src).
Definition Store64 (v : N) : bytes := store_le 8 v.
(** lines 63-68; no bits are lost in the shifts to the left *)
Definition ByteSwap (val : N) : N :=
  let val := N.lor (N.shiftr (N.land val 0xffffffff00000000) 32) (N.shiftl (N.land val 0x00000000ffffffff) 32) in
  let val := N.lor (N.shiftr (N.land val 0xffff0000ffff0000) 16) (N.shiftl (N.land val 0x0000ffff0000ffff) 16) in
  N.lor (N.shiftr (N.land val 0xff00ff00ff00ff00) 8) (N.shiftl (N.land val 0x00ff00ff00ff00ff) 8).
(** lines 70-88 *)
Definition BigEndianLoad64 (src : bytes) : N := ByteSwap (Load64 src).
Definition BigEndianStore64 (val : N) : bytes := Store64 (ByteSwap val).

(** lines 104-109 XorBlock: the new [y] *)
Definition eax_xor_block (x y : bytes) : bytes :=
  Store64 (N.lxor (Load64 x) (Load64 y)) ++ Store64 (N.lxor (Load64 (skipn 8 x)) (Load64 (skipn 8 y))).
(** lines 111-122 MultiplyByX *)
Definition eax_multiply_by_x (in_ : bytes) : bytes :=
  let in_high := BigEndianLoad64 in_ in
  let in_low := BigEndianLoad64 (skipn 8 in_) in
  let out_high := N.lxor (u64 (N.shiftl in_high 1)) (N.shiftr in_low 63) in
  let out_low :=
    N.lxor (u64 (N.shiftl in_low 1)) (N.land 0x87 (u64 (18446744073709551616 - N.shiftr in_high 63))) in
  BigEndianStore64 out_high ++ BigEndianStore64 out_low.
(** lines 124-129 EqualBlocks *)
Definition eax_equal_blocks (x y : bytes) : bool :=
  N.eqb (N.lor (N.lxor (Load64 x) (Load64 y)) (N.lxor (Load64 (skipn 8 x)) (Load64 (skipn 8 y)))) 0.

Section Eax.
  (** AES with the key *)
  Variable E : bytes -> bytes.
  (** lines 139-144 ComputeB, 146-150 ComputeP *)
  Definition eax_B : bytes := eax_multiply_by_x (E (repeat x00 kBlockSize)).
  Definition eax_P : bytes := eax_multiply_by_x eax_B.
  (** lines 175-190 Pad *)
  Definition eax_pad (data : bytes) : bytes :=
    let padded_block := data ++ repeat x00 (kBlockSize - length data) in
    if Nat.eqb (length data) kBlockSize then eax_xor_block eax_B padded_block
    else eax_xor_block eax_P (firstn (length data) padded_block ++ [x80] ++ skipn (length data + 1) padded_block).
  (** lines 200-228 Omac, for data of at most 2^31 bytes: [int idx] overflows for longer
      ones. [data] is what is behind [idx]; [fuel] is its length. *)
  Fixpoint omac_loop (fuel : nat) (mac data : bytes) : bytes :=
    match fuel with
    | O => E (eax_xor_block (eax_pad data) mac)
    | S f =>
        if Nat.ltb kBlockSize (length data)
        then omac_loop f (E (eax_xor_block (firstn kBlockSize data) mac)) (skipn kBlockSize data)
        else E (eax_xor_block (eax_pad data) mac)
    end.
  Definition eax_omac (data : bytes) (tag : byte) : bytes :=
    let mac := repeat x00 15 ++ [tag] in
    match data with
    | [] => E (eax_xor_block eax_B mac)
    | _ => omac_loop (length data) (E mac) data
    end.
  (** The signed overflow in Omac *)
  Definition omac_defined (data : bytes) : bool := (N.of_nat (length data) <=? 2147483648)%N.

  (** lines 230-268 CtrCrypt, Encrypt *)
  Definition eax_encrypt (nonce plaintext associated_data : bytes) : st_or bytes :=
    if negb (omac_defined associated_data && omac_defined plaintext) then StErr Undefined
    else
      let N := eax_omac nonce x00 in
      let H := eax_omac associated_data x01 in
      let ct := AesCtr128Crypt E plaintext N in
      let mac := eax_omac ct x02 in
      let mac := eax_xor_block N mac in
      let mac := eax_xor_block H mac in
      StOk (nonce ++ ct ++ firstn kTagSize mac).
  (** lines 270-305 Decrypt *)
  Definition eax_decrypt (nonce_size : nat) (ciphertext associated_data : bytes) : st_or bytes :=
    let ct_size := length ciphertext in
    if Nat.ltb ct_size (nonce_size + kTagSize) then StErr (NotOk "Ciphertext too short")
    else
      let out_size := (ct_size - kTagSize - nonce_size)%nat in
      let nonce := firstn nonce_size ciphertext in
      let encrypted := firstn out_size (skipn nonce_size ciphertext) in
      let tag := skipn (ct_size - kTagSize) ciphertext in
      if negb (omac_defined associated_data && omac_defined encrypted) then StErr Undefined
      else
        let N := eax_omac nonce x00 in
        let H := eax_omac associated_data x01 in
        let mac := eax_omac encrypted x02 in
        let mac := eax_xor_block N mac in
        let mac := eax_xor_block H mac in
        if negb (eax_equal_blocks mac tag) then StErr (NotOk "Tag mismatch")
        else StOk (AesCtr128Crypt E encrypted N).
End Eax.

(** lines 131-137 IsValidKeySize, IsValidNonceSize; 152-173 New, 90-100 InitAesKey.
    [random rnd n]: n random bytes. *)
Definition aes_eax_new (aes : bytes -> bytes -> bytes) (random : coins -> Z -> bytes) (key : bytes) (nonce_size : nat)
  : st_or cc_aead :=
  if negb (Nat.eqb (length key) 16 || Nat.eqb (length key) 32) then StErr (NotOk "Invalid key size")
  else if negb (Nat.eqb nonce_size 12 || Nat.eqb nonce_size 16) then StErr (NotOk "Invalid nonce size")
  else if negb (aes_key_size_ok (length key)) then StErr (NotOk "Invalid key value")
  else
    StOk (mk_cc_aead
      (fun rnd plaintext associated_data =>
         eax_encrypt (aes key) (random rnd (Z.of_nat nonce_size)) plaintext associated_data)
      (eax_decrypt (aes key) nonce_size)).

(** ** AES-SIV *)

(** aes_siv_boringssl.cc:114-120 XorBlock *)
Fixpoint xor_bytes (x y : bytes) : bytes :=
  match x, y with a :: x, b :: y => xor_byte a b :: xor_bytes x y | _, _ => [] end.
(** << and >> of uint8_t *)
Definition shl1 (a : byte) : byte := byte_of_N (2 * Byte.to_N a).
Definition shr7 (a : byte) : byte := byte_of_N (Byte.to_N a / 128).
Definition or_byte (a b : byte) : byte := byte_of_N (N.lor (Byte.to_N a) (Byte.to_N b)).
(** lines 103-111 MultiplyByX *)
Fixpoint siv_shift (carry : byte) (block : bytes) : bytes :=
  match block with
  | [] => []
  | [a] => [xor_byte (shl1 a) carry]
  | a :: (b :: _) as r => or_byte (shl1 a) (shr7 b) :: siv_shift carry r
  end.
Definition siv_multiply_by_x (block : bytes) : bytes :=
  siv_shift (if Byte.eqb (shr7 (hd x00 block)) x00 then x00 else x87) block.
(** [for j < length(y): block[start + j] ^= y[j]] *)
Definition xor_at (start : nat) (block y : bytes) : bytes :=
  firstn start block ++ xor_bytes (firstn (length y) (skipn start block)) y ++ skipn (start + length y) block.

Section Siv.
  (** AES with the first half of the key *)
  Variable E : bytes -> bytes.
  (** lines 84-89 ComputeCmacK1, 91-95 ComputeCmacK2 *)
  Definition siv_k1 : bytes := siv_multiply_by_x (E (repeat x00 kBlockSize)).
  Definition siv_k2 : bytes := siv_multiply_by_x siv_k1.
  (** [for (idx = 0; idx < last_block_idx; idx += kBlockSize)] in lines 130-133 *)
  Fixpoint cmac_loop (n : nat) (block data : bytes) : bytes :=
    match n with
    | O => block
    | S n => cmac_loop n (E (xor_bytes block (firstn kBlockSize data))) (skipn kBlockSize data)
    end.
  (** lines 122-144 Cmac *)
  Definition siv_cmac (data : bytes) : bytes :=
    let blocks := Nat.max 1 (Nat.div (length data + kBlockSize - 1) kBlockSize) in
    let last_block_idx := (kBlockSize * (blocks - 1))%nat in
    let last_block_size := (length data - last_block_idx)%nat in
    let block := cmac_loop (blocks - 1) (repeat x00 kBlockSize) data in
    let block := xor_at 0 block (skipn last_block_idx data) in
    let block :=
      if Nat.eqb last_block_size kBlockSize then xor_bytes block siv_k1
      else xor_bytes (xor_at last_block_size block [x80]) siv_k2 in
    E block.
  (** [while (kBlockSize <= data.size() - idx)] in lines 153-157; [data] is what is behind
      [idx], and what remains is returned *)
  Fixpoint cmac_long_loop (fuel : nat) (block data : bytes) : bytes * bytes :=
    match fuel with
    | O => (block, data)
    | S f =>
        if Nat.leb kBlockSize (length data)
        then cmac_long_loop f (xor_bytes (E block) (firstn kBlockSize data)) (skipn kBlockSize data)
        else (block, data)
    end.
  (** lines 147-174 CmacLong; [data] has at least 16 bytes *)
  Definition siv_cmac_long (data last : bytes) : bytes :=
    let (block, rest) := cmac_long_loop (length data) (firstn kBlockSize data) (skipn kBlockSize data) in
    let remaining := length rest in
    let block := xor_at remaining block (firstn (kBlockSize - remaining) last) in
    let block :=
      if Nat.eqb remaining 0 then xor_bytes block siv_k1
      else
        let block := E block in
        let block := xor_at 0 block (skipn (kBlockSize - remaining) last) in
        let block := xor_at 0 block rest in
        let block := xor_at remaining block [x80] in
        xor_bytes block siv_k2 in
    E block.
  (** lines 176-199 S2v *)
  Definition siv_s2v (aad msg : bytes) : bytes :=
    let block := siv_multiply_by_x (siv_cmac (repeat x00 kBlockSize)) in
    let block := xor_bytes block (siv_cmac aad) in
    if Nat.leb kBlockSize (length msg) then siv_cmac_long msg block
    else
      let block := siv_multiply_by_x block in
      let block := xor_at 0 block msg in
      let block := xor_at (length msg) block [x80] in
      siv_cmac block.
End Siv.

(** [x & 0x7f] *)
Definition and_7f (a : byte) : byte := byte_of_N (N.land (Byte.to_N a) 0x7f).
Definition and_at (start : nat) (iv : bytes) : bytes :=
  firstn start iv ++ and_7f (nth start iv x00) :: skipn (start + 1) iv.
(** lines 201-210 AesCtrCrypt *)
Definition siv_ctr (E2 : bytes -> bytes) (in_ siv : bytes) : bytes :=
  AesCtr128Crypt E2 in_ (and_at 12 (and_at 8 siv)).
(** lines 212-232 EncryptDeterministically *)
Definition siv_encrypt (E E2 : bytes -> bytes) (plaintext associated_data : bytes) : st_or bytes :=
  let siv := siv_s2v E associated_data plaintext in
  StOk (siv ++ siv_ctr E2 plaintext siv).
(** lines 234-261 DecryptDeterministically *)
Definition siv_decrypt (E E2 : bytes -> bytes) (ciphertext associated_data : bytes) : st_or bytes :=
  if Nat.ltb (length ciphertext) kBlockSize then StErr (NotOk "ciphertext too short")
  else
    let siv := firstn kBlockSize ciphertext in
    let plaintext := siv_ctr E2 (skipn kBlockSize ciphertext) siv in
    let s2v := siv_s2v E associated_data plaintext in
    if negb (bytes_eqb siv s2v) then StErr (NotOk "invalid ciphertext") else StOk plaintext.
(** lines 48-57 InitializeAesKey, 62-82 New; aes_siv_boringssl.h:75 *)
Definition aes_siv_new (aes : bytes -> bytes -> bytes) (key : bytes) : st_or cc_daead :=
  if negb (Nat.eqb (length key) 64) then StErr (NotOk "invalid key size")
  else
    let k1 := firstn (Nat.div (length key) 2) key in
    let k2 := skipn (Nat.div (length key) 2) key in
    if negb (aes_key_size_ok (length k1)) then StErr (NotOk "could not initialize aes key")
    else if negb (aes_key_size_ok (length k2)) then StErr (NotOk "could not initialize aes key")
    else StOk (mk_cc_daead (siv_encrypt (aes k1) (aes k2)) (siv_decrypt (aes k1) (aes k2))).
