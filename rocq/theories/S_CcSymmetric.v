(** Specification of the symmetric primitives: the laws of the cryptography, and what
    ciphertexts, tags and pseudorandom outputs look like. *)
From Coq Require Import Strings.Byte Strings.String List NArith ZArith Bool.
From Verif Require Import M_Base M_Prims M_StreamTypes M_CcStream M_CcManagers M_CcAes M_CcSymmetric S_CcAes S_CcModes.
Import ListNotations.
Open Scope list_scope.
Open Scope nat_scope.

(** ** The cryptography *)
Definition alg_key_sizes (alg : evp_aead) : list nat := match alg with XChaCha20Poly1305 => [32] | _ => [16; 32] end.
Definition alg_nonce_size (alg : evp_aead) : nat := match alg with XChaCha20Poly1305 => 24 | _ => 12 end.
(** Sizes that all of the three ciphers take *)
Definition aead_sizes (P ad : bytes) : Prop := (N.of_nat (length P) <= 2 ^ 36 - 32)%N /\ (N.of_nat (length ad) < 2 ^ 61)%N.
(** Sealing adds 16 bytes, and exactly what has been sealed can be opened, with the same
    nonce and associated data. *)
Definition aead_law (lib : crypto) (alg : evp_aead) : Prop :=
  forall key nonce ad, In (length key) (alg_key_sizes alg) -> length nonce = alg_nonce_size alg ->
    (forall P, aead_sizes P ad -> exists C, evp_seal lib alg key nonce P ad = Some C) /\
    (forall P C, evp_seal lib alg key nonce P ad = Some C -> length C = length P + 16) /\
    (forall P C, evp_open lib alg key nonce C ad = Some P <-> evp_seal lib alg key nonce P ad = Some C).
Definition hmac_size_law (lib : crypto) : Prop := forall h key data, length (evp_hmac lib h key data) = hash_size h.
Definition cmac_law (lib : crypto) : Prop :=
  forall key data, In (length key) [16; 32] -> cmac (aes_encrypt lib key) data (evp_cmac lib key data).
Definition crypto_laws (lib : crypto) : Prop :=
  aes_law (aes_encrypt lib) /\ (forall alg, aead_law lib alg) /\ hmac_size_law lib /\ cmac_law lib.

(** ** Ciphertexts *)

(** The object for a key *)
Definition one_shot_new (lib : crypto) (random : coins -> Z -> bytes) (alg : evp_aead) : bytes -> st_or cc_aead :=
  match alg with
  | AesGcm => aes_gcm_new lib random
  | AesGcmSiv => aes_gcm_siv_new lib random
  | XChaCha20Poly1305 => xchacha20_poly1305_new lib random
  end.
(** The nonce, and what has been sealed with it *)
Definition sealed_ciphertext (lib : crypto) (alg : evp_aead) (key nonce ad P C : bytes) : Prop :=
  exists c, evp_seal lib alg key nonce P ad = Some c /\ C = nonce ++ c.
(** AES-CTR with HMAC: the IV, the plaintext in counter mode from IV and zeros on, and the
    tag of the associated data, of all that, and of the number of bits of associated data *)
Record ctr_hmac_key := mk_ctr_hmac_key {
  aes_key : bytes; iv_size : nat; hmac_key : bytes; hmac_hash : hash_type; hmac_tag_size : nat }.
Definition authenticated (ad payload : bytes) : bytes := ad ++ payload ++ be_bytes 8 (8 * N.of_nat (length ad)).
Definition ctr_then_hmac (lib : crypto) (k : ctr_hmac_key) (iv ad P C : bytes) : Prop :=
  exists c, ctr_mode (aes_encrypt lib (aes_key k)) (iv ++ repeat x00 (16 - length iv)) P c /\
    C = iv ++ c ++ firstn (hmac_tag_size k) (evp_hmac lib (hmac_hash k) (hmac_key k) (authenticated ad (iv ++ c))).
Definition ctr_hmac_key_ok (k : ctr_hmac_key) : Prop :=
  In (length (aes_key k)) [16; 32] /\ 12 <= iv_size k <= 16 /\ 16 <= length (hmac_key k) /\
  10 <= hmac_tag_size k <= hash_size (hmac_hash k).
Definition ctr_hmac_new (lib : crypto) (random : coins -> Z -> bytes) (k : ctr_hmac_key) : st_or cc_aead :=
  aes_ctr_hmac_new lib random (aes_key k) (iv_size k) (hmac_hash k) (hmac_tag_size k) (hmac_key k).
(** EVP_EncryptUpdate takes an int; the number of bits has to fit into 64 bits. *)
Definition ctr_hmac_sizes (P ad : bytes) : Prop := (N.of_nat (length P) < 2 ^ 31)%N /\ (N.of_nat (length ad) < 2 ^ 61)%N.

(** ** HKDF (RFC 5869) *)
Fixpoint hkdf_t (hmac : bytes -> bytes -> bytes) (prk info : bytes) (i : nat) : bytes :=
  match i with
  | O => []
  | S i => hmac prk (hkdf_t hmac prk info i ++ info ++ [byte_of_N (N.of_nat (S i))])
  end.
Definition hkdf_output (hmac : bytes -> bytes -> bytes) (salt ikm info : bytes) (size : nat) (okm : bytes) : Prop :=
  length okm = size /\
  exists rest, okm ++ rest = concat (map (hkdf_t hmac (hmac salt ikm) info) (seq 1 255)).
