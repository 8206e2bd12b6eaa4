(** The other symmetric primitives of the C++ library:
    /repo/cc/subtle/aes_ctr_boringssl.cc, hmac_boringssl.cc, aes_cmac_boringssl.cc,
    encrypt_then_authenticate.cc, aes_gcm_boringssl.cc (with
    aead/internal/zero_copy_aes_gcm_boringssl.cc, aead_from_zero_copy.cc),
    aes_gcm_siv_boringssl.cc, xchacha20_poly1305_boringssl.cc (with
    aead/internal/ssl_aead.cc), and the PRFs: stateful_hmac_boringssl.cc,
    stateful_cmac_boringssl.cc, prf/hkdf_streaming_prf.cc, prf/prf_set_util.cc,
    util/input_stream_util.cc.

    BoringSSL is an argument. Not modelled: OpenSSL in its place, FIPS mode, null pointers,
    failing allocations, buffers (their sizes and overlaps: each caller makes its own). *)
From Coq Require Import Strings.Byte Strings.String List NArith ZArith Bool.
From Verif Require Import M_Base M_Prims M_StreamTypes M_CcStream M_CcManagers M_CcAes M_CcModes.
Import ListNotations.
Open Scope string_scope.
Open Scope list_scope.

(** EVP_aead_aes_{128,256}_gcm, EVP_aead_aes_{128,256}_gcm_siv, EVP_aead_xchacha20_poly1305 *)
Inductive evp_aead := AesGcm | AesGcmSiv | XChaCha20Poly1305.
(** What is used of BoringSSL: AES_encrypt (key, block); EVP_AEAD_CTX_seal and
    EVP_AEAD_CTX_open (key, nonce, input, associated data) with tags of 16 bytes; HMAC
    and CMAC (key, data), the whole tags. *)
Record crypto := mk_crypto {
  aes_encrypt : bytes -> bytes -> bytes;
  evp_seal : evp_aead -> bytes -> bytes -> bytes -> bytes -> option bytes;
  evp_open : evp_aead -> bytes -> bytes -> bytes -> bytes -> option bytes;
  evp_hmac : hash_type -> bytes -> bytes -> bytes;
  evp_cmac : bytes -> bytes -> bytes }.

(** EVP_MD_size of cc/internal/md_util.cc:37-54 EvpHashFromHashType *)
Definition evp_md_size (h : hash_type) : option nat :=
  match h with
  | SHA1 => Some 20 | SHA224 => Some 28 | SHA256 => Some 32 | SHA384 => Some 48 | SHA512 => Some 64
  | UNKNOWN_HASH => None
  end%nat.
(** cc/internal/aes_util.cc:76-99 GetAesCtrCipherForKeySize, GetAesCbcCipherForKeySize;
    cc/aead/internal/aead_util.cc:58-84 GetAesGcmAeadForKeySize,
    GetAesGcmSivAeadCipherForKeySize *)
Definition cipher_for_key_size (n : nat) : bool := (Nat.eqb n 16 || Nat.eqb n 32)%bool.

(** ** AES-CTR *)
Record ind_cpa := mk_ind_cpa {
  ic_encrypt : coins -> bytes -> st_or bytes;
  ic_decrypt : bytes -> st_or bytes }.
(** EVP_EncryptUpdate and EVP_DecryptUpdate take the size as an int: they fail for a
    negative one, and for one that wraps the size of the output differs (aes_ctr_boringssl.cc:96-99). *)
Definition evp_update (E : bytes -> bytes) (iv_block data : bytes) : st_or bytes :=
  if (2147483647 <? N.of_nat (length data))%N then StErr (NotOk "encryption failed")
  else StOk (AesCtr128Crypt E data iv_block).
(** aes_ctr_boringssl.cc:44-60 New, 62-101 Encrypt, 103-145 Decrypt *)
Definition aes_ctr_new (lib : crypto) (random : coins -> Z -> bytes) (key : bytes) (iv_size : nat) : st_or ind_cpa :=
  if negb (cipher_for_key_size (length key)) then StErr (NotOk "Invalid key size")
  else if (Nat.ltb iv_size 12 || Nat.ltb 16 iv_size)%bool then StErr (NotOk "invalid iv size")
  else
    let iv_block (iv : bytes) := iv ++ repeat x00 (16 - length iv) in
    StOk (mk_ind_cpa
      (fun rnd plaintext =>
         let iv := random rnd (Z.of_nat iv_size) in
         match evp_update (aes_encrypt lib key) (iv_block iv) plaintext with
         | StErr s => StErr s
         | StOk c => StOk (iv ++ c)
         end)
      (fun ciphertext =>
         if Nat.ltb (length ciphertext) iv_size then StErr (NotOk "ciphertext too short")
         else evp_update (aes_encrypt lib key) (iv_block (firstn iv_size ciphertext)) (skipn iv_size ciphertext))).

(** ** MACs *)

(** hmac_boringssl.cc:44-64 New, 66-85 ComputeMac, 87-111 VerifyMac *)
Definition hmac_new (lib : crypto) (h : hash_type) (tag_size : nat) (key : bytes) : st_or cc_mac :=
  match evp_md_size h with
  | None => StErr (NotOk "Unsupported hash")
  | Some size =>
      if Nat.ltb size tag_size then StErr (NotOk "invalid tag size")
      else if Nat.ltb (length key) 16 then StErr (NotOk "invalid key size")
      else
        StOk (mk_cc_mac
          (fun data => StOk (firstn tag_size (evp_hmac lib h key data)))
          (fun mac data =>
             if negb (Nat.eqb (length mac) tag_size) then StErr (NotOk "incorrect tag size")
             else if negb (bytes_eqb (firstn tag_size (evp_hmac lib h key data)) mac)
             then StErr (NotOk "verification failed")
             else StOk tt))
  end.
(** aes_cmac_boringssl.cc:50-71 New, 73-104 ComputeMac, 106-122 VerifyMac *)
Definition cmac_compute (lib : crypto) (key : bytes) (tag_size : nat) (data : bytes) : st_or bytes :=
  if negb (cipher_for_key_size (length key)) then StErr (NotOk "Invalid key size")
  else StOk (firstn tag_size (evp_cmac lib key data)).
Definition cmac_new (lib : crypto) (key : bytes) (tag_size : nat) : st_or cc_mac :=
  if (negb (Nat.eqb (length key) 16) && negb (Nat.eqb (length key) 32))%bool then StErr (NotOk "Invalid key size")
  else if Nat.ltb 16 tag_size then StErr (NotOk "Invalid tag size")
  else
    StOk (mk_cc_mac
      (cmac_compute lib key tag_size)
      (fun mac data =>
         if negb (Nat.eqb (length mac) tag_size) then StErr (NotOk "Incorrect tag size")
         else match cmac_compute lib key tag_size data with
              | StErr s => StErr s
              | StOk computed_mac =>
                  if negb (bytes_eqb computed_mac mac) then StErr (NotOk "CMAC verification failed") else StOk tt
              end)).

(** ** Encrypt-then-MAC *)

(** encrypt_then_authenticate.cc:40-47 longToBigEndianStr *)
Fixpoint long_to_big_endian (k : nat) (value : N) : bytes :=
  match k with O => [] | S k => long_to_big_endian k (N.shiftr value 8) ++ [byte_of_N (N.land value 255)] end.
(** lines 68-74, 103-109: the size in bits, as uint64_t, and whether it overflowed *)
Definition size_in_bits (associated_data : bytes) : N := u64 (N.of_nat (length associated_data) * 8).
Definition ad_too_long (associated_data : bytes) : bool :=
  negb (N.eqb (size_in_bits associated_data / 8) (N.of_nat (length associated_data))).
Definition mac_input (associated_data ciphertext : bytes) : bytes :=
  associated_data ++ ciphertext ++ long_to_big_endian 8 (size_in_bits associated_data).
(** lines 49-59 New; 61-90 Encrypt; 92-127 Decrypt. [tag_size] is a uint8_t. *)
Definition eta_new (ind_cpa_cipher : ind_cpa) (mac : cc_mac) (tag_size : nat) : st_or cc_aead :=
  if Nat.ltb tag_size 10 then StErr (NotOk "tag size too small")
  else
    StOk (mk_cc_aead
      (fun rnd plaintext associated_data =>
         if ad_too_long associated_data then StErr (NotOk "associated data too long")
         else match ic_encrypt ind_cpa_cipher rnd plaintext with
              | StErr s => StErr s
              | StOk ciphertext =>
                  match cm_compute mac (mac_input associated_data ciphertext) with
                  | StErr s => StErr s
                  | StOk tag =>
                      if negb (Nat.eqb (length tag) tag_size) then StErr (NotOk "invalid tag size")
                      else StOk (ciphertext ++ tag)
                  end
              end)
      (fun ciphertext associated_data =>
         if Nat.ltb (length ciphertext) tag_size then StErr (NotOk "ciphertext too short")
         else if ad_too_long associated_data then StErr (NotOk "additional data too long")
         else
           let payload := firstn (length ciphertext - tag_size) ciphertext in
           let tag := skipn (length ciphertext - tag_size) ciphertext in
           match cm_verify mac tag (mac_input associated_data payload) with
           | StErr s => StErr s
           | StOk _ => ic_decrypt ind_cpa_cipher payload
           end)).

(** cc/aead/aes_ctr_hmac_aead_key_manager.cc:89-107 AeadFactory::Create, which is given a
    key that has been validated. [tag_size] becomes a uint8_t. *)
Definition aes_ctr_hmac_new (lib : crypto) (random : coins -> Z -> bytes) (aes_key : bytes) (iv_size : nat)
    (h : hash_type) (tag_size : nat) (hmac_key : bytes) : st_or cc_aead :=
  match aes_ctr_new lib random aes_key iv_size with
  | StErr s => StErr s
  | StOk cipher =>
      match hmac_new lib h tag_size hmac_key with
      | StErr s => StErr s
      | StOk mac => eta_new cipher mac (Nat.modulo tag_size 256)
      end
  end.

(** ** AES-GCM, AES-GCM-SIV and XChaCha20-Poly1305 *)

(** cc/aead/internal/ssl_aead.cc:331-378 Encrypt, 380-441 Decrypt of
    BoringSslOneShotAeadImpl. What is written is returned. *)
Definition one_shot_encrypt (lib : crypto) (alg : evp_aead) (key plaintext associated_data iv : bytes) : st_or bytes :=
  match evp_seal lib alg key iv plaintext associated_data with
  | None => StErr (NotOk "Encryption failed")
  | Some out => StOk out
  end.
Definition one_shot_decrypt (lib : crypto) (alg : evp_aead) (key ciphertext associated_data iv : bytes) : st_or bytes :=
  if Nat.ltb (length ciphertext) 16 then StErr (NotOk "Ciphertext buffer too small")
  else match evp_open lib alg key iv ciphertext associated_data with
       | None => StErr (NotOk "Authentication failed")
       | Some out => StOk out
       end.
(** The class with its constants: nonce ahead of the output, and at least nonce and tag in
    the input. zero_copy_aes_gcm_boringssl.cc:61-92 Encrypt, 103-133 Decrypt with
    aead_from_zero_copy.cc:32-58; aes_gcm_siv_boringssl.cc:62-103;
    xchacha20_poly1305_boringssl.cc:65-107 *)
Definition one_shot_aead (lib : crypto) (random : coins -> Z -> bytes) (alg : evp_aead) (nonce_size : nat) (key : bytes) : cc_aead :=
  mk_cc_aead
    (fun rnd plaintext associated_data =>
       let nonce := random rnd (Z.of_nat nonce_size) in
       match one_shot_encrypt lib alg key plaintext associated_data nonce with
       | StErr s => StErr s
       | StOk encrypted => StOk (nonce ++ encrypted)
       end)
    (fun ciphertext associated_data =>
       if Nat.ltb (length ciphertext) (nonce_size + 16) then StErr (NotOk "Ciphertext too short")
       else one_shot_decrypt lib alg key (skipn nonce_size ciphertext) associated_data (firstn nonce_size ciphertext)).
(** aes_gcm_boringssl.cc:36-50 New, zero_copy_aes_gcm_boringssl.cc:46-54,
    ssl_aead.cc:463-494 CreateAesGcmOneShotCrypter *)
Definition aes_gcm_new (lib : crypto) (random : coins -> Z -> bytes) (key : bytes) : st_or cc_aead :=
  if negb (cipher_for_key_size (length key)) then StErr (NotOk "Invalid key size")
  else StOk (one_shot_aead lib random AesGcm 12 key).
(** aes_gcm_siv_boringssl.cc:46-60 New, ssl_aead.cc:496-520 CreateAesGcmSivOneShotCrypter *)
Definition aes_gcm_siv_new (lib : crypto) (random : coins -> Z -> bytes) (key : bytes) : st_or cc_aead :=
  if negb (cipher_for_key_size (length key)) then StErr (NotOk "Invalid key size")
  else StOk (one_shot_aead lib random AesGcmSiv 12 key).
(** xchacha20_poly1305_boringssl.cc:49-63 New, ssl_aead.cc:522-548
    CreateXchacha20Poly1305OneShotCrypter *)
Definition xchacha20_poly1305_new (lib : crypto) (random : coins -> Z -> bytes) (key : bytes) : st_or cc_aead :=
  if negb (Nat.eqb (length key) 32) then StErr (NotOk "Invalid key size; valid values are {32} bytes")
  else StOk (one_shot_aead lib random XChaCha20Poly1305 24 key).

(** ** PRFs *)

(** stateful_hmac_boringssl.cc:41-67 New, 69-81 Update, 83-92 Finalize;
    stateful_cmac_boringssl.cc:41-64, 66-78, 80-89: the MAC of the data of one Update.
    prf_set_util.cc:63-86 PrfFromStatefulMacFactory::Compute, with the result of
    Create *)
Definition prf_from_stateful_mac (mac : st_or (bytes -> bytes)) : cc_prf :=
  mk_cc_prf (fun input output_length =>
    match mac with
    | StErr s => StErr s
    | StOk finalize =>
        let output := finalize input in
        if (N.of_nat (length output) <? output_length)%N then StErr (NotOk "PRF only supports shorter outputs")
        else StOk (firstn (N.to_nat output_length) output)
    end).
Definition stateful_hmac (lib : crypto) (h : hash_type) (tag_size : nat) (key : bytes) : st_or (bytes -> bytes) :=
  match evp_md_size h with
  | None => StErr (NotOk "Unsupported hash")
  | Some size =>
      if Nat.ltb size tag_size then StErr (NotOk "invalid tag size")
      else if Nat.ltb (length key) 16 then StErr (NotOk "invalid key size")
      else StOk (fun data => firstn tag_size (evp_hmac lib h key data))
  end.
Definition stateful_cmac (lib : crypto) (tag_size : nat) (key : bytes) : st_or (bytes -> bytes) :=
  if negb (cipher_for_key_size (length key)) then StErr (NotOk "Invalid key size")
  else if Nat.ltb 16 tag_size then StErr (NotOk "invalid tag size")
  else StOk (fun data => firstn tag_size (evp_cmac lib key data)).

(** hkdf_streaming_prf.cc:49-178 HkdfInputStream: its mutable fields [ti_], [i_],
    [position_in_ti_], and whether [stream_status_] is OUT_OF_RANGE *)
Record hkdf_stream := mk_hkdf_stream { hs_ti : bytes; hs_i : N; hs_position : nat; hs_eof : bool }.
Section HkdfStream.
  (** HMAC with the hash, the pseudorandom key [prk], and the input *)
  Variable hmac : bytes -> bytes -> bytes.
  Variables prk input : bytes.
  (** lines 132-161 UpdateTi *)
  Definition update_ti (s : hkdf_stream) : hkdf_stream :=
    let data := (if N.eqb (hs_i s) 0 then [] else hs_ti s) ++ input ++ [byte_of_N (hs_i s + 1)] in
    mk_hkdf_stream (hmac prk data) (hs_i s + 1) 0 (hs_eof s).
  (** lines 124-130 returnDataFromPosition *)
  Definition return_data (s : hkdf_stream) : st_or bytes * hkdf_stream :=
    (StOk (skipn (hs_position s) (hs_ti s)), mk_hkdf_stream (hs_ti s) (hs_i s) (length (hs_ti s)) (hs_eof s)).
  (** lines 57-74 Next *)
  Definition hkdf_next (s : hkdf_stream) : st_or bytes * hkdf_stream :=
    if hs_eof s then (StErr OutOfRange, s)
    else if Nat.ltb (hs_position s) (length (hs_ti s)) then return_data s
    else if N.eqb (hs_i s) 255 then (StErr OutOfRange, mk_hkdf_stream (hs_ti s) (hs_i s) (hs_position s) true)
    else return_data (update_ti s).
  (** lines 76-78 BackUp *)
  Definition hkdf_back_up (count : nat) (s : hkdf_stream) : hkdf_stream :=
    mk_hkdf_stream (hs_ti s) (hs_i s) (hs_position s - Nat.min count (hs_position s)) (hs_eof s).
  (** cc/util/input_stream_util.cc:33-57 ReadBytesFromStreamImpl. [fuel] bounds the loop,
      in which every chunk has at least a byte. *)
  Fixpoint read_bytes (fuel num_bytes : nat) (result : bytes) (s : hkdf_stream) : st_or bytes :=
    if negb (Nat.ltb (length result) num_bytes) then StOk result
    else match fuel with
    | O => StErr Undefined
    | S fuel =>
        match hkdf_next s with
        | (StErr e, _) => StErr e
        | (StOk chunk, s) =>
            let num_bytes_to_copy := Nat.min (num_bytes - length result) (length chunk) in
            read_bytes fuel num_bytes (result ++ firstn num_bytes_to_copy chunk)
              (hkdf_back_up (length chunk - num_bytes_to_copy) s)
        end
    end.
End HkdfStream.
(** Conversion of size_t to int *)
Definition to_int (n : N) : Z :=
  let z := Z.of_N (n mod 4294967296) in if (z <? 2147483648)%Z then z else (z - 4294967296)%Z.
(** hkdf_streaming_prf.cc:187-211 New, 182-185 ComputePrf, 86-122 Init;
    prf_set_util.cc:39-52 PrfFromStreamingPrf::Compute *)
Definition hkdf_prf_new (lib : crypto) (h : hash_type) (secret salt : bytes) : st_or cc_prf :=
  if negb (known_hash h) then StErr (NotOk "Hash not acceptable for HkdfStreamingPrf")
  else if Nat.ltb (length secret) 10 then StErr (NotOk "Too short secret for HkdfStreamingPrf")
  else
    StOk (mk_cc_prf (fun input output_length =>
      let hmac := evp_hmac lib h in
      let prk := hmac salt secret in
      let s := update_ti hmac prk input (mk_hkdf_stream [] 0 0 false) in
      let num_bytes := Z.to_nat (to_int output_length) in
      read_bytes hmac prk input num_bytes num_bytes [] s)).
