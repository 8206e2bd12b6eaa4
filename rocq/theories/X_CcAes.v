(** A small concrete cryptography for the non-vacuity examples of AES streaming. Nothing
    here models code of /repo. *)
From Coq Require Import Strings.Byte Strings.String List NArith ZArith Bool.
From Verif Require Import M_Base M_StreamTypes M_CcStream M_CcSegments M_CcAes S_CcSegments S_CcAes.
Import ListNotations.
Open Scope list_scope.
Open Scope nat_scope.

Definition sum_byte (b : bytes) : byte := byte_of_N (N.modulo (fold_right (fun x n => (Byte.to_N x + n)%N) 0%N b) 256).
Definition toy_tag (key nonce s : bytes) : bytes := firstn 16 (nonce ++ [sum_byte s] ++ key ++ repeat x00 16).
Definition toy_ssl : ssl :=
  mk_ssl
    (fun h ikm salt info size => StOk (repeat (sum_byte (ikm ++ info ++ salt)) size))
    (fun key nonce s => s ++ toy_tag key nonce s)
    (fun key nonce c =>
       let body := firstn (length c - 16) c in
       if bytes_eqb (skipn (length c - 16) c) (toy_tag key nonce body) then Some body else None)
    (fun key nonce s => rev s)
    (fun h key data => firstn (hash_size h) (skipn 11 (firstn 12 data) ++ [sum_byte data] ++ firstn 11 data ++ key ++ repeat x00 64)).

(** Segments of 44 bytes: four bytes of plaintext in the first, 28 in the others. *)
Definition toy_ikm (x : byte) : bytes := repeat x 16.
Definition toy_gcm (x : byte) : stream_params := GcmHkdf (mk_gcm_hkdf_params (toy_ikm x) SHA256 16 44 0).
Definition toy_ctr (x : byte) : stream_params := CtrHmac (mk_ctr_hmac_params (toy_ikm x) SHA256 16 44 0 SHA256 16).
Definition toy_salt (x : byte) : bytes := repeat x 16.
Definition toy_prefix : bytes := repeat x07 7.
(** The ciphertext of two segments *)
Definition toy_keys (sp : stream_params) (ad salt : bytes) : bytes :=
  match sp with
  | GcmHkdf p => match hkdf toy_ssl (gh_hash p) (gh_ikm p) salt ad (gh_derived_key_size p) with StOk k => k | StErr _ => [] end
  | CtrHmac p => match hkdf toy_ssl (ch_hkdf_algo p) (ch_ikm p) salt ad (ch_key_size p + 32) with StOk k => k | StErr _ => [] end
  end.
Definition toy_seal (sp : stream_params) (ad salt prefix : bytes) (i : N) (is_last : bool) (s : bytes) : bytes :=
  let nonce := prefix ++ be32 i ++ [if is_last then x01 else x00] in
  match sp with
  | GcmHkdf p => gcm_encrypt toy_ssl (toy_keys sp ad salt) (nonce ++ []) s
  | CtrHmac p => ctr_hmac_seal toy_ssl p (toy_keys sp ad salt) (nonce ++ repeat x00 4) s
  end.
Definition toy_header (salt prefix : bytes) : bytes := [x18] ++ salt ++ prefix.
Definition toy_two (sp : stream_params) (ad salt prefix s1 s2 : bytes) : bytes :=
  toy_header salt prefix ++ toy_seal sp ad salt prefix 0 false s1 ++ toy_seal sp ad salt prefix 1 true s2.
Definition toy_one (sp : stream_params) (ad salt prefix s : bytes) : bytes :=
  toy_header salt prefix ++ toy_seal sp ad salt prefix 0 true s.
