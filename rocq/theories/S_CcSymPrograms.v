(** Specification of the example programs and of envelope encryption, in terms of symmetric
    keys and of the published algorithms. *)
From Coq Require Import Strings.Byte Strings.String List NArith ZArith Bool.
From Verif Require Import M_Base M_Proto M_Wire M_Prims M_PrimitiveSet M_Registry M_KeysetHandle M_Kms M_CcStream M_CcManagers M_Cli
  M_CcAes M_CcModes M_CcSymmetric S_Keyset S_Wrappers S_Wire S_Kms S_Config S_Cli S_CcAes S_CcSymmetric S_CcSymKeys S_CcSymHandles.
Import ListNotations.
Open Scope string_scope.
Open Scope list_scope.
Open Scope nat_scope.

(** ** Files *)

(** The run writes to [out] the ciphertext of [P] with the primary key, if its size can be
    encrypted. *)
Definition encrypts_file (lib : crypto) (random : coins -> Z -> bytes) (ks : keyset) (l : list (key * sym_key)) (rnd : coins)
  (P ad : bytes) (run : result Z * files) (out : pystr) (fs : files) : Prop :=
  (forall k sk, is_primary ks l k sk ->
     (forall C, writes run out C fs <->
        exists c, stamped k C c /\ aead_ciphertext lib sk (random rnd (Z.of_nat (nonce_size sk))) ad P c) /\
     (admits sk P ad -> exists C, writes run out C fs)) /\
  ((exists C, writes run out C fs) \/ fails run fs) /\
  ((forall k sk, ~ is_primary ks l k sk) -> fails run fs).
(** The run writes to [out] a plaintext as which one of the keys opens [C], or fails if there
    is none. *)
Definition decrypts_file (lib : crypto) (l : list (key * sym_key)) (C ad : bytes) (run : result Z * files) (out : pystr) (fs : files) : Prop :=
  (exists P, opens lib l C ad P /\ writes run out P fs) \/
  ((forall P, ~ opens lib l C ad P) /\ fails run fs).
Definition crypts_file (lib : crypto) (random : coins -> Z -> bytes) (ks : keyset) (l : list (key * sym_key)) (mode : crypt_mode) (rnd : coins)
  (data ad : bytes) (run : result Z * files) (out : pystr) (fs : files) : Prop :=
  match mode with
  | Encrypt => encrypts_file lib random ks l rnd data ad run out fs
  | Decrypt => decrypts_file lib l data ad run out fs
  end.
(** The same for deterministic AEAD, where all sizes can be encrypted *)
Definition daead_crypts_file (lib : crypto) (ks : keyset) (l : list (key * sym_key)) (mode : crypt_mode)
  (data ad : bytes) (run : result Z * files) (out : pystr) (fs : files) : Prop :=
  match mode with
  | Encrypt =>
      (forall k sk, is_primary ks l k sk -> exists C c, stamped k C c /\ daead_ciphertext lib sk ad data c /\ writes run out C fs) /\
      ((forall k sk, ~ is_primary ks l k sk) -> fails run fs)
  | Decrypt =>
      (exists P, daead_opens lib l data ad P /\ writes run out P fs) \/
      ((forall P, ~ daead_opens lib l data ad P) /\ fails run fs)
  end.
(** The run writes to [out] the tag of [data], as lower case digits. *)
Definition writes_tag (lib : crypto) (ks : keyset) (l : list (key * sym_key)) (data : bytes) (run : result Z * files) (out : pystr) (fs : files) : Prop :=
  (forall k sk, is_primary ks l k sk -> exists T t x, stamped k T t /\ mac_tag lib sk (legacy_data k data) t /\
     hex_bytes T x /\ Forall (fun c => In c lower_digits) x /\ writes run out x fs) /\
  ((forall k sk, ~ is_primary ks l k sk) -> fails run fs).
(** [T] is the tag of [data] with one of the keys. *)
Definition tag_of (lib : crypto) (l : list (key * sym_key)) (T data : bytes) : Prop :=
  exists k sk t, In (k, sk) l /\ stamped k T t /\ mac_tag lib sk (legacy_data k data) t.

(** ** Envelope encryption *)

(** With a template [t] of AEAD keys and the remote AEAD: *)
Definition envelope_works (lib : crypto) (random : coins -> Z -> bytes) (t : key_template) (remote e : aead) : Prop :=
  (** A ciphertext consists of a new key, encrypted remotely, and the ciphertext with that key. *)
  (forall rnd r1 r2 r3 P ad C, coins_split rnd = (r1, r2, r3) -> aead_encrypt e rnd P ad = Ok C ->
     exists d sk edek body, is_key d sk /\ asks_for_key (kt_type_url t) (kt_value t) sk /\ usable sk /\ chosen random r1 sk /\
       aead_encrypt remote r3 (kd_value d) [] = Ok edek /\
       aead_ciphertext lib sk (random r2 (Z.of_nat (nonce_size sk))) ad P body /\
       envelope_layout edek body C) /\
  (** Encryption succeeds if the remote does. *)
  (forall rnd P ad,
     (forall sk, asks_for_key (kt_type_url t) (kt_value t) sk -> usable sk -> admits sk P ad) ->
     (forall r x, (N.of_nat (length x) < 1024)%N -> exists edek, aead_encrypt remote r x [] = Ok edek /\ (N.of_nat (length edek) < 2 ^ 32)%N) ->
     exists C, aead_encrypt e rnd P ad = Ok C) /\
  (** Decryption *)
  ((forall edek x, aead_decrypt remote edek [] = Ok x -> (N.of_nat (length x) < 2 ^ 30)%N) ->
   forall C ad P, aead_decrypt e C ad = Ok P <->
     exists edek body x sk nonce, envelope_layout edek body C /\ aead_decrypt remote edek [] = Ok x /\
       is_key (mk_key_data (kt_type_url t) x SYMMETRIC) sk /\ usable sk /\ aead_ciphertext lib sk nonce ad P body) /\
  (** All failures of decryption are TinkErrors if the remote's are. *)
  ((forall edek, tink_total (aead_decrypt remote edek [])) ->
   (forall edek x, aead_decrypt remote edek [] = Ok x -> (N.of_nat (length x) < 2 ^ 30)%N) ->
   forall C ad, tink_total (aead_decrypt e C ad)) /\
  (** What has been encrypted can be decrypted. *)
  (kms_round_trip remote -> forall rnd P ad C, aead_encrypt e rnd P ad = Ok C -> aead_decrypt e C ad = Ok P).

(** A key of envelope encryption that names [uri] and [t] fits in a protobuf message. *)
Definition usable_envelope_uri (uri : pystr) (t : key_template) : Prop :=
  valid_text uri /\
  proto_size (serialize_kek (mk_kms_envelope_aead_key 0 (Some (mk_kms_envelope_aead_key_format uri (Some t))))).

(** ** Programs that make keysets *)

(** The keyset has one key: a new AES-GCM key of 16 bytes, enabled, with Tink's prefix and a key
    identifier that is not 0. *)
Definition made_keyset (random : coins -> Z -> bytes) (rnd : coins) (raw : N) (ks : keyset) : Prop :=
  exists d, ks = one_key d (1 + raw mod 2147483647) /\
    sym_keyset for_aead ks [(mk_key (Some d) ENABLED (1 + raw mod 2147483647) TINK, GcmKey (random (2 * rnd)%N 16%Z))].
