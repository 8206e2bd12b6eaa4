(** Specification of HPKE: what keys say, what is encrypted and decrypted, and which keys are made. *)
From Coq Require Import Strings.Byte Strings.String List NArith ZArith Bool.
From Verif Require Import M_Base M_Proto M_Wire M_ProtoMsg M_KeyFormats M_Prims M_StreamTypes M_CcStream M_CcManagers M_CcAes
  M_CcStreamKeys M_CcModes M_CcSymmetric M_CcSymKeys M_CcEcies M_CcHpke S_Config S_CcAes S_CcStreamKeys S_CcModes S_CcSymmetric S_CcSymKeys S_CcSymHandles S_CcEcies.
Import ListNotations.
Open Scope string_scope.
Open Scope list_scope.
Open Scope nat_scope.

(** ** The library: RFC 9180, base mode, DHKEM(X25519, HKDF-SHA256) *)

(** AES-GCM takes messages up to 2^36 - 32 bytes (SP 800-38D); the other AEAD takes longer ones. *)
Definition hpke_admits (P : bytes) : Prop := (N.of_nat (length P) <= 68719476704)%N.
Record hpke_laws (ec : ec_crypto) (hc : hpke_crypto) : Prop := mk_hpke_laws {
  law_hpke_key : forall sk, hpke_key_init hc sk = true <-> length sk = 32;
  law_hpke_enc : forall a pk info rnd enc ctx, hpke_setup_sender hc a pk info rnd = Some (enc, ctx) -> length enc = 32;
  law_hpke_sender : forall a sk info rnd, length sk = 32 -> exists enc ctx, hpke_setup_sender hc a (x25519_public ec sk) info rnd = Some (enc, ctx);
  law_hpke_seal : forall a pk info rnd enc ctx P, hpke_setup_sender hc a pk info rnd = Some (enc, ctx) -> hpke_admits P ->
    exists c, hpke_seal hc ctx P [] = Some c;
  law_hpke_open : forall a sk info rnd enc ctx P c, length sk = 32 -> hpke_setup_sender hc a (x25519_public ec sk) info rnd = Some (enc, ctx) ->
    hpke_seal hc ctx P [] = Some c -> exists ctx', hpke_setup_recipient hc a sk enc info = Some ctx' /\ hpke_open hc ctx' c [] = Some P }.

(** ** Keys *)

(** The numbers of the algorithms, whether they are known or not *)
Record hpke_suite := mk_hpke_suite { hs_kem : Z; hs_kdf : Z; hs_aead : Z }.
Record hpke_public := mk_hpke_public { hpub_suite : hpke_suite; hpub_key : bytes }.
Record hpke_private := mk_hpke_private { hprv_public : hpke_public; hprv_key : bytes }.
(** The numbers of the AEADs (proto/hpke.proto:40-45) *)
Definition hpke_aead_number (a : hpke_aead) (z : Z) : Prop :=
  In (a, z) [(HpkeAes128Gcm, 1); (HpkeAes256Gcm, 2); (HpkeChaCha20Poly1305, 3)]%Z.
Definition hpke_suite_at (fs : schema) (m : message) (path : list string) (p : hpke_suite) : Prop :=
  number fs m (path ++ ["kem"]) (hs_kem p) /\ number fs m (path ++ ["kdf"]) (hs_kdf p) /\ number fs m (path ++ ["aead"]) (hs_aead p).
(** The public key [k], of version 0, at [path] *)
Definition hpke_public_at (fs : schema) (m : message) (path : list string) (k : hpke_public) : Prop :=
  number fs m (path ++ ["version"]) 0%Z /\ hpke_suite_at fs m (path ++ ["params"]) (hpub_suite k) /\ octets fs m (path ++ ["public_key"]) (hpub_key k).
Definition is_hpke_public (d : key_data) (k : hpke_public) : Prop :=
  kd_type_url d = type_url "HpkePublicKey" /\
  exists m, parse_message HpkePublicKey (kd_value d) = Some m /\ hpke_public_at HpkePublicKey m [] k.
Definition is_hpke_private (d : key_data) (k : hpke_private) : Prop :=
  kd_type_url d = type_url "HpkePrivateKey" /\
  exists m, parse_message HpkePrivateKey (kd_value d) = Some m /\ number HpkePrivateKey m ["version"] 0%Z /\
    hpke_public_at HpkePrivateKey m ["public_key"] (hprv_public k) /\ octets HpkePrivateKey m ["private_key"] (hprv_key k).
(** All algorithms are stated. *)
Definition suite_stated (p : hpke_suite) : Prop := hs_kem p <> 0%Z /\ hs_kdf p <> 0%Z /\ hs_aead p <> 0%Z.
(** The algorithms for which objects are made: X25519 (1), HKDF-SHA256 (1) and any AEAD, even an unknown one *)
Definition suite_taken (p : hpke_suite) : Prop := hs_kem p = 1%Z /\ hs_kdf p = 1%Z /\ hs_aead p <> 0%Z.
(** The algorithms that work *)
Definition suite_works (p : hpke_suite) (a : hpke_aead) : Prop := hs_kem p = 1%Z /\ hs_kdf p = 1%Z /\ hpke_aead_number a (hs_aead p).
(** The private key belongs to the public key. *)
Definition hpke_pair (ec : ec_crypto) (k : hpke_private) : Prop := length (hprv_key k) = 32 /\ hpub_key (hprv_public k) = x25519_public ec (hprv_key k).

(** ** Encryption and decryption: the encapsulated key, then the message *)
Definition hpke_ciphertext (hc : hpke_crypto) (a : hpke_aead) (pk info : bytes) (rnd : coins) (P C : bytes) : Prop :=
  exists enc ctx c, hpke_setup_sender hc a pk info rnd = Some (enc, ctx) /\ hpke_seal hc ctx P [] = Some c /\ C = enc ++ c.
Definition hpke_plaintext (hc : hpke_crypto) (a : hpke_aead) (sk info C P : bytes) : Prop :=
  exists enc ctx c, C = enc ++ c /\ length enc = 32 /\ length sk = 32 /\ hpke_setup_recipient hc a sk enc info = Some ctx /\ hpke_open hc ctx c [] = Some P.

(** ** New keys *)

(** The key format [x] asks for a key with the algorithms [p]. *)
Definition asks_for_hpke (url : pystr) (x : bytes) (p : hpke_suite) : Prop :=
  url = type_url "HpkePrivateKey" /\ exists m, parse_message HpkeKeyFormat x = Some m /\ hpke_suite_at HpkeKeyFormat m ["params"] p.
(** The formats of which keys are made: one of the four KEMs of the proto, any KDF and any AEAD *)
Definition suite_made (p : hpke_suite) : Prop := In (hs_kem p) [1; 2; 3; 4]%Z /\ hs_kdf p <> 0%Z /\ hs_aead p <> 0%Z.
(** The key chosen with [rnd]: for the NIST curves, the scalar and the uncompressed point *)
Definition hpke_curve (kem : Z) (c : curve_type) : Prop := In (kem, c) [(2%Z, P256); (3%Z, P384); (4%Z, P521)].
Definition fresh_hpke (ec : ec_crypto) (kem : Z) (rnd : coins) (sk pk : bytes) : Prop :=
  (kem = 1%Z /\ sk = x25519_generate ec rnd /\ pk = x25519_public ec sk) \/
  (exists c, hpke_curve kem c /\ let (d, Q) := ec_generate_key ec c rnd in
     sk = be_bytes (coordinate_size c) d /\ point_encoding ec c Uncompressed Q pk).

(** The predefined templates, with their prefixes *)
Definition hpke_templates : list (string * hpke_suite * bool) :=
  [("DHKEM_X25519_HKDF_SHA256_HKDF_SHA256_AES_128_GCM", mk_hpke_suite 1 1 1, true);
   ("DHKEM_X25519_HKDF_SHA256_HKDF_SHA256_AES_128_GCM_RAW", mk_hpke_suite 1 1 1, false);
   ("DHKEM_X25519_HKDF_SHA256_HKDF_SHA256_AES_256_GCM", mk_hpke_suite 1 1 2, true);
   ("DHKEM_X25519_HKDF_SHA256_HKDF_SHA256_AES_256_GCM_RAW", mk_hpke_suite 1 1 2, false);
   ("DHKEM_X25519_HKDF_SHA256_HKDF_SHA256_CHACHA20_POLY1305", mk_hpke_suite 1 1 3, true);
   ("DHKEM_X25519_HKDF_SHA256_HKDF_SHA256_CHACHA20_POLY1305_RAW", mk_hpke_suite 1 1 3, false)].
