(** Specification of ECIES-AEAD-HKDF: the laws of elliptic curves, what keys say, and what
    ciphertexts look like. *)
From Coq Require Import Strings.Byte Strings.String List NArith ZArith Bool.
From Verif Require Import M_Base M_Proto M_Wire M_ProtoMsg M_KeyFormats M_Prims M_StreamTypes M_CcStream M_CcManagers M_CcAes
  M_CcStreamKeys M_CcModes M_CcSymmetric M_CcSymKeys M_CcEcies S_Config S_CcAes S_CcStreamKeys S_CcModes S_CcSymmetric S_CcSymKeys S_CcSymHandles.
Import ListNotations.
Open Scope string_scope.
Open Scope list_scope.
Open Scope nat_scope.

(** ** Elliptic curves *)
Definition nist (c : curve_type) : Prop := In c [P256; P384; P521].
(** The size of a coordinate *)
Definition coordinate_size (c : curve_type) : nat := match c with P384 => 48 | P521 => 66 | _ => 32 end.
(** The NIST curves are cyclic groups of prime order, and x and the parity of y determine a
    point; X25519 agrees on secrets for all private keys; HKDF is that of RFC 5869. *)
Record ec_laws (ec : ec_crypto) (lib : crypto) : Prop := mk_ec_laws {
  law_coordinates : forall c x y, nist c -> ec_on_curve ec c (x, y) = true ->
    (x < 256 ^ N.of_nat (coordinate_size c) /\ y < 256 ^ N.of_nat (coordinate_size c))%N;
  law_decompress : forall c x odd y, nist c ->
    (ec_decompress ec c x odd = Some y <-> ec_on_curve ec c (x, y) = true /\ N.odd y = odd);
  law_generator : forall c Q, nist c ->
    (ec_on_curve ec c Q = true <-> exists d, ec_point_mul ec c d (ec_generator ec c) = Some Q);
  law_mul : forall c d Q S, nist c -> ec_on_curve ec c Q = true -> ec_point_mul ec c d Q = Some S -> ec_on_curve ec c S = true;
  law_agree : forall c d e P Q, nist c ->
    ec_point_mul ec c d (ec_generator ec c) = Some P -> ec_point_mul ec c e (ec_generator ec c) = Some Q ->
    exists S, ec_point_mul ec c d Q = Some S /\ ec_point_mul ec c e P = Some S;
  law_generate : forall c rnd, nist c ->
    ec_point_mul ec c (fst (ec_generate_key ec c rnd)) (ec_generator ec c) = Some (snd (ec_generate_key ec c rnd));
  law_x25519_generate : forall rnd, length (x25519_generate ec rnd) = 32;
  law_x25519_public : forall a, length a = 32 -> length (x25519_public ec a) = 32;
  law_x25519_agree : forall a b, length a = 32 -> length b = 32 ->
    exists S, x25519_derive ec a (x25519_public ec b) = Some S /\ x25519_derive ec b (x25519_public ec a) = Some S;
  law_hkdf : forall h ikm salt info n K, h <> UNKNOWN_HASH ->
    (evp_hkdf ec h ikm salt info n = Some K <-> hkdf_output (evp_hmac lib h) salt ikm info n K);
  law_scalar : forall c rnd, nist c -> (fst (ec_generate_key ec c rnd) < 256 ^ N.of_nat (coordinate_size c))%N }.

(** [x] is the encoding of the point [Q] of a NIST curve (SEC 1, 2.3.3; the last one is
    without the leading byte). *)
Definition point_encoding (ec : ec_crypto) (c : curve_type) (f : point_format) (Q : N * N) (x : bytes) : Prop :=
  ec_on_curve ec c Q = true /\
  let coordinate := be_bytes (coordinate_size c) in
  match f with
  | Uncompressed => x = [x04] ++ coordinate (fst Q) ++ coordinate (snd Q)
  | Compressed => x = [if N.odd (snd Q) then x03 else x02] ++ coordinate (fst Q)
  | CrunchyUncompressed => x = coordinate (fst Q) ++ coordinate (snd Q)
  | UNKNOWN_FORMAT => False
  end.

(** ** Keys *)
Record ecies_params := mk_ecies_params {
  ep_curve : curve_type; ep_hash : hash_type; ep_salt : bytes; ep_format : point_format;
  ep_dem : sym_key (* a key like those the data is encrypted with *) }.
Definition dem_kind (k : sym_key) : bool := match k with GcmKey _ | CtrHmacAeadKey _ | XChaChaKey _ | SivKey _ => true | _ => false end.
(** The key material is cut from the output of HKDF. *)
Definition dem_size (k : sym_key) : nat := length (concat (material k)).
Definition dem_key (t : sym_key) (K : bytes) : sym_key :=
  match t with
  | CtrHmacAeadKey k =>
      let n := length (aes_key k) in
      CtrHmacAeadKey (mk_ctr_hmac_key (firstn n K) (iv_size k) (skipn n K) (hmac_hash k) (hmac_tag_size k))
  | XChaChaKey _ => XChaChaKey K
  | SivKey _ => SivKey K
  | _ => GcmKey K
  end.
(** Parameters with which messages can be encrypted *)
Definition proper (p : ecies_params) : Prop :=
  ep_curve p <> UNKNOWN_CURVE /\ ep_hash p <> UNKNOWN_HASH /\ ep_format p <> UNKNOWN_FORMAT /\
  (ep_curve p = CURVE25519 -> ep_format p = Compressed) /\
  dem_kind (ep_dem p) = true /\ usable (ep_dem p) /\ dem_size (ep_dem p) <= 255 * hash_size (ep_hash p).
(** A public key that is a point of the curve; a private key; a private key and its public key *)
Definition public_ok (ec : ec_crypto) (c : curve_type) (X Y : bytes) : Prop :=
  match c with
  | CURVE25519 => length X = 32 /\ Y = []
  | UNKNOWN_CURVE => False
  | _ => X <> [] /\ Y <> [] /\ ec_on_curve ec c (num X, num Y) = true
  end.
Definition private_ok (c : curve_type) (d X Y : bytes) : Prop :=
  match c with
  | CURVE25519 => length d = 32 /\ X <> [] /\ Y = []
  | UNKNOWN_CURVE => False
  | _ => d <> [] /\ X <> [] /\ Y <> []
  end.
Definition key_pair (ec : ec_crypto) (c : curve_type) (d X Y : bytes) : Prop :=
  match c with
  | CURVE25519 => length d = 32 /\ X = x25519_public ec d /\ Y = []
  | UNKNOWN_CURVE => False
  | _ => d <> [] /\ X <> [] /\ Y <> [] /\ ec_point_mul ec c (num d) (ec_generator ec c) = Some (num X, num Y)
  end.

(** How they are written (proto/common.proto:26-41) *)
Definition curve_number (c : curve_type) (z : Z) : Prop := In (c, z) [(P256, 2); (P384, 3); (P521, 4); (CURVE25519, 5)]%Z.
Definition format_number (f : point_format) (z : Z) : Prop := In (f, z) [(Uncompressed, 1); (Compressed, 2); (CrunchyUncompressed, 3)]%Z.
Definition text (fs : schema) (m : message) (path : list string) (s : pystr) : Prop :=
  get_path (TMsg fs) (Some (VMsg m)) path = Some (VString s).
(** The EciesAeadHkdfParams at [path] *)
Definition has_ecies_params (fs : schema) (m : message) (path : list string) (p : ecies_params) : Prop :=
  (exists z, number fs m (path ++ ["kem_params"; "curve_type"]) z /\ curve_number (ep_curve p) z) /\
  (exists z, number fs m (path ++ ["kem_params"; "hkdf_hash_type"]) z /\ hash_number (ep_hash p) z) /\
  octets fs m (path ++ ["kem_params"; "hkdf_salt"]) (ep_salt p) /\
  (exists z, number fs m (path ++ ["ec_point_format"]) z /\ format_number (ep_format p) z) /\
  exists url x, text fs m (path ++ ["dem_params"; "aead_dem"; "type_url"]) url /\
    octets fs m (path ++ ["dem_params"; "aead_dem"; "value"]) x /\ asks_for_key url x (ep_dem p).
Definition public_message (m : message) (p : ecies_params) (X Y : bytes) : Prop :=
  has_ecies_params EciesAeadHkdfPublicKey m ["params"] p /\
  octets EciesAeadHkdfPublicKey m ["x"] X /\ octets EciesAeadHkdfPublicKey m ["y"] Y.
Definition private_message (m : message) (p : ecies_params) (d X Y : bytes) : Prop :=
  has_ecies_params EciesAeadHkdfPrivateKey m ["public_key"; "params"] p /\ octets EciesAeadHkdfPrivateKey m ["key_value"] d /\
  octets EciesAeadHkdfPrivateKey m ["public_key"; "x"] X /\ octets EciesAeadHkdfPrivateKey m ["public_key"; "y"] Y.

(** ** Ciphertexts: an ephemeral public key, and the message encrypted with a key that is
    derived from that, from the shared secret and from the context. *)

(** The secret [S] that the owner of the private key [d] shares with whoever sent [kem] *)
Definition recipient_secret (ec : ec_crypto) (p : ecies_params) (d kem S : bytes) : Prop :=
  match ep_curve p with
  | CURVE25519 => length kem = 32 /\ x25519_derive ec d kem = Some S
  | c => exists R T, point_encoding ec c (ep_format p) R kem /\ ec_point_mul ec c (num d) R = Some T /\
      S = be_bytes (coordinate_size c) (fst T)
  end.
(** The public key and the secret of a sender who chooses an ephemeral key with [rnd], for
    the public key [X], [Y] *)
Definition sender_secret (ec : ec_crypto) (p : ecies_params) (X Y : bytes) (rnd : coins) (kem S : bytes) : Prop :=
  match ep_curve p with
  | CURVE25519 => kem = x25519_public ec (x25519_generate ec rnd) /\ x25519_derive ec (x25519_generate ec rnd) X = Some S
  | c => point_encoding ec c (ep_format p) (snd (ec_generate_key ec c rnd)) kem /\
      exists T, ec_point_mul ec c (fst (ec_generate_key ec c rnd)) (num X, num Y) = Some T /\ S = be_bytes (coordinate_size c) (fst T)
  end.
Definition dem_ciphertext (lib : crypto) (k : sym_key) (nonce P c : bytes) : Prop :=
  match k with SivKey _ => daead_ciphertext lib k [] P c | _ => aead_ciphertext lib k nonce [] P c end.
(** [C] is [kem] and [P] encrypted for the secret [S]. *)
Definition ecies_ciphertext (lib : crypto) (p : ecies_params) (kem S info nonce P C : bytes) : Prop :=
  exists K c, hkdf_output (evp_hmac lib (ep_hash p)) (ep_salt p) (kem ++ S) info (dem_size (ep_dem p)) K /\
    dem_ciphertext lib (dem_key (ep_dem p) K) nonce P c /\ C = kem ++ c.
(** What messages can be encrypted *)
Definition dem_admits (k : sym_key) (P : bytes) : Prop := match k with SivKey _ => True | _ => admits k P [] end.
(** How much longer ciphertexts are *)
Definition kem_size (p : ecies_params) : nat :=
  match ep_curve p with
  | CURVE25519 => 32
  | c => match ep_format p with
         | Uncompressed => 1 + 2 * coordinate_size c
         | Compressed => 1 + coordinate_size c
         | CrunchyUncompressed => 2 * coordinate_size c
         | UNKNOWN_FORMAT => 0
         end
  end.
Definition ecies_overhead (p : ecies_params) : nat :=
  kem_size p + match ep_dem p with SivKey _ => 16 | k => overhead k end.
