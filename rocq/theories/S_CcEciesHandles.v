(** Specification of hybrid encryption with ECIES as users of Python see it, in terms of the
    keys of a keyset and of the ciphertexts of S_CcEcies. *)
From Coq Require Import Strings.Byte Strings.String List NArith ZArith Bool.
From Verif Require Import M_Base M_Proto M_Wire M_ProtoMsg M_KeyFormats M_Prims M_PrimitiveSet M_Registry M_KeysetHandle M_StreamTypes M_CcStream M_CcManagers M_CcAes
  M_CcStreamKeys M_CcModes M_CcSymmetric M_CcSymKeys M_CcEcies M_CcEciesKeys S_Keyset S_Wrappers S_Wire S_Config S_CcAes S_CcStreamKeys S_CcModes S_CcSymmetric S_CcSymKeys
  S_CcSymHandles S_CcEcies S_CcEciesKeys.
Import ListNotations.
Open Scope string_scope.
Open Scope list_scope.
Open Scope nat_scope.

(** The C++ library has the key managers of ECIES, among others. *)
Definition ecies_world (ec : ec_crypto) (lib : crypto) (random : coins -> Z -> bytes) (w : cc_world) : Prop :=
  cw_hybrid_decrypt w (type_url "EciesAeadHkdfPrivateKey") = Some (ecies_private_key_manager ec lib random) /\
  cw_hybrid_encrypt w (type_url "EciesAeadHkdfPublicKey") = Some (ecies_public_key_manager ec lib random).

(** The content of a public key, and of a private key with its public key *)
Record ecies_public := mk_ecies_public { pub_params : ecies_params; pub_x : bytes; pub_y : bytes }.
Record ecies_private := mk_ecies_private { prv_public : ecies_public; prv_value : bytes }.
Definition is_public (d : key_data) (k : ecies_public) : Prop := is_ecies_public d (pub_params k) (pub_x k) (pub_y k).
Definition is_private (d : key_data) (k : ecies_private) : Prop :=
  is_ecies_private d (pub_params (prv_public k)) (prv_value k) (pub_x (prv_public k)) (pub_y (prv_public k)).
(** Public keys of use; private keys with the public key that belongs to them *)
Definition good_public (ec : ec_crypto) (k : ecies_public) : Prop :=
  proper (pub_params k) /\ public_ok ec (ep_curve (pub_params k)) (pub_x k) (pub_y k).
Definition good_private (ec : ec_crypto) (k : ecies_private) : Prop :=
  let q := prv_public k in proper (pub_params q) /\ key_pair ec (ep_curve (pub_params q)) (prv_value k) (pub_x q) (pub_y q).

(** A valid keyset whose enabled keys, in this order, are these, all of them good *)
Definition hybrid_keyset {K} (is_key : key_data -> K -> Prop) (good : K -> Prop) (ks : keyset) (l : list (key * K)) : Prop :=
  valid_keyset ks /\ map fst l = enabled_keys ks /\
  Forall (fun x => wf_key_data (k_key_data (fst x)) /\ proto_size (serialize_key_data (k_key_data (fst x))) /\
    is_key (k_key_data (fst x)) (snd x) /\ good (snd x) /\
    exists p, has_prefix (k_output_prefix_type (fst x)) (k_key_id (fst x)) p) l.

(** ** Encryption *)

(** [C] is a ciphertext of [P] for the public key [k], made with the choices [rnd]. *)
Definition hybrid_ciphertext (ec : ec_crypto) (lib : crypto) (random : coins -> Z -> bytes) (k : ecies_public) (rnd : coins) (info P C : bytes) : Prop :=
  let p := pub_params k in
  exists kem S, sender_secret ec p (pub_x k) (pub_y k) rnd kem S /\
    ecies_ciphertext lib p kem S info (random rnd (Z.of_nat (nonce_size (ep_dem p)))) P C.
(** The sender's X25519 yields no secret: the process ends (C88), and nothing is said here. *)
Definition low_order (ec : ec_crypto) (k : ecies_public) (rnd : coins) : Prop :=
  ep_curve (pub_params k) = CURVE25519 /\ x25519_derive ec (x25519_generate ec rnd) (pub_x k) = None.
Definition hybrid_encrypt_works (ec : ec_crypto) (lib : crypto) (random : coins -> Z -> bytes) (ks : keyset)
  (l : list (key * ecies_public)) (a : hybrid_encrypt) : Prop :=
  (forall k q, is_primary ks l k q -> forall rnd P info, ~ low_order ec q rnd ->
     (forall C, he_encrypt a rnd P info = Ok C <-> exists c, stamped k C c /\ hybrid_ciphertext ec lib random q rnd info P c) /\
     (dem_admits (ep_dem (pub_params q)) P -> exists C, he_encrypt a rnd P info = Ok C) /\
     tink_total (he_encrypt a rnd P info)) /\
  ((forall k q, ~ is_primary ks l k q) -> forall rnd P info, raises_tink (he_encrypt a rnd P info)).

(** ** Decryption: one of the keys opens [C] as [P]. *)
Definition hybrid_opens (ec : ec_crypto) (lib : crypto) (l : list (key * ecies_private)) (C info P : bytes) : Prop :=
  exists k q kem S nonce c, In (k, q) l /\ stamped k C c /\ recipient_secret ec (pub_params (prv_public q)) (prv_value q) kem S /\
    ecies_ciphertext lib (pub_params (prv_public q)) kem S info nonce P c.
Definition hybrid_decrypt_works (ec : ec_crypto) (lib : crypto) (l : list (key * ecies_private)) (a : hybrid_decrypt) : Prop :=
  (forall C info P, hd_decrypt a C info = Ok P -> hybrid_opens ec lib l C info P) /\
  (forall C info P, hybrid_opens ec lib l C info P -> exists P', hd_decrypt a C info = Ok P') /\
  (forall C info, tink_total (hd_decrypt a C info)).

(** Only one of the keys can be meant by the prefix of the key [k]: this is [q]. *)
Definition told_apart (k : key) (q : ecies_private) (l : list (key * ecies_private)) : Prop :=
  k_output_prefix_type k <> RAW /\
  forall k' q', In (k', q') l -> k_output_prefix_type k' <> RAW /\ (k_key_id k' = k_key_id k -> q' = q).

(** ** Public keysets: the same keys with the same identifiers, statuses and prefixes *)
Definition public_half (x : key * ecies_private) (y : key * ecies_public) : Prop :=
  k_status (fst y) = k_status (fst x) /\ k_key_id (fst y) = k_key_id (fst x) /\ k_output_prefix_type (fst y) = k_output_prefix_type (fst x) /\
  is_public (k_key_data (fst y)) (prv_public (snd x)) /\ snd y = prv_public (snd x).
(** All keys of a keyset, whatever their status *)
Definition all_private (ks : keyset) (l : list (key * ecies_private)) : Prop :=
  map fst l = ks_key ks /\
  Forall (fun x => wf_key_data (k_key_data (fst x)) /\ proto_size (serialize_key_data (k_key_data (fst x))) /\
    kd_key_material_type (k_key_data (fst x)) = ASYMMETRIC_PRIVATE /\ is_private (k_key_data (fst x)) (snd x)) l.
Definition enabled_of {K} (l : list (key * K)) : list (key * K) := filter (fun x => Z.eqb (k_status (fst x)) ENABLED) l.

(** ** New handles *)

(** [h] is a new handle for the template [name]: its keyset has one key, the primary key [k],
    with the parameters of the template and the key pair chosen with [rnd]. *)
Definition new_ecies_handle (ec : ec_crypto) (rnd : coins) (name : string) (h : keyset_handle) (k : key) (q : ecies_private) : Prop :=
  In (name, pub_params (prv_public q)) ecies_template_keys /\
  fresh_key ec (ep_curve (pub_params (prv_public q))) rnd (prv_value q) (pub_x (prv_public q)) (pub_y (prv_public q)) /\
  hybrid_keyset is_private (good_private ec) (kh_keyset h) [(k, q)] /\ all_private (kh_keyset h) [(k, q)] /\
  k_status k = ENABLED /\ k_output_prefix_type k = TINK /\ k_key_id k = ks_primary_key_id (kh_keyset h).

(** The public key that the library makes of [k] has a size that protocol buffers can have. *)
Definition public_fits (ec : ec_crypto) (lib : crypto) (random : coins -> Z -> bytes) (k : key) : Prop :=
  forall get d', cl_public_key_data (ecies_private_key_manager ec lib random) = Some get -> get (kd_value (k_key_data k)) = StOk d' ->
    proto_size (kd_value d') /\ proto_size (serialize_key_data d').
