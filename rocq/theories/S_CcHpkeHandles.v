(** Specification of hybrid encryption with HPKE as users of Python see it, in terms of the
    keys of a keyset and of the ciphertexts of S_CcHpke. *)
From Coq Require Import Strings.Byte Strings.String List NArith ZArith Bool.
From Verif Require Import M_Base M_Proto M_Wire M_ProtoMsg M_KeyFormats M_Prims M_PrimitiveSet M_Registry M_KeysetHandle M_StreamTypes M_CcStream M_CcManagers M_CcAes
  M_CcStreamKeys M_CcModes M_CcSymmetric M_CcSymKeys M_CcEcies M_CcEciesKeys M_CcHpke S_Keyset S_Wrappers S_Wire S_Config S_CcAes S_CcStreamKeys S_CcModes S_CcSymmetric S_CcSymKeys
  S_CcSymHandles S_CcEcies S_CcEciesKeys S_CcEciesHandles S_CcHpke.
Import ListNotations.
Open Scope string_scope.
Open Scope list_scope.
Open Scope nat_scope.

(** The C++ library has the key managers of HPKE, among others. *)
Definition hpke_world (ec : ec_crypto) (hc : hpke_crypto) (w : cc_world) : Prop :=
  cw_hybrid_decrypt w (type_url "HpkePrivateKey") = Some (hpke_private_key_manager ec hc) /\
  cw_hybrid_encrypt w (type_url "HpkePublicKey") = Some (hpke_public_key_manager hc).

(** Public keys of use; private keys with the public key that belongs to them *)
Definition good_hpke_public (k : hpke_public) : Prop := (exists a, suite_works (hpub_suite k) a) /\ hpub_key k <> [].
Definition good_hpke_private (ec : ec_crypto) (k : hpke_private) : Prop := (exists a, suite_works (hpub_suite (hprv_public k)) a) /\ hpke_pair ec k.

(** ** Encryption with the primary key *)
Definition hpke_encrypt_works (hc : hpke_crypto) (ks : keyset) (l : list (key * hpke_public)) (a : hybrid_encrypt) : Prop :=
  (forall k q, is_primary ks l k q -> forall rnd P info,
     (forall C, he_encrypt a rnd P info = Ok C <-> exists c alg, stamped k C c /\ suite_works (hpub_suite q) alg /\ hpke_ciphertext hc alg (hpub_key q) info rnd P c) /\
     tink_total (he_encrypt a rnd P info)) /\
  ((forall k q, ~ is_primary ks l k q) -> forall rnd P info, raises_tink (he_encrypt a rnd P info)).

(** ** Decryption: one of the keys opens [C] as [P]. *)
Definition hpke_opens (hc : hpke_crypto) (l : list (key * hpke_private)) (C info P : bytes) : Prop :=
  exists k q alg c, In (k, q) l /\ stamped k C c /\ suite_works (hpub_suite (hprv_public q)) alg /\ hpke_plaintext hc alg (hprv_key q) info c P.
Definition hpke_decrypt_works (hc : hpke_crypto) (l : list (key * hpke_private)) (a : hybrid_decrypt) : Prop :=
  (forall C info P, hd_decrypt a C info = Ok P -> hpke_opens hc l C info P) /\
  (forall C info P, hpke_opens hc l C info P -> exists P', hd_decrypt a C info = Ok P') /\
  (forall C info, tink_total (hd_decrypt a C info)).
(** Only one of the keys can be meant by the prefix of the key [k]: this is [q]. *)
Definition hpke_told_apart (k : key) (q : hpke_private) (l : list (key * hpke_private)) : Prop :=
  l = [(k, q)] \/
  (k_output_prefix_type k <> RAW /\
   forall k' q', In (k', q') l -> k_output_prefix_type k' <> RAW /\ (k_key_id k' = k_key_id k -> q' = q)).

(** ** Public keysets: the same keys with the same identifiers, statuses and prefixes *)
Definition hpke_public_half (x : key * hpke_private) (y : key * hpke_public) : Prop :=
  k_status (fst y) = k_status (fst x) /\ k_key_id (fst y) = k_key_id (fst x) /\ k_output_prefix_type (fst y) = k_output_prefix_type (fst x) /\
  is_hpke_public (k_key_data (fst y)) (hprv_public (snd x)) /\ snd y = hprv_public (snd x).
(** All keys of a keyset, whatever their status *)
Definition all_hpke_private (ks : keyset) (l : list (key * hpke_private)) : Prop :=
  map fst l = ks_key ks /\
  Forall (fun x => wf_key_data (k_key_data (fst x)) /\ proto_size (serialize_key_data (k_key_data (fst x))) /\
    kd_key_material_type (k_key_data (fst x)) = ASYMMETRIC_PRIVATE /\ is_hpke_private (k_key_data (fst x)) (snd x) /\
    suite_stated (hpub_suite (hprv_public (snd x)))) l.
(** The public key that the library makes of [k] has a size that protocol buffers can have. *)
Definition hpke_public_fits (ec : ec_crypto) (hc : hpke_crypto) (k : key) : Prop :=
  forall get d', cl_public_key_data (hpke_private_key_manager ec hc) = Some get -> get (kd_value (k_key_data k)) = StOk d' ->
    proto_size (kd_value d') /\ proto_size (serialize_key_data d').

(** ** New handles *)

(** [h] is a new handle for the template [name]: its keyset has one key, the primary key [k],
    with the algorithms and the prefix of the template and the key pair chosen with [rnd]. *)
Definition new_hpke_handle (ec : ec_crypto) (rnd : coins) (name : string) (h : keyset_handle) (k : key) (q : hpke_private) : Prop :=
  (exists tink, In (name, hpub_suite (hprv_public q), tink) hpke_templates /\ k_output_prefix_type k = if tink then TINK else RAW) /\
  hprv_key q = x25519_generate ec rnd /\ hpub_key (hprv_public q) = x25519_public ec (hprv_key q) /\
  hybrid_keyset is_hpke_private (good_hpke_private ec) (kh_keyset h) [(k, q)] /\ all_hpke_private (kh_keyset h) [(k, q)] /\
  k_status k = ENABLED /\ k_key_id k = ks_primary_key_id (kh_keyset h).
