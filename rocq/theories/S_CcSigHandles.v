(** Specification of digital signatures as users of Python see them, in terms of the keys of
    a keyset and of the signatures of S_CcSignatures. *)
From Coq Require Import Strings.Byte Strings.String List NArith ZArith Bool.
From Verif Require Import M_Base M_Proto M_Wire M_ProtoMsg M_KeyFormats M_Prims M_PrimitiveSet M_Registry M_KeysetHandle M_StreamTypes M_CcStream M_CcManagers M_CcAes
  M_CcStreamKeys M_CcModes M_CcSymmetric M_CcSymKeys M_CcEcies M_CcSignatures S_Keyset S_Wrappers S_Wire S_Config S_CcAes S_CcStreamKeys S_CcModes S_CcSymmetric S_CcSymKeys
  S_CcSymHandles S_CcEcies S_CcEciesKeys S_CcSignatures.
Import ListNotations.
Open Scope string_scope.
Open Scope list_scope.
Open Scope nat_scope.

(** The C++ library has the key managers of signatures, among others. *)
Definition sig_world (ec : ec_crypto) (sg : sig_crypto) (self_test : coins) (w : cc_world) : Prop :=
  forall kd, cw_sign w (type_url (kind_name kd ++ "PrivateKey")) = Some (sign_manager ec sg self_test kd) /\
    cw_verify w (type_url (kind_name kd ++ "PublicKey")) = Some (verify_manager ec sg kd).

(** More laws: RSA signatures have the size of the modulus; no number of a new RSA key is
    larger than its modulus. *)
Record rsa_sizes (sg : sig_crypto) : Prop := mk_rsa_sizes {
  law_rsa_verify_size : forall n e h x sig, rsa_verify sg (n, e) h x sig = true -> length sig = modulus_size n;
  law_rsa_decrypt_size : forall n e sig EM, rsa_public_decrypt sg (n, e) sig = Some EM -> length sig = modulus_size n;
  law_rsa_numbers : forall bits e rnd k, rsa_generate sg bits e rnd = Some k ->
    Forall (fun x => (x <= rsa_n k)%N) [rsa_d k; rsa_p k; rsa_q k; rsa_dp k; rsa_dq k; rsa_crt k] }.

(** A valid keyset whose enabled keys, in this order, are these, all of them good *)
Definition sig_keyset {K} (is_key : key_data -> K -> Prop) (good : K -> Prop) (ks : keyset) (l : list (key * K)) : Prop :=
  valid_keyset ks /\ map fst l = enabled_keys ks /\
  Forall (fun x => wf_key_data (k_key_data (fst x)) /\ proto_size (serialize_key_data (k_key_data (fst x))) /\
    is_key (k_key_data (fst x)) (snd x) /\ good (snd x) /\
    exists p, has_prefix (k_output_prefix_type (fst x)) (k_key_id (fst x)) p) l.

(** ** Signing: the primary key signs, and the signature begins with its prefix; LEGACY keys
    sign the data followed by a zero byte. *)
Definition sign_works (sg : sig_crypto) (ks : keyset) (l : list (key * sig_private)) (a : signer) : Prop :=
  (forall k q, is_primary ks l k q -> forall rnd data,
     (exists x, sign a rnd data = Ok x) /\
     (forall x, sign a rnd data = Ok x <-> exists y, stamped k x y /\ signature_of sg q rnd (legacy_data k data) y)) /\
  ((forall k q, ~ is_primary ks l k q) -> forall rnd data, raises_tink (sign a rnd data)).

(** ** Verification: one of the keys accepts the signature. *)
Definition verify_works (sg : sig_crypto) (l : list (key * sig_public)) (a : verifier) : Prop :=
  (forall x data, verify a x data = Ok tt <->
     exists k q y, In (k, q) l /\ stamped k x y /\ valid_signature sg q (legacy_data k data) y) /\
  (forall x data, tink_total (verify a x data)).

(** ** Public keysets: the same keys with the same identifiers, statuses and prefixes *)
Definition sig_public_half (x : key * sig_private) (y : key * sig_public) : Prop :=
  k_status (fst y) = k_status (fst x) /\ k_key_id (fst y) = k_key_id (fst x) /\ k_output_prefix_type (fst y) = k_output_prefix_type (fst x) /\
  is_sig_public (k_key_data (fst y)) (public_of (snd x)) /\ snd y = public_of (snd x).
(** All keys of a keyset, whatever their status *)
Definition all_sig_private (ks : keyset) (l : list (key * sig_private)) : Prop :=
  map fst l = ks_key ks /\
  Forall (fun x => wf_key_data (k_key_data (fst x)) /\ proto_size (serialize_key_data (k_key_data (fst x))) /\
    kd_key_material_type (k_key_data (fst x)) = ASYMMETRIC_PRIVATE /\ is_sig_private (k_key_data (fst x)) (snd x) /\ valid_private (snd x)) l.
Definition enabled_ones {K} (l : list (key * K)) : list (key * K) := filter (fun x => Z.eqb (k_status (fst x)) ENABLED) l.
(** The public key that the library makes of [k] has a size that protocol buffers can have. *)
Definition sig_public_fits (ec : ec_crypto) (sg : sig_crypto) (self_test : coins) (k : key) : Prop :=
  forall kd get d', cl_public_key_data (sign_manager ec sg self_test kd) = Some get -> get (kd_value (k_key_data k)) = StOk d' ->
    kd_type_url (k_key_data k) = type_url (kind_name kd ++ "PrivateKey") ->
    proto_size (kd_value d') /\ proto_size (serialize_key_data d').

(** ** New handles *)

(** [h] is a new handle for the template [name]: its keyset has one key, the primary key [k],
    with the parameters of the template, chosen with [rnd]. *)
Definition new_sig_handle (ec : ec_crypto) (sg : sig_crypto) (rnd : coins) (name : string) (h : keyset_handle) (k : key) (q : sig_private) : Prop :=
  (exists f, In (name, f) sig_template_formats /\ fresh_sig ec sg f rnd q) /\
  sig_keyset is_sig_private (good_private ec sg) (kh_keyset h) [(k, q)] /\ all_sig_private (kh_keyset h) [(k, q)] /\ matching ec sg q /\
  k_status k = ENABLED /\ k_output_prefix_type k = (if String.eqb name "ECDSA_P256_RAW" then RAW else TINK) /\ k_key_id k = ks_primary_key_id (kh_keyset h).
