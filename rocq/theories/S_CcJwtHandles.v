(** Specification of JWT keysets as users of Python see them, in terms of the keys of S_CcJwt,
    of the HMAC and the signatures, and of the tokens of S_Jwt. *)
From Coq Require Import Strings.Byte Strings.String List NArith ZArith Bool.
From Verif Require Import M_Base M_Proto M_Wire M_ProtoMsg M_KeyFormats M_JwtTypes M_Prims M_PrimitiveSet M_Registry M_KeysetHandle M_Json M_RawJwt M_StreamTypes M_CcStream M_CcManagers M_CcAes
  M_CcStreamKeys M_CcModes M_CcSymmetric M_CcSymKeys M_CcEcies M_CcSignatures M_CcJwt S_Keyset S_Json S_Jwt S_Wire S_Config S_CcAes S_CcStreamKeys S_CcModes S_CcSymmetric S_CcSymKeys
  S_CcSymHandles S_CcEcies S_CcEciesKeys S_CcSignatures S_CcSigHandles S_CcJwt.
Import ListNotations.
Open Scope string_scope.
Open Scope list_scope.
Open Scope nat_scope.

(** The C++ library has the JWT key managers, among others. *)
Definition jwt_world (lib : crypto) (random : coins -> Z -> bytes) (ec : ec_crypto) (sg : sig_crypto) (self_test : coins) (w : cc_world) : Prop :=
  cw_mac w (type_url "JwtHmacKey") = Some (jwt_mac_manager lib random) /\
  forall f, cw_sign w (type_url (family_name f ++ "PrivateKey")) = Some (jwt_sign_cc_manager ec sg self_test f) /\
    cw_verify w (type_url (family_name f ++ "PublicKey")) = Some (jwt_verify_cc_manager ec sg f).

(** ** The alg of the header of tokens (RFC 7518, 3.1) *)
Definition bits_name (h : hash_type) : string := match h with M_CcAes.SHA256 => "256" | M_CcAes.SHA384 => "384" | _ => "512" end.
Definition hs_alg (k : jwt_hmac_secret) : pystr := ulit ("HS" ++ bits_name (hs_hash k)).
Definition family_alg (f : jwt_family) : string := match f with ES => "ES" | RS => "RS" | PS => "PS" end.
Definition jwt_alg (k : jwt_public) : pystr := ulit (family_alg (public_family k) ++ bits_name (jwt_hash k)).

(** A valid keyset whose enabled keys, in this order, are these, all of them good, and RAW or
    TINK *)
Definition jwt_keyset {K} (is_key : key_data -> K -> Prop) (good : K -> Prop) (ks : keyset) (l : list (key * K)) : Prop :=
  valid_keyset ks /\ map fst l = enabled_keys ks /\
  Forall (fun x => wf_key_data (k_key_data (fst x)) /\ proto_size (serialize_key_data (k_key_data (fst x))) /\
    is_key (k_key_data (fst x)) (snd x) /\ good (snd x) /\ exists kid, kid_of (fst x) kid) l.

(** ** Tokens: [tagged signed tag] is about the bytes that are authenticated and the third
    part of the token *)
Definition token_for (rt : py_rt) (alg : pystr) (tink_kid custom_kid : option pystr) (tagged : bytes -> bytes -> Prop) (r : raw_jwt) (token : pystr) : Prop :=
  exists signed header payload tag h,
    compact_parts token signed header payload tag /\ tagged signed tag /\
    document rt (JDict h) header /\ header_of alg (match tink_kid with Some _ => tink_kid | None => custom_kid end) (rj_type_header r) h /\
    document rt (JDict (rj_payload r)) payload.
Definition token_valid (rt : py_rt) (alg : pystr) (tink_kid custom_kid : option pystr) (tagged : bytes -> bytes -> Prop) (clock : Z) (v : jwt_validator) (token : pystr) (r : raw_jwt) : Prop :=
  exists signed header payload tag h,
    compact_parts token signed header payload tag /\ tagged signed tag /\
    document rt (JDict h) header /\ header_ok alg tink_kid custom_kid h /\ typ_of h (rj_type_header r) /\
    document rt (JDict (rj_payload r)) payload /\ well_typed r /\ accepts rt clock v r.

(** Tokens are made with the primary key. A key with a custom kid makes none if it is TINK. *)
Definition makes_tokens {K} (rt : py_rt) (alg : K -> pystr) (custom : K -> option pystr) (tagged : K -> bytes -> bytes -> Prop)
    (ks : keyset) (l : list (key * K)) (make : raw_jwt -> result pystr) : Prop :=
  (forall k q kid r, is_primary ks l k q -> kid_of k kid ->
     ((custom q = None \/ kid = None) -> ordinary_jwt rt r -> exists token, make r = Ok token /\ token_for rt (alg q) kid (custom q) (tagged q) r token) /\
     (custom q <> None -> kid <> None -> exists m, make r = Err (JwtInvalidError m))) /\
  ((forall k q, ~ is_primary ks l k q) -> forall r, raises_tink (make r)).
(** Tokens are accepted exactly if they are valid for one of the keys. *)
Definition accepts_tokens {K} (rt : py_rt) (alg : K -> pystr) (custom : K -> option pystr) (tagged : K -> bytes -> bytes -> Prop)
    (l : list (key * K)) (verify : Z -> pystr -> jwt_validator -> result verified_jwt) : Prop :=
  (forall clock v token r, representable (current_time v clock - jv_clock_skew v)%Z -> representable (current_time v clock + jv_clock_skew v)%Z ->
     (verify clock token v = Ok (mk_verified_jwt r) <->
      exists k q kid, In (k, q) l /\ kid_of k kid /\ token_valid rt (alg q) kid (custom q) (tagged q) clock v token r)) /\
  (forall clock v token, (forall k q signed header payload tag, In (k, q) l -> compact_parts token signed header payload tag -> ~ tagged q signed tag) ->
     raises_tink (verify clock token v)).

Definition jwt_mac_works (rt : py_rt) (lib : crypto) (ks : keyset) (l : list (key * jwt_hmac_secret)) (a : jwt_mac) : Prop :=
  let tagged q signed tag := tag = evp_hmac lib (hs_hash q) (hs_value q) signed in
  makes_tokens rt hs_alg hs_kid tagged ks l (jm_compute a) /\ accepts_tokens rt hs_alg hs_kid tagged l (jm_verify a).
Definition jwt_sign_works (rt : py_rt) (sg : sig_crypto) (ks : keyset) (l : list (key * jwt_private)) (a : jwt_sign) : Prop :=
  forall rnd, makes_tokens rt (fun q => jwt_alg (jwt_public_of q)) (fun q => jwt_kid (jwt_public_of q)) (fun q signed tag => signature_of sg (private_scheme q) rnd signed tag) ks l (js_sign a rnd).
Definition jwt_verify_works (rt : py_rt) (sg : sig_crypto) (l : list (key * jwt_public)) (a : jwt_verify) : Prop :=
  accepts_tokens rt jwt_alg jwt_kid (fun q signed tag => valid_signature sg (scheme q) signed tag) l (jv_verify a).

(** ** Public keysets: the same keys with the same identifiers, statuses, prefixes and kids *)
Definition jwt_public_half (x : key * jwt_private) (y : key * jwt_public) : Prop :=
  k_status (fst y) = k_status (fst x) /\ k_key_id (fst y) = k_key_id (fst x) /\ k_output_prefix_type (fst y) = k_output_prefix_type (fst x) /\
  is_jwt_public (k_key_data (fst y)) (jwt_public_of (snd x)) /\ snd y = jwt_public_of (snd x).
(** All keys of a keyset, whatever their status *)
Definition all_jwt_private (ks : keyset) (l : list (key * jwt_private)) : Prop :=
  map fst l = ks_key ks /\
  Forall (fun x => wf_key_data (k_key_data (fst x)) /\ proto_size (serialize_key_data (k_key_data (fst x))) /\
    kd_key_material_type (k_key_data (fst x)) = ASYMMETRIC_PRIVATE /\ is_jwt_private (k_key_data (fst x)) (snd x) /\ valid_private (private_scheme (snd x))) l.
(** The public key that the library makes of [k] has a size that protocol buffers can have. *)
Definition jwt_public_fits (ec : ec_crypto) (sg : sig_crypto) (self_test : coins) (k : key) : Prop :=
  forall f get d', cl_public_key_data (jwt_sign_cc_manager ec sg self_test f) = Some get -> get (kd_value (k_key_data k)) = StOk d' ->
    kd_type_url (k_key_data k) = type_url (family_name f ++ "PrivateKey") ->
    proto_size (kd_value d') /\ proto_size (serialize_key_data d').

(** ** New handles *)
(** The only key of the keyset is [k], enabled, with the prefix of the template, and primary. *)
Definition only_key (name : string) (h : keyset_handle) (k : key) : Prop :=
  k_status k = ENABLED /\ k_output_prefix_type k = (if String.prefix "raw_" name then RAW else TINK) /\ k_key_id k = ks_primary_key_id (kh_keyset h).
Definition new_jwt_mac_handle (random : coins -> Z -> bytes) (rnd : coins) (name : string) (h : keyset_handle) (k : key) (q : jwt_hmac_secret) : Prop :=
  (exists size, In (name, HsKind (hs_hash q) size) jwt_template_formats /\ hs_value q = random (2 * rnd)%N size /\ hs_kid q = None) /\
  jwt_keyset is_jwt_hmac jwt_hmac_ok (kh_keyset h) [(k, q)] /\ only_key name h k.
Definition new_jwt_sign_handle (ec : ec_crypto) (sg : sig_crypto) (rnd : coins) (name : string) (h : keyset_handle) (k : key) (q : jwt_private) : Prop :=
  (exists f, In (name, SigKind f) jwt_template_formats /\ fresh_jwt ec sg f rnd q) /\
  jwt_keyset is_jwt_private (fun q => good_private ec sg (private_scheme q)) (kh_keyset h) [(k, q)] /\ all_jwt_private (kh_keyset h) [(k, q)] /\
  matching ec sg (private_scheme q) /\ only_key name h k.
