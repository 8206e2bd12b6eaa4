(** What the primitives of a keyset handle must do in terms of the C++ primitives of its
    keys. *)
From Coq Require Import Strings.Byte Strings.String List NArith ZArith Bool.
From Verif Require Import M_Base M_Proto M_Prims M_PrimitiveSet M_Registry M_StreamTypes M_CcStream M_CcManagers S_Keyset S_Config.
Import ListNotations.
Open Scope string_scope.
Open Scope list_scope.

(** [l] lists the ENABLED keys of [ks] in keyset order, each with the C++ primitive that
    the C++ library makes of it; all of them are keys of class [c]. *)
Definition cc_keys {P} (c : pclass) (lookup : pystr -> option (cc_lib_manager P)) (ks : keyset)
  (l : list (key * P)) : Prop :=
  map fst l = enabled_keys ks /\
  Forall (fun kq => cc_key c (k_key_data (fst kq)) /\
    exists m, lookup (kd_type_url (k_key_data (fst kq))) = Some m /\
      cl_get_primitive m (k_key_data (fst kq)) = StOk (snd kq)) l.
(** A valid keyset of such keys whose prefix types are known. *)
Definition cc_keyset {P} (c : pclass) (lookup : pystr -> option (cc_lib_manager P)) (ks : keyset)
  (l : list (key * P)) : Prop :=
  valid_keyset ks /\ cc_keys c lookup ks l /\
  Forall (fun k => exists p, has_prefix (k_output_prefix_type k) (k_key_id k) p) (enabled_keys ks).

(** The outcome of a C++ call as that of a Python call. *)
Definition of_status {A} (s : st_or A) : result A :=
  match s with StOk a => Ok a | StErr _ => Err (TinkError "") end.
(** [x] is the first success among the C++ calls [l], or a TinkError. *)
Definition first_success {A} (l : list (result A)) (x : result A) : Prop :=
  exists y, first_ok l y /\ same_outcome y x.
(** [x] is the C++ output [s] of the primary key behind its prefix, or a TinkError. *)
Definition prefixed (k : key) (s : st_or bytes) (x : result bytes) : Prop :=
  exists p, has_prefix (k_output_prefix_type k) (k_key_id k) p /\
    answers x (match s with StOk c => StOk (p ++ c) | StErr e => StErr e end).

Definition aead_over_cc (ks : keyset) (l : list (key * cc_aead)) (a : aead) : Prop :=
  (forall ct ad, first_success (attempts l ct (fun _ q body => of_status (ca_decrypt q body ad)))
     (aead_decrypt a ct ad)) /\
  (forall k q, is_primary ks l k q -> forall r pt ad,
     prefixed k (ca_encrypt q r pt ad) (aead_encrypt a r pt ad)) /\
  ((forall k q, ~ is_primary ks l k q) -> forall r pt ad, raises_tink (aead_encrypt a r pt ad)).
Definition daead_over_cc (ks : keyset) (l : list (key * cc_daead)) (a : daead) : Prop :=
  (forall ct ad, first_success (attempts l ct (fun _ q body => of_status (cda_decrypt q body ad)))
     (daead_decrypt a ct ad)) /\
  (forall k q, is_primary ks l k q -> forall pt ad,
     prefixed k (cda_encrypt q pt ad) (daead_encrypt a pt ad)) /\
  ((forall k q, ~ is_primary ks l k q) -> forall pt ad, raises_tink (daead_encrypt a pt ad)).
Definition hybrid_decrypt_over_cc (l : list (key * cc_hybrid_decrypt)) (a : hybrid_decrypt) : Prop :=
  forall ct ci, first_success (attempts l ct (fun _ q body => of_status (chd_decrypt q body ci)))
    (hd_decrypt a ct ci).
Definition hybrid_encrypt_over_cc (ks : keyset) (l : list (key * cc_hybrid_encrypt)) (a : hybrid_encrypt) : Prop :=
  (forall k q, is_primary ks l k q -> forall r pt ci,
     prefixed k (che_encrypt q r pt ci) (he_encrypt a r pt ci)) /\
  ((forall k q, ~ is_primary ks l k q) -> forall r pt ci, raises_tink (he_encrypt a r pt ci)).
Definition mac_over_cc (ks : keyset) (l : list (key * cc_mac)) (a : mac) : Prop :=
  (forall tag data, (length tag <= 5)%nat -> raises_tink (mac_verify a tag data)) /\
  (forall tag data, (5 < length tag)%nat ->
     first_success (attempts l tag (fun k q body => of_status (cm_verify q body (legacy_data k data))))
       (mac_verify a tag data)) /\
  (forall k q, is_primary ks l k q -> forall data,
     prefixed k (cm_compute q (legacy_data k data)) (mac_compute a data)) /\
  ((forall k q, ~ is_primary ks l k q) -> forall data, raises_tink (mac_compute a data)).
Definition signer_over_cc (ks : keyset) (l : list (key * cc_signer)) (a : signer) : Prop :=
  (forall k q, is_primary ks l k q -> forall r data,
     prefixed k (cs_sign q r (legacy_data k data)) (sign a r data)) /\
  ((forall k q, ~ is_primary ks l k q) -> forall r data, raises_tink (sign a r data)).
Definition verifier_over_cc (l : list (key * cc_verifier)) (a : verifier) : Prop :=
  (forall sg data, (length sg <= 5)%nat -> raises_tink (verify a sg data)) /\
  (forall sg data, (5 < length sg)%nat ->
     first_success (attempts l sg (fun k q body => of_status (cv_verify q body (legacy_data k data))))
       (verify a sg data)).
