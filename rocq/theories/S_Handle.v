(** Specification vocabulary for keyset handles: generation, reading, writing. *)
From Coq Require Import Strings.Byte List NArith ZArith Bool.
From Verif Require Import M_Base M_Proto M_Prims M_Registry S_Keyset.
Import ListNotations.
Open Scope Z_scope.

(** Key material types that the no-secret APIs must stop. *)
Definition secret_type (t : Z) : Prop :=
  t = UNKNOWN_KEYMATERIAL \/ t = SYMMETRIC \/ t = ASYMMETRIC_PRIVATE.
Definition has_secret (ks : keyset) : Prop :=
  exists k, In k (ks_key ks) /\ secret_type (kd_key_material_type (k_key_data k)).

(** Two keys that differ at most in their key value and material type. *)
Definition same_public_part (k1 k2 : key) : Prop :=
  kd_type_url (k_key_data k1) = kd_type_url (k_key_data k2) /\
  k_status k1 = k_status k2 /\ k_key_id k1 = k_key_id k2 /\
  k_output_prefix_type k1 = k_output_prefix_type k2.
Definition same_public_view (ks1 ks2 : keyset) : Prop :=
  ks_primary_key_id ks1 = ks_primary_key_id ks2 /\
  Forall2 same_public_part (ks_key ks1) (ks_key ks2).

(** The registry's private key manager maps this private key to [d]. *)
Definition public_data_of (reg : registry) (k : key) (d : key_data) : Prop :=
  kd_key_material_type (k_key_data k) = ASYMMETRIC_PRIVATE /\
  exists km b f,
    dict_get str_eqb (kd_type_url (k_key_data k)) (r_key_managers reg) = Some (km, b) /\
    km_public_key_data km = Some f /\ f (k_key_data k) = Ok d.

(** [pk] is the public counterpart of [k]: everything but the key data is kept. *)
Definition public_counterpart (reg : registry) (k pk : key) : Prop :=
  (exists d, k_key_data_opt pk = Some d /\ public_data_of reg k d) /\
  k_status pk = k_status k /\ k_key_id pk = k_key_id k /\
  k_output_prefix_type pk = k_output_prefix_type k.

(** The keyset whose only key is ENABLED and primary. *)
Definition single_key_keyset (d : key_data) (id : N) (prefix : Z) : keyset :=
  mk_keyset id [mk_key (Some d) ENABLED id prefix].

(** The unencrypted description of a keyset. *)
Definition describes (ks : keyset) (info : keyset_info) : Prop :=
  ksi_primary_key_id info = ks_primary_key_id ks /\
  Forall2 (fun k i => ki_type_url i = kd_type_url (k_key_data k) /\ ki_status i = k_status k /\
                      ki_key_id i = k_key_id k /\ ki_output_prefix_type i = k_output_prefix_type k)
    (ks_key ks) (ksi_key_info info).
