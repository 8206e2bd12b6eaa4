(** Messages of python/tink/proto/tink.proto as records.

    Presence of sub-messages is [option]. Enums are open in proto3, so they are
    integers. uint32 fields are [N]; the range is enforced by the protobuf
    library and appears as [wf_*] predicates in the specifications.
    Unknown fields are not represented. *)
From Coq Require Import List NArith ZArith Bool.
From Verif Require Import M_Base.
Import ListNotations.
Open Scope Z_scope.

(** proto/tink.proto: enum KeyStatusType *)
Definition UNKNOWN_STATUS := 0.
Definition ENABLED := 1.
Definition DISABLED := 2.
Definition DESTROYED := 3.

(** proto/tink.proto: enum OutputPrefixType *)
Definition UNKNOWN_PREFIX := 0.
Definition TINK := 1.
Definition LEGACY := 2.
Definition RAW := 3.
Definition CRUNCHY := 4.

(** proto/tink.proto: enum KeyData.KeyMaterialType *)
Definition UNKNOWN_KEYMATERIAL := 0.
Definition SYMMETRIC := 1.
Definition ASYMMETRIC_PRIVATE := 2.
Definition ASYMMETRIC_PUBLIC := 3.
Definition REMOTE := 4.

(** proto/tink.proto: message KeyTemplate *)
Record key_template := mk_key_template {
  kt_type_url : pystr;
  kt_value : bytes;
  kt_output_prefix_type : Z }.

(** proto/tink.proto: message KeyData *)
Record key_data := mk_key_data {
  kd_type_url : pystr;
  kd_value : bytes;
  kd_key_material_type : Z }.

(** The value of an absent KeyData sub-message. *)
Definition default_key_data : key_data := mk_key_data [] [] 0.

(** proto/tink.proto: message Keyset.Key *)
Record key := mk_key {
  k_key_data_opt : option key_data;
  k_status : Z;
  k_key_id : N;
  k_output_prefix_type : Z }.

(** [key.key_data] in Python: the default instance when the field is unset. *)
Definition k_key_data (k : key) : key_data :=
  match k_key_data_opt k with Some d => d | None => default_key_data end.

(** proto/tink.proto: message Keyset *)
Record keyset := mk_keyset {
  ks_primary_key_id : N;
  ks_key : list key }.

(** proto/tink.proto: message KeysetInfo.KeyInfo *)
Record key_info := mk_key_info {
  ki_type_url : pystr;
  ki_status : Z;
  ki_key_id : N;
  ki_output_prefix_type : Z }.

(** proto/tink.proto: message KeysetInfo *)
Record keyset_info := mk_keyset_info {
  ksi_primary_key_id : N;
  ksi_key_info : list key_info }.

(** proto/tink.proto: message EncryptedKeyset *)
Record encrypted_keyset := mk_encrypted_keyset {
  ek_encrypted_keyset : bytes;
  ek_keyset_info : option keyset_info }.

(** Message equality, [==] on protobuf messages. *)
Definition key_data_eqb (x y : key_data) : bool :=
  str_eqb (kd_type_url x) (kd_type_url y) && bytes_eqb (kd_value x) (kd_value y)
  && (kd_key_material_type x =? kd_key_material_type y).
Definition key_eqb (x y : key) : bool :=
  option_eqb key_data_eqb (k_key_data_opt x) (k_key_data_opt y)
  && (k_status x =? k_status y) && (N.eqb (k_key_id x) (k_key_id y))
  && (k_output_prefix_type x =? k_output_prefix_type y).
Definition keyset_eqb (x y : keyset) : bool :=
  N.eqb (ks_primary_key_id x) (ks_primary_key_id y)
  && list_eqb key_eqb (ks_key x) (ks_key y).
