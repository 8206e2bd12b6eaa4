(** Specification vocabulary for serialized keyset messages: which messages can
    exist in Python at all (field ranges enforced by the protobuf library). *)
From Coq Require Import Strings.Byte List NArith ZArith Bool.
From Verif Require Import M_Base M_Proto.
Import ListNotations.

(** A string that can be stored in a proto3 string field: no surrogates. *)
Definition valid_text (s : pystr) : Prop :=
  forall c, In c s -> (c < 55296 \/ 57344 <= c < 1114112)%N.
Definition uint32_range (n : N) : Prop := (n < 2 ^ 32)%N.
Definition int32_range (z : Z) : Prop := (- 2 ^ 31 <= z < 2 ^ 31)%Z.

Definition wf_key_template (t : key_template) : Prop :=
  valid_text (kt_type_url t) /\ int32_range (kt_output_prefix_type t).
Definition wf_key_data (d : key_data) : Prop :=
  valid_text (kd_type_url d) /\ int32_range (kd_key_material_type d).
Definition wf_key (k : key) : Prop :=
  (forall d, k_key_data_opt k = Some d -> wf_key_data d) /\
  int32_range (k_status k) /\ uint32_range (k_key_id k) /\ int32_range (k_output_prefix_type k).
Definition wf_keyset (ks : keyset) : Prop :=
  uint32_range (ks_primary_key_id ks) /\ (forall k, In k (ks_key ks) -> wf_key k).
Definition wf_key_info (k : key_info) : Prop :=
  valid_text (ki_type_url k) /\ int32_range (ki_status k) /\ uint32_range (ki_key_id k) /\
  int32_range (ki_output_prefix_type k).
Definition wf_keyset_info (i : keyset_info) : Prop :=
  uint32_range (ksi_primary_key_id i) /\ (forall k, In k (ksi_key_info i) -> wf_key_info k).
Definition wf_encrypted_keyset (e : encrypted_keyset) : Prop :=
  forall i, ek_keyset_info e = Some i -> wf_keyset_info i.

(** Protobuf messages are smaller than 2 GiB. *)
Definition proto_size (x : bytes) : Prop := (N.of_nat (length x) < 2 ^ 31)%N.
