(** Specification of the distribution of public keysets as files without secrets. *)
From Coq Require Import Strings.Byte Strings.String List NArith ZArith Bool.
From Verif Require Import M_Base M_Proto M_Wire M_Prims M_KeysetHandle M_KeysetIO M_Json M_JsonKeyset S_Keyset S_Handle S_Json S_JsonKeyset S_Wire.
Import ListNotations.
Open Scope string_scope.
Open Scope list_scope.
Open Scope nat_scope.

(** The handle can be written without access to secrets, in both formats, and what is written is
    read back, without access to secrets, as the same handle. *)
Definition distributable (h : keyset_handle) : Prop :=
  (proto_size (serialize_keyset (kh_keyset h)) -> exists x, proto_serialize_without_secret h = Ok x /\ proto_parse_without_secret x = Ok h) /\
  (forall rt, python_digit_limit rt -> exists t, json_proto_serialize_without_secret rt h = Ok t /\ forall pb, json_proto_parse_without_secret rt pb t = Ok h).
(** The handle can neither be written nor, if someone else wrote it, be read without access to
    secrets. *)
Definition kept_secret (h : keyset_handle) : Prop :=
  raises_tink (proto_serialize_without_secret h) /\ (forall x, proto_parse_without_secret x <> Ok h) /\
  (forall rt, python_digit_limit rt -> raises_tink (json_proto_serialize_without_secret rt h)) /\ (forall rt pb t, json_proto_parse_without_secret rt pb t <> Ok h).
