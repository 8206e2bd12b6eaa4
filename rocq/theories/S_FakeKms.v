(** Specification of the fake KMS: URIs that contain a keyset. *)
From Coq Require Import Strings.Byte Strings.String List NArith ZArith Bool.
From Verif Require Import M_Base M_Proto M_Wire M_Prims M_Kms S_Base64 S_Keyset S_Wire.
Import ListNotations.
Open Scope string_scope.
Open Scope list_scope.

(** A URI of the fake KMS, by the bytes of the part behind the scheme. *)
Definition fake_uri (id : bytes) : pystr := ulit "fake-kms://" ++ map Byte.to_N id.
(** [uri] contains the bytes [x]: as URL-safe base64, with any number of '=' behind it. *)
Definition contains (uri : pystr) (x : bytes) : Prop :=
  exists text n, base64_text url_alphabet x text /\ uri = fake_uri (text ++ repeat "="%byte n).
