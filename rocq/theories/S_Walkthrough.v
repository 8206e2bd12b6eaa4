(** Specification of the walkthrough examples: remote keys and the keysets encrypted with
    them. *)
From Coq Require Import Strings.Byte Strings.String List NArith ZArith Bool.
From Verif Require Import M_Base M_Proto M_Wire M_Prims M_Registry M_Kms M_JwtTypes M_Json
  M_CcStream M_CcManagers S_Keyset S_Wire S_Json S_JsonKeyset S_Kms S_Handle S_Config.
Import ListNotations.
Open Scope string_scope.
Open Scope list_scope.

(** [a] does what [remote] does. When [remote] cannot decrypt and raises TinkError, [a]
    raises TinkError too (perhaps with another message). *)
Definition stands_for (a remote : aead) : Prop :=
  (forall rnd pt ad, aead_encrypt a rnd pt ad = aead_encrypt remote rnd pt ad) /\
  (forall ct ad, same_outcome (aead_decrypt remote ct ad) (aead_decrypt a ct ad)).

(** The first registered client that supports [uri] gives [x] for it. *)
Definition kms_gives (clients : list kms_client) (uri : pystr) (x : result aead) : Prop :=
  exists c, first_supporting clients uri c /\ kc_get_aead c uri = x.
Definition no_kms (clients : list kms_client) (uri : pystr) : Prop :=
  forall c, In c clients -> kc_does_support c uri = false.
(** A key that names [uri] fits in a protobuf message. *)
Definition usable_uri (uri : pystr) : Prop :=
  valid_text uri /\
  proto_size (serialize_kak (mk_kms_aead_key 0 (Some (mk_kms_aead_key_format uri)))).

(** [t] is the JSON document of a keyset encrypted as [ct], with the information about its
    keys in the clear. *)
Definition encrypted_document (rt : py_rt) (t : pystr) (ct : bytes) (ks : keyset) : Prop :=
  exists v info, json_text rt v t /\ no_repeated_names v /\ describes ks info /\ wf_keyset ks /\
    shows_encrypted_keyset padded_base64 v (mk_encrypted_keyset ct (Some info)).

(** [remote] encrypts the serialized keyset [ks] as [ct], and decrypting gives [ks] back. *)
Definition encrypts_keyset (remote : aead) (rnd : coins) (ad : bytes) (ks : keyset) (ct : bytes) : Prop :=
  aead_encrypt remote rnd (serialize_keyset ks) ad = Ok ct /\
  exists pt, aead_decrypt remote ct ad = Ok pt /\ parse_keyset pt = Some ks.
