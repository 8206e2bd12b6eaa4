(** Specification of the example programs for digital signatures, in terms of the keys of a
    keyset and of the signatures of S_CcSignatures. *)
From Coq Require Import Strings.Byte Strings.String List NArith ZArith Bool.
From Verif Require Import M_Base M_Proto M_Wire M_Prims M_PrimitiveSet M_Registry M_KeysetHandle M_CcStream M_CcManagers M_Cli
  M_CcAes M_CcEcies M_CcSignatures S_Keyset S_Wrappers S_Config S_Cli S_CcAes S_CcSymHandles S_CcEcies S_CcSignatures S_CcSigHandles.
Import ListNotations.
Open Scope string_scope.
Open Scope list_scope.
Open Scope nat_scope.

(** The C++ library has the key managers of signatures, and its configuration can be
    registered. *)
Definition sig_library (ec : ec_crypto) (sg : sig_crypto) (self_test : coins) (w : cc_world) : Prop :=
  sig_world ec sg self_test w /\ cw_tink_config w = StOk tt.

(** The run writes to [out] the signature of [data] with the primary key, as lower case digits
    and with the prefix of the key. *)
Definition signs_file (sg : sig_crypto) (ks : keyset) (l : list (key * sig_private)) (rnd : coins) (data : bytes) (run : result Z * files) (out : pystr) (fs : files) : Prop :=
  (forall k q, is_primary ks l k q -> exists T y x, stamped k T y /\ signature_of sg q rnd (legacy_data k data) y /\
     hex_bytes T x /\ Forall (fun c => In c lower_digits) x /\ writes run out x fs) /\
  ((forall k q, ~ is_primary ks l k q) -> fails run fs).
(** [T] is a signature of [data] that is valid for one of the keys. *)
Definition signature_for (sg : sig_crypto) (l : list (key * sig_public)) (T data : bytes) : Prop :=
  exists k q y, In (k, q) l /\ stamped k T y /\ valid_signature sg q (legacy_data k data) y.
