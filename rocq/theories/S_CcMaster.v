(** Specification of keysets that are encrypted with the AEAD of another keyset, the master
    keyset, in terms of the keys of S_CcSymKeys. *)
From Coq Require Import Strings.Byte Strings.String List NArith ZArith Bool.
From Verif Require Import M_Base M_Proto M_Wire M_Prims M_KeysetHandle M_CcStream M_CcAes M_CcModes M_CcSymmetric S_Keyset S_Handle S_Wire S_CcAes S_CcModes S_CcSymmetric S_CcSymKeys S_CcSymHandles.
Import ListNotations.
Open Scope string_scope.
Open Scope list_scope.
Open Scope nat_scope.

(** [ek] holds the keyset [ks], encrypted with the master key [sk] of id and prefix type of [k],
    bound to the associated data [ad]. *)
Definition holds_encrypted (lib : crypto) (k : key) (sk : sym_key) (nonce ad : bytes) (ks : keyset) (ek : encrypted_keyset) : Prop :=
  exists c, stamped k (ek_encrypted_keyset ek) c /\ aead_ciphertext lib sk nonce ad (serialize_keyset ks) c.
(** The master keyset [l] can decrypt [ek] to the keyset [ks]. *)
Definition can_decrypt (lib : crypto) (l : list (key * sym_key)) (ad : bytes) (ek : encrypted_keyset) (ks : keyset) : Prop :=
  exists P, opens lib l (ek_encrypted_keyset ek) ad P /\ parse_keyset P = Some ks /\ valid_keyset ks.
