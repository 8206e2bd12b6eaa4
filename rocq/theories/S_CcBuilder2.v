(** Specification of the life of keysets of private keys that are managed with a KeysetBuilder. *)
From Coq Require Import Strings.Byte Strings.String List NArith ZArith Bool.
From Verif Require Import M_Base M_Proto M_Wire M_Prims M_PrimitiveSet M_Registry M_KeysetHandle M_KeysetBuilder S_Keyset S_KeysetBuilder.
Import ListNotations.
Open Scope list_scope.

(** The key [id] exists and is switched on. *)
Definition key_on (id : N) (ks : keyset) : Prop := exists k, In k (ks_key ks) /\ k_status k = ENABLED /\ k_key_id k = id.
(** It is not deleted by the calls [ops]. *)
Definition kept (id : N) (ops : list builder_op) : Prop := Forall (fun op => ~ deletes (Z.of_N id) op) ops.
