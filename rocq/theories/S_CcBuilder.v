(** Specification of the life of a keyset that is managed with a KeysetBuilder: keys are added
    for predefined templates, switched on and off, deleted, and made primary. *)
From Coq Require Import Strings.Byte Strings.String List NArith ZArith Bool.
From Verif Require Import M_Base M_Proto M_Wire M_Prims M_PrimitiveSet M_Registry M_KeysetHandle M_KeysetBuilder M_CcStream M_CcAes M_CcModes M_CcSymmetric S_Keyset S_Handle S_Wire S_KeysetBuilder S_CcAes S_CcModes
  S_CcSymmetric S_CcSymKeys S_CcSymHandles.
Import ListNotations.
Open Scope string_scope.
Open Scope list_scope.

(** Keys are added for predefined templates with the prefix TINK. There is no restriction on
    the other calls: ids may be unknown, and calls may be repeated. *)
Definition adds_predefined (templates : list (string * result key_template)) (op : builder_op) : Prop :=
  match op with
  | AddNewKey _ _ t => kt_output_prefix_type t = TINK /\ exists name, In (name, Ok t) templates
  | _ => True
  end.
Definition is_add (op : builder_op) : bool := match op with AddNewKey _ _ _ => true | _ => false end.
(** Adding a key succeeds and gives its id; the other calls succeed or raise TinkError. *)
Definition proper_result (op : builder_op) (r : result (option N)) : Prop :=
  tink_total r /\ (is_add op = true -> exists id, r = Ok (Some id)).
(** The primary key exists and is switched on. *)
Definition primary_on (ks : keyset) : Prop :=
  exists k, In k (ks_key ks) /\ k_status k = ENABLED /\ k_key_id k = ks_primary_key_id ks.

(** What the calls [ops] do to the key [id], if it is on before them: it is on
    afterwards too ... *)
Definition stays_on (id : N) (ops : list builder_op) : Prop :=
  Forall (fun op => ~ deletes (Z.of_N id) op) ops /\ status_after (Z.of_N id) ops ENABLED = ENABLED.
(** ... or it is switched off in the end, or it is deleted and no key is added after that (a new
    key could get its id). *)
Definition goes_off (id : N) (ops : list builder_op) : Prop :=
  (Forall (fun op => ~ deletes (Z.of_N id) op) ops /\ status_after (Z.of_N id) ops ENABLED = DISABLED) \/
  (exists before after, ops = before ++ DeleteKey (Z.of_N id) :: after /\ Forall (fun op => is_add op = false) after).
