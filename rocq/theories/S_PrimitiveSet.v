(** Specification vocabulary for primitive sets: what a history of calls means. *)
From Coq Require Import Strings.Byte List NArith ZArith Bool.
From Verif Require Import M_Base M_Proto M_Prims M_PrimitiveSet S_Keyset.
Import ListNotations.

(** Calls on a primitive set. *)
Inductive pset_op :=
| AddPrimitive (p : prim) (k : key)
| SetPrimary (e : entry).

(** One call, by the code; a raising call has no effect. *)
Definition pset_step (ps : pset) (op : pset_op) : pset :=
  match op with
  | AddPrimitive p k =>
      match add_primitive ps p k with Ok (ps', _) => ps' | Err _ => ps end
  | SetPrimary e => set_primary ps e
  end.
Definition pset_run (c : pclass) (ops : list pset_op) : pset :=
  fold_left pset_step ops (new_primitive_set c).

(** The entry that adding primitive [p] for key [k] to a set of class [c] stores,
    if the addition is acceptable. *)
Definition accepted_entry (c : pclass) (p : prim) (k : key) (e : entry) : Prop :=
  class_of p = c /\ e_primitive e = p /\ e_status e = k_status k /\
  e_key_id e = k_key_id k /\ e_output_prefix_type e = k_output_prefix_type k /\
  has_prefix (k_output_prefix_type k) (k_key_id k) (e_identifier e).

(** [history c ops es pr]: the accepted additions of [ops], in order, are the
    entries [es], and the last SetPrimary (if any) is [pr]. *)
Inductive history (c : pclass) : list pset_op -> list entry -> option entry -> Prop :=
| H_nil : history c [] [] None
| H_add : forall ops es pr p k e,
    history c ops es pr -> accepted_entry c p k e ->
    history c (ops ++ [AddPrimitive p k]) (es ++ [e]) pr
| H_add_rejected : forall ops es pr p k,
    history c ops es pr -> (forall e, ~ accepted_entry c p k e) ->
    history c (ops ++ [AddPrimitive p k]) es pr
| H_primary : forall ops es pr e,
    history c ops es pr -> history c (ops ++ [SetPrimary e]) es (Some e).

(** Distinct elements of a list, in the order of first occurrence. *)
Definition distinct (l : list bytes) : list bytes :=
  fold_left (fun seen x => if existsb (bytes_eqb x) seen then seen else seen ++ [x]) l [].
