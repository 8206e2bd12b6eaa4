(** core/_crypto_format.py and core/_primitive_set.py *)
From Coq Require Import Strings.Byte Strings.String List NArith ZArith Bool.
From Verif Require Import M_Base M_Proto M_Prims.
Import ListNotations.
Open Scope list_scope.
Open Scope Z_scope.

(** core/_crypto_format.py:22-27 *)
Definition TINK_START_BYTE : byte := x01.
Definition LEGACY_START_BYTE : byte := x00.
Definition NON_RAW_PREFIX_SIZE : nat := 5.
Definition RAW_PREFIX : bytes := [].

(** core/_crypto_format.py:30-42 output_prefix. [struct.pack('>cL', c, key_id)]. *)
Definition output_prefix (k : key) : result bytes :=
  if k_output_prefix_type k =? TINK then
    p <- pack_be32 (k_key_id k) ;; Ok (TINK_START_BYTE :: p)
  else if (k_output_prefix_type k =? CRUNCHY) || (k_output_prefix_type k =? LEGACY) then
    p <- pack_be32 (k_key_id k) ;; Ok (LEGACY_START_BYTE :: p)
  else if k_output_prefix_type k =? RAW then Ok []
  else Err (TinkError "The given key has invalid OutputPrefixType").

(** core/_primitive_set.py:25-26 Entry *)
Record entry := mk_entry {
  e_primitive : prim;
  e_identifier : bytes;
  e_status : Z;
  e_output_prefix_type : Z;
  e_key_id : N }.

(** core/_primitive_set.py:33-52 class PrimitiveSet *)
Record pset := mk_pset {
  ps_primitives : list (bytes * list entry);
  ps_primary : option entry;
  ps_primitive_class : pclass }.

(** core/_primitive_set.py:46-49 *)
Definition new_primitive_set (c : pclass) : pset := mk_pset [] None c.

(** core/_primitive_set.py:54-58 *)
Definition primitive_from_identifier (ps : pset) (identifier : bytes) : list entry :=
  match dict_get bytes_eqb identifier (ps_primitives ps) with
  | Some l => l
  | None => []
  end.

(** core/_primitive_set.py:60-62 *)
Definition ps_all (ps : pset) : list (list entry) := map snd (ps_primitives ps).

(** core/_primitive_set.py:64-66 *)
Definition ps_primitive (ps : pset) (k : key) : result (list entry) :=
  p <- output_prefix k ;; Ok (primitive_from_identifier ps p).

(** core/_primitive_set.py:68-71 *)
Definition raw_primitives (ps : pset) : list entry :=
  primitive_from_identifier ps RAW_PREFIX.

(** core/_primitive_set.py:73-85: returns the new state and the entry.
    setdefault followed by append. *)
Definition add_primitive (ps : pset) (p : prim) (k : key) : result (pset * entry) :=
  if negb (isinstance p (ps_primitive_class ps)) then
    Err (TinkError "The primitive is not an instance")
  else
    identifier <- output_prefix k ;;
    let e := mk_entry p identifier (k_status k) (k_output_prefix_type k) (k_key_id k) in
    let entries := primitive_from_identifier ps identifier ++ [e] in
    Ok (mk_pset (dict_set bytes_eqb identifier entries (ps_primitives ps))
          (ps_primary ps) (ps_primitive_class ps), e).

(** core/_primitive_set.py:87-88 *)
Definition set_primary (ps : pset) (e : entry) : pset :=
  mk_pset (ps_primitives ps) (Some e) (ps_primitive_class ps).

(** core/_primitive_set.py:90-93 *)
Definition primary (ps : pset) : result entry :=
  match ps_primary ps with
  | None => Err (TinkError "The primary entry is not set.")
  | Some e => Ok e
  end.
