(** core/_registry.py, core/_key_manager.py, core/_primitive_wrapper.py *)
From Coq Require Import Strings.String List NArith ZArith Bool.
From Verif Require Import M_Base M_Proto M_Prims M_PrimitiveSet.
Import ListNotations.
Open Scope list_scope.
Open Scope Z_scope.

(** core/_key_manager.py:27-94 KeyManager / PrivateKeyManager: the Python object,
    by its methods. [km_pytype] identifies type(manager), [km_id] the object
    itself. [km_public_key_data] is Some for PrivateKeyManagers.
    [km_new_key_data] takes the random choices of the key generation.
    [km_does_support] is the method does_support (lines 60-61 by default compare
    with key_type). *)
Record key_manager := mk_key_manager {
  km_id : N;
  km_pytype : N;
  km_key_type : pystr;
  km_primitive_class : pclass;
  km_does_support : pystr -> bool;
  km_primitive : key_data -> result prim;
  km_new_key_data : coins -> key_template -> result key_data;
  km_public_key_data : option (key_data -> result key_data) }.

(** core/_primitive_wrapper.py PrimitiveWrapper *)
Record wrapper := mk_wrapper {
  w_id : N;
  w_pytype : N;
  w_primitive_class : pclass;
  w_input_primitive_class : pclass;
  w_wrap : pset -> result prim }.

(** core/_registry.py:43-44 *)
Record registry := mk_registry {
  r_key_managers : list (pystr * (key_manager * bool));
  r_wrappers : list (pclass * wrapper) }.

(** core/_registry.py:46-50 reset *)
Definition empty_registry : registry := mk_registry [] [].

(** core/_registry.py:52-59 *)
Definition key_manager_internal (r : registry) (type_url : pystr)
  : result (key_manager * bool) :=
  match dict_get str_eqb type_url (r_key_managers r) with
  | None => Err (TinkError "No manager for type has been registered.")
  | Some x => Ok x
  end.

(** core/_registry.py:61-72 *)
Definition registry_key_manager (r : registry) (type_url : pystr) : result key_manager :=
  x <- key_manager_internal r type_url ;; Ok (fst x).

(** core/_registry.py:74-107 *)
Definition register_key_manager (r : registry) (km : key_manager) (new_key_allowed : bool)
  : result registry :=
  let type_url := km_key_type km in
  if negb (km_does_support km type_url) then
    Err (TinkError "The manager does not support its own type.")
  else
    match dict_get str_eqb type_url (r_key_managers r) with
    | Some (existing, existing_new_key) =>
        if negb (N.eqb (km_pytype existing) (km_pytype km))
           || negb (pclass_eqb (km_primitive_class existing) (km_primitive_class km)) then
          Err (TinkError "A manager for type has been already registered.")
        else if negb existing_new_key && new_key_allowed then
          Err (TinkError "already registered with forbidden new key operation.")
        else
          Ok (mk_registry
                (dict_set str_eqb type_url (existing, new_key_allowed) (r_key_managers r))
                (r_wrappers r))
    | None =>
        Ok (mk_registry
              (dict_set str_eqb type_url (km, new_key_allowed) (r_key_managers r))
              (r_wrappers r))
    end.

(** core/_registry.py:109-131 *)
Definition registry_primitive (r : registry) (d : key_data) (c : pclass) : result prim :=
  km <- registry_key_manager r (kd_type_url d) ;;
  if negb (pclass_eqb (km_primitive_class km) c) then
    Err (TinkError "Wrong primitive class")
  else km_primitive km d.

(** core/_registry.py:133-144 *)
Definition registry_new_key_data (r : registry) (rnd : coins) (t : key_template)
  : result key_data :=
  '(km, new_key_allowed) <- key_manager_internal r (kt_type_url t) ;;
  if negb new_key_allowed then
    Err (TinkError "KeyManager for type does not allow for creation of new keys.")
  else km_new_key_data km rnd t.

(** core/_registry.py:146-158 *)
Definition registry_public_key_data (r : registry) (d : key_data) : result key_data :=
  if negb (kd_key_material_type d =? ASYMMETRIC_PRIVATE) then
    Err (TinkError "The keyset contains a non-private key")
  else
    km <- registry_key_manager r (kd_type_url d) ;;
    match km_public_key_data km with
    | None => Err (TinkError "manager for key type is not a PrivateKeyManager")
    | Some f => f d
    end.

(** core/_registry.py:160-183 *)
Definition register_primitive_wrapper (r : registry) (w : wrapper) : result registry :=
  if (match dict_get pclass_eqb (w_primitive_class w) (r_wrappers r) with
      | Some existing => negb (N.eqb (w_pytype existing) (w_pytype w))
      | None => false
      end) then
    Err (TinkError "A wrapper for primitive has already been added.")
  else
    wrapped <- w_wrap w (new_primitive_set (w_input_primitive_class w)) ;;
    if negb (isinstance wrapped (w_primitive_class w)) then
      Err (TinkError "Wrapper for primitive generates incompatible primitive")
    else
      Ok (mk_registry (r_key_managers r)
            (dict_set pclass_eqb (w_primitive_class w) w (r_wrappers r))).

(** core/_registry.py:185-202 *)
Definition registry_input_primitive_class (r : registry) (c : pclass) : result pclass :=
  match dict_get pclass_eqb c (r_wrappers r) with
  | None => Err (TinkError "No PrimitiveWrapper registered for primitive.")
  | Some w => Ok (w_input_primitive_class w)
  end.

(** core/_registry.py:204-233 *)
Definition registry_wrap (r : registry) (ps : pset) (c : pclass) : result prim :=
  match dict_get pclass_eqb c (r_wrappers r) with
  | None => Err (TinkError "No PrimitiveWrapper registered for primitive.")
  | Some w =>
      if negb (pclass_eqb (ps_primitive_class ps) (w_input_primitive_class w)) then
        Err (TinkError "Wrapper for primitive wraps other type")
      else w_wrap w ps
  end.

(** Operations that change the registry, for histories. *)
Inductive registry_op :=
| OpRegisterKeyManager (km : key_manager) (new_key_allowed : bool)
| OpRegisterWrapper (w : wrapper).

(** One call; a raising call leaves the registry as it was (the dict is only
    assigned in the last statement of each method). *)
Definition registry_apply (r : registry) (op : registry_op) : result registry :=
  match op with
  | OpRegisterKeyManager km a => register_key_manager r km a
  | OpRegisterWrapper w => register_primitive_wrapper r w
  end.
Definition registry_step (r : registry) (op : registry_op) : registry :=
  match registry_apply r op with Ok r' => r' | Err _ => r end.
Definition registry_run (r : registry) (ops : list registry_op) : registry :=
  fold_left registry_step ops r.
