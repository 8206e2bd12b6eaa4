(** core/_registry.py, the register functions and KeysetHandle, when several threads use
    them at the same time. The registry has no lock: every access of one of its two dicts
    is one step, and the steps of the threads alternate in any order. A step is atomic, as
    a dict operation on str and class keys is in CPython. Not modelled here:
    Registry.reset(), and the reads of the registry that a KMS envelope primitive does
    when it is used (they see [pe_registry]). *)
From Coq Require Import Strings.Byte Strings.String List NArith ZArith Bool.
From Verif Require Import M_Base M_Proto M_Prims M_PrimitiveSet M_Registry M_KeysetHandle M_Kms M_JwtKeys
  M_StreamTypes M_CcStream M_CcManagers.
Import ListNotations.
Open Scope string_scope.
Open Scope list_scope.

(** A call in progress: the result, or the next access of a dict and how the call goes on
    after it. [..In] is [key in dict], [..Get] is [dict[key]] (None: there is no such key),
    [..Set] is [dict[key] = value]. The dicts are Registry._key_managers and
    Registry._wrappers, core/_registry.py:43-44. *)
Inductive prog (A : Type) : Type :=
| Ret (a : A)
| ManagerIn (url : pystr) (k : bool -> prog A)
| ManagerGet (url : pystr) (k : option (key_manager * bool) -> prog A)
| ManagerSet (url : pystr) (v : key_manager * bool) (k : prog A)
| WrapperIn (c : pclass) (k : bool -> prog A)
| WrapperGet (c : pclass) (k : option wrapper -> prog A)
| WrapperSet (c : pclass) (w : wrapper) (k : prog A).
Arguments Ret {A} _.
Arguments ManagerIn {A} _ _.
Arguments ManagerGet {A} _ _.
Arguments ManagerSet {A} _ _ _.
Arguments WrapperIn {A} _ _.
Arguments WrapperGet {A} _ _.
Arguments WrapperSet {A} _ _ _.

Definition is_some {A} (o : option A) : bool := match o with Some _ => true | None => false end.

(** One access. *)
Definition access {A} (p : prog A) (r : registry) : registry * prog A :=
  match p with
  | Ret a => (r, Ret a)
  | ManagerIn u k => (r, k (is_some (dict_get str_eqb u (r_key_managers r))))
  | ManagerGet u k => (r, k (dict_get str_eqb u (r_key_managers r)))
  | ManagerSet u v k => (mk_registry (dict_set str_eqb u v (r_key_managers r)) (r_wrappers r), k)
  | WrapperIn c k => (r, k (is_some (dict_get pclass_eqb c (r_wrappers r))))
  | WrapperGet c k => (r, k (dict_get pclass_eqb c (r_wrappers r)))
  | WrapperSet c w k => (mk_registry (r_key_managers r) (dict_set pclass_eqb c w (r_wrappers r)), k)
  end.

(** The whole call while no other thread runs. *)
Fixpoint alone {A} (p : prog A) (r : registry) : registry * A :=
  match p with
  | Ret a => (r, a)
  | ManagerIn u k => alone (k (is_some (dict_get str_eqb u (r_key_managers r)))) r
  | ManagerGet u k => alone (k (dict_get str_eqb u (r_key_managers r))) r
  | ManagerSet u v k => alone k (mk_registry (dict_set str_eqb u v (r_key_managers r)) (r_wrappers r))
  | WrapperIn c k => alone (k (is_some (dict_get pclass_eqb c (r_wrappers r)))) r
  | WrapperGet c k => alone (k (dict_get pclass_eqb c (r_wrappers r))) r
  | WrapperSet c w k => alone k (mk_registry (r_key_managers r) (dict_set pclass_eqb c w (r_wrappers r)))
  end.

(** Consecutive statements. *)
Fixpoint pbind {A B} (p : prog A) (f : A -> prog B) : prog B :=
  match p with
  | Ret a => f a
  | ManagerIn u k => ManagerIn u (fun b => pbind (k b) f)
  | ManagerGet u k => ManagerGet u (fun o => pbind (k o) f)
  | ManagerSet u v k => ManagerSet u v (pbind k f)
  | WrapperIn c k => WrapperIn c (fun b => pbind (k b) f)
  | WrapperGet c k => WrapperGet c (fun o => pbind (k o) f)
  | WrapperSet c w k => WrapperSet c w (pbind k f)
  end.
(** ... the first of which may raise. *)
Definition then_do {A B} (p : prog (result A)) (f : A -> prog (result B)) : prog (result B) :=
  pbind p (fun x => match x with Ok a => f a | Err e => Ret (Err e) end).

(** ** core/_registry.py *)

(** core/_registry.py:52-59 *)
Definition key_manager_internal_prog (type_url : pystr) : prog (result (key_manager * bool)) :=
  ManagerIn type_url (fun there =>
    if negb there then Ret (Err (TinkError "No manager for type has been registered."))
    else ManagerGet type_url (fun o =>
      match o with Some x => Ret (Ok x) | None => Ret (Err KeyError) end)).

(** core/_registry.py:61-72 *)
Definition key_manager_prog (type_url : pystr) : prog (result key_manager) :=
  then_do (key_manager_internal_prog type_url) (fun x => Ret (Ok (fst x))).

(** core/_registry.py:74-107 *)
Definition register_key_manager_prog (km : key_manager) (new_key_allowed : bool) : prog (result unit) :=
  let type_url := km_key_type km in
  if negb (km_does_support km type_url) then
    Ret (Err (TinkError "The manager does not support its own type."))
  else
    ManagerIn type_url (fun there =>
      if there then
        ManagerGet type_url (fun o =>
          match o with
          | None => Ret (Err KeyError)
          | Some (existing, existing_new_key) =>
              if negb (N.eqb (km_pytype existing) (km_pytype km))
                 || negb (pclass_eqb (km_primitive_class existing) (km_primitive_class km)) then
                Ret (Err (TinkError "A manager for type has been already registered."))
              else if negb existing_new_key && new_key_allowed then
                Ret (Err (TinkError "already registered with forbidden new key operation."))
              else ManagerSet type_url (existing, new_key_allowed) (Ret (Ok tt))
          end)
      else ManagerSet type_url (km, new_key_allowed) (Ret (Ok tt))).

(** core/_registry.py:109-131 *)
Definition registry_primitive_prog (d : key_data) (c : pclass) : prog (result prim) :=
  then_do (key_manager_prog (kd_type_url d)) (fun km =>
    if negb (pclass_eqb (km_primitive_class km) c) then Ret (Err (TinkError "Wrong primitive class"))
    else Ret (km_primitive km d)).

(** core/_registry.py:133-144 *)
Definition registry_new_key_data_prog (rnd : coins) (t : key_template) : prog (result key_data) :=
  then_do (key_manager_internal_prog (kt_type_url t)) (fun x =>
    if negb (snd x) then
      Ret (Err (TinkError "KeyManager for type does not allow for creation of new keys."))
    else Ret (km_new_key_data (fst x) rnd t)).

(** core/_registry.py:146-158 *)
Definition registry_public_key_data_prog (d : key_data) : prog (result key_data) :=
  if negb (kd_key_material_type d =? ASYMMETRIC_PRIVATE)%Z then
    Ret (Err (TinkError "The keyset contains a non-private key"))
  else
    then_do (key_manager_prog (kd_type_url d)) (fun km =>
      match km_public_key_data km with
      | None => Ret (Err (TinkError "manager for key type is not a PrivateKeyManager"))
      | Some f => Ret (f d)
      end).

(** core/_registry.py:160-183: the part after the check, ... *)
Definition store_wrapper_prog (w : wrapper) : prog (result unit) :=
  match w_wrap w (new_primitive_set (w_input_primitive_class w)) with
  | Err e => Ret (Err e)
  | Ok wrapped =>
      if negb (isinstance wrapped (w_primitive_class w)) then
        Ret (Err (TinkError "Wrapper for primitive generates incompatible primitive"))
      else WrapperSet (w_primitive_class w) w (Ret (Ok tt))
  end.
(** ... and the whole. *)
Definition register_primitive_wrapper_prog (w : wrapper) : prog (result unit) :=
  WrapperIn (w_primitive_class w) (fun there =>
    if there then
      WrapperGet (w_primitive_class w) (fun o =>
        match o with
        | None => Ret (Err KeyError)
        | Some existing =>
            if negb (N.eqb (w_pytype existing) (w_pytype w)) then
              Ret (Err (TinkError "A wrapper for primitive has already been added."))
            else store_wrapper_prog w
        end)
    else store_wrapper_prog w).

(** core/_registry.py:197-201 and 220-224: the same lines in both methods. *)
Definition wrapper_prog (c : pclass) : prog (result wrapper) :=
  WrapperIn c (fun there =>
    if negb there then Ret (Err (TinkError "No PrimitiveWrapper registered for primitive."))
    else WrapperGet c (fun o =>
      match o with Some w => Ret (Ok w) | None => Ret (Err KeyError) end)).

(** core/_registry.py:185-202 *)
Definition registry_input_primitive_class_prog (c : pclass) : prog (result pclass) :=
  then_do (wrapper_prog c) (fun w => Ret (Ok (w_input_primitive_class w))).

(** core/_registry.py:204-233 *)
Definition registry_wrap_prog (ps : pset) (c : pclass) : prog (result prim) :=
  then_do (wrapper_prog c) (fun w =>
    if negb (pclass_eqb (ps_primitive_class ps) (w_input_primitive_class w)) then
      Ret (Err (TinkError "Wrapper for primitive wraps other type"))
    else Ret (w_wrap w ps)).

Definition registry_apply_prog (op : registry_op) : prog (result unit) :=
  match op with
  | OpRegisterKeyManager km a => register_key_manager_prog km a
  | OpRegisterWrapper w => register_primitive_wrapper_prog w
  end.

(** ** KeysetHandle *)

(** _keyset_handle.py:73-94 *)
Definition generate_new_prog (rnd : coins) (draws : list N) (t : key_template)
  : prog (option (result keyset_handle)) :=
  pbind (registry_new_key_data_prog rnd t) (fun x =>
    match x with
    | Err e => Ret (Some (Err e))
    | Ok d =>
        match generate_unused_key_id draws (mk_keyset 0 []) with
        | None => Ret None
        | Some key_id =>
            Ret (Some (create (mk_keyset key_id [mk_key (Some d) ENABLED key_id (kt_output_prefix_type t)])))
        end
    end).

(** _keyset_handle.py:168-177 *)
Definition public_key_of_prog (k : key) : prog (result key) :=
  then_do (registry_public_key_data_prog (k_key_data k)) (fun d =>
    let pk := mk_key (Some d) (k_status k) (k_key_id k) (k_output_prefix_type k) in
    match validate_key pk with Ok _ => Ret (Ok pk) | Err e => Ret (Err e) end).
Fixpoint public_keys_prog (l : list key) : prog (result (list key)) :=
  match l with
  | [] => Ret (Ok [])
  | k :: r =>
      then_do (public_key_of_prog k) (fun pk =>
      then_do (public_keys_prog r) (fun rest => Ret (Ok (pk :: rest))))
  end.
Definition public_keyset_handle_prog (h : keyset_handle) : prog (result keyset_handle) :=
  then_do (public_keys_prog (ks_key (kh_keyset h))) (fun keys =>
    Ret (create (mk_keyset (ks_primary_key_id (kh_keyset h)) keys))).

(** _keyset_handle.py:196-204 *)
Definition add_key_primitive_prog (c : pclass) (primary_key_id : N) (ps : pset) (k : key)
  : prog (result pset) :=
  if (k_status k =? ENABLED)%Z then
    then_do (registry_primitive_prog (k_key_data k) c) (fun p =>
      match add_primitive ps p k with
      | Err e => Ret (Err e)
      | Ok (ps', e) => Ret (Ok (if N.eqb (k_key_id k) primary_key_id then set_primary ps' e else ps'))
      end)
  else Ret (Ok ps).
Fixpoint add_key_primitives_prog (c : pclass) (primary_key_id : N) (ps : pset) (l : list key)
  : prog (result pset) :=
  match l with
  | [] => Ret (Ok ps)
  | k :: r =>
      then_do (add_key_primitive_prog c primary_key_id ps k) (fun ps' =>
      add_key_primitives_prog c primary_key_id ps' r)
  end.

(** _keyset_handle.py:179-205 *)
Definition handle_primitive_prog (h : keyset_handle) (c : pclass) : prog (result prim) :=
  let ks := kh_keyset h in
  match validate_keyset ks with
  | Err e => Ret (Err e)
  | Ok _ =>
      then_do (registry_input_primitive_class_prog c) (fun ic =>
      then_do (add_key_primitives_prog ic (ks_primary_key_id ks) (new_primitive_set ic) (ks_key ks)) (fun ps =>
      registry_wrap_prog ps c))
  end.

(** ** The register functions (M_CcManagers) *)
Fixpoint perform_prog (a : action) : prog (result unit) :=
  match a with
  | call_bindings s => Ret (throw_not_ok s)
  | call_registry (Err e) => Ret (Err e)
  | call_registry (Ok o) => registry_apply_prog o
  | run_all l =>
      (fix go (l : list action) : prog (result unit) :=
         match l with
         | [] => Ret (Ok tt)
         | b :: rest => then_do (perform_prog b) (fun _ => go rest)
         end) l
  end.

(** ** Threads *)

(** What a thread calls: a register function or a method that registers ([n] is the
    object that the call creates), KeysetHandle.primitive, new_keyset_handle and
    KeysetHandle.public_keyset_handle. *)
Inductive call :=
| Setup (n : N) (c : setup_call)
| Primitive (h : keyset_handle) (c : pclass)
| Generate (rnd : coins) (draws : list N) (t : key_template)
| PublicHandle (h : keyset_handle).
Inductive outcome :=
| Returned (x : result unit)
| GotPrimitive (x : result prim)
| GotHandle (x : option (result keyset_handle)).

Section Calls.
  Variable w : cc_world.
  Variable env : py_env.
  Definition call_prog (c : call) : prog outcome :=
    match c with
    | Setup n s => pbind (perform_prog (setup_action w env n s)) (fun x => Ret (Returned x))
    | Primitive h c => pbind (handle_primitive_prog h c) (fun x => Ret (GotPrimitive x))
    | Generate rnd draws t => pbind (generate_new_prog rnd draws t) (fun x => Ret (GotHandle x))
    | PublicHandle h => pbind (public_keyset_handle_prog h) (fun x => Ret (GotHandle (Some x)))
    end.
  (** A thread makes its calls one after the other and keeps their outcomes; an exception
      ends one call, not the thread. *)
  Fixpoint thread_prog (l : list call) : prog (list outcome) :=
    match l with
    | [] => Ret []
    | c :: rest => pbind (call_prog c) (fun o => pbind (thread_prog rest) (fun os => Ret (o :: os)))
    end.
End Calls.

(** The registry and the threads. *)
Definition pool (A : Type) : Type := registry * list (prog A).
(** Thread [i] makes its next access. *)
Fixpoint access_nth {A} (i : nat) (l : list (prog A)) (r : registry) : pool A :=
  match l, i with
  | [], _ => (r, [])
  | p :: rest, O => let (r', p') := access p r in (r', p' :: rest)
  | p :: rest, S j => let (r', rest') := access_nth j rest r in (r', p :: rest')
  end.
Definition pool_step {A} (s : pool A) (i : nat) : pool A := access_nth i (snd s) (fst s).
(** A schedule says which thread makes each access. *)
Definition pool_run {A} (schedule : list nat) (s : pool A) : pool A := fold_left pool_step schedule s.
