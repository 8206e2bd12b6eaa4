(** Specification vocabulary for registries: what is registered for a type url or
    a primitive class, and which registrations are acceptable. *)
From Coq Require Import Strings.Byte List NArith ZArith Bool.
From Verif Require Import M_Base M_Proto M_Prims M_PrimitiveSet M_Registry.
Import ListNotations.
Open Scope Z_scope.

(** The manager registered for a type url and whether new keys are allowed. *)
Definition manager_of (r : registry) (url : pystr) : option (key_manager * bool) :=
  dict_get str_eqb url (r_key_managers r).
(** The wrapper registered for a primitive class. *)
Definition wrapper_of (r : registry) (c : pclass) : option wrapper :=
  dict_get pclass_eqb c (r_wrappers r).

(** A manager may be registered when it supports its own type and, if there is
    already one for the type, the new one is of the same Python type and primitive
    class and does not switch key creation on again. *)
Definition manager_acceptable (old : option (key_manager * bool)) (km : key_manager)
  (allowed : bool) : Prop :=
  km_does_support km (km_key_type km) = true /\
  forall km0 b0, old = Some (km0, b0) ->
    km_pytype km0 = km_pytype km /\ km_primitive_class km0 = km_primitive_class km /\
    (b0 = false -> allowed = false).

(** A wrapper may be registered when there is none of another Python type for the
    class and it turns an empty set into a primitive of that class. *)
Definition wrapper_acceptable (old : option wrapper) (w : wrapper) : Prop :=
  (forall w0, old = Some w0 -> w_pytype w0 = w_pytype w) /\
  exists p, w_wrap w (mk_pset [] None (w_input_primitive_class w)) = Ok p /\
            class_of p = w_primitive_class w.
