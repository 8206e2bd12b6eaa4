(** Specification vocabulary for threads that share the registry. *)
From Coq Require Import Strings.Byte Strings.String List NArith ZArith Bool.
From Verif Require Import M_Base M_Proto M_Prims M_PrimitiveSet M_Registry M_KeysetHandle M_Kms M_JwtKeys
  M_StreamTypes M_CcStream M_CcManagers M_Threads S_Registry S_Keyset S_Config.
Import ListNotations.
Open Scope string_scope.
Open Scope list_scope.

(** What the call does to the registry and returns when no other thread runs: the
    functions of M_Registry, M_KeysetHandle and M_CcManagers. *)
Definition call_alone (w : cc_world) (env : py_env) (c : call) (r : registry) : registry * outcome :=
  match c with
  | Setup n s => let (r', x) := perform (setup_action w env n s) r in (r', Returned x)
  | Primitive h c => (r, GotPrimitive (handle_primitive r h c))
  | Generate rnd draws t => (r, GotHandle (generate_new r rnd draws t))
  | PublicHandle h => (r, GotHandle (Some (public_keyset_handle r h)))
  end.
Fixpoint calls_alone (w : cc_world) (env : py_env) (l : list call) (r : registry) : registry * list outcome :=
  match l with
  | [] => (r, [])
  | c :: rest =>
      let (r', o) := call_alone w env c r in
      let (r'', os) := calls_alone w env rest r' in (r'', o :: os)
  end.

(** The threads [threads], started on the registry [r0], have come to [s]. *)
Definition comes_to (w : cc_world) (env : py_env) (threads : list (list call)) (r0 : registry)
  (s : pool (list outcome)) : Prop :=
  exists schedule, s = pool_run schedule (r0, map (thread_prog w env) threads).
(** Thread [i] has made its calls [calls], with the outcomes [os]. *)
Definition finished (threads : list (list call)) (s : pool (list outcome)) (calls : list call)
  (os : list outcome) : Prop :=
  exists i, nth_error threads i = Some calls /\ nth_error (snd s) i = Some (Ret os).
(** Every thread has made its calls. *)
Definition all_finished (s : pool (list outcome)) : Prop :=
  forall p, In p (snd s) -> exists os, p = Ret os.

(** The next access of a thread reads a dict entry. *)
Definition reads_manager {A} (p : prog A) (url : pystr) : Prop := exists k, p = ManagerGet url k.
Definition reads_wrapper {A} (p : prog A) (c : pclass) : Prop := exists k, p = WrapperGet c k.

(** The registrations that a register function makes. *)
Fixpoint makes (op : registry_op) (a : action) {struct a} : Prop :=
  match a with
  | call_bindings _ => False
  | call_registry o => o = Ok op
  | run_all l =>
      (fix go (l : list action) : Prop := match l with [] => False | b :: rest => makes op b \/ go rest end) l
  end.
(** ... and those of the calls of a thread. *)
Definition call_makes (w : cc_world) (env : py_env) (op : registry_op) (c : call) : Prop :=
  match c with Setup n s => makes op (setup_action w env n s) | _ => False end.
Definition some_thread_makes (w : cc_world) (env : py_env) (threads : list (list call)) (op : registry_op) : Prop :=
  exists calls c, In calls threads /\ In c calls /\ call_makes w env op c.

(** The package [p] is set up by one of the calls. *)
Definition calls_set_up (l : list call) (p : package) : Prop :=
  exists n c, In (Setup n c) l /\ sets_up c p.
(** The C++ library can set up what the threads set up, and the registrations that the
    user does directly are not about types of the package. *)
Definition proper_threads (w : cc_world) (threads : list (list call)) : Prop :=
  forall calls n c, In calls threads -> In (Setup n c) calls ->
    unrelated c /\ forall p, sets_up c p -> cc_ready w p.

(** All keys of a keyset that are used have types of packages in [ps]. *)
Definition keys_served (ps : package -> Prop) (keys : list key) : Prop :=
  forall k, In k keys -> exists p, ps p /\ In (kd_type_url (k_key_data k)) (type_urls p).
(** The call only needs what the packages in [ps] set up. *)
Definition served_by (ps : package -> Prop) (c : call) : Prop :=
  match c with
  | Setup _ s => exists p, sets_up s p
  | Primitive h c =>
      keys_served ps (enabled_keys (kh_keyset h)) /\ exists p, ps p /\ In c (map fst (primitives p))
  | Generate _ _ t => exists p, ps p /\ In (kt_type_url t) (type_urls p)
  | PublicHandle h => keys_served ps (ks_key (kh_keyset h))
  end.

(** What the thread may rely on: its outcome is the one of the same call in any registry
    that a single thread has set up with at least the packages [ps]; a register function
    returns. *)
Definition expected (w : cc_world) (env : py_env) (ps : package -> Prop) (c : call) (o : outcome) : Prop :=
  match c with
  | Setup _ _ => o = Returned (Ok tt)
  | _ => forall l r xs, reached w env l r xs -> (forall p, ps p -> exists s, In s l /\ sets_up s p) ->
         o = snd (call_alone w env c r)
  end.
(** The outcomes [os] of the calls [l] are the expected ones, for all calls that only need
    what [ps] and earlier calls of the same thread have set up. *)
Fixpoint as_expected (w : cc_world) (env : py_env) (ps : package -> Prop) (l : list call) (os : list outcome) : Prop :=
  match l, os with
  | [], [] => True
  | c :: l', o :: os' =>
      (served_by ps c -> expected w env ps c o) /\
      as_expected w env (fun p => ps p \/ calls_set_up [c] p) l' os'
  | _, _ => False
  end.

(** The registry serves the package: managers for all its key types, with new keys
    allowed, and its wrappers. *)
Definition serves (r : registry) (p : package) : Prop :=
  (forall name c b, In (name, c, b) (key_types p) \/ (In (name, c) (remote_key_types p) /\ b = false) ->
     exists km, manager_of r (type_url name) = Some (km, true) /\ km_key_type km = type_url name /\
       km_primitive_class km = c /\ (km_public_key_data km = None <-> b = false)) /\
  (forall c i, In (c, i) (primitives p) ->
     exists x, wrapper_of r c = Some x /\ w_primitive_class x = c /\ w_input_primitive_class x = i).
(** ... or has nothing of it. *)
Definition lacks (r : registry) (p : package) : Prop :=
  (forall u, In u (type_urls p) -> manager_of r u = None) /\
  (forall c, In c (map fst (primitives p)) -> wrapper_of r c = None).
