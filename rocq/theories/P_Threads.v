(** C61: threads that share the registry. *)
From Coq Require Import Strings.Byte Strings.String List NArith ZArith Bool Arith Lia.
From Verif Require Import M_Base M_Proto M_Wire M_Prims M_PrimitiveSet M_Registry M_KeysetHandle M_Wrappers M_Kms
  M_Json M_JwtWrappers M_JwtKeys M_StreamTypes M_CcStream M_Stream M_CcManagers M_Threads.
From Verif Require Import S_Keyset S_Wrappers S_Registry S_Wire S_Config S_Threads L_Base L_Config L_Config2 L_Threads L_Threads3
  L_Threads4 L_Threads5.
From Verif Require Import X_Toy X_Rt X_Config P_Config.
Import ListNotations.
Open Scope nat_scope.
Open Scope string_scope.
Open Scope list_scope.

Theorem C61_any_schedule : forall w env threads r0 s, comes_to w env threads r0 s ->
  (forall p, In p (snd s) ->
     (forall u, reads_manager p u -> manager_of (fst s) u <> None) /\
     (forall c, reads_wrapper p c -> wrapper_of (fst s) c <> None)) /\
  (forall u, manager_of r0 u <> None -> manager_of (fst s) u <> None) /\
  (forall c, wrapper_of r0 c <> None -> wrapper_of (fst s) c <> None) /\
  (forall u km b, manager_of (fst s) u = Some (km, b) ->
     ((exists b0, manager_of r0 u = Some (km, b0)) \/
      (exists b0, some_thread_makes w env threads (OpRegisterKeyManager km b0) /\
         km_key_type km = u /\ km_does_support km u = true)) /\
     ((exists km0, manager_of r0 u = Some (km0, b)) \/
      (exists km0, some_thread_makes w env threads (OpRegisterKeyManager km0 b) /\ km_key_type km0 = u))) /\
  (forall c x, wrapper_of (fst s) c = Some x ->
     wrapper_of r0 c = Some x \/
     (some_thread_makes w env threads (OpRegisterWrapper x) /\ w_primitive_class x = c /\ wrapper_acceptable None x)).
Proof. exact any_schedule. Qed.
Print Assumptions C61_any_schedule.
Theorem C61_concurrent_setup : forall w env l0 r0 xs0 threads s,
  reached w env l0 r0 xs0 -> proper_threads w threads -> comes_to w env threads r0 s ->
  (forall calls os, finished threads s calls os ->
     as_expected w env (fun p => exists c, In c l0 /\ sets_up c p) calls os /\
     forall p, calls_set_up calls p -> serves (fst s) p) /\
  (forall p, (exists c, In c l0 /\ sets_up c p) -> serves (fst s) p) /\
  (forall p, ~ (exists c, In c l0 /\ sets_up c p) -> ~ (exists calls, In calls threads /\ calls_set_up calls p) ->
     lacks (fst s) p).
Proof. exact concurrent_setup. Qed.
Print Assumptions C61_concurrent_setup.
Theorem C61_threads_finish : forall A (run : nat -> nat) (i : nat),
  (forall n : nat, exists m, (n <= m)%nat /\ run m = i) -> forall (s : pool A), (i < length (snd s))%nat ->
  exists n a, forall m, (n <= m)%nat -> nth_error (snd (pool_run (map run (seq 0 m)) s)) i = Some (Ret a).
Proof. exact fair_threads_finish. Qed.
Print Assumptions C61_threads_finish.
Theorem C61_single_thread : forall w env calls r, exists n, forall m, (n <= m)%nat ->
  pool_run (repeat 0 m) (r, map (thread_prog w env) [calls]) =
    (fst (calls_alone w env calls r), [Ret (snd (calls_alone w env calls r))]).
Proof. exact single_thread. Qed.
Print Assumptions C61_single_thread.

(** Three threads: the first sets up AEAD and uses a handle, the second calls
    tink_config.register and creates a key, the third sets up AEAD too and registers a
    wrapper of the user. They take turns. *)
Definition threads : list (list call) :=
  [[Setup 1 CallAead; Primitive gcm_handle ClsAead];
   [Setup 100 CallTinkConfig; Generate 0%N [7%N] (mk_key_template (type_url "AesGcmKey") (blit "f") TINK);
    Setup 200 CallJwtSignature];
   [Setup 300 (CallRegistry (OpRegisterWrapper (mk_wrapper 99 99 (ClsUser 7) ClsAead (fun _ => Ok (PrimUser 7)))));
    Setup 301 CallAead; Primitive gcm_handle ClsMac]].
Fixpoint turns (n : nat) : list nat := match n with O => [] | S m => [0; 1; 2] ++ turns m end.
Definition after_turns : pool (list outcome) :=
  pool_run (turns 200) (empty_registry, map (thread_prog toy_world toy_env) threads).
Example C61_threads_met :
  proper_threads toy_world threads /\
  reached toy_world toy_env [] empty_registry [] /\
  comes_to toy_world toy_env threads empty_registry after_turns /\
  match snd after_turns with
  | [Ret [Returned (Ok tt); GotPrimitive (Ok (PrimAead a))];
     Ret [Returned (Ok tt); GotHandle (Some (Ok h)); Returned (Ok tt)];
     Ret [Returned (Ok tt); Returned (Ok tt); GotPrimitive (Err (TinkError _))]] =>
      match aead_encrypt a 0%N (blit "hello") (blit "ad") with
      | Ok ct => bytes_eqb ct ([x01; x00; x00; x00; x2a] ++ blit "ka" ++ [x02] ++ blit "adhello")
      | Err _ => false
      end && N.eqb (ks_primary_key_id (kh_keyset h)) 8
  | _ => false
  end%bool = true.
Proof.
  split; [| split; [| split; [eexists; reflexivity | vm_compute; reflexivity]]].
  - intros calls n c Hc Hs. split; [| intros p _; apply toy_ready].
    cbn in Hc. destruct Hc as [<- | [<- | [<- | []]]]; cbn in Hs; intuition; try discriminate;
      match goal with H : Setup _ _ = _ |- _ => injection H as <- <- end; try exact I.
    intros p. destruct p; cbn; intuition discriminate.
  - split; [reflexivity |]. split; [intros c p [] | intros c []].
Qed.
(** The calls of the first thread are calls the theorem speaks about, and so are those of
    the second. *)
Example C61_served_met :
  served_by (fun p => p = Aead) (Primitive gcm_handle ClsAead) /\
  served_by (fun p => sets_up CallTinkConfig p) (Generate 0%N [7%N] (mk_key_template (type_url "AesGcmKey") (blit "f") TINK)).
Proof.
  assert (T : In (type_url "AesGcmKey") (type_urls Aead)) by (unfold type_urls; cbn; tauto).
  split; [split |].
  - intros k [<- | [<- | []]]; exists Aead; (split; [reflexivity | exact T]).
  - exists Aead. split; [reflexivity | left; reflexivity].
  - exists Aead. split; [cbn; intuition discriminate | exact T].
Qed.
Example C61_turns_met : forall i, (i < 3)%nat -> forall n, exists m, (n <= m)%nat /\ (m mod 3 = i)%nat.
Proof.
  intros i Hi n. exists (i + n * 3)%nat. split.
  - lia.
  - rewrite Nat.mod_add by discriminate. apply Nat.mod_small, Hi.
Qed.

(** What is not true: that a registration that conflicts with another one is refused
    whichever thread makes it. Two threads can both be told that their key manager for
    the same key type, of different Python classes, has been registered (alone, in either
    order, the second one gets TinkError); ... *)
Definition user_manager (pytype : N) : key_manager :=
  mk_key_manager pytype pytype (ulit "user") ClsAead (fun _ => true) (fun _ => Ok (PrimUser pytype))
    (fun _ _ => Err (OtherError 1)) None.
Definition registers (km : key_manager) (new_key_allowed : bool) : list call :=
  [Setup 0 (CallRegistry (OpRegisterKeyManager km new_key_allowed))].
Theorem C61_conflict_refused_refuted : forall w env, exists km1 km2 s,
  km_key_type km1 = km_key_type km2 /\ km_pytype km1 <> km_pytype km2 /\
  comes_to w env [registers km1 true; registers km2 true] empty_registry s /\
  snd s = [Ret [Returned (Ok tt)]; Ret [Returned (Ok tt)]] /\
  manager_of (fst s) (km_key_type km1) = Some (km2, true) /\
  (forall a b, (a = km1 /\ b = km2) \/ (a = km2 /\ b = km1) ->
     exists m, snd (calls_alone w env (registers a true ++ registers b true) empty_registry) =
       [Returned (Ok tt); Returned (Err (TinkError m))]).
Proof.
  intros w env. exists (user_manager 98), (user_manager 99). eexists.
  split; [reflexivity |]. split; [discriminate |]. split; [exists [0; 1; 0; 1]; reflexivity |].
  split; [reflexivity |]. split; [reflexivity |].
  intros a b [[-> ->] | [-> ->]]; eexists; reflexivity.
Qed.
Print Assumptions C61_conflict_refused_refuted.
(** ... the registration that forbids new keys can be undone by one that allows them,
    both of which return (alone, the one that allows new keys either comes first and new
    keys stay forbidden, or raises); ... *)
Theorem C61_new_keys_stay_forbidden_refuted : forall w env, exists km r0 s,
  r0 = fst (calls_alone w env (registers km true) empty_registry) /\
  comes_to w env [registers km true; registers km false] r0 s /\
  snd s = [Ret [Returned (Ok tt)]; Ret [Returned (Ok tt)]] /\
  manager_of (fst s) (km_key_type km) = Some (km, true) /\
  manager_of (fst (calls_alone w env (registers km true ++ registers km false) r0)) (km_key_type km) = Some (km, false) /\
  manager_of (fst (calls_alone w env (registers km false ++ registers km true) r0)) (km_key_type km) = Some (km, false).
Proof.
  intros w env. exists (user_manager 98). do 2 eexists. split; [reflexivity |].
  split; [exists [0; 0; 1; 1; 1; 0]; reflexivity |]. repeat split; reflexivity.
Qed.
Print Assumptions C61_new_keys_stay_forbidden_refuted.
(** ... and the same happens to wrappers. *)
Definition user_wrapper (pytype : N) : wrapper :=
  mk_wrapper pytype pytype (ClsUser 7) ClsAead (fun _ => Ok (PrimUser 7)).
Theorem C61_wrapper_conflict_refused_refuted : forall w env, exists x1 x2 s,
  w_primitive_class x1 = w_primitive_class x2 /\ w_pytype x1 <> w_pytype x2 /\
  comes_to w env [[Setup 0 (CallRegistry (OpRegisterWrapper x1))]; [Setup 0 (CallRegistry (OpRegisterWrapper x2))]]
    empty_registry s /\
  snd s = [Ret [Returned (Ok tt)]; Ret [Returned (Ok tt)]] /\
  wrapper_of (fst s) (w_primitive_class x1) = Some x2 /\
  exists m, snd (calls_alone w env [Setup 0 (CallRegistry (OpRegisterWrapper x1)); Setup 0 (CallRegistry (OpRegisterWrapper x2))]
    empty_registry) = [Returned (Ok tt); Returned (Err (TinkError m))].
Proof.
  intros w env. exists (user_wrapper 98), (user_wrapper 99). eexists.
  split; [reflexivity |]. split; [discriminate |]. split; [exists [0; 1; 0; 1]; reflexivity |].
  split; [reflexivity |]. split; [reflexivity |]. eexists. reflexivity.
Qed.
Print Assumptions C61_wrapper_conflict_refused_refuted.
