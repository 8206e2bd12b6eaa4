(** What the calls of a KeysetBuilder do to its keyset. *)
From Coq Require Import Strings.Byte Strings.String List NArith ZArith Bool.
From Verif Require Import M_Base M_Proto M_Wire M_Prims M_PrimitiveSet M_Registry M_KeysetHandle
  M_KeysetBuilder S_Wire.
Import ListNotations.
Open Scope list_scope.

Definition has_id (id : Z) (k : key) : Prop := Z.of_N (k_key_id k) = id.
(** [k] is the first key with this id. *)
Definition first_with (id : Z) (ks : keyset) (before : list key) (k : key) (after : list key) : Prop :=
  ks_key ks = before ++ k :: after /\ has_id id k /\ Forall (fun k' => ~ has_id id k') before.
Definition unknown_id (id : Z) (ks : keyset) : Prop := Forall (fun k => ~ has_id id k) (ks_key ks).

Definition with_status (status : Z) (k : key) : key :=
  mk_key (k_key_data_opt k) status (k_key_id k) (k_output_prefix_type k).

(** Calls with an id: TinkError and no change if no key has it, else [change] the first
    such key. *)
Definition acts_on (id : Z) (ks : keyset) (r : result (option N)) (ks' : keyset)
  (change : list key -> key -> list key -> keyset) : Prop :=
  (unknown_id id ks /\ ks' = ks /\ exists e, r = Err e /\ is_tink_error e = true) \/
  (exists before k after, first_with id ks before k after /\ r = Ok None /\
     ks' = change before k after).

Definition builder_effect (reg : registry) (op : builder_op) (ks : keyset)
  (r : result (option N)) (ks' : keyset) : Prop :=
  match op with
  | AddNewKey rnd _ t =>
      (exists d id, registry_new_key_data reg rnd t = Ok d /\ r = Ok (Some id) /\
         (1 <= id <= 4294967295)%N /\ unknown_id (Z.of_N id) ks /\
         ks' = mk_keyset (ks_primary_key_id ks)
                 (ks_key ks ++ [mk_key (Some d) ENABLED id (kt_output_prefix_type t)])) \/
      (exists e, registry_new_key_data reg rnd t = Err e /\ r = Err e /\
         ks' = mk_keyset (ks_primary_key_id ks) (ks_key ks ++ [mk_key None 0 0 0]))
  | SetPrimaryKey id =>
      acts_on id ks r ks' (fun _ k _ => mk_keyset (k_key_id k) (ks_key ks))
  | EnableKey id =>
      acts_on id ks r ks' (fun before k after =>
        mk_keyset (ks_primary_key_id ks) (before ++ with_status ENABLED k :: after))
  | DisableKey id =>
      acts_on id ks r ks' (fun before k after =>
        mk_keyset (ks_primary_key_id ks) (before ++ with_status DISABLED k :: after))
  | DeleteKey id =>
      acts_on id ks r ks' (fun before k after =>
        mk_keyset (ks_primary_key_id ks) (before ++ after))
  end.

(** An addition that raised. *)
Definition failed_add (op : builder_op) (r : result (option N)) : Prop :=
  match op with AddNewKey _ _ _ => exists e, r = Err e | _ => False end.
Definition deletes (id : Z) (op : builder_op) : Prop := op = DeleteKey id.

(** The status of the key [id] after a history that does not delete it. *)
Fixpoint status_after (id : Z) (ops : list builder_op) (status : Z) : Z :=
  match ops with
  | [] => status
  | EnableKey id' :: rest => status_after id rest (if (id' =? id)%Z then ENABLED else status)
  | DisableKey id' :: rest => status_after id rest (if (id' =? id)%Z then DISABLED else status)
  | _ :: rest => status_after id rest status
  end.

(** Key managers return well-formed messages. *)
Definition makes_wf_keys (reg : registry) : Prop :=
  forall rnd t d, registry_new_key_data reg rnd t = Ok d -> wf_key_data d.
Definition wf_op (op : builder_op) : Prop :=
  match op with AddNewKey _ _ t => int32_range (kt_output_prefix_type t) | _ => True end.
