(** testing/keyset_builder.py: the state of a KeysetBuilder is its keyset message. *)
From Coq Require Import Strings.Byte Strings.String List NArith ZArith Bool.
From Verif Require Import M_Base M_Proto M_Wire M_Prims M_PrimitiveSet M_Registry M_KeysetHandle
  M_KeysetIO.
Import ListNotations.
Open Scope string_scope.
Open Scope list_scope.

(** :21 *)
Definition BUILDER_MAX_INT32 : N := 4294967295.

(** :28-32. [draws] are the results of the random generator, None when more are needed. *)
Fixpoint builder_generate_unused_key_id (draws : list N) (ks : keyset) : option N :=
  match draws with
  | [] => None
  | raw :: rest =>
      let key_id := randint 1 BUILDER_MAX_INT32 raw in
      if negb (mem_N key_id (map k_key_id (ks_key ks))) then Some key_id
      else builder_generate_unused_key_id rest ks
  end.

(** :35-39 and :42-46 *)
Definition raw_template (t : key_template) : key_template :=
  mk_key_template (kt_type_url t) (kt_value t) RAW.
Definition legacy_template (t : key_template) : key_template :=
  mk_key_template (kt_type_url t) (kt_value t) LEGACY.

(** :59-62 *)
Definition builder_keyset_handle (ks : keyset) : result keyset_handle :=
  proto_parse (serialize_keyset ks) SecretKeyAccessToken.

(** :64-65 *)
Definition builder_keyset (ks : keyset) : bytes := serialize_keyset ks.

(** :67-69 *)
Definition builder_public_keyset (reg : registry) (ks : keyset) : result bytes :=
  h <- builder_keyset_handle ks ;;
  public_handle <- public_keyset_handle reg h ;;
  proto_serialize_without_secret public_handle.

(** :71-79. The key is appended first and then filled in, so an exception of the
    registry leaves an empty key. None: more random numbers are needed. *)
Definition add_new_key (reg : registry) (rnd : coins) (draws : list N) (t : key_template)
  (ks : keyset) : option (result N * keyset) :=
  let with_key k := mk_keyset (ks_primary_key_id ks) (ks_key ks ++ [k]) in
  match registry_new_key_data reg rnd t with
  | Err e => Some (Err e, with_key (mk_key None 0 0 0))
  | Ok d =>
      match builder_generate_unused_key_id draws (with_key (mk_key (Some d) ENABLED 0 0)) with
      | None => None
      | Some new_key_id =>
          Some (Ok new_key_id,
                with_key (mk_key (Some d) ENABLED new_key_id (kt_output_prefix_type t)))
      end
  end.

(** The loops [for key in self._keyset.key: if key.key_id == key_id: ...; return]
    followed by [raise tink.TinkError('key not found')]: the first key with the id. Ids
    are Python integers of any size and sign. *)
Definition find_key (key_id : Z) (ks : keyset) : option key :=
  find (fun k => (Z.of_N (k_key_id k) =? key_id)%Z) (ks_key ks).
Definition key_not_found : exn := TinkError "key not found".

(** :81-87 *)
Definition set_primary_key (key_id : Z) (ks : keyset) : result unit * keyset :=
  match find_key key_id ks with
  | Some _ => (Ok tt, mk_keyset (Z.to_N key_id) (ks_key ks))
  | None => (Err key_not_found, ks)
  end.

(** The assignment to the status of the first key with the id. *)
Fixpoint set_status (key_id : Z) (status : Z) (keys : list key) : option (list key) :=
  match keys with
  | [] => None
  | k :: r =>
      if (Z.of_N (k_key_id k) =? key_id)%Z
      then Some (mk_key (k_key_data_opt k) status (k_key_id k) (k_output_prefix_type k) :: r)
      else option_map (cons k) (set_status key_id status r)
  end.
Definition change_status (status : Z) (key_id : Z) (ks : keyset) : result unit * keyset :=
  match set_status key_id status (ks_key ks) with
  | Some keys => (Ok tt, mk_keyset (ks_primary_key_id ks) keys)
  | None => (Err key_not_found, ks)
  end.
(** :89-95 *)
Definition enable_key : Z -> keyset -> result unit * keyset := change_status ENABLED.
(** :97-103 *)
Definition disable_key : Z -> keyset -> result unit * keyset := change_status DISABLED.

(** [list.remove(x)]: the first element equal to x *)
Fixpoint remove_first (x : key) (keys : list key) : list key :=
  match keys with
  | [] => []
  | k :: r => if key_eqb k x then r else k :: remove_first x r
  end.
(** :105-111 *)
Definition delete_key (key_id : Z) (ks : keyset) : result unit * keyset :=
  match find_key key_id ks with
  | Some k => (Ok tt, mk_keyset (ks_primary_key_id ks) (remove_first k (ks_key ks)))
  | None => (Err key_not_found, ks)
  end.

(** :114-117 *)
Definition builder_from_keyset (x : bytes) : result keyset := keyset_from_string x.
(** :120-125 *)
Definition builder_from_keyset_handle (h : keyset_handle) : result keyset :=
  serialized_keyset <- proto_serialize h SecretKeyAccessToken ;;
  builder_from_keyset serialized_keyset.
(** :128-129 *)
Definition new_keyset_builder : keyset := mk_keyset 0 [].

(** The calls a user can make, and a history of them. Histories go on after an
    exception. *)
Inductive builder_op :=
| AddNewKey (rnd : coins) (draws : list N) (t : key_template)
| SetPrimaryKey (key_id : Z)
| EnableKey (key_id : Z)
| DisableKey (key_id : Z)
| DeleteKey (key_id : Z).
(** The id returned by add_new_key, None from the others. *)
Definition builder_step (reg : registry) (op : builder_op) (ks : keyset)
  : option (result (option N) * keyset) :=
  let unit_result (r : result unit * keyset) :=
    Some (match fst r with Ok _ => Ok None | Err e => Err e end, snd r) in
  match op with
  | AddNewKey rnd draws t =>
      match add_new_key reg rnd draws t ks with
      | None => None
      | Some (Ok id, ks') => Some (Ok (Some id), ks')
      | Some (Err e, ks') => Some (Err e, ks')
      end
  | SetPrimaryKey id => unit_result (set_primary_key id ks)
  | EnableKey id => unit_result (enable_key id ks)
  | DisableKey id => unit_result (disable_key id ks)
  | DeleteKey id => unit_result (delete_key id ks)
  end.
Fixpoint builder_run (reg : registry) (ops : list builder_op) (ks : keyset)
  : option (list (result (option N)) * keyset) :=
  match ops with
  | [] => Some ([], ks)
  | op :: rest =>
      match builder_step reg op ks with
      | None => None
      | Some (r, ks') =>
          match builder_run reg rest ks' with
          | None => None
          | Some (rs, ks'') => Some (r :: rs, ks'')
          end
      end
  end.
