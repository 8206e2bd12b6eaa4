(** _keyset_handle.py, cleartext_keyset_handle.py, _insecure_keyset_handle.py *)
From Coq Require Import Strings.Byte Strings.String List NArith ZArith Bool.
From Verif Require Import M_Base M_Proto M_Wire M_Prims M_PrimitiveSet M_Registry.
Import ListNotations.
Open Scope list_scope.
Open Scope Z_scope.

(** _keyset_handle.py:45-58 class KeysetHandle. The handle stores a reference to
    the Keyset message; the model stores the value: a caller who keeps and
    modifies the same message object is not modelled here. *)
Record keyset_handle := mk_handle { kh_keyset : keyset }.

(** _keyset_handle.py:294-301 *)
Definition validate_key (k : key) : result unit :=
  match k_key_data_opt k with
  | None => Err (TinkError "key has no key data")
  | Some _ =>
      if k_output_prefix_type k =? UNKNOWN_PREFIX then
        Err (TinkError "key has unknown prefix")
      else if k_status k =? UNKNOWN_STATUS then
        Err (TinkError "key has unknown status")
      else Ok tt
  end.

(** [sum(1 for key in keys if f(key))] *)
Definition count_keys (f : key -> bool) (l : list key) : nat := length (filter f l).

(** _keyset_handle.py:273-291 *)
Definition validate_keyset (ks : keyset) : result unit :=
  _ <- for_each (fun k => if negb (k_status k =? DESTROYED) then validate_key k else Ok tt)
         (ks_key ks) ;;
  let num_non_destroyed_keys :=
    count_keys (fun k => negb (k_status k =? DESTROYED)) (ks_key ks) in
  let num_non_public_key_material :=
    count_keys (fun k => negb (kd_key_material_type (k_key_data k) =? ASYMMETRIC_PUBLIC))
      (ks_key ks) in
  let num_primary_keys :=
    count_keys (fun k => (k_status k =? ENABLED) && N.eqb (k_key_id k) (ks_primary_key_id ks))
      (ks_key ks) in
  if Nat.eqb num_non_destroyed_keys 0 then Err (TinkError "empty keyset")
  else if Nat.ltb 1 num_primary_keys then
    Err (TinkError "keyset contains multiple primary keys")
  else if Nat.eqb num_primary_keys 0 && Nat.ltb 0 num_non_public_key_material then
    Err (TinkError "keyset does not contain a valid primary key")
  else Ok tt.

(** _keyset_handle.py:56-58 __init__ and 129-133 _create *)
Definition create (ks : keyset) : result keyset_handle :=
  _ <- validate_keyset ks ;; Ok (mk_handle ks).

(** random.randint(lo, hi): [raw] is the random choice. *)
Definition randint (lo hi raw : N) : N := (lo + raw mod (hi - lo + 1))%N.

(** _keyset_handle.py:29 *)
Definition MAX_INT32 : N := 2147483647.

(** _keyset_handle.py:323-327: [draws] are the random choices of the successive
    loop iterations; None when the loop needs more of them. *)
Fixpoint generate_unused_key_id (draws : list N) (ks : keyset) : option N :=
  match draws with
  | [] => None
  | raw :: rest =>
      let key_id := randint 1 MAX_INT32 raw in
      if negb (mem_N key_id (map k_key_id (ks_key ks))) then Some key_id
      else generate_unused_key_id rest ks
  end.

(** _keyset_handle.py:73-94. None: the id loop needs more draws (it never does,
    see the theorems). *)
Definition generate_new (reg : registry) (rnd : coins) (draws : list N) (t : key_template)
  : option (result keyset_handle) :=
  match registry_new_key_data reg rnd t with
  | Err e => Some (Err e)
  | Ok d =>
      match generate_unused_key_id draws (mk_keyset 0 []) with
      | None => None
      | Some key_id =>
          Some (create (mk_keyset key_id
            [mk_key (Some d) ENABLED key_id (kt_output_prefix_type t)]))
      end
  end.

(** _keyset_handle.py:229-237 *)
Definition make_keyset_info (ks : keyset) : keyset_info :=
  mk_keyset_info (ks_primary_key_id ks)
    (map (fun k => mk_key_info (kd_type_url (k_key_data k)) (k_status k) (k_key_id k)
                     (k_output_prefix_type k)) (ks_key ks)).

(** _keyset_handle.py:135-137 *)
Definition handle_keyset_info (h : keyset_handle) : keyset_info := make_keyset_info (kh_keyset h).

(** Bytes and strings that occur in the printed form of a keyset message. *)
Definition keyset_printed_data (ks : keyset) : list bytes :=
  map (fun k => kd_value (k_key_data k)) (ks_key ks).

(** Keyset.FromString *)
Definition keyset_from_string (x : bytes) : result keyset :=
  match parse_keyset x with Some ks => Ok ks | None => Err DecodeError end.
(** EncryptedKeyset.FromString *)
Definition encrypted_keyset_from_string (x : bytes) : result encrypted_keyset :=
  match parse_encrypted_keyset x with Some ks => Ok ks | None => Err DecodeError end.

(** [try: r except DecodeError: raise e] *)
Definition except_decode_error {A} (r : result A) (e : exn) : result A :=
  match r with Err DecodeError => Err e | _ => r end.

(** _keyset_handle.py:240-255 *)
Definition encrypt_keyset (ks : keyset) (a : aead) (rnd : coins) (ad : bytes)
  : result encrypted_keyset :=
  ct <- aead_encrypt a rnd (serialize_keyset ks) ad ;;
  _ <- except_decode_error
         (pt <- aead_decrypt a ct ad ;;
          ks2 <- keyset_from_string pt ;;
          if negb (keyset_eqb ks ks2) then
            Err (TinkErrorEmbedding "cannot encrypt keyset"
                   (keyset_printed_data ks ++ keyset_printed_data ks2))
          else Ok tt)
         (TinkError "invalid keyset, corrupted key material") ;;
  Ok (mk_encrypted_keyset ct (Some (make_keyset_info ks))).

(** _keyset_handle.py:312-314 (a message object is always true) *)
Definition assert_enough_key_material (ks : keyset) : result unit :=
  match ks_key ks with [] => Err (TinkError "empty keyset") | _ => Ok tt end.

(** _keyset_handle.py:317-320 *)
Definition assert_enough_encrypted_key_material (ek : encrypted_keyset) : result unit :=
  match ek_encrypted_keyset ek with [] => Err (TinkError "empty keyset") | _ => Ok tt end.

(** _keyset_handle.py:258-270 *)
Definition decrypt_keyset (ek : encrypted_keyset) (a : aead) (ad : bytes) : result keyset :=
  except_decode_error
    (pt <- aead_decrypt a (ek_encrypted_keyset ek) ad ;;
     ks <- keyset_from_string pt ;;
     _ <- assert_enough_key_material ks ;;
     Ok ks)
    (TinkError "invalid keyset, corrupted key material").

(** _keyset_handle.py:304-309 *)
Definition assert_no_secret_key_material (ks : keyset) : result unit :=
  for_each (fun k =>
    let t := kd_key_material_type (k_key_data k) in
    if (t =? UNKNOWN_KEYMATERIAL) || (t =? SYMMETRIC) || (t =? ASYMMETRIC_PRIVATE) then
      Err (TinkError "keyset contains secret key material")
    else Ok tt) (ks_key ks).

(** _keyset_reader.py:26-38 KeysetReader *)
Record keyset_reader := mk_keyset_reader {
  kr_read : result keyset;
  kr_read_encrypted : result encrypted_keyset }.

(** _keyset_writer.py:25-37 KeysetWriter, with the state [S] of its storage. *)
Record keyset_writer (S : Type) := mk_keyset_writer {
  kw_write : keyset -> S -> result unit * S;
  kw_write_encrypted : encrypted_keyset -> S -> result unit * S }.
Arguments mk_keyset_writer {S} _ _.
Arguments kw_write {S} _ _ _.
Arguments kw_write_encrypted {S} _ _ _.

(** _keyset_handle.py:102-110 *)
Definition read_with_associated_data (r : keyset_reader) (a : aead) (ad : bytes)
  : result keyset_handle :=
  ek <- kr_read_encrypted r ;;
  _ <- assert_enough_encrypted_key_material ek ;;
  ks <- decrypt_keyset ek a ad ;;
  create ks.

(** _keyset_handle.py:96-100 *)
Definition handle_read (r : keyset_reader) (a : aead) : result keyset_handle :=
  read_with_associated_data r a [].

(** _keyset_handle.py:112-127 *)
Definition read_no_secret (r : keyset_reader) : result keyset_handle :=
  ks <- kr_read r ;;
  _ <- assert_no_secret_key_material ks ;;
  create ks.

(** _keyset_handle.py:144-151 *)
Definition write_with_associated_data {S} (h : keyset_handle) (w : keyset_writer S) (a : aead)
  (rnd : coins) (ad : bytes) (st : S) : result unit * S :=
  match encrypt_keyset (kh_keyset h) a rnd ad with
  | Err e => (Err e, st)
  | Ok ek => kw_write_encrypted w ek st
  end.

(** _keyset_handle.py:139-142 *)
Definition handle_write {S} (h : keyset_handle) (w : keyset_writer S) (a : aead)
  (rnd : coins) (st : S) : result unit * S :=
  write_with_associated_data h w a rnd [] st.

(** _keyset_handle.py:153-166 *)
Definition write_no_secret {S} (h : keyset_handle) (w : keyset_writer S) (st : S)
  : result unit * S :=
  match assert_no_secret_key_material (kh_keyset h) with
  | Err e => (Err e, st)
  | Ok _ => kw_write w (kh_keyset h) st
  end.

(** _keyset_handle.py:168-177 *)
Definition public_key_of (reg : registry) (k : key) : result key :=
  d <- registry_public_key_data reg (k_key_data k) ;;
  let pk := mk_key (Some d) (k_status k) (k_key_id k) (k_output_prefix_type k) in
  _ <- validate_key pk ;;
  Ok pk.
Definition public_keyset_handle (reg : registry) (h : keyset_handle) : result keyset_handle :=
  keys <- map_result (public_key_of reg) (ks_key (kh_keyset h)) ;;
  create (mk_keyset (ks_primary_key_id (kh_keyset h)) keys).

(** _keyset_handle.py:196-204: one iteration of the loop. *)
Definition add_key_primitive (reg : registry) (c : pclass) (primary_key_id : N)
  (ps : pset) (k : key) : result pset :=
  if k_status k =? ENABLED then
    p <- registry_primitive reg (k_key_data k) c ;;
    '(ps', e) <- add_primitive ps p k ;;
    Ok (if N.eqb (k_key_id k) primary_key_id then set_primary ps' e else ps')
  else Ok ps.

Fixpoint add_key_primitives (reg : registry) (c : pclass) (primary_key_id : N)
  (ps : pset) (l : list key) : result pset :=
  match l with
  | [] => Ok ps
  | k :: r => ps' <- add_key_primitive reg c primary_key_id ps k ;;
              add_key_primitives reg c primary_key_id ps' r
  end.

(** _keyset_handle.py:179-205 *)
Definition handle_primitive (reg : registry) (h : keyset_handle) (c : pclass) : result prim :=
  let ks := kh_keyset h in
  _ <- validate_keyset ks ;;
  ic <- registry_input_primitive_class reg c ;;
  ps <- add_key_primitives reg ic (ks_primary_key_id ks) (new_primitive_set ic) (ks_key ks) ;;
  registry_wrap reg ps c.

(** _keyset_handle.py:208-226: the module-level functions are the same methods. *)
Definition new_keyset_handle := generate_new.
Definition read_keyset_handle := handle_read.
Definition read_keyset_handle_with_associated_data := read_with_associated_data.
Definition read_no_secret_keyset_handle := read_no_secret.

(** cleartext_keyset_handle.py:25-27, 30-33, 36-39 *)
Definition cleartext_from_keyset (ks : keyset) : result keyset_handle := create ks.
Definition cleartext_read (r : keyset_reader) : result keyset_handle :=
  ks <- kr_read r ;; create ks.
Definition cleartext_write {S} (w : keyset_writer S) (h : keyset_handle) (st : S)
  : result unit * S := kw_write w (kh_keyset h) st.

(** Tokens given to the restricted APIs: any Python object.
    core/_key_access.py, _secret_key_access.py:25-30. *)
Inductive token :=
| SecretKeyAccessToken
| OtherKeyAccess (n : N)
| NotAToken (n : N).

(** isinstance(token, SecretKeyAccess); also _keyset_handle.py:40-42
    has_secret_key_access. *)
Definition is_secret_key_access (t : token) : bool :=
  match t with SecretKeyAccessToken => true | _ => false end.
Definition has_secret_key_access := is_secret_key_access.

(** _insecure_keyset_handle.py:22-27 *)
Definition from_proto_keyset (ks : keyset) (t : token) : result keyset_handle :=
  if negb (is_secret_key_access t) then Err (TinkError "no secret access.")
  else create ks.

(** _insecure_keyset_handle.py:30-35 *)
Definition to_proto_keyset (h : keyset_handle) (t : token) : result keyset :=
  if negb (is_secret_key_access t) then Err (TinkError "no secret access.")
  else Ok (kh_keyset h).
