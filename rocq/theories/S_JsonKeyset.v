(** Specification of the JSON form of keysets: the proto3 JSON mapping of the messages of
    proto/tink.proto, in terms of JSON documents (S_Json). Members may come in any order.
    Of the model only the data types are used. *)
From Coq Require Import Strings.Byte Strings.String List NArith ZArith Bool.
From Verif Require Import M_Base M_Proto M_JwtTypes M_Json S_Json S_Base64.
Import ListNotations.
Open Scope string_scope.
Open Scope list_scope.
Open Scope Z_scope.

Definition members := list (pystr * json).
Definition has_member (l : members) (name : string) (v : json) : Prop := In (ulit name, v) l.
Definition no_member (l : members) (name : string) : Prop := ~ In (ulit name) (map fst l).
Definition only_members (l : members) (names : list string) : Prop :=
  forall x, In x (map fst l) -> exists n, In n names /\ x = ulit n.

(** Base64 text of bytes: standard alphabet, padded to a multiple of four. *)
Definition padded_base64 (x : bytes) (s : pystr) : Prop :=
  exists d p, base64_text std_alphabet x d /\ s = map Byte.to_N (d ++ p) /\
    (p = [] \/ p = [x3d] \/ p = [x3d; x3d]) /\ Nat.modulo (length (d ++ p)) 4 = 0%nat.
(** What readers accept: either alphabet, the padding may be missing. *)
Definition any_base64 (x : bytes) (s : pystr) : Prop :=
  exists a d p, (a = std_alphabet \/ a = url_alphabet) /\ base64_text a x d /\
    s = map Byte.to_N (d ++ p) /\
    (p = [] \/ ((p = [x3d] \/ p = [x3d; x3d]) /\ Nat.modulo (length (d ++ p)) 4 = 0%nat)).

Definition status_table : list (string * Z) :=
  [("UNKNOWN_STATUS", 0); ("ENABLED", 1); ("DISABLED", 2); ("DESTROYED", 3)].
Definition prefix_table : list (string * Z) :=
  [("UNKNOWN_PREFIX", 0); ("TINK", 1); ("LEGACY", 2); ("RAW", 3); ("CRUNCHY", 4)].
Definition material_table : list (string * Z) :=
  [("UNKNOWN_KEYMATERIAL", 0); ("SYMMETRIC", 1); ("ASYMMETRIC_PRIVATE", 2);
   ("ASYMMETRIC_PUBLIC", 3); ("REMOTE", 4)].

Section Shows.
  (** Which texts stand for bytes. *)
  Variable bytes_text : bytes -> pystr -> Prop.

  (** Fields with their default value are left out. *)
  Definition shows_uint (l : members) (name : string) (n : N) : Prop :=
    (n = 0%N /\ no_member l name) \/ (n <> 0%N /\ has_member l name (JInt (Z.of_N n))).
  Definition shows_string (l : members) (name : string) (x : pystr) : Prop :=
    (x = [] /\ no_member l name) \/ (x <> [] /\ has_member l name (JStr x)).
  Definition shows_bytes (l : members) (name : string) (x : bytes) : Prop :=
    (x = [] /\ no_member l name) \/
    (x <> [] /\ exists s, bytes_text x s /\ has_member l name (JStr s)).
  (** Enums by their name; a number that has no name stays a number. *)
  Definition shows_enum (table : list (string * Z)) (l : members) (name : string) (z : Z) : Prop :=
    (z = 0 /\ no_member l name) \/
    (z <> 0 /\ exists s, In (s, z) table /\ has_member l name (JStr (ulit s))) \/
    (z <> 0 /\ ~ In z (map snd table) /\ has_member l name (JInt z)).
  Definition shows_message {M} (shows : json -> M -> Prop) (l : members) (name : string)
    (m : option M) : Prop :=
    match m with
    | None => no_member l name
    | Some x => exists v, has_member l name v /\ shows v x
    end.
  Definition shows_list {M} (shows : json -> M -> Prop) (l : members) (name : string)
    (m : list M) : Prop :=
    (m = [] /\ no_member l name) \/
    (m <> [] /\ exists vs, has_member l name (JList vs) /\ Forall2 shows vs m).

  Definition shows_key_data (v : json) (d : key_data) : Prop :=
    exists l, v = JDict l /\ only_members l ["typeUrl"; "value"; "keyMaterialType"] /\
      shows_string l "typeUrl" (kd_type_url d) /\ shows_bytes l "value" (kd_value d) /\
      shows_enum material_table l "keyMaterialType" (kd_key_material_type d).
  Definition shows_key (v : json) (k : key) : Prop :=
    exists l, v = JDict l /\ only_members l ["keyData"; "status"; "keyId"; "outputPrefixType"] /\
      shows_message shows_key_data l "keyData" (k_key_data_opt k) /\
      shows_enum status_table l "status" (k_status k) /\
      shows_uint l "keyId" (k_key_id k) /\
      shows_enum prefix_table l "outputPrefixType" (k_output_prefix_type k).
  Definition shows_keyset (v : json) (ks : keyset) : Prop :=
    exists l, v = JDict l /\ only_members l ["primaryKeyId"; "key"] /\
      shows_uint l "primaryKeyId" (ks_primary_key_id ks) /\
      shows_list shows_key l "key" (ks_key ks).
  Definition shows_key_info (v : json) (k : key_info) : Prop :=
    exists l, v = JDict l /\ only_members l ["typeUrl"; "status"; "keyId"; "outputPrefixType"] /\
      shows_string l "typeUrl" (ki_type_url k) /\
      shows_enum status_table l "status" (ki_status k) /\
      shows_uint l "keyId" (ki_key_id k) /\
      shows_enum prefix_table l "outputPrefixType" (ki_output_prefix_type k).
  Definition shows_keyset_info (v : json) (i : keyset_info) : Prop :=
    exists l, v = JDict l /\ only_members l ["primaryKeyId"; "keyInfo"] /\
      shows_uint l "primaryKeyId" (ksi_primary_key_id i) /\
      shows_list shows_key_info l "keyInfo" (ksi_key_info i).
  Definition shows_encrypted_keyset (v : json) (e : encrypted_keyset) : Prop :=
    exists l, v = JDict l /\ only_members l ["encryptedKeyset"; "keysetInfo"] /\
      shows_bytes l "encryptedKeyset" (ek_encrypted_keyset e) /\
      shows_message shows_keyset_info l "keysetInfo" (ek_keyset_info e).
End Shows.

(** Python does not allow a limit on the digits of integers below 640. *)
Definition python_digit_limit (rt : py_rt) : Prop :=
  int_max_str_digits rt = 0%N \/ (640 <= int_max_str_digits rt)%N.

(** Documents with nothing but known members (proto3 JSON also knows the names of the
    .proto file). An empty list or string counts as an empty message. *)
Definition strict_object (names : list string) (inner : pystr -> json -> Prop) (v : json) : Prop :=
  v = JList [] \/ v = JStr [] \/
  exists l, v = JDict l /\ only_members l names /\ forall n w, In (n, w) l -> inner n w.
Definition strict_key_data : json -> Prop :=
  strict_object ["typeUrl"; "type_url"; "value"; "keyMaterialType"; "key_material_type"]
    (fun _ _ => True).
Definition strict_key : json -> Prop :=
  strict_object ["keyData"; "key_data"; "status"; "keyId"; "key_id"; "outputPrefixType";
                 "output_prefix_type"]
    (fun n w => n = ulit "keyData" \/ n = ulit "key_data" -> w = JNull \/ strict_key_data w).
Definition strict_keyset : json -> Prop :=
  strict_object ["primaryKeyId"; "primary_key_id"; "key"]
    (fun n w => n = ulit "key" -> w = JNull \/ exists vs, w = JList vs /\ Forall strict_key vs).

(** No infinite number anywhere in the document. *)
Definition finite_json (v : json) : Prop := forall b, ~ within (JFloat (FInf b)) v.
