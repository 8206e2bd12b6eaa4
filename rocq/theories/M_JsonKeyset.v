(** The JSON form of keysets: google.protobuf.json_format (Parse and MessageToJson) on
    the messages of proto/tink.proto, JsonKeysetReader, JsonKeysetWriter and
    _json_proto_keyset_format.py.

    json_format is a library; what is modelled is its Python source in the versions
    the requirement python/requirements.in allows. Simplifications: no recursion limit;
    extension names in brackets count as unknown names (they are refused as well). *)
From Coq Require Import Strings.Byte Strings.String List NArith ZArith Bool.
From Verif Require Import M_Base M_Utf8 M_Base64 M_Proto M_Prims M_PrimitiveSet M_Registry
  M_KeysetHandle M_KeysetIO M_JwtTypes M_Json.
Import ListNotations.
Open Scope string_scope.
Open Scope list_scope.
Open Scope Z_scope.

(** What differs between protobuf releases or belongs to the Python runtime:
    [pb_catch_all]: json_format.Parse turns every exception of the conversion into
    ParseError (newer releases) or only those raised inside of a field (older ones);
    [pb_int_of_str]: Python's [int(text)], None is ValueError. *)
Record pb_rt := mk_pb_rt {
  pb_catch_all : bool;
  pb_int_of_str : pystr -> option Z }.

(** ** json_format.Parse: scalar values (_ConvertScalarFieldValue) *)

(** Assignment to an integer field raises ValueError outside of its range. *)
Definition set_uint32 (z : Z) : result N :=
  if (0 <=? z) && (z <? 4294967296) then Ok (Z.to_N z) else Err (ValueError "out of range").
Definition set_enum (z : Z) : result Z :=
  if (-2147483648 <=? z) && (z <? 2147483648) then Ok z else Err (ValueError "out of range").

(** [int(f)] of a finite float, and [f.is_integer()]. *)
Definition float_trunc (z : Z) : Z := Z.quot z (2 ^ 1074).
Definition float_is_integer (z : Z) : bool := Z.rem z (2 ^ 1074) =? 0.

(** _ConvertInteger, for a uint32 field *)
Definition conv_uint32 (pb : pb_rt) (v : json) : result N :=
  match v with
  | JBool _ => Err ParseError
  | JInt z => set_uint32 z
  | JFloat (FFin z) => if float_is_integer z then set_uint32 (float_trunc z) else Err ParseError
  | JFloat FNegZero => set_uint32 0
  | JFloat _ => Err ParseError
  | JStr x =>
      if existsb (N.eqb 32) x then Err ParseError
      else match pb_int_of_str pb x with
           | Some z => set_uint32 z
           | None => Err (ValueError "invalid literal for int()")
           end
  | JNull | JList _ | JDict _ => Err (TypeError "int() argument")
  end.

(** Enums: by name, else [int(value)]; unknown numbers are kept (proto3). *)
Definition conv_enum (pb : pb_rt) (names : list (pystr * Z)) (v : json) : result Z :=
  match v with
  | JStr x =>
      match dict_get str_eqb x names with
      | Some n => Ok n
      | None => match pb_int_of_str pb x with
                | Some z => set_enum z
                | None => Err ParseError
                end
      end
  | JInt z => set_enum z
  | JBool b => set_enum (if b then 1 else 0)
  | JFloat (FFin z) => set_enum (float_trunc z)
  | JFloat FNegZero => set_enum 0
  | JFloat FNaN => Err ParseError
  | JFloat (FInf _) => Err OverflowError
  | JNull | JList _ | JDict _ => Err (TypeError "unhashable or not a number")
  end.

Definition conv_string (v : json) : result pystr :=
  match v with
  | JStr x => match utf8_encode x with Some _ => Ok x | None => Err UnicodeError end
  | _ => Err (TypeError "not a string")
  end.

(** [base64.urlsafe_b64decode(encoded + b'=' * (4 - len(encoded) % 4))] *)
Definition conv_bytes (v : json) : result bytes :=
  match v with
  | JStr x =>
      match utf8_encode x with
      | None => Err UnicodeError
      | Some e =>
          match urlsafe_b64decode (e ++ repeat pad (4 - Nat.modulo (length e) 4)) with
          | Some y => Ok y
          | None => Err (ValueError "binascii.Error")
          end
      end
  | _ => Err (TypeError "not a string")
  end.

(** ** json_format.Parse: messages *)

(** A field of a message of type M: json_name, name, ClearField, and the assignment
    from a JSON value that is not null. *)
Record field_conv (M : Type) := mk_field_conv {
  fc_json_name : string;
  fc_name : string;
  fc_clear : M -> M;
  fc_set : json -> M -> result M }.
Arguments mk_field_conv {M} _ _ _ _.
Arguments fc_json_name {M} _.
Arguments fc_name {M} _.
Arguments fc_clear {M} _ _.
Arguments fc_set {M} _ _ _.

(** [fields_by_json_name.get(name)], then [fields_by_name.get(name)]. *)
Definition find_field {M} (fields : list (field_conv M)) (name : pystr) : option (field_conv M) :=
  match find (fun f => str_eqb name (ulit (fc_json_name f))) fields with
  | Some f => Some f
  | None => find (fun f => str_eqb name (ulit (fc_name f))) fields
  end.

(** The except clauses around the conversion of one field. *)
Definition field_errors {A} (r : result A) : result A :=
  match r with
  | Err (ValueError _) | Err (TypeError _) | Err UnicodeError => Err ParseError
  | _ => r
  end.

(** _ConvertFieldValuePair. A non-empty list or string is refused at its first item or
    character: no item can be used as an index into a list, no field name has one
    character. *)
Fixpoint conv_members {M} (fields : list (field_conv M)) (l : list (pystr * json)) (m : M)
  : result M :=
  match l with
  | [] => Ok m
  | (name, v) :: r =>
      m' <- match find_field fields name with
            | None => Err ParseError
            | Some f =>
                match v with
                | JNull => Ok (fc_clear f m)
                | _ => field_errors (fc_set f v m)
                end
            end ;;
      conv_members fields r m'
  end.
Definition conv_message {M} (fields : list (field_conv M)) (js : json) (m : M) : result M :=
  match js with
  | JDict l => conv_members fields l m
  | JList [] | JStr [] => Ok m
  | JList _ | JStr _ => Err ParseError
  | JNull | JBool _ | JInt _ | JFloat _ => Err (TypeError "object is not iterable")
  end.

(** A repeated message field: the items replace what the field had before. *)
Definition conv_repeated {M} (conv : json -> M -> result M) (init : M) (v : json)
  : result (list M) :=
  match v with
  | JList l => map_result (fun i => match i with JNull => Err ParseError | _ => conv i init end) l
  | _ => Err ParseError
  end.

(** proto/tink.proto: the value names of the enums *)
Definition key_status_names : list (pystr * Z) :=
  [(ulit "UNKNOWN_STATUS", UNKNOWN_STATUS); (ulit "ENABLED", ENABLED);
   (ulit "DISABLED", DISABLED); (ulit "DESTROYED", DESTROYED)].
Definition output_prefix_names : list (pystr * Z) :=
  [(ulit "UNKNOWN_PREFIX", UNKNOWN_PREFIX); (ulit "TINK", TINK); (ulit "LEGACY", LEGACY);
   (ulit "RAW", RAW); (ulit "CRUNCHY", CRUNCHY)].
Definition key_material_names : list (pystr * Z) :=
  [(ulit "UNKNOWN_KEYMATERIAL", UNKNOWN_KEYMATERIAL); (ulit "SYMMETRIC", SYMMETRIC);
   (ulit "ASYMMETRIC_PRIVATE", ASYMMETRIC_PRIVATE); (ulit "ASYMMETRIC_PUBLIC", ASYMMETRIC_PUBLIC);
   (ulit "REMOTE", REMOTE)].

Section Messages.
  Variable pb : pb_rt.

  (** proto/tink.proto: message KeyData *)
  Definition key_data_fields : list (field_conv key_data) :=
    [mk_field_conv "typeUrl" "type_url"
       (fun m => mk_key_data [] (kd_value m) (kd_key_material_type m))
       (fun v m => x <- conv_string v ;; Ok (mk_key_data x (kd_value m) (kd_key_material_type m)));
     mk_field_conv "value" "value"
       (fun m => mk_key_data (kd_type_url m) [] (kd_key_material_type m))
       (fun v m => x <- conv_bytes v ;; Ok (mk_key_data (kd_type_url m) x (kd_key_material_type m)));
     mk_field_conv "keyMaterialType" "key_material_type"
       (fun m => mk_key_data (kd_type_url m) (kd_value m) 0)
       (fun v m => x <- conv_enum pb key_material_names v ;;
                   Ok (mk_key_data (kd_type_url m) (kd_value m) x))].

  (** proto/tink.proto: message Keyset.Key; the sub-message is merged into the one
      that is there. *)
  Definition key_fields : list (field_conv key) :=
    [mk_field_conv "keyData" "key_data"
       (fun m => mk_key None (k_status m) (k_key_id m) (k_output_prefix_type m))
       (fun v m => x <- conv_message key_data_fields v (k_key_data m) ;;
                   Ok (mk_key (Some x) (k_status m) (k_key_id m) (k_output_prefix_type m)));
     mk_field_conv "status" "status"
       (fun m => mk_key (k_key_data_opt m) 0 (k_key_id m) (k_output_prefix_type m))
       (fun v m => x <- conv_enum pb key_status_names v ;;
                   Ok (mk_key (k_key_data_opt m) x (k_key_id m) (k_output_prefix_type m)));
     mk_field_conv "keyId" "key_id"
       (fun m => mk_key (k_key_data_opt m) (k_status m) 0 (k_output_prefix_type m))
       (fun v m => x <- conv_uint32 pb v ;;
                   Ok (mk_key (k_key_data_opt m) (k_status m) x (k_output_prefix_type m)));
     mk_field_conv "outputPrefixType" "output_prefix_type"
       (fun m => mk_key (k_key_data_opt m) (k_status m) (k_key_id m) 0)
       (fun v m => x <- conv_enum pb output_prefix_names v ;;
                   Ok (mk_key (k_key_data_opt m) (k_status m) (k_key_id m) x))].
  Definition default_key : key := mk_key None 0 0 0.

  (** proto/tink.proto: message Keyset *)
  Definition keyset_fields : list (field_conv keyset) :=
    [mk_field_conv "primaryKeyId" "primary_key_id"
       (fun m => mk_keyset 0 (ks_key m))
       (fun v m => x <- conv_uint32 pb v ;; Ok (mk_keyset x (ks_key m)));
     mk_field_conv "key" "key"
       (fun m => mk_keyset (ks_primary_key_id m) [])
       (fun v m => x <- conv_repeated (conv_message key_fields) default_key v ;;
                   Ok (mk_keyset (ks_primary_key_id m) x))].

  (** proto/tink.proto: message KeysetInfo.KeyInfo *)
  Definition key_info_fields : list (field_conv key_info) :=
    [mk_field_conv "typeUrl" "type_url"
       (fun m => mk_key_info [] (ki_status m) (ki_key_id m) (ki_output_prefix_type m))
       (fun v m => x <- conv_string v ;;
                   Ok (mk_key_info x (ki_status m) (ki_key_id m) (ki_output_prefix_type m)));
     mk_field_conv "status" "status"
       (fun m => mk_key_info (ki_type_url m) 0 (ki_key_id m) (ki_output_prefix_type m))
       (fun v m => x <- conv_enum pb key_status_names v ;;
                   Ok (mk_key_info (ki_type_url m) x (ki_key_id m) (ki_output_prefix_type m)));
     mk_field_conv "keyId" "key_id"
       (fun m => mk_key_info (ki_type_url m) (ki_status m) 0 (ki_output_prefix_type m))
       (fun v m => x <- conv_uint32 pb v ;;
                   Ok (mk_key_info (ki_type_url m) (ki_status m) x (ki_output_prefix_type m)));
     mk_field_conv "outputPrefixType" "output_prefix_type"
       (fun m => mk_key_info (ki_type_url m) (ki_status m) (ki_key_id m) 0)
       (fun v m => x <- conv_enum pb output_prefix_names v ;;
                   Ok (mk_key_info (ki_type_url m) (ki_status m) (ki_key_id m) x))].
  Definition default_key_info : key_info := mk_key_info [] 0 0 0.

  (** proto/tink.proto: message KeysetInfo *)
  Definition keyset_info_fields : list (field_conv keyset_info) :=
    [mk_field_conv "primaryKeyId" "primary_key_id"
       (fun m => mk_keyset_info 0 (ksi_key_info m))
       (fun v m => x <- conv_uint32 pb v ;; Ok (mk_keyset_info x (ksi_key_info m)));
     mk_field_conv "keyInfo" "key_info"
       (fun m => mk_keyset_info (ksi_primary_key_id m) [])
       (fun v m => x <- conv_repeated (conv_message key_info_fields) default_key_info v ;;
                   Ok (mk_keyset_info (ksi_primary_key_id m) x))].
  Definition default_keyset_info : keyset_info := mk_keyset_info 0 [].

  (** proto/tink.proto: message EncryptedKeyset *)
  Definition encrypted_keyset_fields : list (field_conv encrypted_keyset) :=
    [mk_field_conv "encryptedKeyset" "encrypted_keyset"
       (fun m => mk_encrypted_keyset [] (ek_keyset_info m))
       (fun v m => x <- conv_bytes v ;; Ok (mk_encrypted_keyset x (ek_keyset_info m)));
     mk_field_conv "keysetInfo" "keyset_info"
       (fun m => mk_encrypted_keyset (ek_encrypted_keyset m) None)
       (fun v m => x <- conv_message keyset_info_fields v
                          (match ek_keyset_info m with
                           | Some i => i
                           | None => default_keyset_info
                           end) ;;
                   Ok (mk_encrypted_keyset (ek_encrypted_keyset m) (Some x)))].
End Messages.

(** json_format._DuplicateChecker *)
Fixpoint repeated_name (l : list (pystr * json)) : bool :=
  match l with
  | [] => false
  | (k, _) :: r => existsb (fun kv => str_eqb k (fst kv)) r || repeated_name r
  end.
Definition duplicate_checker (l : list (pystr * json)) : result json :=
  if repeated_name l then Err ParseError else Ok (JDict l).

(** json_format.Parse(text, message): every failure of json.loads is a ParseError. *)
Definition pb_parse {M} (rt : py_rt) (pb : pb_rt) (fields : list (field_conv M)) (init : M)
  (text : pystr) : result M :=
  match loads rt duplicate_checker text with
  | Err _ => Err ParseError
  | Ok js =>
      match conv_message fields js init with
      | Err e => if pb_catch_all pb then Err ParseError else Err e
      | r => r
      end
  end.

(** ** json_format.MessageToJson *)

(** json.encoder._make_iterencode with indent=2 and ensure_ascii: the text of a value at
    nesting level n. *)
Definition newline_indent (n : nat) : pystr := 10%N :: repeat 32%N (2 * n).
Fixpoint dumps_indent (rt : py_rt) (n : nat) (v : json) : result pystr :=
  match v with
  | JNull => Ok (ulit "null")
  | JBool true => Ok (ulit "true")
  | JBool false => Ok (ulit "false")
  | JInt z => int_text rt z
  | JFloat f => Ok (float_text rt f)
  | JStr x => Ok (encode_str x)
  | JList [] => Ok (ulit "[]")
  | JList (v0 :: l) =>
      t0 <- dumps_indent rt (S n) v0 ;;
      t <- (fix go l := match l with
                        | [] => Ok (newline_indent n ++ [93%N])
                        | v1 :: r =>
                            t1 <- dumps_indent rt (S n) v1 ;; t <- go r ;;
                            Ok ((44%N :: newline_indent (S n)) ++ t1 ++ t)
                        end) l ;;
      Ok (91%N :: newline_indent (S n) ++ t0 ++ t)
  | JDict [] => Ok (ulit "{}")
  | JDict ((k0, v0) :: l) =>
      t0 <- dumps_indent rt (S n) v0 ;;
      t <- (fix go l := match l with
                        | [] => Ok (newline_indent n ++ [125%N])
                        | (k1, v1) :: r =>
                            t1 <- dumps_indent rt (S n) v1 ;; t <- go r ;;
                            Ok ((44%N :: newline_indent (S n)) ++ encode_str k1 ++ [58%N; 32%N] ++ t1 ++ t)
                        end) l ;;
      Ok (123%N :: newline_indent (S n) ++ encode_str k0 ++ [58%N; 32%N] ++ t0 ++ t)
  end.

(** _FieldToJsonObject and the ListFields of each message: fields that have their default
    value are left out, sub-messages are there when they are set. *)
Definition enum_json (names : list (pystr * Z)) (z : Z) : json :=
  match find (fun kv => snd kv =? z) names with
  | Some (x, _) => JStr x
  | None => JInt z
  end.
Definition bytes_json (x : bytes) : json := JStr (map Byte.to_N (b64encode x)).
Definition when (c : bool) (name : string) (v : json) : list (pystr * json) :=
  if c then [(ulit name, v)] else [].
Definition nonempty {A} (l : list A) : bool := match l with [] => false | _ => true end.

Definition key_data_json (d : key_data) : json :=
  JDict (when (nonempty (kd_type_url d)) "typeUrl" (JStr (kd_type_url d))
         ++ when (nonempty (kd_value d)) "value" (bytes_json (kd_value d))
         ++ when (negb (kd_key_material_type d =? 0)) "keyMaterialType"
              (enum_json key_material_names (kd_key_material_type d))).
Definition key_json (k : key) : json :=
  JDict (match k_key_data_opt k with
         | Some d => [(ulit "keyData", key_data_json d)]
         | None => []
         end
         ++ when (negb (k_status k =? 0)) "status" (enum_json key_status_names (k_status k))
         ++ when (negb (N.eqb (k_key_id k) 0)) "keyId" (JInt (Z.of_N (k_key_id k)))
         ++ when (negb (k_output_prefix_type k =? 0)) "outputPrefixType"
              (enum_json output_prefix_names (k_output_prefix_type k))).
Definition keyset_json (ks : keyset) : json :=
  JDict (when (negb (N.eqb (ks_primary_key_id ks) 0)) "primaryKeyId"
           (JInt (Z.of_N (ks_primary_key_id ks)))
         ++ when (nonempty (ks_key ks)) "key" (JList (map key_json (ks_key ks)))).
Definition key_info_json (k : key_info) : json :=
  JDict (when (nonempty (ki_type_url k)) "typeUrl" (JStr (ki_type_url k))
         ++ when (negb (ki_status k =? 0)) "status" (enum_json key_status_names (ki_status k))
         ++ when (negb (N.eqb (ki_key_id k) 0)) "keyId" (JInt (Z.of_N (ki_key_id k)))
         ++ when (negb (ki_output_prefix_type k =? 0)) "outputPrefixType"
              (enum_json output_prefix_names (ki_output_prefix_type k))).
Definition keyset_info_json (i : keyset_info) : json :=
  JDict (when (negb (N.eqb (ksi_primary_key_id i) 0)) "primaryKeyId"
           (JInt (Z.of_N (ksi_primary_key_id i)))
         ++ when (nonempty (ksi_key_info i)) "keyInfo" (JList (map key_info_json (ksi_key_info i)))).
Definition encrypted_keyset_json (e : encrypted_keyset) : json :=
  JDict (when (nonempty (ek_encrypted_keyset e)) "encryptedKeyset"
           (bytes_json (ek_encrypted_keyset e))
         ++ match ek_keyset_info e with
            | Some i => [(ulit "keysetInfo", keyset_info_json i)]
            | None => []
            end).

(** ** Tink *)

(** [except json_format.ParseError as e: raise core.TinkError(e)] *)
Definition parse_error_to_tink {A} (r : result A) : result A :=
  match r with Err ParseError => Err (TinkError "ParseError") | _ => r end.

Section JsonIO.
  Variable rt : py_rt.
  Variable pb : pb_rt.

  (** _keyset_reader.py:40-61 JsonKeysetReader *)
  Definition json_keyset_reader (serialized_keyset : pystr) : keyset_reader :=
    mk_keyset_reader
      (parse_error_to_tink (pb_parse rt pb (keyset_fields pb) (mk_keyset 0 []) serialized_keyset))
      (parse_error_to_tink (pb_parse rt pb (encrypted_keyset_fields pb)
                              (mk_encrypted_keyset [] None) serialized_keyset)).

  (** [self._io_stream.write(json_format.MessageToJson(message))] *)
  Definition write_json (js : json) (st : pystr) : result unit * pystr :=
    match dumps_indent rt 0 js with
    | Err e => (Err e, st)
    | Ok t => (Ok tt, st ++ t)
    end.

  (** _keyset_writer.py:42-64 JsonKeysetWriter on a text stream whose content is the
      state. Simplification: the stream's own write and flush do not raise. *)
  Definition json_keyset_writer : keyset_writer pystr :=
    mk_keyset_writer
      (fun ks st => write_json (keyset_json ks) st)
      (fun ek st => write_json (encrypted_keyset_json ek) st).

  (** io.StringIO() ; writer ; getvalue(). Simplification: StringIO's newline
      translation does not change the texts written, which have no carriage return. *)
  Definition text_value (r : result unit * pystr) : result pystr :=
    match r with (Ok _, st) => Ok st | (Err e, _) => Err e end.

  (** _json_proto_keyset_format.py:26-31 *)
  Definition json_proto_parse (x : pystr) (t : token) : result keyset_handle :=
    ks <- kr_read (json_keyset_reader x) ;; from_proto_keyset ks t.

  (** _json_proto_keyset_format.py:34-41 *)
  Definition json_proto_serialize (h : keyset_handle) (t : token) : result pystr :=
    ks <- to_proto_keyset h t ;;
    text_value (kw_write json_keyset_writer ks []).

  (** _json_proto_keyset_format.py:44-50 *)
  Definition json_proto_parse_without_secret (x : pystr) : result keyset_handle :=
    read_no_secret_keyset_handle (json_keyset_reader x).

  (** _json_proto_keyset_format.py:53-60 *)
  Definition json_proto_serialize_without_secret (h : keyset_handle) : result pystr :=
    text_value (write_no_secret h json_keyset_writer []).

  (** _json_proto_keyset_format.py:63-73 *)
  Definition json_proto_parse_encrypted (x : pystr) (a : aead) (ad : bytes)
    : result keyset_handle :=
    read_keyset_handle_with_associated_data (json_keyset_reader x) a ad.

  (** _json_proto_keyset_format.py:76-89 *)
  Definition json_proto_serialize_encrypted (h : keyset_handle) (a : aead) (rnd : coins)
    (ad : bytes) : result pystr :=
    text_value (write_with_associated_data h json_keyset_writer a rnd ad []).
End JsonIO.
