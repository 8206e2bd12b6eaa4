(** Protobuf wire format (SerializeToString / FromString) for the messages of
    python/tink/proto/tink.proto. Models the google.protobuf library on these
    schemas: fields are written in field-number order, default values are
    omitted, parsing is last-one-wins for scalars, concatenates repeated fields
    and merges repeated sub-messages; fields with unknown numbers or an
    unexpected wire type are skipped.
    Simplifications: unknown fields are dropped instead of being preserved,
    group wire types (3, 4) are rejected, tags may use up to ten bytes. *)
From Coq Require Import List NArith ZArith Bool Strings.Byte.
From Verif Require Import M_Base M_Proto M_Utf8.
Import ListNotations.
Open Scope N_scope.

(** Base-128 varint, at most ten bytes (64 bits). *)
Fixpoint varint_fuel (fuel : nat) (n : N) : bytes :=
  match fuel with
  | O => []
  | S f => if n <? 128 then [byte_of_N n]
           else byte_of_N (128 + n mod 128) :: varint_fuel f (n / 128)
  end.
Definition varint (n : N) : bytes := varint_fuel 10 n.

Fixpoint read_varint_fuel (fuel : nat) (x : bytes) : option (N * bytes) :=
  match fuel, x with
  | S f, c :: r =>
      let v := Byte.to_N c in
      if v <? 128 then Some (v, r)
      else match read_varint_fuel f r with
           | Some (n, r') => Some ((v - 128) + 128 * n, r')
           | None => None
           end
  | _, _ => None
  end.
Definition read_varint (x : bytes) : option (N * bytes) :=
  match read_varint_fuel 10 x with
  | Some (n, r) => Some (n mod 18446744073709551616, r)
  | None => None
  end.

(** A field value on the wire. *)
Inductive wval :=
| WVarint (n : N)
| WFix64 (x : bytes)
| WLen (x : bytes)
| WFix32 (x : bytes).
Definition field := (N * wval)%type.

Definition wire_type (v : wval) : N :=
  match v with WVarint _ => 0 | WFix64 _ => 1 | WLen _ => 2 | WFix32 _ => 5 end.

Definition encode_wval (v : wval) : bytes :=
  match v with
  | WVarint n => varint n
  | WFix64 x => x
  | WLen x => varint (N.of_nat (length x)) ++ x
  | WFix32 x => x
  end.
Definition encode_field (f : field) : bytes :=
  varint (fst f * 8 + wire_type (snd f)) ++ encode_wval (snd f).
Definition encode_fields (l : list field) : bytes := concat (map encode_field l).

Definition take (n : nat) (x : bytes) : option (bytes * bytes) :=
  if (n <=? length x)%nat then Some (firstn n x, skipn n x) else None.

Definition read_wval (wt : N) (x : bytes) : option (wval * bytes) :=
  if wt =? 0 then
    match read_varint x with Some (n, r) => Some (WVarint n, r) | None => None end
  else if wt =? 1 then
    match take 8 x with Some (v, r) => Some (WFix64 v, r) | None => None end
  else if wt =? 2 then
    match read_varint x with
    | Some (n, r) =>
        if n <=? N.of_nat (length r) then
          match take (N.to_nat n) r with Some (v, r') => Some (WLen v, r') | None => None end
        else None
    | None => None
    end
  else if wt =? 5 then
    match take 4 x with Some (v, r) => Some (WFix32 v, r) | None => None end
  else None.

Fixpoint parse_fields_fuel (fuel : nat) (x : bytes) : option (list field) :=
  match x with
  | [] => Some []
  | _ =>
      match fuel with
      | O => None
      | S f =>
          match read_varint x with
          | Some (tag, r) =>
              if (tag / 8 =? 0) || (536870912 <=? tag / 8) then None
              else match read_wval (tag mod 8) r with
                   | Some (v, r') => ocons (tag / 8, v) (parse_fields_fuel f r')
                   | None => None
                   end
          | None => None
          end
      end
  end.
Definition parse_fields (x : bytes) : option (list field) :=
  parse_fields_fuel (length x) x.

Fixpoint fold_option {A B} (f : A -> B -> option A) (l : list B) (a : A) : option A :=
  match l with
  | [] => Some a
  | x :: r => match f a x with Some a' => fold_option f r a' | None => None end
  end.

(** Merge the serialized message [x] into [init]. *)
Definition merge_message {A} (step : A -> field -> option A) (init : A) (x : bytes) : option A :=
  match parse_fields x with
  | Some fs => fold_option step fs init
  | None => None
  end.

(** int32 / enum and uint32 values of a varint, and back. *)
Definition int32_of_varint (n : N) : Z :=
  let m := Z.of_N (n mod 4294967296) in
  if (m <? 2147483648)%Z then m else (m - 4294967296)%Z.
Definition varint_of_int32 (z : Z) : N := Z.to_N (z mod 18446744073709551616).
Definition uint32_of_varint (n : N) : N := n mod 4294967296.

(** Field lists of scalar fields: default values are omitted. *)
Definition f_string (n : N) (v : pystr) : list field :=
  match v with
  | [] => []
  | _ => match utf8_encode v with Some e => [(n, WLen e)] | None => [] end
  end.
Definition f_bytes (n : N) (v : bytes) : list field :=
  match v with [] => [] | _ => [(n, WLen v)] end.
Definition f_uint32 (n : N) (v : N) : list field :=
  if v =? 0 then [] else [(n, WVarint v)].
Definition f_enum (n : N) (v : Z) : list field :=
  if (v =? 0)%Z then [] else [(n, WVarint (varint_of_int32 v))].

(** message KeyTemplate: type_url = 1, value = 2, output_prefix_type = 3 *)
Definition fields_of_key_template (t : key_template) : list field :=
  f_string 1 (kt_type_url t) ++ f_bytes 2 (kt_value t) ++ f_enum 3 (kt_output_prefix_type t).
Definition key_template_step (t : key_template) (f : field) : option key_template :=
  match f with
  | (1, WLen x) =>
      match utf8_decode x with
      | Some u => Some (mk_key_template u (kt_value t) (kt_output_prefix_type t))
      | None => None
      end
  | (2, WLen x) => Some (mk_key_template (kt_type_url t) x (kt_output_prefix_type t))
  | (3, WVarint n) => Some (mk_key_template (kt_type_url t) (kt_value t) (int32_of_varint n))
  | _ => Some t
  end.
Definition serialize_key_template (t : key_template) : bytes :=
  encode_fields (fields_of_key_template t).
Definition parse_key_template (x : bytes) : option key_template :=
  merge_message key_template_step (mk_key_template [] [] 0) x.

(** message KeyData: type_url = 1, value = 2, key_material_type = 3 *)
Definition fields_of_key_data (d : key_data) : list field :=
  f_string 1 (kd_type_url d) ++ f_bytes 2 (kd_value d) ++ f_enum 3 (kd_key_material_type d).
Definition key_data_step (d : key_data) (f : field) : option key_data :=
  match f with
  | (1, WLen x) =>
      match utf8_decode x with
      | Some u => Some (mk_key_data u (kd_value d) (kd_key_material_type d))
      | None => None
      end
  | (2, WLen x) => Some (mk_key_data (kd_type_url d) x (kd_key_material_type d))
  | (3, WVarint n) => Some (mk_key_data (kd_type_url d) (kd_value d) (int32_of_varint n))
  | _ => Some d
  end.
Definition serialize_key_data (d : key_data) : bytes := encode_fields (fields_of_key_data d).
Definition parse_key_data (x : bytes) : option key_data :=
  merge_message key_data_step default_key_data x.

(** message Keyset.Key: key_data = 1, status = 2, key_id = 3, output_prefix_type = 4 *)
Definition fields_of_key (k : key) : list field :=
  match k_key_data_opt k with
  | Some d => [(1, WLen (serialize_key_data d))]
  | None => []
  end ++ f_enum 2 (k_status k) ++ f_uint32 3 (k_key_id k) ++ f_enum 4 (k_output_prefix_type k).
Definition key_step (k : key) (f : field) : option key :=
  match f with
  | (1, WLen x) =>
      match merge_message key_data_step (k_key_data k) x with
      | Some d => Some (mk_key (Some d) (k_status k) (k_key_id k) (k_output_prefix_type k))
      | None => None
      end
  | (2, WVarint n) =>
      Some (mk_key (k_key_data_opt k) (int32_of_varint n) (k_key_id k) (k_output_prefix_type k))
  | (3, WVarint n) =>
      Some (mk_key (k_key_data_opt k) (k_status k) (uint32_of_varint n) (k_output_prefix_type k))
  | (4, WVarint n) =>
      Some (mk_key (k_key_data_opt k) (k_status k) (k_key_id k) (int32_of_varint n))
  | _ => Some k
  end.
Definition serialize_key (k : key) : bytes := encode_fields (fields_of_key k).
Definition parse_key (x : bytes) : option key := merge_message key_step (mk_key None 0 0 0) x.

(** message Keyset: primary_key_id = 1, repeated key = 2 *)
Definition fields_of_keyset (ks : keyset) : list field :=
  f_uint32 1 (ks_primary_key_id ks) ++ map (fun k => (2, WLen (serialize_key k))) (ks_key ks).
Definition keyset_step (ks : keyset) (f : field) : option keyset :=
  match f with
  | (1, WVarint n) => Some (mk_keyset (uint32_of_varint n) (ks_key ks))
  | (2, WLen x) =>
      match parse_key x with
      | Some k => Some (mk_keyset (ks_primary_key_id ks) (ks_key ks ++ [k]))
      | None => None
      end
  | _ => Some ks
  end.
Definition serialize_keyset (ks : keyset) : bytes := encode_fields (fields_of_keyset ks).
Definition parse_keyset (x : bytes) : option keyset := merge_message keyset_step (mk_keyset 0 []) x.

(** message KeysetInfo.KeyInfo: type_url = 1, status = 2, key_id = 3, output_prefix_type = 4 *)
Definition fields_of_key_info (k : key_info) : list field :=
  f_string 1 (ki_type_url k) ++ f_enum 2 (ki_status k) ++ f_uint32 3 (ki_key_id k)
  ++ f_enum 4 (ki_output_prefix_type k).
Definition key_info_step (k : key_info) (f : field) : option key_info :=
  match f with
  | (1, WLen x) =>
      match utf8_decode x with
      | Some u => Some (mk_key_info u (ki_status k) (ki_key_id k) (ki_output_prefix_type k))
      | None => None
      end
  | (2, WVarint n) =>
      Some (mk_key_info (ki_type_url k) (int32_of_varint n) (ki_key_id k) (ki_output_prefix_type k))
  | (3, WVarint n) =>
      Some (mk_key_info (ki_type_url k) (ki_status k) (uint32_of_varint n) (ki_output_prefix_type k))
  | (4, WVarint n) =>
      Some (mk_key_info (ki_type_url k) (ki_status k) (ki_key_id k) (int32_of_varint n))
  | _ => Some k
  end.
Definition serialize_key_info (k : key_info) : bytes := encode_fields (fields_of_key_info k).
Definition parse_key_info (x : bytes) : option key_info :=
  merge_message key_info_step (mk_key_info [] 0 0 0) x.

(** message KeysetInfo: primary_key_id = 1, repeated key_info = 2 *)
Definition fields_of_keyset_info (i : keyset_info) : list field :=
  f_uint32 1 (ksi_primary_key_id i)
  ++ map (fun k => (2, WLen (serialize_key_info k))) (ksi_key_info i).
Definition keyset_info_step (i : keyset_info) (f : field) : option keyset_info :=
  match f with
  | (1, WVarint n) => Some (mk_keyset_info (uint32_of_varint n) (ksi_key_info i))
  | (2, WLen x) =>
      match parse_key_info x with
      | Some k => Some (mk_keyset_info (ksi_primary_key_id i) (ksi_key_info i ++ [k]))
      | None => None
      end
  | _ => Some i
  end.
Definition serialize_keyset_info (i : keyset_info) : bytes :=
  encode_fields (fields_of_keyset_info i).
Definition empty_keyset_info : keyset_info := mk_keyset_info 0 [].

(** message EncryptedKeyset: encrypted_keyset = 2, keyset_info = 3 *)
Definition fields_of_encrypted_keyset (e : encrypted_keyset) : list field :=
  f_bytes 2 (ek_encrypted_keyset e)
  ++ match ek_keyset_info e with
     | Some i => [(3, WLen (serialize_keyset_info i))]
     | None => []
     end.
Definition encrypted_keyset_step (e : encrypted_keyset) (f : field) : option encrypted_keyset :=
  match f with
  | (2, WLen x) => Some (mk_encrypted_keyset x (ek_keyset_info e))
  | (3, WLen x) =>
      match merge_message keyset_info_step
              (match ek_keyset_info e with Some i => i | None => empty_keyset_info end) x with
      | Some i => Some (mk_encrypted_keyset (ek_encrypted_keyset e) (Some i))
      | None => None
      end
  | _ => Some e
  end.
Definition serialize_encrypted_keyset (e : encrypted_keyset) : bytes :=
  encode_fields (fields_of_encrypted_keyset e).
Definition parse_encrypted_keyset (x : bytes) : option encrypted_keyset :=
  merge_message encrypted_keyset_step (mk_encrypted_keyset [] None) x.
