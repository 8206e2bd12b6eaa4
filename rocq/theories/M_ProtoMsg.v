(** Protobuf messages described by a schema: building them by attribute
    assignment, SerializeToString, FromString and attribute access. Models the
    google.protobuf library for the key format messages of
    python/tink/proto/*.proto (singular scalar, string, bytes, enum and
    sub-message fields of proto3).
    Simplifications: unknown fields are dropped; an oneof or a repeated field
    cannot be described; only the exception class of a rejected assignment is
    kept. *)
From Coq Require Import Strings.Byte Strings.String List NArith ZArith Bool.
From Verif Require Import M_Base M_Proto M_Utf8 M_Wire.
Import ListNotations.
Open Scope string_scope.
Open Scope list_scope.

(** Field types; a message type lists its fields (name, number, type) in
    field-number order. *)
Inductive ptype :=
| TUint32
| TInt32
| TEnum
| TBytes
| TString
| TMsg (fields : list (string * N * ptype)).

(** Field values. A message holds one entry per field of its type; [None] is a
    sub-message that is not set. *)
Inductive pval :=
| VNum (z : Z)
| VBytes (x : bytes)
| VString (s : pystr)
| VMsg (fields : list (option pval)).

(** The value of a field that was never assigned. *)
Definition default_field (t : ptype) : option pval :=
  match t with
  | TUint32 | TInt32 | TEnum => Some (VNum 0)
  | TBytes => Some (VBytes [])
  | TString => Some (VString [])
  | TMsg _ => None
  end.
Definition empty_message (fs : list (string * N * ptype)) : list (option pval) :=
  map (fun f => default_field (snd f)) fs.

(** Reading the attribute [m.a.b.c]; reading an unset sub-message gives its
    default instance. *)
Fixpoint get_path (t : ptype) (v : option pval) (path : list string) : option pval :=
  match path with
  | [] => match v with Some _ => v | None => default_field t end
  | name :: rest =>
      match t with
      | TMsg fs =>
          (fix go (fs : list (string * N * ptype)) (vs : list (option pval)) :=
             match fs, vs with
             | (n, _, t') :: fr, v' :: vr =>
                 if String.eqb n name then get_path t' v' rest else go fr vr
             | _, _ => None
             end) fs (match v with Some (VMsg vs) => vs | _ => empty_message fs end)
      | _ => None
      end
  end.

(** What an assignment accepts: integers are range checked (ValueError), str
    must be encodable (UnicodeEncodeError, a ValueError). [VMsg] stands for
    CopyFrom of, or construction from, a message of the field's type. *)
Definition check_value (t : ptype) (v : pval) : result pval :=
  match t, v with
  | TUint32, VNum z =>
      if ((0 <=? z) && (z <? 4294967296))%Z then Ok v else Err (ValueError "")
  | TInt32, VNum z | TEnum, VNum z =>
      if ((-2147483648 <=? z) && (z <? 2147483648))%Z then Ok v else Err (ValueError "")
  | TBytes, VBytes _ => Ok v
  | TString, VString s =>
      match utf8_encode s with Some _ => Ok v | None => Err UnicodeError end
  | TMsg _, VMsg _ => Ok v
  | _, _ => Err (TypeError "")
  end.

(** [m.a.b.c = v]: sub-messages on the way become set. *)
Fixpoint set_path (t : ptype) (v : option pval) (path : list string) (x : pval) {struct path}
  : result (option pval) :=
  match path with
  | [] => match check_value t x with Ok y => Ok (Some y) | Err e => Err e end
  | name :: rest =>
      match t with
      | TMsg fs =>
          match
            (fix go (fs : list (string * N * ptype)) (vs : list (option pval))
               : result (list (option pval)) :=
               match fs, vs with
               | (n, _, t') :: fr, v' :: vr =>
                   if String.eqb n name then
                     match set_path t' v' rest x with Ok y => Ok (y :: vr) | Err e => Err e end
                   else match go fr vr with Ok l => Ok (v' :: l) | Err e => Err e end
               | _, _ => Err AttributeError
               end) fs (match v with Some (VMsg vs) => vs | _ => empty_message fs end)
          with
          | Ok l => Ok (Some (VMsg l))
          | Err e => Err e
          end
      | _ => Err AttributeError
      end
  end.

Fixpoint assign (t : ptype) (v : option pval) (l : list (list string * pval))
  : result (option pval) :=
  match l with
  | [] => Ok v
  | (p, x) :: r => match set_path t v p x with Ok v' => assign t v' r | Err e => Err e end
  end.

(** A fresh message, then the assignments in order. *)
Definition build (fs : list (string * N * ptype)) (l : list (list string * pval))
  : result (list (option pval)) :=
  match assign (TMsg fs) (Some (VMsg (empty_message fs))) l with
  | Ok (Some (VMsg vs)) => Ok vs
  | Ok _ => Err AttributeError
  | Err e => Err e
  end.

(** SerializeToString: field-number order, default scalars omitted, set
    sub-messages always written. *)
Fixpoint fields_of_value (t : ptype) (n : N) (v : option pval) : list field :=
  match t, v with
  | TUint32, Some (VNum z) => f_uint32 n (Z.to_N z)
  | TInt32, Some (VNum z) | TEnum, Some (VNum z) => f_enum n z
  | TBytes, Some (VBytes x) => f_bytes n x
  | TString, Some (VString s) => f_string n s
  | TMsg fs, Some (VMsg vs) =>
      [(n, WLen (encode_fields
         ((fix go (fs : list (string * N * ptype)) (vs : list (option pval)) : list field :=
             match fs, vs with
             | (_, k, t') :: fr, v' :: vr => fields_of_value t' k v' ++ go fr vr
             | _, _ => []
             end) fs vs)))]
  | _, _ => []
  end.
Fixpoint fields_of_message (fs : list (string * N * ptype)) (vs : list (option pval)) : list field :=
  match fs, vs with
  | (_, k, t) :: fr, v :: vr => fields_of_value t k v ++ fields_of_message fr vr
  | _, _ => []
  end.
Definition serialize_message (fs : list (string * N * ptype)) (vs : list (option pval)) : bytes :=
  encode_fields (fields_of_message fs vs).

(** FromString, field by field: the last occurrence of a scalar counts, the
    occurrences of a sub-message are merged; occurrences with another wire type
    are skipped. *)
Fixpoint varints_of (l : list wval) : list N :=
  match l with
  | [] => []
  | WVarint n :: r => n :: varints_of r
  | _ :: r => varints_of r
  end.
Fixpoint lens_of (l : list wval) : list bytes :=
  match l with
  | [] => []
  | WLen x :: r => x :: lens_of r
  | _ :: r => lens_of r
  end.
Fixpoint all_some {A B} (f : A -> option B) (l : list A) : option (list B) :=
  match l with
  | [] => Some []
  | a :: r => match f a, all_some f r with Some b, Some t => Some (b :: t) | _, _ => None end
  end.
Definition occurrences (n : N) (l : list field) : list wval :=
  map snd (filter (fun f => fst f =? n)%N l).
Fixpoint decode_value (t : ptype) (occ : list wval) : option (option pval) :=
  match t with
  | TUint32 => Some (Some (VNum (Z.of_N (uint32_of_varint (last (varints_of occ) 0%N)))))
  | TInt32 | TEnum => Some (Some (VNum (int32_of_varint (last (varints_of occ) 0%N))))
  | TBytes => Some (Some (VBytes (last (lens_of occ) [])))
  | TString =>
      match all_some utf8_decode (lens_of occ) with
      | Some l => Some (Some (VString (last l [])))
      | None => None
      end
  | TMsg fs =>
      match lens_of occ with
      | [] => Some None
      | xs =>
          match all_some parse_fields xs with
          | Some ls =>
              match
                (fix go (fs : list (string * N * ptype)) : option (list (option pval)) :=
                   match fs with
                   | [] => Some []
                   | (_, k, t') :: fr =>
                       match decode_value t' (occurrences k (concat ls)), go fr with
                       | Some v, Some r => Some (v :: r)
                       | _, _ => None
                       end
                   end) fs
              with
              | Some vs => Some (Some (VMsg vs))
              | None => None
              end
          | None => None
          end
      end
  end.
Fixpoint decode_fields (fs : list (string * N * ptype)) (l : list field)
  : option (list (option pval)) :=
  match fs with
  | [] => Some []
  | (_, k, t) :: fr =>
      match decode_value t (occurrences k l), decode_fields fr l with
      | Some v, Some r => Some (v :: r)
      | _, _ => None
      end
  end.
Definition parse_message (fs : list (string * N * ptype)) (x : bytes) : option (list (option pval)) :=
  match parse_fields x with
  | Some l => decode_fields fs l
  | None => None
  end.
