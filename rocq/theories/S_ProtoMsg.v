(** What a schema and a message must satisfy to exist at all. *)
From Coq Require Import Strings.Byte Strings.String List NArith ZArith Bool.
From Verif Require Import M_Base M_ProtoMsg S_Wire.
Import ListNotations.
Open Scope list_scope.

Fixpoint distinct (l : list N) : bool :=
  match l with
  | [] => true
  | n :: r => negb (existsb (N.eqb n) r) && distinct r
  end.
Fixpoint distinct_names (l : list string) : bool :=
  match l with
  | [] => true
  | n :: r => negb (existsb (String.eqb n) r) && distinct_names r
  end.

(** Field names and numbers are distinct and numbers are legal, at every level. *)
Fixpoint schema_ok (t : ptype) : bool :=
  match t with
  | TMsg fs =>
      distinct (map (fun f => snd (fst f)) fs) && distinct_names (map (fun f => fst (fst f)) fs) &&
      forallb (fun f => (1 <=? snd (fst f))%N && (snd (fst f) <? 536870912)%N) fs &&
      (fix go (fs : list (string * N * ptype)) :=
         match fs with [] => true | f :: r => schema_ok (snd f) && go r end) fs
  | _ => true
  end.

(** The values a field of each type can hold. *)
Inductive holds : ptype -> option pval -> Prop :=
| holds_uint32 : forall z, (0 <= z < 2 ^ 32)%Z -> holds TUint32 (Some (VNum z))
| holds_int32 : forall z, int32_range z -> holds TInt32 (Some (VNum z))
| holds_enum : forall z, int32_range z -> holds TEnum (Some (VNum z))
| holds_bytes : forall x, holds TBytes (Some (VBytes x))
| holds_string : forall s, valid_text s -> holds TString (Some (VString s))
| holds_unset : forall fs, holds (TMsg fs) None
| holds_msg : forall fs vs, holds_all fs vs -> holds (TMsg fs) (Some (VMsg vs))
with holds_all : list (string * N * ptype) -> list (option pval) -> Prop :=
| holds_nil : holds_all [] []
| holds_cons : forall f t fs v vs, snd f = t -> holds t v -> holds_all fs vs -> holds_all (f :: fs) (v :: vs).
