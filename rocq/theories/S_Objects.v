(** Specification vocabulary for objects shared between the caller and the library. *)
From Coq Require Import Strings.Byte Strings.String List NArith ZArith Bool.
From Verif Require Import M_Base M_Proto M_Prims M_KeysetHandle M_JwtTypes M_Json M_RawJwt M_Objects.
Import ListNotations.

(** The value [v], read now, is the JSON value [j]. *)
Inductive shows (h : heap) : pyval -> json -> Prop :=
| shows_none : shows h VNone JNull
| shows_bool : forall b, shows h (VBool b) (JBool b)
| shows_int : forall z, shows h (VInt z) (JInt z)
| shows_float : forall f, shows h (VFloat f) (JFloat f)
| shows_str : forall x, shows h (VStr x) (JStr x)
| shows_list : forall a l js, nth_error h a = Some (OList l) -> Forall2 (shows h) l js ->
    shows h (VRef a) (JList js)
| shows_dict : forall a l js, nth_error h a = Some (ODict l) ->
    Forall2 (fun e f => fst e = fst f /\ shows h (snd e) (snd f)) l js -> shows h (VRef a) (JDict js).

(** How deep lists and dicts are nested. *)
Fixpoint nesting (j : json) : nat :=
  match j with
  | JList l => S (fold_right (fun x n => Nat.max (nesting x) n) O l)
  | JDict l => S (fold_right (fun e n => Nat.max (nesting (snd e)) n) O l)
  | _ => O
  end.

(** Token number [i], read now, is the token [r] of M_RawJwt. *)
Definition token_shows (s : objects) (i : nat) (r : raw_jwt) : Prop :=
  exists t, nth_error (o_tokens s) i = Some t /\ to_type_header t = rj_type_header r /\
    shows (o_heap s) (VRef (to_payload t)) (JDict (rj_payload r)).

(** The arguments [a], read now and not nested deeper than the interpreter allows, are
    [b]. *)
Definition arg_shows (limit : nat) (h : heap) (o : option pyval) (o' : option json) : Prop :=
  match o, o' with
  | None, None => True
  | Some v, Some j => view limit h v = Some j
  | _, _ => False
  end.
Definition claim_shows (limit : nat) (h : heap) (c : claim_name * option pyval) (c' : claim_name * claim_value) : Prop :=
  fst c = fst c' /\
  match snd c, snd c' with
  | None, ClaimOther => True
  | Some v, ClaimJson j => view limit h v = Some j
  | _, _ => False
  end.
Definition args_show (limit : nat) (h : heap) (a : token_args) (b : raw_jwt_args) : Prop :=
  t_type_header a = a_type_header b /\
  arg_shows limit h (t_issuer a) (a_issuer b) /\ arg_shows limit h (t_subject a) (a_subject b) /\
  arg_shows limit h (t_audience a) (a_audience b) /\ arg_shows limit h (t_audiences a) (a_audiences b) /\
  arg_shows limit h (t_jwt_id a) (a_jwt_id b) /\ t_expiration a = a_expiration b /\
  t_without_expiration a = a_without_expiration b /\ t_not_before a = a_not_before b /\
  t_issued_at a = a_issued_at b /\ Forall2 (claim_shows limit h) (t_custom_claims a) (a_custom_claims b).

(** The argument [audience] is not a list or dict: it has the type it is annotated
    with, str, or is refused. *)
Definition audience_not_object (op : operation) : Prop :=
  match op with
  | NewRawJwt a => match t_audience a with Some (VRef _) => False | _ => True end
  | _ => True
  end.

(** The call gives the Keyset message of handle [i] itself to the caller. *)
Definition hands_out (i : nat) (op : operation) : Prop :=
  match op with
  | ToProtoKeyset j tok => i = j /\ is_secret_key_access tok = true
  | CleartextWrite j own => i = j /\ own = true
  | WriteNoSecret j own => i = j /\ own = true
  | _ => False
  end.
(** The call makes a handle of a Keyset message that the caller has. *)
Definition takes_in (op : operation) : Prop :=
  match op with
  | FromKeyset _ | FromProtoKeyset _ _ | CleartextRead (OwnKeyset _) | ReadNoSecret (OwnKeyset _) => True
  | _ => False
  end.
