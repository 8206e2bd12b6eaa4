(** jwt/_jwt_mac_wrapper.py and jwt/_jwt_signature_wrappers.py *)
From Coq Require Import Strings.Byte Strings.String List NArith ZArith Bool.
From Verif Require Import M_Base M_Proto M_JwtTypes M_Prims M_PrimitiveSet M_Registry M_JwtFormat.
Import ListNotations.
Open Scope list_scope.
Open Scope Z_scope.

(** Method calls on the primitive of an entry. *)
Definition call_jwt_compute (p : prim) (r : raw_jwt) (kid : option pystr) : result pystr :=
  match p with PrimJwtMacInternal m => jmi_compute m r kid | _ => Err AttributeError end.
Definition call_jwt_mac_verify (p : prim) (now : Z) (c : pystr) (v : jwt_validator) (kid : option pystr)
  : result verified_jwt :=
  match p with PrimJwtMacInternal m => jmi_verify m now c v kid | _ => Err AttributeError end.
Definition call_jwt_sign (p : prim) (rnd : coins) (r : raw_jwt) (kid : option pystr) : result pystr :=
  match p with PrimJwtSignInternal m => jsi_sign m rnd r kid | _ => Err AttributeError end.
Definition call_jwt_verify (p : prim) (now : Z) (c : pystr) (v : jwt_validator) (kid : option pystr)
  : result verified_jwt :=
  match p with PrimJwtVerifyInternal m => jvi_verify m now c v kid | _ => Err AttributeError end.

(** The kid of an entry. *)
Definition entry_kid (e : entry) : result (option pystr) :=
  get_kid (Z.of_N (e_key_id e)) (e_output_prefix_type e).

(** jwt/_jwt_mac_wrapper.py:45-47 *)
Definition wrapped_jwt_compute (ps : pset) (r : raw_jwt) : result pystr :=
  e <- primary ps ;;
  kid <- entry_kid e ;;
  call_jwt_compute (e_primitive e) r kid.

(** The loop of jwt/_jwt_mac_wrapper.py:63-76 and jwt/_jwt_signature_wrappers.py:50-63:
    TinkErrors are passed over; the last JwtInvalidError is raised at the end, if
    there was one. *)
Fixpoint try_each_jwt {X A} (f : X -> result A) (l : list X) (interesting : option exn)
    (otherwise : exn) : result A :=
  match l with
  | [] => Err (match interesting with Some e => e | None => otherwise end)
  | x :: r =>
      match f x with
      | Ok a => Ok a
      | Err e =>
          if is_tink_error e then
            try_each_jwt f r (if is_jwt_invalid_error e then Some e else interesting) otherwise
          else Err e
      end
  end.

(** jwt/_jwt_mac_wrapper.py:49-76. [now] is the clock; simplification: all keys
    read the same instant. *)
Definition wrapped_jwt_mac_verify (ps : pset) (now : Z) (c : pystr) (v : jwt_validator)
  : result verified_jwt :=
  try_each_jwt (fun e => kid <- entry_kid e ;; call_jwt_mac_verify (e_primitive e) now c v kid)
    (concat (ps_all ps)) None (TinkError "invalid MAC").

(** jwt/_jwt_mac_wrapper.py:79-84, jwt/_jwt_signature_wrappers.py:66-71 *)
Definition validate_jwt_primitive_set (ps : pset) : result unit :=
  for_each (for_each (fun e =>
      if negb (e_output_prefix_type e =? RAW) && negb (e_output_prefix_type e =? TINK) then
        Err (TinkError "unsupported OutputPrefixType")
      else Ok tt)) (ps_all ps).

(** jwt/_jwt_mac_wrapper.py:87-102 *)
Definition jwt_mac_wrapper : wrapper :=
  mk_wrapper 20 20 ClsJwtMac ClsJwtMacInternal
    (fun ps => _ <- validate_jwt_primitive_set ps ;;
               Ok (PrimJwtMac (mk_jwt_mac (wrapped_jwt_compute ps) (wrapped_jwt_mac_verify ps)))).

(** jwt/_jwt_signature_wrappers.py:35-38 *)
Definition wrapped_jwt_sign (ps : pset) (rnd : coins) (r : raw_jwt) : result pystr :=
  e <- primary ps ;;
  kid <- entry_kid e ;;
  call_jwt_sign (e_primitive e) rnd r kid.

(** jwt/_jwt_signature_wrappers.py:74-92 *)
Definition jwt_sign_wrapper : wrapper :=
  mk_wrapper 21 21 ClsJwtSign ClsJwtSignInternal
    (fun ps => _ <- validate_jwt_primitive_set ps ;;
               Ok (PrimJwtSign (mk_jwt_sign (wrapped_jwt_sign ps)))).

(** jwt/_jwt_signature_wrappers.py:47-63 *)
Definition wrapped_jwt_verify (ps : pset) (now : Z) (c : pystr) (v : jwt_validator)
  : result verified_jwt :=
  try_each_jwt (fun e => kid <- entry_kid e ;; call_jwt_verify (e_primitive e) now c v kid)
    (concat (ps_all ps)) None (TinkError "invalid signature").

(** jwt/_jwt_signature_wrappers.py:95-113 *)
Definition jwt_verify_wrapper : wrapper :=
  mk_wrapper 22 22 ClsJwtVerify ClsJwtVerifyInternal
    (fun ps => _ <- validate_jwt_primitive_set ps ;;
               Ok (PrimJwtVerify (mk_jwt_verify (wrapped_jwt_verify ps)))).
