(** The primitive wrappers: aead/_aead_wrapper.py,
    daead/_deterministic_aead_wrapper.py, hybrid/_hybrid_wrapper.py,
    mac/_mac_wrapper.py, signature/_signature_wrapper.py,
    prf/_prf_set_wrapper.py. *)
From Coq Require Import Strings.Byte Strings.String List NArith ZArith Bool.
From Verif Require Import M_Base M_Proto M_Prims M_PrimitiveSet M_Registry.
Import ListNotations.
Open Scope list_scope.
Open Scope Z_scope.

(** [for x in l: try: return f(x) except TinkError: pass] followed by
    [otherwise]. Other exceptions propagate. *)
Fixpoint try_each {X A} (f : X -> result A) (l : list X) (otherwise : result A) : result A :=
  match l with
  | [] => otherwise
  | x :: r =>
      match f x with
      | Ok a => Ok a
      | Err e => if is_tink_error e then try_each f r otherwise else Err e
      end
  end.

(** [x[:NON_RAW_PREFIX_SIZE]] and [x[NON_RAW_PREFIX_SIZE:]] *)
Definition prefix_part (x : bytes) : bytes := firstn NON_RAW_PREFIX_SIZE x.
Definition body_part (x : bytes) : bytes := skipn NON_RAW_PREFIX_SIZE x.

(** aead/_aead_wrapper.py:28-31 *)
Definition wrapped_aead_encrypt (ps : pset) (r : coins) (pt ad : bytes) : result bytes :=
  e <- primary ps ;;
  c <- call_encrypt (e_primitive e) r pt ad ;;
  Ok (e_identifier e ++ c).

(** aead/_aead_wrapper.py:33-51 *)
Definition wrapped_aead_decrypt (ps : pset) (ct ad : bytes) : result bytes :=
  let raw :=
    try_each (fun e => call_decrypt (e_primitive e) ct ad) (raw_primitives ps)
      (Err (TinkError "Decryption failed.")) in
  if Nat.ltb NON_RAW_PREFIX_SIZE (length ct) then
    try_each (fun e => call_decrypt (e_primitive e) (body_part ct) ad)
      (primitive_from_identifier ps (prefix_part ct)) raw
  else raw.

(** aead/_aead_wrapper.py:54-71 *)
Definition aead_wrapper : wrapper :=
  mk_wrapper 1 1 ClsAead ClsAead
    (fun ps => Ok (PrimAead (mk_aead (wrapped_aead_encrypt ps) (wrapped_aead_decrypt ps)))).

(** daead/_deterministic_aead_wrapper.py:29-33 *)
Definition wrapped_daead_encrypt (ps : pset) (pt ad : bytes) : result bytes :=
  e <- primary ps ;;
  c <- call_encrypt_deterministically (e_primitive e) pt ad ;;
  Ok (e_identifier e ++ c).

(** daead/_deterministic_aead_wrapper.py:35-55 *)
Definition wrapped_daead_decrypt (ps : pset) (ct ad : bytes) : result bytes :=
  let raw :=
    try_each (fun e => call_decrypt_deterministically (e_primitive e) ct ad)
      (raw_primitives ps) (Err (TinkError "Decryption failed.")) in
  if Nat.ltb NON_RAW_PREFIX_SIZE (length ct) then
    try_each (fun e => call_decrypt_deterministically (e_primitive e) (body_part ct) ad)
      (primitive_from_identifier ps (prefix_part ct)) raw
  else raw.

(** daead/_deterministic_aead_wrapper.py:57-79 *)
Definition daead_wrapper : wrapper :=
  mk_wrapper 2 2 ClsDaead ClsDaead
    (fun ps => Ok (PrimDaead (mk_daead (wrapped_daead_encrypt ps) (wrapped_daead_decrypt ps)))).

(** hybrid/_hybrid_wrapper.py:30-47 *)
Definition wrapped_hybrid_decrypt (ps : pset) (ct ci : bytes) : result bytes :=
  let raw :=
    try_each (fun e => call_decrypt (e_primitive e) ct ci) (raw_primitives ps)
      (Err (TinkError "Decryption failed.")) in
  if Nat.ltb NON_RAW_PREFIX_SIZE (length ct) then
    try_each (fun e => call_decrypt (e_primitive e) (body_part ct) ci)
      (primitive_from_identifier ps (prefix_part ct)) raw
  else raw.

(** hybrid/_hybrid_wrapper.py:50-69 *)
Definition hybrid_decrypt_wrapper : wrapper :=
  mk_wrapper 3 3 ClsHybridDecrypt ClsHybridDecrypt
    (fun ps => Ok (PrimHybridDecrypt (mk_hybrid_decrypt (wrapped_hybrid_decrypt ps)))).

(** hybrid/_hybrid_wrapper.py:78-83. primary() raises when unset and entries are
    always true, so the first test never fires. *)
Definition wrapped_hybrid_encrypt (ps : pset) (r : coins) (pt ci : bytes) : result bytes :=
  _ <- primary ps ;;
  e <- primary ps ;;
  c <- call_encrypt (e_primitive e) r pt ci ;;
  Ok (e_identifier e ++ c).

(** hybrid/_hybrid_wrapper.py:86-104 *)
Definition hybrid_encrypt_wrapper : wrapper :=
  mk_wrapper 4 4 ClsHybridEncrypt ClsHybridEncrypt
    (fun ps => Ok (PrimHybridEncrypt (mk_hybrid_encrypt (wrapped_hybrid_encrypt ps)))).

(** mac/_mac_wrapper.py:30-36 *)
Definition wrapped_mac_compute (ps : pset) (data : bytes) : result bytes :=
  e <- primary ps ;;
  t <- call_compute_mac (e_primitive e)
         (if e_output_prefix_type e =? LEGACY then data ++ [LEGACY_START_BYTE] else data) ;;
  Ok (e_identifier e ++ t).

(** mac/_mac_wrapper.py:38-64 *)
Definition wrapped_mac_verify (ps : pset) (mac_value data : bytes) : result unit :=
  if Nat.leb (length mac_value) NON_RAW_PREFIX_SIZE then Err (TinkError "tag too short")
  else
    try_each
      (fun e =>
         if e_output_prefix_type e =? LEGACY
         then call_verify_mac (e_primitive e) (body_part mac_value) (data ++ [x00])
         else call_verify_mac (e_primitive e) (body_part mac_value) data)
      (primitive_from_identifier ps (prefix_part mac_value))
      (try_each (fun e => call_verify_mac (e_primitive e) mac_value data)
         (raw_primitives ps) (Err (TinkError "invalid MAC"))).

(** mac/_mac_wrapper.py:67-85 *)
Definition mac_wrapper : wrapper :=
  mk_wrapper 5 5 ClsMac ClsMac
    (fun ps => Ok (PrimMac (mk_mac (wrapped_mac_compute ps) (wrapped_mac_verify ps)))).

(** signature/_signature_wrapper.py:31-49 *)
Definition wrapped_sign (ps : pset) (r : coins) (data : bytes) : result bytes :=
  e <- primary ps ;;
  let sign_data := if e_output_prefix_type e =? LEGACY then data ++ [x00] else data in
  s <- call_sign (e_primitive e) r sign_data ;;
  Ok (e_identifier e ++ s).

(** signature/_signature_wrapper.py:52-70 *)
Definition public_key_sign_wrapper : wrapper :=
  mk_wrapper 6 6 ClsSign ClsSign
    (fun ps => Ok (PrimSign (mk_signer (wrapped_sign ps)))).

(** signature/_signature_wrapper.py:79-117 *)
Definition wrapped_verify (ps : pset) (signature data : bytes) : result unit :=
  if Nat.leb (length signature) NON_RAW_PREFIX_SIZE then
    Err (TinkError "signature too short")
  else
    try_each
      (fun e =>
         if e_output_prefix_type e =? LEGACY
         then call_verify (e_primitive e) (body_part signature) (data ++ [x00])
         else call_verify (e_primitive e) (body_part signature) data)
      (primitive_from_identifier ps (prefix_part signature))
      (try_each (fun e => call_verify (e_primitive e) signature data)
         (raw_primitives ps) (Err (TinkError "invalid signature"))).

(** signature/_signature_wrapper.py:120-142 *)
Definition public_key_verify_wrapper : wrapper :=
  mk_wrapper 7 7 ClsVerify ClsVerify
    (fun ps => Ok (PrimVerify (mk_verifier (wrapped_verify ps)))).

(** prf/_prf_set_wrapper.py:28-29 *)
Definition wrapped_prf_primary_id (ps : pset) : result N :=
  e <- primary ps ;; Ok (e_key_id e).

(** prf/_prf_set_wrapper.py:31-35: a dict comprehension, later entries with the
    same key id replace earlier ones. *)
Definition wrapped_prf_all (ps : pset) : list (N * prim) :=
  fold_left (fun d e => dict_set N.eqb (e_key_id e) (e_primitive e) d) (raw_primitives ps) [].

(** prf/_prf_set_wrapper.py:37-38 *)
Definition wrapped_prf_primary (ps : pset) : result prim :=
  e <- primary ps ;; Ok (e_primitive e).

(** prf/_prf_set_wrapper.py:41-45 *)
Definition validate_primitive_set (ps : pset) : result unit :=
  for_each (for_each (fun e =>
      if negb (e_output_prefix_type e =? RAW) then
        Err (TinkError "unsupported OutputPrefixType")
      else Ok tt)) (ps_all ps).

(** prf/_prf_set_wrapper.py:48-64 *)
Definition prf_set_wrapper : wrapper :=
  mk_wrapper 8 8 ClsPrfSet ClsPrf
    (fun ps =>
       _ <- validate_primitive_set ps ;;
       Ok (PrimPrfSet (wrapped_prf_primary_id ps) (wrapped_prf_all ps)
             (wrapped_prf_primary ps))).
