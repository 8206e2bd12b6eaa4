(** Mutable Python objects that pass between the caller and the library: the lists and
    dicts of JWT claims (jwt/_raw_jwt.py) and the Keyset messages of keyset handles
    (_keyset_handle.py, cleartext_keyset_handle.py, _insecure_keyset_handle.py). The other
    files of the model treat them as values; here they have addresses, and the caller can
    change any object it has a reference to, at any time. *)
From Coq Require Import Strings.Byte Strings.String List NArith ZArith Bool Arith.
From Verif Require Import M_Base M_Proto M_Wire M_Prims M_PrimitiveSet M_Registry M_KeysetHandle
  M_JwtTypes M_Json M_RawJwt.
Import ListNotations.
Open Scope string_scope.
Open Scope list_scope.

(** A Python value: immutable, or a reference to an object. *)
Inductive pyval :=
| VNone
| VBool (b : bool)
| VInt (z : Z)
| VFloat (f : pyfloat)
| VStr (x : pystr)
| VRef (a : nat).
(** What an object is now. A Keyset message with all that hangs on it is one object. *)
Inductive object :=
| OList (l : list pyval)
| ODict (l : list (pystr * pyval))
| OKeyset (ks : keyset).
(** The object with address [a] is element [a]. *)
Definition heap := list object.

Definition put (h : heap) (o : object) : nat * heap := (length h, h ++ [o]).
Fixpoint update (h : heap) (a : nat) (o : object) : heap :=
  match h, a with
  | [], _ => []
  | _ :: r, O => o :: r
  | x :: r, S b => x :: update r b o
  end.

Fixpoint map_option {A B} (f : A -> option B) (l : list A) : option (list B) :=
  match l with
  | [] => Some []
  | a :: r =>
      match f a, map_option f r with
      | Some b, Some bs => Some (b :: bs)
      | _, _ => None
      end
  end.
(** The JSON value that the object shows, down to [limit] levels (the interpreter's
    recursion limit). None: deeper, or circular, or not JSON. *)
Fixpoint view (limit : nat) (h : heap) (v : pyval) : option json :=
  match v with
  | VNone => Some JNull
  | VBool b => Some (JBool b)
  | VInt z => Some (JInt z)
  | VFloat f => Some (JFloat f)
  | VStr x => Some (JStr x)
  | VRef a =>
      match limit, nth_error h a with
      | S n, Some (OList l) => option_map JList (map_option (view n h) l)
      | S n, Some (ODict l) =>
          option_map JDict (map_option (fun e => option_map (fun j => (fst e, j)) (view n h (snd e))) l)
      | _, _ => None
      end
  end.
(** The new objects that json.loads makes for a value. *)
Fixpoint store (h : heap) (j : json) : pyval * heap :=
  match j with
  | JNull => (VNone, h)
  | JBool b => (VBool b, h)
  | JInt z => (VInt z, h)
  | JFloat f => (VFloat f, h)
  | JStr x => (VStr x, h)
  | JList l =>
      let (vs, h1) :=
        (fix go (h : heap) (l : list json) : list pyval * heap :=
           match l with
           | [] => ([], h)
           | x :: r => let (v, h1) := store h x in let (vs, h2) := go h1 r in (v :: vs, h2)
           end) h l in
      let (a, h2) := put h1 (OList vs) in (VRef a, h2)
  | JDict l =>
      let (vs, h1) :=
        (fix go (h : heap) (l : list (pystr * json)) : list (pystr * pyval) * heap :=
           match l with
           | [] => ([], h)
           | (n, x) :: r =>
               let (v, h1) := store h x in let (vs, h2) := go h1 r in ((n, v) :: vs, h2)
           end) h l in
      let (a, h2) := put h1 (ODict vs) in (VRef a, h2)
  end.

(** copy.copy(v) *)
Definition shallow_copy (h : heap) (v : pyval) : pyval * heap :=
  match v with
  | VRef a =>
      match nth_error h a with
      | Some o => let (b, h') := put h o in (VRef b, h')
      | None => (v, h)
      end
  | _ => (v, h)
  end.
(** copy.deepcopy(v) of a JSON value whose parts are not shared. *)
Definition deep_copy (limit : nat) (h : heap) (v : pyval) : result pyval * heap :=
  match view limit h v with
  | Some j => let (v', h') := store h j in (Ok v', h')
  | None => (Err (OtherError 1), h)
  end.

(** ** jwt/_raw_jwt.py *)

(** [bool(v)] *)
Definition truthy_val (h : heap) (v : pyval) : bool :=
  match v with
  | VNone => false
  | VBool b => b
  | VInt z => truthy (JInt z)
  | VFloat f => truthy (JFloat f)
  | VStr x => truthy (JStr x)
  | VRef a =>
      match nth_error h a with Some (OList []) | Some (ODict []) => false | _ => true end
  end.
Definition truthy_arg (h : heap) (o : option pyval) : option pyval :=
  match o with Some v => if truthy_val h v then Some v else None | None => None end.

(** lines 76-79 *)
Definition check_string (p : list (pystr * pyval)) (name : string) : result unit :=
  match dict_get str_eqb (ulit name) p with
  | Some (VStr _) | None => Ok tt
  | Some _ => Err (JwtInvalidError "claim must be a String")
  end.
(** lines 81-88 *)
Definition check_timestamp (p : list (pystr * pyval)) (name : string) : result unit :=
  match dict_get str_eqb (ulit name) p with
  | None => Ok tt
  | Some v =>
      let number j := if (match gt_bound j MAX_TIMESTAMP_VALUE with Some b => b | None => false end ||
                          match lt_zero j with Some b => b | None => false end)%bool
                      then Err (JwtInvalidError "timestamp is out of range") else Ok tt in
      match v with
      | VInt z => number (JInt z)
      | VBool b => number (JBool b)
      | VFloat f => number (JFloat f)
      | _ => Err (JwtInvalidError "claim must be a Number")
      end
  end.
Definition is_str_val (v : pyval) : bool := match v with VStr _ => true | _ => false end.
(** lines 90-99 *)
Definition check_audience (h : heap) (p : list (pystr * pyval)) : result unit :=
  match dict_get str_eqb (ulit "aud") p with
  | None | Some (VStr _) => Ok tt
  | Some (VRef a) =>
      match nth_error h a with
      | Some (OList []) => Err (JwtInvalidError "audiences cannot be an empty list")
      | Some (OList l) =>
          if forallb is_str_val l then Ok tt
          else Err (JwtInvalidError "audiences must only contain strings")
      | _ => Err (JwtInvalidError "audiences cannot be an empty list")
      end
  | Some _ => Err (JwtInvalidError "audiences cannot be an empty list")
  end.

(** A RawJwt, or the one in a VerifiedJwt: the type header, a str, and the address of the
    dict. Simplification: the type header of a token that is verified can be another JSON
    value; it is kept as a value. *)
Record token_object := mk_token_object { to_type_header : option json; to_payload : nat }.

(** lines 61-74 __init__ *)
Definition init_token (h : heap) (type_header : option json) (payload : pyval) : result token_object :=
  match payload with
  | VRef a =>
      match nth_error h a with
      | Some (ODict p) =>
          _ <- check_string p "iss" ;;
          _ <- check_string p "sub" ;;
          _ <- check_string p "jti" ;;
          _ <- check_timestamp p "exp" ;;
          _ <- check_timestamp p "nbf" ;;
          _ <- check_timestamp p "iat" ;;
          _ <- check_audience h p ;;
          Ok (mk_token_object type_header a)
      | _ => Err (JwtInvalidError "payload must be a dict")
      end
  | _ => Err (JwtInvalidError "payload must be a dict")
  end.

(** The arguments of new_raw_jwt, as [raw_jwt_args] but with objects. Claims: a name and
    a value; [None] as value stands for an object of a type that is refused. *)
Record token_args := mk_token_args {
  t_type_header : option json;
  t_issuer : option pyval;
  t_subject : option pyval;
  t_audience : option pyval;
  t_audiences : option pyval;
  t_jwt_id : option pyval;
  t_expiration : option datetime;
  t_without_expiration : bool;
  t_not_before : option datetime;
  t_issued_at : option datetime;
  t_custom_claims : list (claim_name * option pyval) }.

Definition set_arg (name : string) (o : option pyval) (p : list (pystr * pyval)) :=
  match o with Some v => dict_set str_eqb (ulit name) v p | None => p end.
Definition set_date (name : string) (o : option datetime) (p : list (pystr * pyval))
  : result (list (pystr * pyval)) :=
  match o with
  | Some t => s <- from_datetime t ;; Ok (dict_set str_eqb (ulit name) (VInt s) p)
  | None => Ok p
  end.

Section Tokens.
  Variable rt : py_rt.
  Variable limit : nat.
  (** lines 208-221 *)
  Definition put_claim (h : heap) (p : list (pystr * pyval)) (c : claim_name * option pyval)
    : result (list (pystr * pyval)) * heap :=
    match fst c with
    | NameOther => (Err (JwtInvalidError "claim name must be Text"), h)
    | NameStr name =>
        match validate_custom_claim_name name with
        | Err e => (Err e, h)
        | Ok _ =>
            match snd c with
            | None => (Err (JwtInvalidError "claim has unknown type"), h)
            | Some (VRef a) =>
                match nth_error h a with
                | Some (OKeyset _) | None => (Err (JwtInvalidError "claim has unknown type"), h)
                | Some _ =>
                    match view limit h (VRef a) with
                    | None => (Err (OtherError 1), h) (* ValueError, TypeError or RecursionError *)
                    | Some j =>
                        match (t <- json_dumps_default rt j ;; json_loads_plain rt t) with
                        | Err e => (Err e, h)
                        | Ok j' => let (v, h') := store h j' in (Ok (dict_set str_eqb name v p), h')
                        end
                    end
                end
            | Some v => (Ok (dict_set str_eqb name v p), h)
            end
        end
    end.
  Fixpoint put_claims (h : heap) (p : list (pystr * pyval)) (l : list (claim_name * option pyval))
    : result (list (pystr * pyval)) * heap :=
    match l with
    | [] => (Ok p, h)
    | c :: r =>
        match put_claim h p c with
        | (Ok p', h') => put_claims h' p' r
        | (Err e, h') => (Err e, h')
        end
    end.
  (** lines 169-224, 234-258 *)
  Definition create_token (h : heap) (a : token_args) : result token_object * heap :=
    if negb (is_some (t_expiration a)) && negb (t_without_expiration a) then
      (Err (ValueError "either expiration or without_expiration must be set"), h)
    else if is_some (t_expiration a) && t_without_expiration a then
      (Err (ValueError "expiration and without_expiration cannot be set at the same time"), h)
    else if is_some (t_audience a) && is_some (t_audiences a) then
      (Err (JwtInvalidError "audience and audiences cannot be set at the same time"), h)
    else
      let p := set_arg "iss" (truthy_arg h (t_issuer a)) [] in
      let p := set_arg "sub" (truthy_arg h (t_subject a)) p in
      let p := set_arg "jti" (t_jwt_id a) p in
      let p := set_arg "aud" (t_audience a) p in
      let (p, h) :=
        match t_audiences a with
        | Some v => let (v', h') := shallow_copy h v in (dict_set str_eqb (ulit "aud") v' p, h')
        | None => (p, h)
        end in
      match (p <- set_date "exp" (t_expiration a) p ;;
             p <- set_date "nbf" (t_not_before a) p ;;
             set_date "iat" (t_issued_at a) p) with
      | Err e => (Err e, h)
      | Ok p =>
          match put_claims h p (t_custom_claims a) with
          | (Err e, h) => (Err e, h)
          | (Ok p, h) =>
              let (d, h) := put h (ODict p) in
              (init_token h (t_type_header a) (VRef d), h)
          end
      end.
  (** lines 226-231, 261-263 *)
  Definition token_from_json (h : heap) (type_header : option json) (payload : pystr)
    : result token_object * heap :=
    match json_loads rt payload with
    | Err e => (Err e, h)
    | Ok j => let (v, h') := store h j in (init_token h' type_header v, h')
    end.
  (** lines 124-128 *)
  Definition get_audiences (h : heap) (t : token_object) : result pyval * heap :=
    match nth_error h (to_payload t) with
    | Some (ODict p) =>
        match dict_get str_eqb (ulit "aud") p with
        | None => (Err KeyError, h)
        | Some (VStr x) => let (a, h') := put h (OList [VStr x]) in (Ok (VRef a), h')
        | Some (VRef a) =>
            match nth_error h a with
            | Some (OList l) => let (b, h') := put h (OList l) in (Ok (VRef b), h')
            | _ => (Err (TypeError "object is not iterable"), h)
            end
        | Some _ => (Err (TypeError "object is not iterable"), h)
        end
    | _ => (Err KeyError, h)
    end.
  (** lines 157-163 *)
  Definition get_custom_claim (h : heap) (t : token_object) (name : pystr) : result pyval * heap :=
    match validate_custom_claim_name name with
    | Err e => (Err e, h)
    | Ok _ =>
        match nth_error h (to_payload t) with
        | Some (ODict p) =>
            match dict_get str_eqb name p with
            | None => (Err KeyError, h)
            | Some (VRef a) => deep_copy limit h (VRef a)
            | Some v => (Ok v, h)
            end
        | _ => (Err KeyError, h)
        end
    end.
End Tokens.

(** ** The program of a caller *)

(** Where the Keyset message of a new handle comes from. *)
Inductive keyset_source :=
| ParsedKeyset (r : result keyset)   (* a BinaryKeysetReader or JsonKeysetReader *)
| OwnKeyset (a : nat).               (* a KeysetReader of the caller that returns this object *)

Inductive operation :=
(** The caller makes an object, or changes one that it has. *)
| MakeObject (o : object)
| ChangeObject (a : nat) (o : object)
(** The caller takes a reference out of an object that it has. *)
| TakeReference (a b : nat)
(** jwt *)
| NewRawJwt (args : token_args)
| VerifyJwt (type_header : option json) (payload : pystr)
| Audiences (t : nat)
| CustomClaim (t : nat) (name : pystr)
(** cleartext_keyset_handle.py:24-26 from_keyset, 29-32 read, 35-38 write (the writer is
    the caller's own one or one of the library) *)
| FromKeyset (a : nat)
| CleartextRead (s : keyset_source)
| CleartextWrite (h : nat) (own_writer : bool)
(** _insecure_keyset_handle.py:21-35 *)
| FromProtoKeyset (a : nat) (tok : token)
| ToProtoKeyset (h : nat) (tok : token)
(** _keyset_handle.py:73-94, 110-118 with the result of decryption, 120-135, 153-167,
    168-177 *)
| GenerateNew (reg : registry) (rnd : coins) (draws : list N) (t : key_template)
| ReadEncrypted (r : result keyset)
| ReadNoSecret (s : keyset_source)
| WriteNoSecret (h : nat) (own_writer : bool)
| PublicKeysetHandle (reg : registry) (h : nat).

(** The objects, the addresses the caller has, the tokens, and the handles (the
    addresses in [_keyset]), in the order of their creation. *)
Record objects := mk_objects {
  o_heap : heap;
  o_known : list nat;
  o_tokens : list token_object;
  o_handles : list nat }.
Definition no_objects : objects := mk_objects [] [] [] [].

Definition refs (o : object) : list nat :=
  let ref v := match v with VRef a => [a] | _ => [] end in
  match o with
  | OList l => concat (map ref l)
  | ODict l => concat (map (fun e => ref (snd e)) l)
  | OKeyset _ => []
  end.
Definition same_type (x y : object) : bool :=
  match x, y with OList _, OList _ | ODict _, ODict _ | OKeyset _, OKeyset _ => true | _, _ => false end.
Definition knows (s : objects) (a : nat) : bool := existsb (Nat.eqb a) (o_known s).
Definition knows_all (s : objects) (l : list nat) : bool := forallb (knows s) l.
Definition arg_refs (o : option pyval) : list nat := match o with Some (VRef a) => [a] | _ => [] end.
Definition args_refs (a : token_args) : list nat :=
  arg_refs (t_issuer a) ++ arg_refs (t_subject a) ++ arg_refs (t_audience a) ++ arg_refs (t_audiences a) ++
  arg_refs (t_jwt_id a) ++ concat (map (fun c => arg_refs (snd c)) (t_custom_claims a)).
Definition learn (v : pyval) (known : list nat) : list nat :=
  match v with VRef a => a :: known | _ => known end.

Definition with_token (s : objects) (x : result token_object * heap) : objects :=
  match x with
  | (Ok t, h) => mk_objects h (o_known s) (o_tokens s ++ [t]) (o_handles s)
  | (Err _, h) => mk_objects h (o_known s) (o_tokens s) (o_handles s)
  end.
Definition with_answer (s : objects) (x : result pyval * heap) : objects :=
  match x with
  | (Ok v, h) => mk_objects h (learn v (o_known s)) (o_tokens s) (o_handles s)
  | (Err _, h) => mk_objects h (o_known s) (o_tokens s) (o_handles s)
  end.
(** A handle for the object [a]. *)
Definition with_handle (s : objects) (a : nat) : objects :=
  mk_objects (o_heap s) (o_known s) (o_tokens s) (o_handles s ++ [a]).
(** A handle for a new object. *)
Definition with_new_handle (s : objects) (x : result keyset_handle) : objects :=
  match x with
  | Ok h => let (a, hp) := put (o_heap s) (OKeyset (kh_keyset h)) in
            mk_objects hp (o_known s) (o_tokens s) (o_handles s ++ [a])
  | Err _ => s
  end.
Definition with_known (s : objects) (a : nat) : objects :=
  mk_objects (o_heap s) (a :: o_known s) (o_tokens s) (o_handles s).
Definition keyset_at (s : objects) (a : nat) : option keyset :=
  match nth_error (o_heap s) a with Some (OKeyset ks) => Some ks | _ => None end.
Definition handle_at (s : objects) (i : nat) : option keyset :=
  match nth_error (o_handles s) i with Some a => keyset_at s a | None => None end.
(** A Keyset message [a] of the caller becomes a handle if [check] accepts it. *)
Definition adopt (s : objects) (a : nat) (check : keyset -> result keyset_handle) : objects :=
  if knows s a then
    match keyset_at s a with
    | Some ks => match check ks with Ok _ => with_handle s a | Err _ => s end
    | None => s
    end
  else s.
Definition open_source (s : objects) (src : keyset_source) (check : keyset -> result keyset_handle) : objects :=
  match src with
  | ParsedKeyset r => with_new_handle s (ks <- r ;; check ks)
  | OwnKeyset a => adopt s a check
  end.
(** The writer is given the Keyset message of the handle itself; the writers of the
    library do not keep it. *)
Definition give_to_writer (s : objects) (i : nat) (own_writer : bool) (check : keyset -> result unit) : objects :=
  match nth_error (o_handles s) i, handle_at s i with
  | Some a, Some ks =>
      match check ks with Ok _ => if own_writer then with_known s a else s | Err _ => s end
  | _, _ => s
  end.

Section Run.
  Variable rt : py_rt.
  Variable limit : nat.
  Definition operate (s : objects) (op : operation) : objects :=
    match op with
    | MakeObject o =>
        if knows_all s (refs o) then
          let (a, h) := put (o_heap s) o in mk_objects h (a :: o_known s) (o_tokens s) (o_handles s)
        else s
    | ChangeObject a o =>
        match nth_error (o_heap s) a with
        | Some x =>
            if knows s a && knows_all s (refs o) && same_type x o then
              mk_objects (update (o_heap s) a o) (o_known s) (o_tokens s) (o_handles s)
            else s
        | None => s
        end
    | TakeReference a b =>
        match nth_error (o_heap s) a with
        | Some o => if knows s a && existsb (Nat.eqb b) (refs o) then with_known s b else s
        | None => s
        end
    | NewRawJwt args =>
        if knows_all s (args_refs args) then with_token s (create_token rt limit (o_heap s) args) else s
    | VerifyJwt th payload => with_token s (token_from_json rt (o_heap s) th payload)
    | Audiences i =>
        match nth_error (o_tokens s) i with
        | Some t => with_answer s (get_audiences (o_heap s) t)
        | None => s
        end
    | CustomClaim i name =>
        match nth_error (o_tokens s) i with
        | Some t => with_answer s (get_custom_claim limit (o_heap s) t name)
        | None => s
        end
    | FromKeyset a => adopt s a cleartext_from_keyset
    | CleartextRead src => open_source s src create
    | CleartextWrite i own => give_to_writer s i own (fun _ => Ok tt)
    | FromProtoKeyset a tok => adopt s a (fun ks => from_proto_keyset ks tok)
    | ToProtoKeyset i tok =>
        match nth_error (o_handles s) i, handle_at s i with
        | Some a, Some ks =>
            match to_proto_keyset (mk_handle ks) tok with Ok _ => with_known s a | Err _ => s end
        | _, _ => s
        end
    | GenerateNew reg rnd draws t =>
        match generate_new reg rnd draws t with Some x => with_new_handle s x | None => s end
    | ReadEncrypted r => with_new_handle s (ks <- r ;; create ks)
    | ReadNoSecret src => open_source s src (fun ks => _ <- assert_no_secret_key_material ks ;; create ks)
    | WriteNoSecret i own => give_to_writer s i own assert_no_secret_key_material
    | PublicKeysetHandle reg i =>
        match handle_at s i with
        | Some ks => with_new_handle s (public_keyset_handle reg (mk_handle ks))
        | None => s
        end
    end.
  Definition operate_all (l : list operation) (s : objects) : objects := fold_left operate l s.
End Run.
