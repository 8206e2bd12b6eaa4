(** Common vocabulary of the model: Python bytes, str, exceptions, dicts.

    This file models Python itself (bytes, str, exceptions, [struct], dicts), not
    code of /repo; the definitions below say which use in /repo they serve. *)
From Coq Require Import List NArith ZArith Bool.
From Coq Require Import Strings.String Strings.Ascii Strings.Byte.
Import ListNotations.
Open Scope list_scope.

(** Python [bytes]: any list of the 256 byte values. *)
Definition bytes := list byte.

(** Python [str]: a list of code points. Lone surrogates (0xD800..0xDFFF) are
    allowed, as in Python. Code points above 0x10FFFF do not exist in Python;
    statements that care say so. *)
Definition pystr := list N.

(** ASCII literal to Python str. *)
Definition ulit (x : string) : pystr := map N_of_ascii (list_ascii_of_string x).

(** ASCII literal to Python bytes. *)
Definition blit (x : string) : bytes := list_byte_of_string x.

(** Python exceptions, by class. [TinkError] is core/_tink_error.py:40-41,
    [JwtInvalidError] is jwt/_jwt_error.py (a subclass of TinkError). The
    string is a short tag of the message, not its full text.
    [TinkErrorEmbedding] is a TinkError whose message text contains the printed
    form of the given data. [CcStatusNotOk] is tink_bindings.PythonTinkException,
    raised by the C++ bindings. [ClientError] is botocore.exceptions.ClientError,
    [GoogleAPIError] is google.api_core.exceptions.GoogleAPIError. *)
Inductive exn :=
| TinkError (msg : string)
| TinkErrorEmbedding (msg : string) (data : list bytes)
| JwtInvalidError (msg : string)
| CcStatusNotOk (msg : string)
| CcStreamFinished
| ValueError (msg : string)
| TypeError (msg : string)
| KeyError
| AttributeError
| StructError
| OverflowError
| UnicodeError
| DecodeError
| ParseError
| JSONDecodeError
| EOFError
| BlockingIOError (characters_written : Z)
| UnsupportedOperation
| ClientError
| GoogleAPIError
| NotImplementedError
| OtherError (n : N).

(** isinstance(e, TinkError) *)
Definition is_tink_error (e : exn) : bool :=
  match e with
  | TinkError _ | TinkErrorEmbedding _ _ | JwtInvalidError _ => true
  | _ => false
  end.

(** isinstance(e, JwtInvalidError) *)
Definition is_jwt_invalid_error (e : exn) : bool :=
  match e with JwtInvalidError _ => true | _ => false end.

(** Outcome of a Python call. *)
Inductive result (A : Type) :=
| Ok (a : A)
| Err (e : exn).
Arguments Ok {A} _.
Arguments Err {A} _.

Definition bind {A B} (r : result A) (f : A -> result B) : result B :=
  match r with Ok a => f a | Err e => Err e end.

Notation "x <- e ;; k" := (bind e (fun x => k))
  (at level 61, e at next level, right associativity).
Notation "' p <- e ;; k" := (bind e (fun x => match x with p => k end))
  (at level 61, p pattern, e at next level, right associativity).

(** [for x in l: body(x)] where the body may raise. *)
Fixpoint for_each {A} (f : A -> result unit) (l : list A) : result unit :=
  match l with
  | [] => Ok tt
  | x :: r => _ <- f x ;; for_each f r
  end.

(** [[f(x) for x in l]] where [f] may raise. *)
Fixpoint map_result {A B} (f : A -> result B) (l : list A) : result (list B) :=
  match l with
  | [] => Ok []
  | x :: r => y <- f x ;; ys <- map_result f r ;; Ok (y :: ys)
  end.

(** Equality tests. *)
Fixpoint list_eqb {A} (eqb : A -> A -> bool) (x y : list A) : bool :=
  match x, y with
  | [], [] => true
  | a :: x', c :: y' => eqb a c && list_eqb eqb x' y'
  | _, _ => false
  end.
Definition bytes_eqb : bytes -> bytes -> bool := list_eqb Byte.eqb.
Definition str_eqb : pystr -> pystr -> bool := list_eqb N.eqb.
Definition option_eqb {A} (eqb : A -> A -> bool) (x y : option A) : bool :=
  match x, y with
  | None, None => true
  | Some a, Some c => eqb a c
  | _, _ => false
  end.

(** Byte conversions. *)
Definition byte_of_N (n : N) : byte :=
  match Byte.of_N (n mod 256) with Some c => c | None => x00 end.

(** [int.from_bytes(x, 'big')] *)
Definition be_N (x : bytes) : N :=
  fold_left (fun acc c => (acc * 256 + Byte.to_N c)%N) x 0%N.

(** The four bytes of [struct.pack('>L', n)] for n < 2^32. *)
Definition be32 (n : N) : bytes :=
  [byte_of_N (n / 16777216); byte_of_N (n / 65536); byte_of_N (n / 256); byte_of_N n].

(** [struct.pack('>L', n)]: struct.error outside the unsigned 32-bit range. *)
Definition pack_be32 (n : N) : result bytes :=
  if (n <? 4294967296)%N then Ok (be32 n) else Err StructError.

(** Python dicts with insertion order, as association lists without repeated
    keys. [dict_set] is [d[k] = v]. *)
Fixpoint dict_get {K V} (eqb : K -> K -> bool) (k : K) (d : list (K * V)) : option V :=
  match d with
  | [] => None
  | (k', v) :: r => if eqb k k' then Some v else dict_get eqb k r
  end.
Fixpoint dict_set {K V} (eqb : K -> K -> bool) (k : K) (v : V) (d : list (K * V))
  : list (K * V) :=
  match d with
  | [] => [(k, v)]
  | (k', v') :: r => if eqb k k' then (k', v) :: r else (k', v') :: dict_set eqb k v r
  end.

(** [n in {..}] *)
Definition mem_N (n : N) (l : list N) : bool := existsb (N.eqb n) l.

(** core/_tink_error.py:29-37 [use_tink_errors]: PythonTinkException raised by
    the bindings becomes TinkError. (The tuple of known types can be extended at
    run time by register_status_not_ok_type, lines 22-26; only its initial value
    is modelled.) *)
Definition use_tink_errors {A} (r : result A) : result A :=
  match r with
  | Err (CcStatusNotOk m) => Err (TinkError m)
  | _ => r
  end.
