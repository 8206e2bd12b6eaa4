(** Specification of the streams between Python and C++. *)
From Coq Require Import Strings.String List NArith ZArith Bool.
From Verif Require Import M_Base M_StreamTypes M_CcStream M_Stream S_Stream.
Import ListNotations.
Open Scope list_scope.
Open Scope Z_scope.

(** ** InputStream (C48, C51)

    The contract of tink/input_stream.h over a content [C]: [p] bytes have been
    consumed, and the last [w] of them can be backed up. *)
Inductive istate := Open (p w : nat) | Ended (s : cc_status).

(** [F]: errors are possible. *)
Inductive ideal_next (F : Prop) (C : bytes) : istate -> st_or bytes -> istate -> Prop :=
| IN_data : forall p w d, firstn (length d) (skipn p C) = d ->
    ideal_next F C (Open p w) (StOk d) (Open (p + length d) (length d))
| IN_end : forall p w, p = length C -> ideal_next F C (Open p w) (StErr OutOfRange) (Ended OutOfRange)
| IN_error : forall p w m, F -> ideal_next F C (Open p w) (StErr (NotOk m)) (Ended (NotOk m))
| IN_ended : forall s, ideal_next F C (Ended s) (StErr s) (Ended s).
Definition ideal_back_up (s : istate) (count : Z) : istate :=
  match s with
  | Open p w => let n := Nat.min (Z.to_nat count) w in Open (p - n) (w - n)
  | Ended e => Ended e
  end.
(** A program on such a stream. *)
Inductive ireads {A} (F : Prop) (C : bytes) : istate -> iio A -> A -> istate -> Prop :=
| IR_ret : forall s a, ireads F C s (IRet a) a s
| IR_next : forall s k r s' a s'', ideal_next F C s r s' -> ireads F C s' (k r) a s'' ->
    ireads F C s (INext k) a s''
| IR_back_up : forall s c k a s', ireads F C (ideal_back_up s c) k a s' ->
    ireads F C s (IBackUp c k) a s'.

(** The exceptions of the file object cannot be mistaken for the end of the file. *)
Definition eof_is_clear (what : exn -> string) (X : exn -> Prop) : Prop :=
  str_contains (what EOFError) "EOFError" = true /\
  forall e, X e -> (forall n, e <> BlockingIOError n) -> str_contains (what e) "EOFError" = false.
(** The file object raises exceptions other than BlockingIOError. *)
Definition raises (X : exn -> Prop) : Prop := exists e, X e /\ forall n, e <> BlockingIOError n.

(** Sequences of calls, and the bytes consumed. *)
Inductive in_op := Next | BackUp (count : Z).
Fixpoint client (ops : list in_op) : iio (list (st_or bytes)) :=
  match ops with
  | [] => IRet []
  | Next :: r => INext (fun x => iio_bind (client r) (fun l => IRet (x :: l)))
  | BackUp c :: r => IBackUp c (iio_bind (client r) (fun l => IRet (StOk [] :: l)))
  end.
Fixpoint consumed (acc : bytes) (w : nat) (h : list (in_op * st_or bytes)) : bytes :=
  match h with
  | [] => acc
  | (Next, StOk d) :: r => consumed (acc ++ d) (length d) r
  | (Next, StErr _) :: r => acc
  | (BackUp c, _) :: r =>
      let n := Nat.min (Z.to_nat c) w in consumed (firstn (length acc - n) acc) (w - n) r
  end.

(** A C++ decrypting stream turns an InputStream with content [C] into one with content
    [P]. *)
Definition stream_decrypts (F : Prop) (C P : bytes) (d : cc_dec_stream) (i : istate) : Prop :=
  exists J : cd_state d -> istate -> istate -> Prop, J (cd_init d) i (Open 0 0) /\
    (forall st i p r st' i', J st i p -> ireads F C i (cd_next d st) (r, st') i' ->
       exists p', ideal_next F P p r p' /\ J st' i' p') /\
    (forall st i p c st' i', J st i p -> ireads F C i (cd_back_up d st c) st' i' ->
       J st' i' (ideal_back_up p c)).
Definition cc_decrypts (F : Prop) (cc : cc_streaming_aead) (ad C P : bytes) : Prop :=
  forall r i, ireads F C (Open 0 0) (cc_new_decrypting_stream cc ad) r i ->
    exists d, r = StOk d /\ stream_decrypts F C P d i.
(** A C++ decrypting stream that gives no bytes and ends in an error. *)
Definition stream_refuses (F : Prop) (C : bytes) (d : cc_dec_stream) (i : istate) : Prop :=
  exists J : cd_state d -> istate -> Prop, J (cd_init d) i /\
    (forall st i r st' i', J st i -> ireads F C i (cd_next d st) (r, st') i' ->
       (r = StOk [] \/ exists m, r = StErr (NotOk m)) /\ J st' i').
Definition cc_refuses (F : Prop) (cc : cc_streaming_aead) (ad C : bytes) : Prop :=
  forall r i, ireads F C (Open 0 0) (cc_new_decrypting_stream cc ad) r i ->
    exists d, r = StOk d /\ stream_refuses F C d i.

(** ** OutputStream (C49, C50) *)

(** The legal outcomes of write(data) on a file: how much is taken is reported, except
    when an exception of [X] is raised. *)
Inductive file_write (X : exn -> Prop) (data : bytes) : write_result -> bytes -> Prop :=
| FW_some : forall k, 0 <= k <= Z.of_nat (length data) ->
    file_write X data (Ok (Some k)) (firstn (Z.to_nat k) data)
| FW_none : file_write X data (Ok None) []
| FW_blocking : forall k, 0 <= k <= Z.of_nat (length data) ->
    file_write X data (Err (BlockingIOError k)) (firstn (Z.to_nat k) data)
| FW_error : forall e j, X e -> (forall n, e <> BlockingIOError n) -> file_write X data (Err e) (firstn j data).
(** A program that writes to a file that has received [W]. *)
Inductive writes {A} (X : exn -> Prop) : bytes -> wio A -> A -> bytes -> Prop :=
| Writes_ret : forall W a, writes X W (WRet a) a W
| Writes_write : forall W data k r acc a W', file_write X data r acc -> writes X (W ++ acc) (k r) a W' ->
    writes X W (WWrite data k) a W'
| Writes_close : forall W k r a W', (forall e, r = Err e -> X e) -> writes X W (k r) a W' ->
    writes X W (WClose k) a W'.

(** The contract of tink/output_stream.h: [T] has been written, of which the part from
    [start] on was made available by the last Next and can be filled or backed up. After
    an error of Close, or a store outside of that part, nothing is specified. *)
Inductive ostate :=
| OOpen (T : bytes) (start : nat)
| OClosed (T : bytes)
| OFailed (T : bytes)
| OUnspecified.
Inductive ideal_onext (F : Prop) : ostate -> st_or nat -> ostate -> Prop :=
| ON_space : forall T s junk, ideal_onext F (OOpen T s) (StOk (length junk)) (OOpen (T ++ junk) (length T))
| ON_error : forall T s e, F -> ideal_onext F (OOpen T s) (StErr e) (OFailed T)
| ON_closed : forall T e, ideal_onext F (OClosed T) (StErr e) (OClosed T)
| ON_failed : forall T e, ideal_onext F (OFailed T) (StErr e) (OFailed T)
| ON_unspecified : forall r, ideal_onext F OUnspecified r OUnspecified.
Definition ideal_store (s : ostate) (i : nat) (data : bytes) : ostate :=
  match s with
  | OOpen T start =>
      let at_ := (start + i)%nat in
      if Nat.leb (at_ + length data) (length T)
      then OOpen (firstn at_ T ++ data ++ skipn (at_ + length data) T) start
      else OUnspecified
  | _ => s
  end.
Definition ideal_oback_up (s : ostate) (count : Z) : ostate :=
  match s with
  | OOpen T start => OOpen (firstn (length T - Nat.min (Z.to_nat count) (length T - start)) T) start
  | _ => s
  end.
Inductive ideal_close (F : Prop) : ostate -> st_or unit -> ostate -> Prop :=
| OC_ok : forall T s, ideal_close F (OOpen T s) (StOk tt) (OClosed T)
| OC_error : forall T s e o, F -> o = OUnspecified \/ o = OFailed T -> ideal_close F (OOpen T s) (StErr e) o
| OC_closed : forall T e, ideal_close F (OClosed T) (StErr e) (OClosed T)
| OC_failed : forall T e, ideal_close F (OFailed T) (StErr e) (OFailed T)
| OC_unspecified : forall r, ideal_close F OUnspecified r OUnspecified.
Inductive owrites {A} (F : Prop) : ostate -> oio A -> A -> ostate -> Prop :=
| OW_ret : forall s a, owrites F s (ORet a) a s
| OW_next : forall s k r s' a s'', ideal_onext F s r s' -> owrites F s' (k r) a s'' -> owrites F s (ONext k) a s''
| OW_store : forall s i d k a s', owrites F (ideal_store s i d) k a s' -> owrites F s (OStore i d k) a s'
| OW_back_up : forall s c k a s', owrites F (ideal_oback_up s c) k a s' -> owrites F s (OBackUp c k) a s'
| OW_close : forall s k r s' a s'', ideal_close F s r s' -> owrites F s' (k r) a s'' -> owrites F s (OClose k) a s''.

(** What the file has received when the OutputStream is in a state. *)
Definition received (W : bytes) (o : ostate) : Prop :=
  match o with
  | OOpen T _ | OFailed T => exists rest, W ++ rest = T
  | OClosed T => W = T
  | OUnspecified => True
  end.

(** A C++ encrypting stream turns an OutputStream for the ciphertext into one for the
    plaintext. [enc P C]: [C] is an encryption of [P]. It can fail if the stream for the
    ciphertext fails, and when more than [cap] bytes have been written. *)
Definition size_of (p : ostate) : nat :=
  match p with
  | OOpen T _ => length T
  | _ => 0%nat
  end.
Definition stream_encrypts (F : Prop) (cap : nat) (enc : bytes -> bytes -> Prop) (e : cc_enc_stream) (o : ostate) : Prop :=
  exists J : ce_state e -> ostate -> ostate -> Prop, J (ce_init e) o (OOpen [] 0) /\
    (forall st o p r st' o', J st o p -> owrites F o (ce_next e st) (r, st') o' ->
       exists p', ideal_onext (F \/ (cap < size_of p)%nat) p r p' /\ J st' o' p') /\
    (forall st o p i d st' o', J st o p -> owrites F o (ce_store e st i d) st' o' -> J st' o' (ideal_store p i d)) /\
    (forall st o p c st' o', J st o p -> owrites F o (ce_back_up e st c) st' o' -> J st' o' (ideal_oback_up p c)) /\
    (forall st o p r st' o', J st o p -> owrites F o (ce_close e st) (r, st') o' ->
       exists p', ideal_close (F \/ (cap < size_of p)%nat) p r p' /\ J st' o' p') /\
    (forall st o P, J st o (OClosed P) -> exists C, o = OClosed C /\ enc P C).
Definition cc_encrypts (F : Prop) (cap : nat) (enc : bytes -> bytes -> Prop) (cc : cc_streaming_aead) (ad : bytes) : Prop :=
  forall r o, owrites F (OOpen [] 0) (cc_new_encrypting_stream cc ad) r o ->
    match r with
    | StOk e => stream_encrypts F cap enc e o
    | StErr _ => F
    end.

(** Writes of a raw encrypting stream in sequence, then close; all of them succeed. *)
Inductive encrypting_run (X : exn -> Prop) (e : raw_enc_stream) : res_state e -> bytes -> list bytes -> bytes -> Prop :=
| ER_close : forall s W s' W', writes X W (res_close e s) (Ok tt, s') W' -> encrypting_run X e s W [] W'
| ER_write : forall s W b n s' W' bs W'', writes X W (res_write e s b) (Ok n, s') W' ->
    encrypting_run X e s' W' bs W'' -> encrypting_run X e s W (b :: bs) W''.

(** The file object can raise an exception. *)
Definition can_raise (X : exn -> Prop) : Prop := exists e, X e.
(** Reasons for encryption of [T] to fail: the file object, or a plaintext that is too
    long. *)
Definition can_fail (X : exn -> Prop) (cap : nat) (T : bytes) : Prop := can_raise X \/ (cap < length T)%nat.

(** A C++ encrypting stream that writes the plaintext itself. *)
Definition pass_through : cc_enc_stream :=
  mk_cc_enc_stream unit tt (fun _ => ONext (fun r => ORet (r, tt))) (fun _ i d => OStore i d (ORet tt))
    (fun _ c => OBackUp c (ORet tt)) (fun _ => OClose (fun r => ORet (r, tt))).

(** Writes in sequence, with their results. *)
Inductive enc_history (X : exn -> Prop) (e : raw_enc_stream) : res_state e -> bytes -> list (bytes * result Z) -> res_state e -> bytes -> Prop :=
| EH_nil : forall s W, enc_history X e s W [] s W
| EH_write : forall s W b r s' W' h s'' W'', writes X W (res_write e s b) (r, s') W' ->
    enc_history X e s' W' h s'' W'' -> enc_history X e s W ((b, r) :: h) s'' W''.
