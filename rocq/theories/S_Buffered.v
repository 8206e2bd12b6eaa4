(** Specification of the streams that the user gets. *)
From Coq Require Import Strings.Byte Strings.String List NArith ZArith Bool.
From Verif Require Import M_Base M_StreamTypes M_CcStream M_Stream M_Buffered S_Stream S_CcStream.
Import ListNotations.
Open Scope list_scope.
Open Scope Z_scope.

(** ** Writing (C68) *)

(** Calls of the stream that new_encrypting_stream returns, before close(); flush()
    returns None. *)
Inductive writer_call := WcWrite (b : bytes) | WcFlush.
Definition writer_answer := result (option Z).

(** Calls in sequence and what they return, while the file grows from [W] to [W']. *)
Inductive writer_history (X : exn -> Prop) (size : Z) (n : nat) (e : raw_enc_stream)
  : buffered_writer e -> bytes -> list (writer_call * writer_answer) -> buffered_writer e -> bytes -> Prop :=
| BH_nil : forall w W, writer_history X size n e w W [] w W
| BH_write : forall w W b r w' W' h w'' W'', writes X W (bw_write size n e w b) (r, w') W' ->
    writer_history X size n e w' W' h w'' W'' ->
    writer_history X size n e w W
      ((WcWrite b, match r with Ok k => Ok (Some k) | Err x => Err x end) :: h) w'' W''
| BH_flush : forall w W r w' W' h w'' W'', writes X W (bw_flush n e w) (r, w') W' ->
    writer_history X size n e w' W' h w'' W'' ->
    writer_history X size n e w W
      ((WcFlush, match r with Ok _ => Ok None | Err x => Err x end) :: h) w'' W''.

(** All bytes given to write, in order. *)
Definition written (h : list (writer_call * writer_answer)) : bytes :=
  concat (map (fun x => match fst x with WcWrite b => b | WcFlush => [] end) h).
(** The call succeeded: write returned the number of the bytes it was given. *)
Definition succeeded (x : writer_call * writer_answer) : Prop :=
  match fst x with
  | WcWrite b => snd x = Ok (Some (Z.of_nat (length b)))
  | WcFlush => snd x = Ok None
  end.

(** ** Reading (C69) *)

(** What the calls of a binary file answer whose remaining content is [rest]: [d], a part
    of it. A file that is damaged further on cannot tell where its content ends: an answer
    that says so needs [Fin]. *)
Definition newline : byte := x0a.
Definition answers (Fin : Prop) (c : reader_call) (rest d : bytes) : Prop :=
  (exists more, rest = d ++ more) /\
  match c with
  | RcRead k =>
      if k <? 0 then d = rest /\ Fin
      else Z.of_nat (length d) <= k /\ (Z.of_nat (length d) < k -> d = rest /\ Fin)
  | RcReadinto k => (length d <= k)%nat /\ ((length d < k)%nat -> d = rest /\ Fin)
  | RcRead1 k => (0 <= k -> Z.of_nat (length d) <= k) /\ (d = [] -> k = 0 \/ rest = [] /\ Fin)
  | RcPeek => d = [] -> rest = [] /\ Fin
  | RcReadline limit =>
      (0 <= limit -> Z.of_nat (length d) <= limit) /\
      (forall a b, d = a ++ newline :: b -> b = []) /\
      ((exists a, d = a ++ [newline]) \/ Z.of_nat (length d) = limit \/ d = rest /\ Fin)
  end.
(** read(n) takes n >= -1. *)
Definition bad_argument (c : reader_call) : Prop :=
  match c with RcRead k => k < -1 | _ => False end.

(** Calls in sequence. *)
Inductive reader_history {W} (call : reader_call -> W -> option (read_result * W))
  : W -> list (reader_call * read_result) -> W -> Prop :=
| RdH_nil : forall b, reader_history call b [] b
| RdH_call : forall b c r b' h b'', call c b = Some (r, b') -> reader_history call b' h b'' ->
    reader_history call b ((c, r) :: h) b''.
(** The bytes read; peek does not take any. *)
Definition got (h : list (reader_call * read_result)) : bytes :=
  concat (map (fun x => match fst x with RcPeek => [] | _ => data_of (snd x) end) h).
(** A call has raised TinkError. *)
Definition failed (h : list (reader_call * read_result)) : Prop :=
  exists c e, In (c, Err e) h /\ is_tink_error e = true.

(** The answers of a stream with content [P], in every history: up to the first TinkError
    those of a file with this content; after that a call that asks for nothing, like
    read(0), may return, and all others raise. [F]: TinkErrors are possible. *)
Definition reads_as (F Fin : Prop) (P : bytes) (h : list (reader_call * read_result)) : Prop :=
  forall before c r after, h = before ++ (c, r) :: after ->
    match r with
    | Ok (Some d) =>
        (~ failed before -> exists rest, P = got before ++ rest /\ answers Fin c rest d) /\
        (failed before -> answers False c [] d)
    | Ok None => False
    | Err e => (F /\ is_tink_error e = true) \/ (bad_argument c /\ exists m, e = ValueError m)
    end.

(** A key gives the bytes [P] for the ciphertext [C]: whatever way the file is read, its
    stream returns the bytes of [P] in order and nothing after an error. It says that the
    plaintext ends only if [Fin], and there are errors only if [F]. *)
Definition gives (X : exn -> Prop) (F Fin : Prop) (k : raw_streaming_aead) (ad C P : bytes) : Prop :=
  creation_works X C ad k /\
  forall h size r, alone X C ad k (h ++ [(size, r)]) -> nonzero (h ++ [(size, r)]) ->
    match r with
    | Ok (Some d) =>
        (forall n e, ~ In (n, Err e) h) /\ (d = [] -> data h = P /\ Fin) /\
        (exists rest, P = data h ++ d ++ rest) /\ (0 <= size -> Z.of_nat (length d) <= size)
    | Ok None => False
    | Err e => F /\ is_tink_error e = true
    end.
(** A key turns down [C]: its stream answers every read with a TinkError. *)
Definition turns_down (X : exn -> Prop) (k : raw_streaming_aead) (ad C : bytes) : Prop :=
  creation_works X C ad k /\
  forall h size r, alone X C ad k (h ++ [(size, r)]) -> nonzero (h ++ [(size, r)]) -> tink_failure r.

(** A C++ decrypting stream for a ciphertext that may be damaged: the InputStream it offers
    gives the bytes of [P] in order. [Fin]: it may say that they are all, behind the last
    one; [E]: it may end in an error, anywhere. For a ciphertext that was cut off or altered
    [P] is the part that can be told, and [Fin] is false. *)
Inductive part_next (E Fin : Prop) (P : bytes) : istate -> st_or bytes -> istate -> Prop :=
| PN_data : forall p w d, firstn (length d) (skipn p P) = d ->
    part_next E Fin P (Open p w) (StOk d) (Open (p + length d) (length d))
| PN_end : forall p w, Fin -> p = length P -> part_next E Fin P (Open p w) (StErr OutOfRange) (Ended OutOfRange)
| PN_error : forall p w m, E -> part_next E Fin P (Open p w) (StErr (NotOk m)) (Ended (NotOk m))
| PN_ended : forall s, part_next E Fin P (Ended s) (StErr s) (Ended s).
(** [F]: reading the ciphertext may fail. *)
Definition stream_gives (F E Fin : Prop) (C P : bytes) (d : cc_dec_stream) (i : istate) : Prop :=
  exists J : cd_state d -> istate -> istate -> Prop, J (cd_init d) i (Open 0 0) /\
    (forall st i p r st' i', J st i p -> ireads F C i (cd_next d st) (r, st') i' ->
       exists p', part_next E Fin P p r p' /\ J st' i' p') /\
    (forall st i p c st' i', J st i p -> ireads F C i (cd_back_up d st c) st' i' ->
       J st' i' (ideal_back_up p c)).
Definition cc_gives (F E Fin : Prop) (cc : cc_streaming_aead) (ad C P : bytes) : Prop :=
  forall r i, ireads F C (Open 0 0) (cc_new_decrypting_stream cc ad) r i ->
    exists d, r = StOk d /\ stream_gives F E Fin C P d i.
