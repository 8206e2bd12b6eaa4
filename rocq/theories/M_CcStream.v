(** The streams between Python and C++:
    streaming_aead/_file_object_adapter.py, _decrypting_stream.py,
    _encrypting_stream.py, cc/python_input_stream.cc, cc/python_output_stream.cc,
    cc/input_stream_adapter.cc, cc/output_stream_adapter.cc,
    cc/cc_streaming_aead_wrappers.cc and their bindings in cc/pybind.

    The C++ encrypting and decrypting streams themselves belong to Tink's C++ library
    (/repo/cc). Here they are any programs ([iio], [oio] below) over the stream they are
    given; M_CcSegments models those of the library. *)
From Coq Require Import Strings.String List NArith ZArith Bool.
From Verif Require Import M_Base M_StreamTypes.
Import ListNotations.
Open Scope list_scope.

(** util::Status that is not OK. [OutOfRange] is the code of the end of a stream.
    [Undefined] stands for undefined behaviour of C++. *)
Inductive cc_status :=
| OutOfRange
| NotOk (msg : string)
| Undefined.
(** util::StatusOr *)
Inductive st_or (A : Type) :=
| StOk (a : A)
| StErr (s : cc_status).
Arguments StOk {A} _.
Arguments StErr {A} _.

(** ** _file_object_adapter.py *)

(** lines 45-69 read *)
Definition file_read_answer (size : Z) (r : read_result) : result bytes :=
  match r with
  | Ok None => Ok []
  | Ok (Some []) => if (0 <? size)%Z then Err EOFError else Ok []
  | Ok (Some d) => Ok d
  | Err (BlockingIOError _) => Ok []
  | Err e => Err e
  end.
Definition adapter_read (size : Z) : rio (result bytes) :=
  if (size <? 0)%Z then RRet (Err (ValueError "size must be non-negative"))
  else RRead size (fun r => RRet (file_read_answer size r)).
(** lines 34-40 write *)
Definition file_write_answer (r : write_result) : result Z :=
  match r with
  | Ok None => Ok 0%Z
  | Ok (Some n) => Ok n
  | Err (BlockingIOError n) => Ok n
  | Err e => Err e
  end.
Definition adapter_write (data : bytes) : wio (result Z) :=
  WWrite data (fun r => WRet (file_write_answer r)).

(** ** cc/pybind/python_file_object_adapter.cc *)

(** lines 41-93: an exception becomes a status UNKNOWN with the exception's text.
    [what] gives the text of an exception. *)
Definition trampoline {A} (what : exn -> string) (r : result A) : st_or A :=
  match r with Ok a => StOk a | Err e => StErr (NotOk (what e)) end.

(** absl::StrContains *)
Definition str_contains (m s : string) : bool :=
  match String.index 0 s m with Some _ => true | None => false end.

(** ** cc/python_input_stream.cc *)

(** The fields of PythonInputStream. *)
Record input_stream := mk_input_stream {
  is_buffer : bytes;
  is_count_in_buffer : nat;
  is_count_backedup : nat;
  is_position : Z;
  is_buffer_offset : nat;
  is_status : option cc_status }.

(** lines 44-54; [buffer] is the uninitialised buffer, 128 KB by default. *)
Definition new_input_stream (buffer : bytes) : input_stream := mk_input_stream buffer 0 0 0 0 None.

(** lines 37-40 *)
Definition is_eof (s : cc_status) : bool :=
  match s with NotOk m => str_contains m "EOFError" | _ => false end.

(** lines 68-88: the answer of the adapter, put into the buffer. *)
Definition input_next_new (s : input_stream) (r : st_or bytes) : st_or bytes * input_stream :=
  let fail st := (StErr st, mk_input_stream (is_buffer s) (is_count_in_buffer s) (is_count_backedup s)
                              (is_position s) (is_buffer_offset s) (Some st)) in
  match r with
  | StErr st =>
      if is_eof st then fail OutOfRange
      else match st with OutOfRange => fail (NotOk "") | _ => fail st end
  | StOk d =>
      let n := length d in
      let buffer := d ++ skipn n (is_buffer s) in
      (StOk (firstn n buffer), mk_input_stream buffer n 0 (is_position s + Z.of_nat n) 0 None)
  end.
(** lines 56-89 Next; it returns the bytes at the returned address. *)
Definition input_next (what : exn -> string) (s : input_stream) : rio (st_or bytes * input_stream) :=
  match is_status s with
  | Some st => RRet (StErr st, s)
  | None =>
      if Nat.ltb 0 (is_count_backedup s) then
        let offset := (is_buffer_offset s + (is_count_in_buffer s - is_count_backedup s))%nat in
        let count := is_count_backedup s in
        RRet (StOk (firstn count (skipn offset (is_buffer s))),
              mk_input_stream (is_buffer s) count 0 (is_position s + Z.of_nat count) offset None)
      else
        rio_bind (adapter_read (Z.of_nat (length (is_buffer s))))
          (fun r => RRet (input_next_new s (trampoline what r)))
  end.
(** lines 91-96 BackUp *)
Definition input_back_up (s : input_stream) (count : Z) : input_stream :=
  if (match is_status s with Some _ => true | None => false end || (count <? 1)%Z
      || Nat.eqb (is_count_backedup s) (is_count_in_buffer s))%bool then s
  else
    let actual := Nat.min (Z.to_nat count) (is_count_in_buffer s - is_count_backedup s) in
    mk_input_stream (is_buffer s) (is_count_in_buffer s) (is_count_backedup s + actual)
      (is_position s - Z.of_nat actual) (is_buffer_offset s) (is_status s).

(** A C++ program that uses an input stream: Next (which yields the bytes it makes
    available) and BackUp. [INever] is a loop that has not ended within the number of
    passes that are followed. *)
Inductive iio (A : Type) :=
| IRet (a : A)
| INext (k : st_or bytes -> iio A)
| IBackUp (count : Z) (k : iio A)
| INever.
Arguments IRet {A} _.
Arguments INext {A} _.
Arguments IBackUp {A} _ _.
Arguments INever {A}.
Fixpoint iio_bind {A B} (m : iio A) (f : A -> iio B) : iio B :=
  match m with
  | IRet a => f a
  | INext k => INext (fun r => iio_bind (k r) f)
  | IBackUp c k => IBackUp c (iio_bind k f)
  | INever => INever
  end.
(** It is run on a PythonInputStream. *)
Fixpoint run_iio {A} (what : exn -> string) (m : iio A) (s : input_stream) : rio (A * input_stream) :=
  match m with
  | IRet a => RRet (a, s)
  | INext k => rio_bind (input_next what s) (fun x => run_iio what (k (fst x)) (snd x))
  | IBackUp c k => run_iio what k (input_back_up s c)
  | INever => RNever
  end.

(** ** cc/input_stream_adapter.cc, _decrypting_stream.py *)

(** A C++ decrypting stream: an InputStream that reads its source with Next and
    BackUp. *)
Record cc_dec_stream := mk_cc_dec_stream {
  cd_state : Type;
  cd_init : cd_state;
  cd_next : cd_state -> iio (st_or bytes * cd_state);
  cd_back_up : cd_state -> Z -> iio cd_state }.

(** input_stream_adapter.cc:30-40 Read *)
Definition input_adapter_read (d : cc_dec_stream) (st : cd_state d) (size : Z)
  : iio (st_or bytes * cd_state d) :=
  iio_bind (cd_next d st) (fun x =>
    match fst x with
    | StErr e => IRet (StErr e, snd x)
    | StOk buffer =>
        let available := Z.of_nat (length buffer) in
        let read_count := if (size <? 0)%Z then available else Z.min available size in
        let out := StOk (firstn (Z.to_nat read_count) buffer) in
        if (read_count <? available)%Z
        then iio_bind (cd_back_up d (snd x) (available - read_count)) (fun st' => IRet (out, st'))
        else IRet (out, snd x)
    end).
(** cc/pybind/input_stream_adapter.cc:58-72 and _decrypting_stream.py:64-67.
    Simplification: the size fits into an int64_t (pybind raises TypeError if not). *)
Definition py_input_adapter_answer (r : st_or bytes) : result bytes :=
  use_tink_errors
    match r with
    | StOk d => Ok d
    | StErr OutOfRange => Err CcStreamFinished
    | StErr (NotOk m) => Err (CcStatusNotOk m)
    | StErr Undefined => Err (CcStatusNotOk "undefined")
    end.
(** A decrypting stream with the PythonInputStream it owns. *)
Definition dec_state (d : cc_dec_stream) : Type := (cd_state d * input_stream)%type.
Definition py_input_adapter_read (what : exn -> string) (d : cc_dec_stream) (s : dec_state d) (size : Z)
  : rio (result bytes * dec_state d) :=
  rio_bind (run_iio what (input_adapter_read d (fst s) size) (snd s)) (fun x =>
    RRet (py_input_adapter_answer (fst (fst x)), (snd (fst x), snd x))).

(** _decrypting_stream.py:90-102: read(size) with size >= 0. The loop of lines 97-100
    is followed for [patience] passes. *)
Fixpoint raw_read (what : exn -> string) (d : cc_dec_stream) (patience : nat) (size : Z) (s : dec_state d)
  : rio (read_result * dec_state d) :=
  match patience with
  | O => RNever
  | Datatypes.S n =>
      rio_bind (py_input_adapter_read what d s size) (fun x =>
        match fst x with
        | Ok [] => raw_read what d n size (snd x)
        | Ok b => RRet (Ok (Some b), snd x)
        | Err CcStreamFinished => RRet (Ok (Some []), snd x)
        | Err e => RRet (Err e, snd x)
        end)
  end.
(** io.RawIOBase.readall, as in M_Stream.readall. *)
Fixpoint raw_readall (what : exn -> string) (d : cc_dec_stream) (patience : nat) (n : nat) (acc : bytes) (s : dec_state d)
  : rio (read_result * dec_state d) :=
  match n with
  | O => RNever
  | Datatypes.S n' =>
      rio_bind (raw_read what d patience 8192 s) (fun x =>
        match fst x with
        | Err e => RRet (Err e, snd x)
        | Ok None => RRet (Ok (match acc with [] => None | _ => Some acc end), snd x)
        | Ok (Some []) => RRet (Ok (Some acc), snd x)
        | Ok (Some b) => raw_readall what d patience n' (acc ++ b) (snd x)
        end)
  end.
(** _decrypting_stream.py:69-102 read on a stream that is not closed; None counts as -1. *)
Definition raw_dec_read (what : exn -> string) (d : cc_dec_stream) (patience : nat) (s : dec_state d) (size : Z)
  : rio (read_result * dec_state d) :=
  if (size <? 0)%Z then raw_readall what d patience patience [] s else raw_read what d patience size s.

(** ** cc/python_output_stream.cc *)

(** The fields of PythonOutputStream. *)
Record output_stream := mk_output_stream {
  os_buffer : bytes;
  os_is_first_call : bool;
  os_position : Z;
  os_count_in_buffer : nat;
  os_buffer_offset : nat;
  os_status : option cc_status }.

(** lines 33-43; [buffer] is the uninitialised buffer, 128 KB by default. *)
Definition new_output_stream (buffer : bytes) : output_stream := mk_output_stream buffer true 0 0 0 None.

(** lines 71-85: the answer of the adapter to Write(buffer_). *)
Definition output_next_written (s : output_stream) (r : st_or Z) : st_or nat * output_stream :=
  let size := length (os_buffer s) in
  match r with
  | StErr st => (StErr st, mk_output_stream (os_buffer s) (os_is_first_call s) (os_position s)
                             (os_count_in_buffer s) (os_buffer_offset s) (Some st))
  | StOk w =>
      if ((w <? 0)%Z || (Z.of_nat size <? w)%Z)%bool then
        (StErr Undefined, mk_output_stream (os_buffer s) (os_is_first_call s) (os_position s)
                            (os_count_in_buffer s) (os_buffer_offset s) (Some Undefined))
      else
        let written := Z.to_nat w in
        let offset := (size - written)%nat in
        let buffer := skipn written (os_buffer s) ++ skipn offset (os_buffer s) in
        (StOk written, mk_output_stream buffer false (os_position s + w) size offset None)
  end.
(** lines 45-86 Next; it returns the size of the space made available. *)
Definition output_next (what : exn -> string) (s : output_stream) : wio (st_or nat * output_stream) :=
  let size := length (os_buffer s) in
  match os_status s with
  | Some st => WRet (StErr st, s)
  | None =>
      if os_is_first_call s then
        WRet (StOk size, mk_output_stream (os_buffer s) false (Z.of_nat size) size (os_buffer_offset s) None)
      else if Nat.ltb (os_count_in_buffer s) size then
        let n := (size - os_count_in_buffer s)%nat in
        WRet (StOk n, mk_output_stream (os_buffer s) false (os_position s + Z.of_nat n) size (os_count_in_buffer s) None)
      else
        wio_bind (adapter_write (os_buffer s)) (fun r => WRet (output_next_written s (trampoline what r)))
  end.
(** lines 88-93 BackUp *)
Definition output_back_up (s : output_stream) (count : Z) : output_stream :=
  if (match os_status s with Some _ => true | None => false end || (count <? 1)%Z
      || Nat.eqb (os_count_in_buffer s) 0)%bool then s
  else
    let actual := Nat.min (Z.to_nat count) (os_count_in_buffer s - os_buffer_offset s) in
    mk_output_stream (os_buffer s) (os_is_first_call s) (os_position s - Z.of_nat actual)
      (os_count_in_buffer s - actual) (os_buffer_offset s) (os_status s).
(** The caller's memcpy into the space: [data] at distance [i] from the address that
    Next returned. Outside of the space, backed up or not in the buffer, this is not
    followed any further. *)
Definition output_store (s : output_stream) (i : nat) (data : bytes) : output_stream :=
  let at_ := (os_buffer_offset s + i)%nat in
  if Nat.leb (at_ + length data) (os_count_in_buffer s) then
    mk_output_stream (firstn at_ (os_buffer s) ++ data ++ skipn (at_ + length data) (os_buffer s))
      (os_is_first_call s) (os_position s) (os_count_in_buffer s) (os_buffer_offset s) (os_status s)
  else mk_output_stream (os_buffer s) (os_is_first_call s) (os_position s) (os_count_in_buffer s)
         (os_buffer_offset s) (Some Undefined).

(** lines 101-107: the loop of Close, for [n] passes. *)
Fixpoint output_flush (what : exn -> string) (n : nat) (rest : bytes) : wio (st_or unit) :=
  match rest with
  | [] => WRet (StOk tt)
  | _ :: _ =>
      match n with
      | O => WNever
      | Datatypes.S n' =>
          wio_bind (adapter_write rest) (fun r =>
            match trampoline what r with
            | StErr st => WRet (StErr st)
            | StOk w => if (w <? 0)%Z then WRet (StErr Undefined)
                        else output_flush what n' (skipn (Z.to_nat w) rest)
            end)
      end
  end.
(** lines 97-114 Close. An error of a write is returned, but not kept in status_. *)
Definition output_close (what : exn -> string) (n : nat) (s : output_stream) : wio (st_or unit * output_stream) :=
  match os_status s with
  | Some st => WRet (StErr st, s)
  | None =>
      wio_bind (output_flush what n (firstn (os_count_in_buffer s) (os_buffer s))) (fun x =>
        match x with
        | StOk _ =>
            WClose (fun r =>
              let set st := mk_output_stream (os_buffer s) (os_is_first_call s) (os_position s)
                              (os_count_in_buffer s) (os_buffer_offset s) (Some st) in
              match trampoline what r with
              | StErr st => WRet (StErr st, set st)
              | StOk _ => WRet (StOk tt, set (NotOk "Stream closed"))
              end)
        | StErr st => WRet (StErr st, s)
        end)
  end.

(** A C++ program that uses an output stream; [ONever] as above. *)
Inductive oio (A : Type) :=
| ORet (a : A)
| ONext (k : st_or nat -> oio A)
| OStore (i : nat) (data : bytes) (k : oio A)
| OBackUp (count : Z) (k : oio A)
| OClose (k : st_or unit -> oio A)
| ONever.
Arguments ORet {A} _.
Arguments ONext {A} _.
Arguments OStore {A} _ _ _.
Arguments OBackUp {A} _ _.
Arguments OClose {A} _.
Arguments ONever {A}.
Fixpoint oio_bind {A B} (m : oio A) (f : A -> oio B) : oio B :=
  match m with
  | ORet a => f a
  | ONext k => ONext (fun r => oio_bind (k r) f)
  | OStore i d k => OStore i d (oio_bind k f)
  | OBackUp c k => OBackUp c (oio_bind k f)
  | OClose k => OClose (fun r => oio_bind (k r) f)
  | ONever => ONever
  end.
(** It is run on a PythonOutputStream. *)
Fixpoint run_oio {A} (what : exn -> string) (n : nat) (m : oio A) (s : output_stream) : wio (A * output_stream) :=
  match m with
  | ORet a => WRet (a, s)
  | ONext k => wio_bind (output_next what s) (fun x => run_oio what n (k (fst x)) (snd x))
  | OStore i d k => run_oio what n k (output_store s i d)
  | OBackUp c k => run_oio what n k (output_back_up s c)
  | OClose k => wio_bind (output_close what n s) (fun x => run_oio what n (k (fst x)) (snd x))
  | ONever => WNever
  end.

(** ** cc/output_stream_adapter.cc, _encrypting_stream.py *)

(** A C++ encrypting stream: an OutputStream that writes to its destination. *)
Record cc_enc_stream := mk_cc_enc_stream {
  ce_state : Type;
  ce_init : ce_state;
  ce_next : ce_state -> oio (st_or nat * ce_state);
  ce_store : ce_state -> nat -> bytes -> oio ce_state;
  ce_back_up : ce_state -> Z -> oio ce_state;
  ce_close : ce_state -> oio (st_or unit * ce_state) }.

(** output_stream_adapter.cc:28-42 Write, for [n] passes of the loop; [rest] is the data
    still to be written, [written] the number of bytes written. *)
Fixpoint output_adapter_write (e : cc_enc_stream) (n : nat) (st : ce_state e) (rest : bytes) (written : Z)
  : oio (st_or Z * ce_state e) :=
  match rest with
  | [] => ORet (StOk written, st)
  | _ :: _ =>
      match n with
      | O => ONever
      | Datatypes.S n' =>
          oio_bind (ce_next e st) (fun x =>
            match fst x with
            | StErr s => ORet (StErr s, snd x)
            | StOk available =>
                let write_count := Nat.min available (length rest) in
                oio_bind (ce_store e (snd x) 0 (firstn write_count rest)) (fun st2 =>
                  oio_bind (if Nat.ltb write_count available
                            then ce_back_up e st2 (Z.of_nat (available - write_count)) else ORet st2)
                    (fun st3 => output_adapter_write e n' st3 (skipn write_count rest) (written + Z.of_nat write_count)))
            end)
      end
  end.

Definition enc_state (e : cc_enc_stream) : Type := (ce_state e * output_stream)%type.
(** cc/pybind/output_stream_adapter.cc:36-52 and use_tink_errors *)
Definition py_output_answer {A} (r : st_or A) : result A :=
  use_tink_errors
    match r with
    | StOk a => Ok a
    | StErr OutOfRange => Err (CcStatusNotOk "out of range")
    | StErr (NotOk m) => Err (CcStatusNotOk m)
    | StErr Undefined => Err (CcStatusNotOk "undefined")
    end.
(** _encrypting_stream.py:76-97 write of bytes on a stream that is not closed. *)
Definition raw_enc_write (what : exn -> string) (n : nat) (e : cc_enc_stream) (s : enc_state e) (b : bytes)
  : wio (result Z * enc_state e) :=
  wio_bind (run_oio what n (output_adapter_write e n (fst s) b 0) (snd s)) (fun x =>
    WRet (match py_output_answer (fst (fst x)) with
          | Ok written =>
              if ((written <? 0)%Z || (Z.of_nat (length b) <? written)%Z)%bool
              then Err (TinkError "Incorrect number of bytes written") else Ok written
          | Err y => Err y
          end, (snd (fst x), snd x))).
(** _encrypting_stream.py:99-105 close; flush() of io.RawIOBase does nothing. The bool
    is the [closed] property. *)
Definition raw_enc_close (what : exn -> string) (n : nat) (e : cc_enc_stream) (s : bool * enc_state e)
  : wio (result unit * (bool * enc_state e)) :=
  if fst s then WRet (Ok tt, s)
  else
    wio_bind (run_oio what n (ce_close e (fst (snd s))) (snd (snd s))) (fun x =>
      WRet (match py_output_answer (fst (fst x)) with
            | Ok _ => (Ok tt, (true, (snd (fst x), snd x)))
            | Err y => (Err y, (false, (snd (fst x), snd x)))
            end)).

(** ** The primitive *)

(** StreamingAead of the C++ library. *)
Record cc_streaming_aead := mk_cc_streaming_aead {
  cc_new_encrypting_stream : bytes -> oio (st_or cc_enc_stream);
  cc_new_decrypting_stream : bytes -> iio (st_or cc_dec_stream) }.

(** _encrypting_stream.py:45-63 and cc_streaming_aead_wrappers.cc:27-44, on a writable
    destination. *)
Definition raw_encrypting_stream (what : exn -> string) (n : nat) (e : cc_enc_stream) (os : output_stream) : raw_enc_stream :=
  mk_raw_enc_stream (bool * enc_state e) (false, (ce_init e, os))
    (fun s b =>
       if fst s then WRet (Err (ValueError "write on closed file"), s)
       else wio_bind (raw_enc_write what n e (snd s) b) (fun x => WRet (fst x, (false, snd x))))
    (raw_enc_close what n e).
Definition new_raw_encrypting_stream (what : exn -> string) (buffer : bytes) (n : nat) (cc : cc_streaming_aead) (ad : bytes)
  : wio (result raw_enc_stream) :=
  wio_bind (run_oio what n (cc_new_encrypting_stream cc ad) (new_output_stream buffer)) (fun x =>
    WRet (match py_output_answer (fst x) with
          | Ok e => Ok (raw_encrypting_stream what n e (snd x))
          | Err y => Err y
          end)).
(** _decrypting_stream.py:33-62 and cc_streaming_aead_wrappers.cc:46-61, on a readable
    source. *)
Definition new_raw_decrypting_stream (what : exn -> string) (buffer : bytes) (n : nat) (cc : cc_streaming_aead) (ad : bytes)
  : rio (result raw_dec_stream) :=
  rio_bind (run_iio what (cc_new_decrypting_stream cc ad) (new_input_stream buffer)) (fun x =>
    RRet (match fst x with
          | StOk d => Ok (mk_raw_dec_stream (dec_state d) (cd_init d, snd x)
                            (fun s size => raw_dec_read what d n s size))
          | StErr OutOfRange => use_tink_errors (Err (CcStatusNotOk "out of range"))
          | StErr (NotOk m) => use_tink_errors (Err (CcStatusNotOk m))
          | StErr Undefined => use_tink_errors (Err (CcStatusNotOk "undefined"))
          end)).
(** _streaming_aead_key_manager.py:27-48 _StreamingAeadCcToPyWrapper *)
Definition streaming_aead_cc_to_py (what : exn -> string) (in_buffer out_buffer : bytes) (n : nat) (cc : cc_streaming_aead)
  : raw_streaming_aead :=
  mk_raw_streaming_aead (new_raw_encrypting_stream what out_buffer n cc) (new_raw_decrypting_stream what in_buffer n cc).
