(** The streams that StreamingAead gives to the user.

    streaming_aead/_streaming_aead_wrapper.py:148,154 puts io.BufferedWriter and
    io.BufferedReader around the raw streams. Those two classes belong to CPython
    (Modules/_io/bufferedio.c); they are modelled here because the user never sees the
    raw streams. Not modelled: locks, signals, seek and tell (the raw streams are not
    seekable), finalizers. *)
From Coq Require Import Strings.Byte Strings.String List NArith ZArith Bool.
From Verif Require Import M_Base M_StreamTypes M_Prims M_Stream.
Import ListNotations.
Open Scope string_scope.
Open Scope list_scope.
Open Scope Z_scope.

Definition zlen (b : bytes) : Z := Z.of_nat (length b).
(** The first [n] bytes. *)
Definition ztake (n : Z) (b : bytes) : bytes := if zlen b <=? n then b else firstn (Z.to_nat n) b.
Definition zdrop (n : Z) (b : bytes) : bytes := if zlen b <=? n then [] else skipn (Z.to_nat n) b.

(** io.DEFAULT_BUFFER_SIZE *)
Definition default_buffer_size : Z := 8192.

(** ** io.BufferedWriter over a raw encrypting stream *)
Section Writer.
  (** buffer_size; loops are followed for [n] passes. *)
  Variable size : Z.
  Variable n : nat.
  Variable e : raw_enc_stream.

  (** [bw_start] is write_pos and [bw_pending] is buffer[write_pos:write_end]; write_end
      is where the next write starts. [bw_raw_closed] is raw.closed: raw.close() has
      returned. [bw_freed]: close() was called, and the buffer is gone. *)
  Record buffered_writer := mk_buffered_writer {
    bw_raw : res_state e;
    bw_start : Z;
    bw_pending : bytes;
    bw_raw_closed : bool;
    bw_freed : bool }.
  Definition bw_new : buffered_writer := mk_buffered_writer (res_init e) 0 [] false false.
  (** IS_CLOSED *)
  Definition bw_closed (w : buffered_writer) : bool := bw_freed w || bw_raw_closed w.

  (** _bufferedwriter_raw_write *)
  Definition bw_raw_write (s : res_state e) (b : bytes) : wio (result Z * res_state e) :=
    wio_bind (res_write e s b) (fun x =>
      WRet (match fst x with
            | Ok k => if (k <? 0) || (zlen b <? k) then Err (OtherError 2) else Ok k
            | Err y => Err y
            end, snd x)).
  (** _bufferedwriter_flush_unlocked: the loop. *)
  Fixpoint bw_flush_loop (fuel : nat) (s : res_state e) (start : Z) (pending : bytes)
    : wio (result unit * (res_state e * Z * bytes)) :=
    match pending with
    | [] => WRet (Ok tt, (s, 0, []))
    | _ :: _ =>
        match fuel with
        | O => WNever
        | S f =>
            wio_bind (bw_raw_write s pending) (fun x =>
              match fst x with
              | Ok k => bw_flush_loop f (snd x) (start + k) (zdrop k pending)
              | Err y => WRet (Err y, (snd x, start, pending))
              end)
        end
    end.
  Definition bw_flush_unlocked (w : buffered_writer) : wio (result unit * buffered_writer) :=
    wio_bind (bw_flush_loop n (bw_raw w) (bw_start w) (bw_pending w)) (fun x =>
      let '(s, start, pending) := snd x in
      WRet (fst x, mk_buffered_writer s start pending (bw_raw_closed w) (bw_freed w))).
  (** The loop of write: what does not fit into the buffer goes to the raw stream. *)
  Fixpoint bw_write_loop (fuel : nat) (s : res_state e) (rest : bytes)
    : wio (result bytes * res_state e) :=
    if zlen rest <=? size then WRet (Ok rest, s)
    else
      match fuel with
      | O => WNever
      | S f =>
          wio_bind (bw_raw_write s rest) (fun x =>
            match fst x with
            | Ok k => bw_write_loop f (snd x) (zdrop k rest)
            | Err y => WRet (Err y, snd x)
            end)
      end.
  (** _io_BufferedWriter_write_impl. The raw encrypting stream never returns None and never
      raises BlockingIOError (M_CcStream), so the branches for these are left out. *)
  Definition bw_write (w : buffered_writer) (b : bytes) : wio (result Z * buffered_writer) :=
    if bw_closed w then WRet (Err (ValueError "write to closed file"), w)
    else if zlen b <=? size - (bw_start w + zlen (bw_pending w)) then
      WRet (Ok (zlen b), mk_buffered_writer (bw_raw w) (bw_start w) (bw_pending w ++ b)
                           (bw_raw_closed w) (bw_freed w))
    else
      wio_bind (bw_flush_unlocked w) (fun x =>
        match fst x with
        | Err y => WRet (Err y, snd x)
        | Ok _ =>
            wio_bind (bw_write_loop n (bw_raw (snd x)) b) (fun y =>
              match fst y with
              | Err z => WRet (Err z, mk_buffered_writer (snd y) 0 [] (bw_raw_closed w) (bw_freed w))
              | Ok rest => WRet (Ok (zlen b), mk_buffered_writer (snd y) 0 rest (bw_raw_closed w) (bw_freed w))
              end)
        end).
  (** buffered_flush *)
  Definition bw_flush (w : buffered_writer) : wio (result unit * buffered_writer) :=
    if bw_closed w then WRet (Err (ValueError "flush of closed file"), w) else bw_flush_unlocked w.
  (** buffered_close: raw.close() is called even if flush() raises. If both raise, the
      exception of raw.close() is the one that is raised. *)
  Definition bw_close (w : buffered_writer) : wio (result unit * buffered_writer) :=
    if bw_raw_closed w then WRet (Ok tt, w)
    else
      wio_bind (bw_flush w) (fun x =>
        wio_bind (res_close e (bw_raw (snd x))) (fun y =>
          let closed := match fst y with Ok _ => true | Err _ => false end in
          WRet (match fst y with Err z => Err z | Ok _ => fst x end,
                mk_buffered_writer (snd y) (bw_start (snd x)) (bw_pending (snd x)) closed true))).
End Writer.
Arguments bw_raw {e}. Arguments bw_start {e}. Arguments bw_pending {e}. Arguments bw_raw_closed {e}.
Arguments bw_freed {e}. Arguments bw_closed {e}. Arguments mk_buffered_writer {e}.

(** ** io.BufferedReader over a raw stream *)

(** The line end of [d], if it is among its first [limit] bytes (all of them if negative):
    the number of bytes up to it. *)
Fixpoint find_newline (d : bytes) : option Z :=
  match d with
  | [] => None
  | c :: rest =>
      if Byte.eqb c x0a then Some 1
      else match find_newline rest with Some i => Some (1 + i) | None => None end
  end.
(** Where a line ends: behind the line end or after [limit] bytes; None: not in [d]. *)
Definition line_end (limit : Z) (d : bytes) : option Z :=
  let n := if (0 <=? limit) && (limit <? zlen d) then limit else zlen d in
  match find_newline (ztake n d) with
  | Some i => Some i
  | None => if n =? limit then Some limit else None
  end.

Section Reader.
  (** buffer_size; loops are followed for [n] passes. *)
  Variable size : Z.
  Variable n : nat.
  (** The raw stream: read(k) and closed. *)
  Context {W : Type}.
  Variable rd : W -> Z -> option (read_result * W).
  Variable rd_closed : W -> bool.

  (** [br_buffer] is buffer[pos:read_end], the bytes read ahead. *)
  Record buffered_reader := mk_buffered_reader {
    br_raw : W;
    br_buffer : bytes }.

  (** _bufferedreader_raw_read calls raw.readinto(b) with len(b) = [k]; the raw streams
      read k bytes and assign them to a slice of b (_streaming_aead_wrapper.py:115-122),
      which raises ValueError if they are too many. *)
  Definition br_raw_read (w : W) (k : Z) : option (read_result * W) :=
    match rd w k with
    | Some (Ok (Some d), w') =>
        if k <? zlen d then Some (Err (ValueError "memoryview assignment"), w') else Some (Ok (Some d), w')
    | x => x
    end.
  (** What a read returns that has got [out] when no more data comes now. *)
  Definition nothing_now (out : bytes) : read_result := Ok (match out with [] => None | _ => Some out end).

  (** _bufferedreader_read_generic, first loop: whole blocks go to the result directly.
      [inl]: the read is finished. *)
  Fixpoint br_blocks (fuel : nat) (w : W) (out : bytes) (remaining : Z)
    : option ((read_result + (bytes * Z)) * W) :=
    match fuel with
    | O => None
    | S f =>
        let r := size * (remaining / size) in
        if r =? 0 then Some (inr (out, remaining), w)
        else
          match br_raw_read w r with
          | None => None
          | Some (Err e, w') => Some (inl (Err e), w')
          | Some (Ok None, w') => Some (inl (nothing_now out), w')
          | Some (Ok (Some []), w') => Some (inl (Ok (Some out)), w')
          | Some (Ok (Some d), w') => br_blocks f w' (out ++ d) (remaining - zlen d)
          end
    end.
  (** Second loop: the last block is read into the buffer, of which [filled] bytes are in
      use. *)
  Fixpoint br_last_block (fuel : nat) (w : W) (out : bytes) (remaining filled : Z)
    : option (read_result * buffered_reader) :=
    if (remaining <=? 0) || (size <=? filled) then Some (Ok (Some out), mk_buffered_reader w [])
    else
      match fuel with
      | O => None
      | S f =>
          match br_raw_read w (size - filled) with
          | None => None
          | Some (Err e, w') => Some (Err e, mk_buffered_reader w' [])
          | Some (Ok None, w') => Some (nothing_now out, mk_buffered_reader w' [])
          | Some (Ok (Some []), w') => Some (Ok (Some out), mk_buffered_reader w' [])
          | Some (Ok (Some d), w') =>
              if zlen d <? remaining then br_last_block f w' (out ++ d) (remaining - zlen d) (filled + zlen d)
              else Some (Ok (Some (out ++ ztake remaining d)), mk_buffered_reader w' (zdrop remaining d))
          end
      end.
  (** _bufferedreader_read_fast and _bufferedreader_read_generic *)
  Definition br_read_some (b : buffered_reader) (k : Z) : option (read_result * buffered_reader) :=
    if k <=? zlen (br_buffer b) then
      Some (Ok (Some (ztake k (br_buffer b))), mk_buffered_reader (br_raw b) (zdrop k (br_buffer b)))
    else
      match br_blocks n (br_raw b) (br_buffer b) (k - zlen (br_buffer b)) with
      | None => None
      | Some (inl x, w') => Some (x, mk_buffered_reader w' [])
      | Some (inr (out, remaining), w') => br_last_block n w' out remaining 0
      end.
  (** _bufferedreader_read_all *)
  Definition br_read_all (b : buffered_reader) : option (read_result * buffered_reader) :=
    match readall rd n [] (br_raw b) with
    | None => None
    | Some (Err e, w') => Some (Err e, mk_buffered_reader w' [])
    | Some (Ok x, w') =>
        Some (Ok (match br_buffer b, x with
                  | [], _ => x
                  | _, None => Some (br_buffer b)
                  | _, Some d => Some (br_buffer b ++ d)
                  end), mk_buffered_reader w' [])
    end.
  (** _io__Buffered_read_impl; None counts as -1. *)
  Definition br_read (b : buffered_reader) (k : Z) : option (read_result * buffered_reader) :=
    if k <? -1 then Some (Err (ValueError "read length must be non-negative or -1"), b)
    else if rd_closed (br_raw b) then Some (Err (ValueError "read of closed file"), b)
    else if k =? -1 then br_read_all b else br_read_some b k.
  (** _io__Buffered_read1_impl *)
  Definition br_read1 (b : buffered_reader) (k : Z) : option (read_result * buffered_reader) :=
    let k := if k <? 0 then size else k in
    if rd_closed (br_raw b) then Some (Err (ValueError "read of closed file"), b)
    else if k =? 0 then Some (Ok (Some []), b)
    else
      match br_buffer b with
      | _ :: _ => Some (Ok (Some (ztake k (br_buffer b))), mk_buffered_reader (br_raw b) (zdrop k (br_buffer b)))
      | [] =>
          match br_raw_read (br_raw b) k with
          | None => None
          | Some (Ok None, w') => Some (Ok (Some []), mk_buffered_reader w' [])
          | Some (x, w') => Some (x, mk_buffered_reader w' [])
          end
      end.
  (** _io__Buffered_peek_impl; the argument is ignored. *)
  Definition br_peek (b : buffered_reader) : option (read_result * buffered_reader) :=
    if rd_closed (br_raw b) then Some (Err (ValueError "peek of closed file"), b)
    else
      match br_buffer b with
      | _ :: _ => Some (Ok (Some (br_buffer b)), b)
      | [] =>
          match br_raw_read (br_raw b) size with
          | None => None
          | Some (Ok (Some d), w') => Some (Ok (Some d), mk_buffered_reader w' d)
          | Some (Ok None, w') => Some (Ok (Some []), mk_buffered_reader w' [])
          | Some (Err e, w') => Some (Err e, mk_buffered_reader w' [])
          end
      end.
  (** _buffered_readline: the loop; [out] are the chunks. *)
  Fixpoint br_line (fuel : nat) (w : W) (out : bytes) (limit : Z) : option (read_result * buffered_reader) :=
    match fuel with
    | O => None
    | S f =>
        match br_raw_read w size with
        | None => None
        | Some (Err e, w') => Some (Err e, mk_buffered_reader w' [])
        | Some (Ok None, w') | Some (Ok (Some []), w') => Some (Ok (Some out), mk_buffered_reader w' [])
        | Some (Ok (Some d), w') =>
            match line_end limit d with
            | Some i => Some (Ok (Some (out ++ ztake i d)), mk_buffered_reader w' (zdrop i d))
            | None => br_line f w' (out ++ d) (if 0 <=? limit then limit - zlen d else limit)
            end
        end
    end.
  (** _io__Buffered_readline_impl; None counts as -1. *)
  Definition br_readline (b : buffered_reader) (limit : Z) : option (read_result * buffered_reader) :=
    if rd_closed (br_raw b) then Some (Err (ValueError "readline of closed file"), b)
    else
      match line_end limit (br_buffer b) with
      | Some i => Some (Ok (Some (ztake i (br_buffer b))), mk_buffered_reader (br_raw b) (zdrop i (br_buffer b)))
      | None => br_line n (br_raw b) (br_buffer b)
                  (if 0 <=? limit then limit - zlen (br_buffer b) else limit)
      end.
  (** _buffered_readinto_generic for readinto(b): the loop. What is copied is the result;
      [filled] as above. *)
  Fixpoint br_into (fuel : nat) (w : W) (out : bytes) (remaining filled : Z)
    : option (read_result * buffered_reader) :=
    if remaining <=? 0 then Some (Ok (Some out), mk_buffered_reader w [])
    else
      match fuel with
      | O => None
      | S f =>
          match br_raw_read w (if size <? remaining then remaining else size - filled) with
          | None => None
          | Some (Err e, w') => Some (Err e, mk_buffered_reader w' [])
          | Some (Ok None, w') => Some (nothing_now out, mk_buffered_reader w' [])
          | Some (Ok (Some []), w') => Some (Ok (Some out), mk_buffered_reader w' [])
          | Some (Ok (Some d), w') =>
              if size <? remaining then br_into f w' (out ++ d) (remaining - zlen d) filled
              else if zlen d <? remaining then br_into f w' (out ++ d) (remaining - zlen d) (filled + zlen d)
              else Some (Ok (Some (out ++ ztake remaining d)), mk_buffered_reader w' (zdrop remaining d))
          end
      end.
  Definition br_readinto (b : buffered_reader) (k : Z) : option (read_result * buffered_reader) :=
    if rd_closed (br_raw b) then Some (Err (ValueError "readinto of closed file"), b)
    else if (0 <? zlen (br_buffer b)) && (k <=? zlen (br_buffer b)) then
      Some (Ok (Some (ztake k (br_buffer b))), mk_buffered_reader (br_raw b) (zdrop k (br_buffer b)))
    else br_into n (br_raw b) (br_buffer b) (k - zlen (br_buffer b)) 0.
End Reader.
Arguments buffered_reader : clear implicits. Arguments mk_buffered_reader {W}. Arguments br_raw {W}. Arguments br_buffer {W}.

(** The calls of a reader. *)
Inductive reader_call :=
| RcRead (k : Z)
| RcRead1 (k : Z)
| RcPeek
| RcReadline (limit : Z)
| RcReadinto (k : nat).
Definition br_call {W} (size : Z) (n : nat) (rd : W -> Z -> option (read_result * W)) (rd_closed : W -> bool)
    (c : reader_call) (b : buffered_reader W) : option (read_result * buffered_reader W) :=
  match c with
  | RcRead k => br_read size n rd rd_closed b k
  | RcRead1 k => br_read1 size rd rd_closed b k
  | RcPeek => br_peek size rd rd_closed b
  | RcReadline limit => br_readline size n rd rd_closed b limit
  | RcReadinto k => br_readinto size n rd rd_closed b (Z.of_nat k)
  end.

(** _streaming_aead_wrapper.py:150-154 new_decrypting_stream *)
Definition open_decrypting_stream {S} (src : py_source S) (fuel : nat) (Q : prim) (s : S) (ad : bytes)
  : option (result (buffered_reader (dec_wrapper S))) :=
  match new_decrypting_stream src fuel Q s ad with
  | None => None
  | Some (Err e) => Some (Err e)
  | Some (Ok w) => Some (Ok (mk_buffered_reader w []))
  end.
(** The methods of the stream it returns. *)
Definition decrypting_call {S} (src : py_source S) (fuel : nat) (c : reader_call) (b : buffered_reader (dec_wrapper S))
  : option (read_result * buffered_reader (dec_wrapper S)) :=
  br_call default_buffer_size fuel (dec_wrapper_read src fuel) dw_closed c b.
(** buffered_close: flush() of a reader does nothing. *)
Definition decrypting_close {S} (src : py_source S) (b : buffered_reader (dec_wrapper S))
  : result unit * buffered_reader (dec_wrapper S) :=
  let (x, w') := dec_wrapper_close src (br_raw b) in (x, mk_buffered_reader w' []).
