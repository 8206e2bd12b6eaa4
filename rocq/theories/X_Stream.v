(** A small concrete world of streams for the non-vacuity examples: a file object that
    answers in small pieces or not at all, and a streaming AEAD whose ciphertext is a
    header byte followed by the plaintext. Nothing here models code of /repo. *)
From Coq Require Import Strings.Byte Strings.String List NArith ZArith Bool.
From Verif Require Import M_Base M_Proto M_StreamTypes M_Prims M_PrimitiveSet M_Registry M_KeysetHandle M_Stream M_CcStream
  M_RawFile S_Stream S_CcStream S_RawFile X_Toy.
Import ListNotations.
Open Scope list_scope.

(** A file with content [C]; the state is the position and the number of calls. Every
    third read answers None, every seventh raises BlockingIOError, the others return at
    most two bytes. *)
Definition piece (size : Z) (rest : bytes) : bytes :=
  firstn (if (size <? 0)%Z then 2 else Nat.min 2 (Z.to_nat size)) rest.
Definition toy_read (C : bytes) (s : nat * nat) (size : Z) : read_result * (nat * nat) :=
  let (p, t) := s in
  if Nat.eqb (Nat.modulo t 3) 0 then (Ok None, (p, Datatypes.S t))
  else if Nat.eqb (Nat.modulo t 7) 1 then (Err (BlockingIOError 0), (p, Datatypes.S t))
  else let d := piece size (skipn p C) in (Ok (Some d), (p + length d, Datatypes.S t)%nat).
Definition toy_source (C : bytes) : py_source (nat * nat) :=
  mk_py_source (fun _ => true) (toy_read C) (fun s => (Ok tt, s)).

(** A destination; every third write takes nothing, the others at most two bytes. *)
Definition toy_accepts (t : nat) (data : bytes) : write_result * bytes :=
  if Nat.eqb (Nat.modulo t 3) 0 then (Ok None, [])
  else let d := firstn 2 data in (Ok (Some (Z.of_nat (length d))), d).
Fixpoint toy_run {A} (m : wio A) (t : nat) (W : bytes) : option (A * nat * bytes) :=
  match m with
  | WRet a => Some (a, t, W)
  | WWrite data k => let (r, d) := toy_accepts t data in toy_run (k r) (Datatypes.S t) (W ++ d)
  | WClose k => toy_run (k (Ok tt)) t W
  | WNever => None
  end.

Definition toy_what (e : exn) : string :=
  match e with EOFError => "EOFError: " | _ => "error" end.

(** The encrypting stream writes its header when it is made. *)
Fixpoint write_header (h : byte) (n : nat) : oio (st_or unit) :=
  match n with
  | O => ONever
  | Datatypes.S n' =>
      ONext (fun r => match r with
                      | StErr s => ORet (StErr s)
                      | StOk O => write_header h n'
                      | StOk (Datatypes.S m) => OStore 0 [h] (OBackUp (Z.of_nat m) (ORet (StOk tt)))
                      end)
  end.
(** The state says whether Next has been called. *)
Definition toy_enc_stream : cc_enc_stream :=
  mk_cc_enc_stream bool false
    (fun _ => ONext (fun r => ORet (r, true)))
    (fun b i d => if b then OStore i d (ORet b) else ORet b)
    (fun b c => if b then OBackUp c (ORet b) else ORet b)
    (fun b => OClose (fun r => ORet (r, b))).
(** The decrypting stream: the header has not been seen; it was right, and so many bytes
    can be backed up; it was wrong, or there was an error. *)
Inductive toy_dec_state := Unchecked | Checked (w : nat) | Stopped (e : cc_status).
Definition toy_dec_stream (h : byte) : cc_dec_stream :=
  mk_cc_dec_stream toy_dec_state Unchecked
    (fun s => match s with
              | Unchecked => INext (fun r =>
                  match r with
                  | StOk [] => IRet (StOk [], Unchecked)
                  | StOk (b :: d) =>
                      if Byte.eqb b h then IRet (StOk d, Checked (length d))
                      else IRet (StErr (NotOk "wrong key"), Stopped (NotOk "wrong key"))
                  | StErr OutOfRange => IRet (StErr (NotOk "no header"), Stopped (NotOk "no header"))
                  | StErr e => IRet (StErr e, Stopped e)
                  end)
              | Checked _ => INext (fun r => IRet (r, match r with StOk d => Checked (length d) | StErr e => Stopped e end))
              | Stopped e => IRet (StErr e, Stopped e)
              end)
    (fun s c => match s with
                | Checked w => let n := Nat.min (Z.to_nat c) w in IBackUp (Z.of_nat n) (IRet (Checked (w - n)))
                | _ => IRet s
                end).
Definition toy_cc (h : byte) : cc_streaming_aead :=
  mk_cc_streaming_aead
    (fun ad => oio_bind (write_header h 10) (fun r =>
       ORet match r with StOk _ => StOk toy_enc_stream | StErr s => StErr s end))
    (fun ad => IRet (StOk (toy_dec_stream h))).
Definition toy_enc (h : byte) (P C : bytes) : Prop := C = h :: P.

(** With buffers of three bytes. *)
Definition toy_raw (h : byte) : raw_streaming_aead :=
  streaming_aead_cc_to_py toy_what [x00; x00; x00] [x00; x00; x00] 30 (toy_cc h).
(** The header is the last byte of the key. *)
Definition u_stream := ulit "toy.StreamingAead".
Definition km_stream := toy_km 9 u_stream ClsRawStreamingAead
  (fun v => PrimRawStreamingAead (toy_raw (last v x00))) SYMMETRIC None.
Definition stream_registry : registry :=
  registry_run toy_registry [OpRegisterKeyManager km_stream true; OpRegisterWrapper streaming_aead_wrapper].
Definition stream_handle : keyset_handle := toy_handle u_stream SYMMETRIC.
Definition stream_rotated : keyset_handle := toy_rotated u_stream SYMMETRIC.
Definition stream_key : key := toy_primary u_stream SYMMETRIC.

(** A file that raises an exception at the calls for which [bad] has one. *)
Definition bad_source (C : bytes) (bad : nat -> option exn) : py_source (nat * nat) :=
  mk_py_source (fun _ => true)
    (fun (s : nat * nat) (size : Z) => let (p, t) := s in
       match bad t with
       | Some e => (Err e, (p, Datatypes.S t))
       | None => let d := piece size (skipn p C) in (Ok (Some d), (p + length d, Datatypes.S t)%nat)
       end)
    (fun s => (Ok tt, s)).

(** Runs of the operations, with what they return. *)
Fixpoint rw_run {S} (src : py_source S) (fuel : nat) (ops : list rw_op) (r : rewindable S)
  : option (list rw_out * rewindable S) :=
  match ops with
  | [] => Some ([], r)
  | op :: ops' =>
      let next x r' := match rw_run src fuel ops' r' with Some (l, r'') => Some (x :: l, r'') | None => None end in
      match op with
      | Read size => match rewindable_read src fuel r size with Some (x, r') => next x r' | None => None end
      | Rewind => match rewindable_rewind r with Ok r' => next (Ok None) r' | Err e => next (Err e) r end
      | DisableRewind => next (Ok None) (rewindable_disable_rewind r)
      end
  end.
Fixpoint wrapper_run {S} (src : py_source S) (fuel : nat) (sizes : list Z) (w : dec_wrapper S) : option (list read_result) :=
  match sizes with
  | [] => Some []
  | z :: rest =>
      match dec_wrapper_read src fuel w z with
      | Some (x, w') => match wrapper_run src fuel rest w' with Some l => Some (x :: l) | None => None end
      | None => None
      end
  end.
Definition decrypt_run {S} (src : py_source S) (fuel : nat) (sizes : list Z) (m : option (result (dec_wrapper S))) : option (list read_result) :=
  match m with Some (Ok w) => wrapper_run src fuel sizes w | _ => None end.
Fixpoint alone_run {S} (src : py_source S) (s : S) (sizes : list Z) (l : live_stream) : option (list read_result) :=
  match sizes with
  | [] => Some []
  | z :: rest =>
      match run_rio (fun s n => Some (src_read src s n)) (live_read l z) s with
      | Some ((x, l'), s') => match alone_run src s' rest l' with Some y => Some (x :: y) | None => None end
      | None => None
      end
  end.
Definition key_run {S} (src : py_source S) (s : S) (k : raw_streaming_aead) (ad : bytes) (sizes : list Z) : option (list read_result) :=
  match run_rio (fun s n => Some (src_read src s n)) (rsa_new_raw_decrypting_stream k ad) s with
  | Some (Ok o, s') => alone_run src s' sizes (new_live o)
  | _ => None
  end.
Fixpoint enc_run (e : raw_enc_stream) (s : res_state e) (t : nat) (W : bytes) (bs : list bytes) : option bytes :=
  match bs with
  | [] => match toy_run (res_close e s) t W with Some ((Ok _, _), _, W') => Some W' | _ => None end
  | b :: rest => match toy_run (res_write e s b) t W with Some ((Ok _, s'), t', W') => enc_run e s' t' W' rest | _ => None end
  end.
Definition encrypt_run (m : wio (result raw_enc_stream)) (bs : list bytes) : option bytes :=
  match toy_run m 0 [] with Some (Ok e, t, W) => enc_run e (res_init e) t W bs | _ => None end.
Fixpoint file_run {S} (src : py_source S) (ops : list rf_op) (f : raw_file S) : option (list read_result) :=
  match ops with
  | [] => Some []
  | op :: rest =>
      match (match op with
             | FRead z => raw_file_read src f z
             | FReadinto z => raw_file_readinto src f z
             | FClose => match raw_file_close src f with (Ok _, f') => Some (Ok None, f') | (Err e, f') => Some (Err e, f') end
             end) with
      | Some (x, f') => match file_run src rest f' with Some l => Some (x :: l) | None => None end
      | None => None
      end
  end.
