(** Runs of the streams the user gets, for the examples. *)
From Coq Require Import Strings.Byte Strings.String List NArith ZArith Bool.
From Verif Require Import M_Base M_Proto M_StreamTypes M_Prims M_Registry M_KeysetHandle M_CcStream M_Stream M_Buffered
  S_Stream S_CcStream S_Buffered X_Toy X_Stream.
Import ListNotations.
Open Scope list_scope.
Open Scope Z_scope.

(** Calls of the writer, with a buffer of [size] bytes, and close(). *)
Fixpoint writer_run (size : Z) (n : nat) (e : raw_enc_stream) (w : buffered_writer e) (t : nat) (W : bytes)
    (calls : list writer_call) : option (list writer_answer * result unit * bytes) :=
  match calls with
  | [] => match toy_run (bw_close n e w) t W with Some ((r, _), _, W') => Some ([], r, W') | None => None end
  | WcWrite b :: rest =>
      match toy_run (bw_write size n e w b) t W with
      | Some ((r, w'), t', W') =>
          match writer_run size n e w' t' W' rest with
          | Some (l, r', W'') => Some (match r with Ok k => Ok (Some k) | Err x => Err x end :: l, r', W'')
          | None => None
          end
      | None => None
      end
  | WcFlush :: rest =>
      match toy_run (bw_flush n e w) t W with
      | Some ((r, w'), t', W') =>
          match writer_run size n e w' t' W' rest with
          | Some (l, r', W'') => Some (match r with Ok k => Ok None | Err x => Err x end :: l, r', W'')
          | None => None
          end
      | None => None
      end
  end.
Definition write_run (size : Z) (n : nat) (m : wio (result raw_enc_stream)) (calls : list writer_call)
  : option (list writer_answer * result unit * bytes) :=
  match toy_run m 0 [] with Some (Ok e, t, W) => writer_run size n e (bw_new e) t W calls | _ => None end.

(** Calls of the reader. *)
Fixpoint reader_run {W} (call : reader_call -> W -> option (read_result * W)) (b : W) (calls : list reader_call)
  : option (list read_result) :=
  match calls with
  | [] => Some []
  | c :: rest =>
      match call c b with
      | Some (r, b') => match reader_run call b' rest with Some l => Some (r :: l) | None => None end
      | None => None
      end
  end.
Definition read_run {S} (src : py_source S) (fuel : nat) (m : option (result (buffered_reader (dec_wrapper S))))
    (calls : list reader_call) : option (list read_result) :=
  match m with Some (Ok b) => reader_run (decrypting_call src fuel) b calls | _ => None end.

(** A streaming AEAD whose ciphertexts are the plaintexts, and are [len] bytes long: what
    is shorter was cut off. The state is the position and how far it can be backed up. *)
Definition fixed_dec_stream (len : nat) : cc_dec_stream :=
  mk_cc_dec_stream (nat * nat + cc_status) (inl (0, 0)%nat)
    (fun s => match s with
              | inl (a, _) => INext (fun r =>
                  match r with
                  | StOk d => IRet (StOk d, inl (a + length d, length d)%nat)
                  | StErr OutOfRange =>
                      if Nat.leb len a then IRet (StErr OutOfRange, inr OutOfRange)
                      else IRet (StErr (NotOk "cut off"), inr (NotOk "cut off"))
                  | StErr x => IRet (StErr x, inr x)
                  end)
              | inr x => IRet (StErr x, inr x)
              end)
    (fun s c => match s with
                | inl (a, w) => let k := Nat.min (Z.to_nat c) w in IBackUp c (IRet (inl (a - k, w - k)%nat))
                | inr x => IRet (inr x)
                end).
Definition fixed_cc (len : nat) : cc_streaming_aead :=
  mk_cc_streaming_aead (fun ad => ORet (StErr (NotOk "not this way"))) (fun ad => IRet (StOk (fixed_dec_stream len))).
Definition fixed_raw (len : nat) : raw_streaming_aead :=
  streaming_aead_cc_to_py toy_what [x00; x00; x00] [x00; x00; x00] 30 (fixed_cc len).
(** The length is that of the key. *)
Definition km_fixed := toy_km 9 u_stream ClsRawStreamingAead
  (fun v => PrimRawStreamingAead (fixed_raw (length v))) SYMMETRIC None.
Definition fixed_registry : registry :=
  registry_run toy_registry [OpRegisterKeyManager km_fixed true; OpRegisterWrapper streaming_aead_wrapper].
Definition fixed_key : key := toy_key u_stream SYMMETRIC "12345" ENABLED 42 TINK.
Definition fixed_handle : keyset_handle := mk_handle (mk_keyset 42 [fixed_key]).
