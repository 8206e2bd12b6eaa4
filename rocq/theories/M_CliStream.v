(** examples/streaming_aead/streaming_aead_cli.py: the two functions on file objects, and
    the program on a file system (see M_Cli for what is modelled of programs and files). *)
From Coq Require Import Strings.Byte Strings.String List NArith ZArith Bool.
From Verif Require Import M_Base M_Utf8 M_Proto M_StreamTypes M_Prims M_PrimitiveSet M_Registry M_KeysetHandle M_Json M_JsonKeyset
  M_CcStream M_Stream M_Buffered M_CcManagers M_Cli.
Import ListNotations.
Open Scope string_scope.
Open Scope list_scope.
Open Scope Z_scope.

(** streaming_aead_cli.py:41 *)
Definition BLOCK_SIZE : Z := 1024 * 1024.

Section FileObjects.
  (** [src] is the input file object; read_as_blocks asks for [block] bytes at a time;
      loops are followed for [n] passes. The output file object is that of the [wio]. *)
  Context {S : Type}.
  Variable src : py_source S.
  Variable block : Z.
  Variable n : nat.

  (** streaming_aead_cli.py:53-69 and 85-86: the generator and the loop that uses it. A
      block that is None reaches write(), which raises TypeError. *)
  Fixpoint encrypt_blocks (fuel : nat) (e : raw_enc_stream) (w : buffered_writer e) (s : S)
    : wio (result unit * buffered_writer e * S) :=
    match fuel with
    | O => WNever
    | Datatypes.S f =>
        let (x, s') := src_read src s block in
        match x with
        | Err ex => WRet (Err ex, w, s')
        | Ok None => WRet (Err (TypeError "a bytes-like object is required, not 'NoneType'"), w, s')
        | Ok (Some []) => WRet (Ok tt, w, s')
        | Ok (Some d) =>
            wio_bind (bw_write default_buffer_size n e w d) (fun y =>
              match fst y with
              | Err ex => WRet (Err ex, snd y, s')
              | Ok _ => encrypt_blocks f e (snd y) s'
              end)
        end
    end.
  (** streaming_aead_cli.py:72-86 encrypt_file. The with statement closes the stream in
      every case; an exception of close replaces that of the body. *)
  Definition encrypt_file (Q : prim) (ad : bytes) (s : S) : wio (result unit * S) :=
    wio_bind (new_encrypting_stream Q ad) (fun x =>
      match x with
      | Err ex => WRet (Err ex, s)
      | Ok e =>
          wio_bind (encrypt_blocks n e (bw_new e) s) (fun y =>
            wio_bind (bw_close n e (snd (fst y))) (fun z =>
              WRet (match fst z with Err ex => Err ex | Ok _ => fst (fst y) end, snd y)))
      end).

  (** streaming_aead_cli.py:53-69 and 105-106 *)
  Fixpoint decrypt_blocks (fuel : nat) (b : buffered_reader (dec_wrapper S))
    : wio (result unit * buffered_reader (dec_wrapper S)) :=
    match fuel with
    | O => WNever
    | Datatypes.S f =>
        match decrypting_call src n (RcRead block) b with
        | None => WNever
        | Some (Err ex, b') => WRet (Err ex, b')
        | Some (Ok None, b') => WRet (Err (TypeError "a bytes-like object is required, not 'NoneType'"), b')
        | Some (Ok (Some []), b') => WRet (Ok tt, b')
        | Some (Ok (Some d), b') =>
            WWrite d (fun y => match y with Err ex => WRet (Err ex, b') | Ok _ => decrypt_blocks f b' end)
        end
    end.
  (** streaming_aead_cli.py:89-109 decrypt_file. [Ok 1]: exit(1) was called; [Ok 0]: it
      returned. *)
  Definition decrypt_file (Q : prim) (ad : bytes) (s : S) : wio (result Z) :=
    let caught (x : result unit) : result Z :=
      match x with
      | Ok _ => Ok 0
      | Err ex => if is_tink_error ex then Ok 1 else Err ex
      end in
    match open_decrypting_stream src n Q s ad with
    | None => WNever
    | Some (Err ex) => WRet (caught (Err ex))
    | Some (Ok b) =>
        wio_bind (decrypt_blocks n b) (fun y =>
          WRet (caught (match fst (decrypting_close src (snd y)) with Err ex => Err ex | Ok _ => fst y end)))
    end.
End FileObjects.

(** [open(path, 'rb')] on a file; the state is what has not been read. *)
Definition opened_file : py_source bytes :=
  mk_py_source (fun _ => true)
    (fun rest k => if k <? 0 then (Ok (Some rest), []) else (Ok (Some (ztake k rest)), zdrop k rest))
    (fun rest => (Ok tt, rest)).
(** [open(path, 'wb')]: all bytes are written; [W] is the content. *)
Fixpoint run_on_file {A} (m : wio A) (W : bytes) : option (A * bytes) :=
  match m with
  | WRet a => Some (a, W)
  | WWrite d k => run_on_file (k (Ok (Some (zlen d)))) (W ++ d)
  | WClose k => run_on_file (k (Ok tt)) W
  | WNever => None
  end.

Section Program.
  Variable w : cc_world.
  Variable env : py_env.
  Variable pb : pb_rt.
  Variable o : os.

  (** [except tink.TinkError as e: ...; return 1]; [inl] is the value returned. *)
  Definition or_leave {A B} (r : result A) (k : A -> io (Z + B)) : io (Z + B) :=
    match r with
    | Ok a => k a
    | Err e => if is_tink_error e then ret (inl 1) else attempt (Err e)
    end.
  (** streaming_aead_cli.py:112-147 up to the call of encrypt_file or decrypt_file: the
      primitive, the associated data, and what the input file object will read. The input
      is opened before the output and read after it was truncated. *)
  Definition streaming_aead_start (f : crypt_flags) : io (Z + prim * bytes * bytes) :=
    associated_data <~ attempt (flag_bytes (cf_associated_data f)) ;;
    reg <~ registered_by w env CallStreamingAead ;;
    text <~ read_text (cf_keyset_path f) ;;
    or_leave (parse_json_keyset env pb text) (fun keyset_handle =>
    or_leave (handle_primitive reg keyset_handle ClsStreamingAead) (fun streaming_aead_primitive =>
    _ <~ read_bytes (cf_input_path f) ;;
    _ <~ truncate o (cf_output_path f) ;;
    input_data <~ read_bytes (cf_input_path f) ;;
    ret (inr (streaming_aead_primitive, associated_data, input_data)))).
  (** streaming_aead_cli.py:112-153 main. None: it takes more than [n] passes. *)
  Definition streaming_aead_cli (n : nat) (f : crypt_flags) (fs : files) : option (result Z * files) :=
    match streaming_aead_start f fs with
    | (Err e, fs') => Some (Err e, fs')
    | (Ok (inl z), fs') => Some (Ok z, fs')
    | (Ok (inr (Q, ad, data)), fs') =>
        match run_on_file
                (match cf_mode f with
                 | Encrypt => wio_bind (encrypt_file opened_file BLOCK_SIZE n Q ad data) (fun x =>
                                WRet (match fst x with Ok _ => Ok 0 | Err e => Err e end))
                 | Decrypt => decrypt_file opened_file BLOCK_SIZE n Q ad data
                 end) [] with
        | None => None
        | Some (r, W) => Some (r, store (cf_output_path f) W fs')
        end
    end.
End Program.
