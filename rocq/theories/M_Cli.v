(** The example command line programs of python/examples: their [main] functions on a
    file system.

    What is modelled: the flags (absl refuses modes outside of the enum and missing
    required flags before [main] runs), the files named by the flags, the exit status.
    Simplifications: two path strings name the same file iff they are equal; a file that
    can be opened can be read or written to the end; text files are UTF-8 and POSIX (the
    encoding and newline of the locale); nothing else touches the files during a run;
    logging is not modelled. The managers of C++, Python's run time and protobuf's are
    arguments, as in the rest of the model. *)
From Coq Require Import Strings.Byte Strings.String List NArith ZArith Bool.
From Verif Require Import M_Base M_Utf8 M_Proto M_Prims M_PrimitiveSet M_Registry M_KeysetHandle M_KeysetIO
  M_Wrappers M_Kms M_JwtTypes M_Json M_JsonKeyset M_RawJwt M_JwtValidator M_JwtWrappers M_Jwk M_KmsIntegrations
  M_CcManagers M_KeyFormats M_Templates.
Import ListNotations.
Open Scope string_scope.
Open Scope list_scope.

(** ** Files *)

(** Path to content. *)
Definition files := list (pystr * bytes).
Definition content (fs : files) (path : pystr) : option bytes := dict_get str_eqb path fs.
Definition store (path : pystr) (x : bytes) (fs : files) : files := dict_set str_eqb path x fs.

(** A statement that may change files and may raise. *)
Definition io (A : Type) := files -> result A * files.
Definition ret {A} (a : A) : io A := fun fs => (Ok a, fs).
Definition attempt {A} (r : result A) : io A := fun fs => (r, fs).
Definition next {A B} (m : io A) (k : A -> io B) : io B := fun fs =>
  match m fs with
  | (Ok a, fs') => k a fs'
  | (Err e, fs') => (Err e, fs')
  end.
Notation "x <~ m ;; k" := (next m (fun x => k)) (at level 61, m at next level, right associativity).

(** What the operating system answers: [may_write path] says if the path can be opened
    for writing. [OtherError 2] stands for OSError. *)
Record os := mk_os { may_write : pystr -> bool }.

(** [open(path, 'rb').read()] *)
Definition read_bytes (path : pystr) : io bytes := fun fs =>
  match content fs path with
  | Some x => (Ok x, fs)
  | None => (Err (OtherError 2), fs)
  end.
(** Universal newlines: '\r\n' and '\r' are read as '\n'. *)
Fixpoint universal_newlines (x : pystr) : pystr :=
  match x with
  | [] => []
  | c :: rest =>
      if N.eqb c 13 then
        10%N :: match rest with
                | d :: rest' => if N.eqb d 10 then universal_newlines rest' else universal_newlines rest
                | [] => []
                end
      else c :: universal_newlines rest
  end.
(** [open(path, 'rt').read()] *)
Definition read_text (path : pystr) : io pystr :=
  x <~ read_bytes path ;;
  match utf8_decode x with
  | Some t => ret (universal_newlines t)
  | None => attempt (Err UnicodeError)
  end.
(** [open(path, 'wb')] or 'wt': the file exists and is empty. *)
Definition truncate (o : os) (path : pystr) : io unit := fun fs =>
  if may_write o path then (Ok tt, store path [] fs) else (Err (OtherError 2), fs).
(** [f.write(data)] as the only write before the file is closed. *)
Definition put_bytes (path : pystr) (x : bytes) : io unit := fun fs => (Ok tt, store path x fs).
(** The same in text mode. *)
Definition put_text (path : pystr) (t : pystr) : io unit :=
  match utf8_encode t with
  | Some x => put_bytes path x
  | None => attempt (Err UnicodeError)
  end.

(** ** Common statements *)

(** [except tink.TinkError as e: ...; return 1] around the computation of [r]; [k] is
    what follows when nothing is raised. *)
Definition or_return_1 {A} (r : result A) (k : A -> io Z) : io Z :=
  match r with
  | Ok a => k a
  | Err e => if is_tink_error e then ret 1%Z else attempt (Err e)
  end.

(** [app.run(main)]: [sys.exit(main(argv))], where None counts as 0; an exception that
    leaves [main] is printed and the status is 1. *)
Definition exit_status (r : result Z) : Z := match r with Ok z => z | Err _ => 1%Z end.
Definition returned_none : io Z := ret 0%Z.

(** [b'' if not FLAGS.x else bytes(FLAGS.x, 'utf-8')] *)
Definition flag_bytes (x : option pystr) : result bytes :=
  match x with
  | None | Some [] => Ok []
  | Some t => match utf8_encode t with Some y => Ok y | None => Err UnicodeError end
  end.

(** [b'...'] literal of the examples. *)
Definition envelope_example : bytes := blit "envelope_example".

Inductive crypt_mode := Encrypt | Decrypt.
Inductive tag_mode := Produce | Verify.

(** Flags of the programs that transform a file. *)
Record crypt_flags := mk_crypt_flags {
  cf_mode : crypt_mode;
  cf_keyset_path : pystr;
  cf_input_path : pystr;
  cf_output_path : pystr;
  cf_associated_data : option pystr }.
(** Flags of mac_cli and signature_cli. *)
Record tag_flags := mk_tag_flags {
  tf_mode : tag_mode;
  tf_keyset_path : pystr;
  tf_data_path : pystr;
  tf_tag_path : pystr }.

(** ** binascii and bytes.strip *)

(** [binascii.hexlify(x)] *)
Definition hexlify_bytes (x : bytes) : bytes := map byte_of_N (hexlify x).
(** A digit of [binascii.unhexlify]. *)
Definition unhex_digit (c : byte) : option N :=
  let n := Byte.to_N c in
  if (48 <=? n)%N && (n <=? 57)%N then Some (n - 48)%N
  else if (97 <=? n)%N && (n <=? 102)%N then Some (n - 87)%N
  else if (65 <=? n)%N && (n <=? 70)%N then Some (n - 55)%N
  else None.
(** [binascii.unhexlify(x)]; None is binascii.Error. *)
Fixpoint unhexlify (x : bytes) : option bytes :=
  match x with
  | [] => Some []
  | a :: b :: rest =>
      match unhex_digit a, unhex_digit b, unhexlify rest with
      | Some h, Some l, Some r => Some (byte_of_N (16 * h + l) :: r)
      | _, _, _ => None
      end
  | _ => None
  end.
(** ASCII whitespace, which [x.strip()] removes at both ends. *)
Definition is_space (c : byte) : bool :=
  let n := Byte.to_N c in ((9 <=? n)%N && (n <=? 13)%N) || (n =? 32)%N.
Fixpoint lstrip (x : bytes) : bytes :=
  match x with
  | c :: rest => if is_space c then lstrip rest else x
  | [] => []
  end.
Definition strip (x : bytes) : bytes := rev (lstrip (rev (lstrip x))).

Section Programs.
  Variable w : cc_world.
  Variable env : py_env.
  Variable pb : pb_rt.
  Variable o : os.

  (** A [register()] at the start of the process: its exceptions are not caught. *)
  Definition registered_by (c : setup_call) : io registry :=
    let (r, x) := perform (setup_action w env 0 c) empty_registry in
    next (attempt x) (fun _ => ret r).

  (** [json_proto_keyset_format.parse(text, secret_key_access.TOKEN)] *)
  Definition parse_json_keyset (text : pystr) : result keyset_handle :=
    json_proto_parse (pe_rt env) pb text SecretKeyAccessToken.

  (** examples/aead/aead_cli.py:40-79 *)
  Definition aead_cli (rnd : coins) (f : crypt_flags) : io Z :=
    associated_data <~ attempt (flag_bytes (cf_associated_data f)) ;;
    reg <~ registered_by CallAead ;;
    text <~ read_text (cf_keyset_path f) ;;
    or_return_1 (parse_json_keyset text) (fun keyset_handle =>
    or_return_1 (handle_primitive reg keyset_handle ClsAead) (fun cipher =>
    input_data <~ read_bytes (cf_input_path f) ;;
    output_data <~ attempt (match cf_mode f with
                            | Decrypt => call_decrypt cipher input_data associated_data
                            | Encrypt => call_encrypt cipher rnd input_data associated_data
                            end) ;;
    _ <~ truncate o (cf_output_path f) ;;
    _ <~ put_bytes (cf_output_path f) output_data ;;
    returned_none)).

  (** examples/deterministic_aead/deterministic_aead_cli.py:40-81 *)
  Definition deterministic_aead_cli (f : crypt_flags) : io Z :=
    associated_data <~ attempt (flag_bytes (cf_associated_data f)) ;;
    reg <~ registered_by CallDaead ;;
    text <~ read_text (cf_keyset_path f) ;;
    or_return_1 (parse_json_keyset text) (fun keyset_handle =>
    or_return_1 (handle_primitive reg keyset_handle ClsDaead) (fun cipher =>
    input_data <~ read_bytes (cf_input_path f) ;;
    output_data <~ attempt (match cf_mode f with
                            | Decrypt => call_decrypt_deterministically cipher input_data associated_data
                            | Encrypt => call_encrypt_deterministically cipher input_data associated_data
                            end) ;;
    _ <~ truncate o (cf_output_path f) ;;
    _ <~ put_bytes (cf_output_path f) output_data ;;
    returned_none)).

  (** examples/hybrid/hybrid_cli.py:40-87; [cf_associated_data] is context_info *)
  Definition hybrid_cli (rnd : coins) (f : crypt_flags) : io Z :=
    context_info <~ attempt (flag_bytes (cf_associated_data f)) ;;
    reg <~ registered_by CallHybrid ;;
    text <~ read_text (cf_keyset_path f) ;;
    or_return_1 (parse_json_keyset text) (fun keyset_handle =>
    data <~ read_bytes (cf_input_path f) ;;
    match cf_mode f with
    | Encrypt =>
        or_return_1 (handle_primitive reg keyset_handle ClsHybridEncrypt) (fun primitive =>
        _ <~ truncate o (cf_output_path f) ;;
        ciphertext <~ attempt (call_encrypt primitive rnd data context_info) ;;
        _ <~ put_bytes (cf_output_path f) ciphertext ;;
        returned_none)
    | Decrypt =>
        or_return_1 (handle_primitive reg keyset_handle ClsHybridDecrypt) (fun primitive =>
        _ <~ truncate o (cf_output_path f) ;;
        plaintext <~ attempt (call_decrypt primitive data context_info) ;;
        _ <~ put_bytes (cf_output_path f) plaintext ;;
        returned_none)
    end).

  (** [binascii.unhexlify(f.read().strip())], [except binascii.Error: return 1] *)
  Definition tag_of_file (x : bytes) (k : bytes -> io Z) : io Z :=
    match unhexlify (strip x) with Some tag => k tag | None => ret 1%Z end.

  (** examples/mac/mac_cli.py:42-89 *)
  Definition mac_cli (f : tag_flags) : io Z :=
    reg <~ registered_by CallMac ;;
    text <~ read_text (tf_keyset_path f) ;;
    or_return_1 (parse_json_keyset text) (fun keyset_handle =>
    or_return_1 (handle_primitive reg keyset_handle ClsMac) (fun primitive =>
    data <~ read_bytes (tf_data_path f) ;;
    match tf_mode f with
    | Produce =>
        tag <~ attempt (call_compute_mac primitive data) ;;
        _ <~ truncate o (tf_tag_path f) ;;
        _ <~ put_bytes (tf_tag_path f) (hexlify_bytes tag) ;;
        ret 0%Z
    | Verify =>
        x <~ read_bytes (tf_tag_path f) ;;
        tag_of_file x (fun expected_tag =>
        or_return_1 (call_verify_mac primitive expected_tag data) (fun _ => ret 0%Z))
    end)).

  (** examples/signature/signature_cli.py:44-100 *)
  Definition signature_cli (rnd : coins) (f : tag_flags) : io Z :=
    reg <~ registered_by CallSignature ;;
    text <~ read_text (tf_keyset_path f) ;;
    or_return_1 (parse_json_keyset text) (fun keyset_handle =>
    data <~ read_bytes (tf_data_path f) ;;
    match tf_mode f with
    | Produce =>
        or_return_1 (handle_primitive reg keyset_handle ClsSign) (fun cipher =>
        sig <~ attempt (call_sign cipher rnd data) ;;
        _ <~ truncate o (tf_tag_path f) ;;
        _ <~ put_bytes (tf_tag_path f) (hexlify_bytes sig) ;;
        ret 0%Z)
    | Verify =>
        or_return_1 (handle_primitive reg keyset_handle ClsVerify) (fun cipher =>
        x <~ read_bytes (tf_tag_path f) ;;
        tag_of_file x (fun expected_signature =>
        or_return_1 (call_verify cipher expected_signature data) (fun _ => ret 0%Z)))
    end).

  (** The statements that write a new keyset, shared by the 'generate' modes:
      [with open(path, 'wt') as f: try: f.write(serialized) except TinkError: return 1],
      [return 0] *)
  Definition write_keyset (path : pystr) (serialized : result pystr) : io Z :=
    _ <~ truncate o path ;;
    or_return_1 serialized (fun text =>
    _ <~ put_text path text ;;
    ret 0%Z).

  (** [tink.new_keyset_handle(aead.aead_key_templates.AES128_GCM)]; [draws] are the random
      numbers for the key id. *)
  Definition new_aes128_gcm (reg : registry) (rnd : coins) (draws : list N) : option (result keyset_handle) :=
    match create_aes_gcm 16 TINK with
    | Ok t => generate_new reg rnd draws t
    | Err e => Some (Err e)
    end.

  (** examples/cleartext_keyset/cleartext_keyset_cli.py:38-100, mode 'generate'. None: the
      loop for the key id needs more draws. *)
  Definition cleartext_keyset_generate (rnd : coins) (draws : list N) (keyset_path : pystr) : option (io Z) :=
    let (reg, x) := perform (setup_action w env 0 CallAead) empty_registry in
    match x with
    | Err e => Some (attempt (Err e))
    | Ok _ =>
        match new_aes128_gcm reg rnd draws with
        | None => None
        | Some made => Some (or_return_1 made (fun keyset_handle =>
            write_keyset keyset_path (json_proto_serialize (pe_rt env) keyset_handle SecretKeyAccessToken)))
        end
    end.
  (** The same program, modes 'encrypt' and 'decrypt'. Simplification: the input and
      output paths are given (they are not required flags; [open(None)] raises
      TypeError). [cf_associated_data] is not used. *)
  Definition cleartext_keyset_crypt (rnd : coins) (f : crypt_flags) : io Z :=
    reg <~ registered_by CallAead ;;
    text <~ read_text (cf_keyset_path f) ;;
    or_return_1 (parse_json_keyset text) (fun keyset_handle =>
    or_return_1 (handle_primitive reg keyset_handle ClsAead) (fun cipher =>
    input_data <~ read_bytes (cf_input_path f) ;;
    output_data <~ attempt (match cf_mode f with
                            | Decrypt => call_decrypt cipher input_data envelope_example
                            | Encrypt => call_encrypt cipher rnd input_data envelope_example
                            end) ;;
    _ <~ truncate o (cf_output_path f) ;;
    _ <~ put_bytes (cf_output_path f) output_data ;;
    returned_none)).

  (** examples/encrypted_keyset/encrypted_keyset_cli.py:43-131. [remote] is the outcome of
      [gcpkms.GcpKmsClient(...)] and [client.get_aead(...)] (both caught the same way).
      [keyset_ad]: the bytes that the client library makes of the text 'encrypted keyset
      example', which the program passes where bytes are expected. *)
  Definition encrypted_keyset_generate (remote : result aead) (keyset_ad : bytes) (rnd rnd' : coins)
      (draws : list N) (keyset_path : pystr) : option (io Z) :=
    let (reg, x) := perform (setup_action w env 0 CallAead) empty_registry in
    match x with
    | Err e => Some (attempt (Err e))
    | Ok _ =>
        match remote with
        | Err e => Some (or_return_1 (Err e) ret)
        | Ok remote_aead =>
            match new_aes128_gcm reg rnd draws with
            | None => None
            | Some made => Some (or_return_1 made (fun keyset_handle =>
                write_keyset keyset_path
                  (json_proto_serialize_encrypted (pe_rt env) keyset_handle remote_aead rnd' keyset_ad)))
            end
        end
    end.
  Definition encrypted_keyset_crypt (remote : result aead) (keyset_ad : bytes) (rnd : coins)
      (f : crypt_flags) : io Z :=
    associated_data <~ attempt (flag_bytes (cf_associated_data f)) ;;
    reg <~ registered_by CallAead ;;
    or_return_1 remote (fun remote_aead =>
    text <~ read_text (cf_keyset_path f) ;;
    or_return_1 (json_proto_parse_encrypted (pe_rt env) pb text remote_aead keyset_ad) (fun keyset_handle =>
    or_return_1 (handle_primitive reg keyset_handle ClsAead) (fun cipher =>
    input_data <~ read_bytes (cf_input_path f) ;;
    output_data <~ attempt (match cf_mode f with
                            | Decrypt => call_decrypt cipher input_data associated_data
                            | Encrypt => call_encrypt cipher rnd input_data associated_data
                            end) ;;
    _ <~ truncate o (cf_output_path f) ;;
    _ <~ put_bytes (cf_output_path f) output_data ;;
    returned_none))).

  (** [aead.KmsEnvelopeAead(aead.aead_key_templates.AES256_GCM, remote_aead)] *)
  Definition aes256_gcm_envelope (reg : registry) (r0 : coins) (remote : result aead) : result aead :=
    remote_aead <- remote ;;
    t <- create_aes_gcm 32 TINK ;;
    new_kms_envelope_aead reg r0 t remote_aead.

  (** examples/envelope_aead/envelope_cli.py:43-86; [cf_keyset_path] is not used *)
  Definition envelope_cli (remote : result aead) (r0 rnd : coins) (f : crypt_flags) : io Z :=
    associated_data <~ attempt (flag_bytes (cf_associated_data f)) ;;
    reg <~ registered_by CallAead ;;
    or_return_1 (aes256_gcm_envelope reg r0 remote) (fun env_aead =>
    input_data <~ read_bytes (cf_input_path f) ;;
    output_data <~ attempt (match cf_mode f with
                            | Decrypt => aead_decrypt env_aead input_data associated_data
                            | Encrypt => aead_encrypt env_aead rnd input_data associated_data
                            end) ;;
    _ <~ truncate o (cf_output_path f) ;;
    _ <~ put_bytes (cf_output_path f) output_data ;;
    returned_none).

  (** [x.split('/', 1)] when there is a '/'. *)
  Fixpoint split_once (sep : N) (x : pystr) : option (pystr * pystr) :=
    match x with
    | [] => None
    | c :: rest =>
        if N.eqb c sep then Some ([], rest)
        else match split_once sep rest with Some (a, b) => Some (c :: a, b) | None => None end
    end.
  (** examples/gcs/gcs_envelope_aead_cli.py:101-121 _get_bucket_and_object *)
  Definition get_bucket_and_object (gcs_blob_path : pystr) : result (pystr * pystr) :=
    match strip_prefix (ulit "gs://") gcs_blob_path with
    | None => Err (ValueError "GCS blob paths must start with gs://")
    | Some path =>
        match split_once 47 path with
        | Some parts => Ok parts
        | None => Err (ValueError "GCS blob paths must be in format gs://bucket-name/object-name")
        end
    end.
  (** The blobs of Google Cloud Storage by bucket and object name. *)
  Definition blobs := list ((pystr * pystr) * bytes).
  Definition blob_eqb (a b : pystr * pystr) : bool := str_eqb (fst a) (fst b) && str_eqb (snd a) (snd b).
  (** examples/gcs/gcs_envelope_aead_cli.py:48-98. [storage] is the outcome of
      [storage.Client.from_service_account_json] and of the upload or download itself
      (any exception of theirs leaves [main]); [cf_keyset_path] is not used, the local
      path is [local], the blob path [gcs_blob_path]. *)
  Definition gcs_envelope_cli (remote : result aead) (storage : result unit) (r0 rnd : coins)
      (mode : crypt_mode) (local gcs_blob_path : pystr) (bs : blobs) (fs : files)
    : result Z * files * blobs :=
    let (reg, x) := perform (setup_action w env 0 CallAead) empty_registry in
    match x with
    | Err e => (Err e, fs, bs)
    | Ok _ =>
        match aes256_gcm_envelope reg r0 remote with
        | Err e => (if is_tink_error e then Ok 1%Z else Err e, fs, bs)
        | Ok env_aead =>
            match storage with
            | Err e => (Err e, fs, bs)
            | Ok _ =>
                match get_bucket_and_object gcs_blob_path with
                | Err _ => (Ok 1%Z, fs, bs)
                | Ok name =>
                    match utf8_encode gcs_blob_path with
                    | None => (Err UnicodeError, fs, bs)
                    | Some associated_data =>
                        match mode with
                        | Encrypt =>
                            match (data <~ read_bytes local ;;
                                   attempt (aead_encrypt env_aead rnd data associated_data)) fs with
                            | (Err e, fs') => (Err e, fs', bs)
                            | (Ok output_data, fs') => (Ok 0%Z, fs', dict_set blob_eqb name output_data bs)
                            end
                        | Decrypt =>
                            match dict_get blob_eqb name bs with
                            | None => (Err GoogleAPIError, fs, bs)
                            | Some ciphertext =>
                                let (r, fs') :=
                                  (_ <~ truncate o local ;;
                                   data <~ attempt (aead_decrypt env_aead ciphertext associated_data) ;;
                                   _ <~ put_bytes local data ;;
                                   returned_none) fs in
                                (r, fs', bs)
                            end
                        end
                    end
                end
            end
        end
    end.

  (** ** JWT *)

  (** examples/jwt/jwt_sign_cli.py:39-72; [now] is datetime.now(utc) in microseconds *)
  Definition jwt_sign_cli (rnd : coins) (now : Z) (private_keyset_path audience token_path : pystr) : io Z :=
    reg <~ registered_by CallJwtSignature ;;
    text <~ read_text private_keyset_path ;;
    or_return_1 (parse_json_keyset text) (fun keyset_handle =>
    or_return_1 (handle_primitive reg keyset_handle ClsJwtSign) (fun jwt_sign =>
    expiration <~ attempt (shift now 100000000) ;;
    raw_jwt <~ attempt (new_raw_jwt (pe_rt env)
      (mk_raw_jwt_args None None None None (Some (JList [JStr audience])) None
         (Some (mk_datetime true expiration)) false None None [])) ;;
    token <~ attempt (match jwt_sign with PrimJwtSign s => js_sign s rnd raw_jwt | _ => Err AttributeError end) ;;
    _ <~ truncate o token_path ;;
    _ <~ put_text token_path token ;;
    returned_none)).

  (** examples/jwt/jwt_generate_public_jwk_set.py:33-55 *)
  Definition jwt_generate_public_jwk_set (public_keyset_path public_jwk_set_path : pystr) : io Z :=
    _ <~ registered_by CallJwtSignature ;;
    text <~ read_text public_keyset_path ;;
    or_return_1 (json_proto_parse_without_secret (pe_rt env) pb text) (fun public_keyset_handle =>
    public_jwk_set <~ attempt (from_public_keyset_handle (pe_rt env) public_keyset_handle) ;;
    _ <~ truncate o public_jwk_set_path ;;
    _ <~ put_text public_jwk_set_path public_jwk_set ;;
    returned_none).

  (** examples/jwt/jwt_verify_cli.py:37-69. [draws]: the random numbers for the key ids of
      the imported keys; None: the loop needs more of them. [clock] is the time at which
      the validator reads the clock; the program's own [now] is only logged. *)
  Definition jwt_verify_cli (draws : list (list N)) (clock : Z) (public_jwk_set_path audience token_path : pystr)
      (fs : files) : option (result Z * files) :=
    match (reg <~ registered_by CallJwtSignature ;;
           text <~ read_text public_jwk_set_path ;;
           ret (reg, text)) fs with
    | (Err e, fs') => Some (Err e, fs')
    | (Ok (reg, text), fs') =>
        match to_public_keyset_handle (pe_rt env) draws text with
        | None => None
        | Some imported => Some ((
            or_return_1 imported (fun keyset_handle =>
            or_return_1 (handle_primitive reg keyset_handle ClsJwtVerify) (fun jwt_verify =>
            token <~ read_text token_path ;;
            validator <~ attempt (new_validator None None (Some audience) false false false false false None None) ;;
            or_return_1 (verified_jwt <- (match jwt_verify with
                                          | PrimJwtVerify v => jv_verify v clock token validator
                                          | _ => Err AttributeError
                                          end) ;;
                         expiration (pe_rt env) (vj_raw_jwt verified_jwt)) (fun _ =>
            ret 0%Z)))) fs')
        end
    end.
End Programs.
