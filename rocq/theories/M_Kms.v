(** _kms_clients.py, aead/_kms_envelope_aead.py, aead/_kms_aead_key_manager.py,
    and the two KMS templates of aead/_aead_key_templates.py *)
From Coq Require Import Strings.Byte Strings.String List NArith ZArith Bool Arith.Cantor.
From Verif Require Import M_Base M_Utf8 M_Proto M_Wire M_Prims M_PrimitiveSet M_Registry.
Import ListNotations.
Open Scope list_scope.
Open Scope Z_scope.

(** _kms_clients.py:24-32 class KmsClient, by its methods; [kc_id] identifies the
    object. Simplification: does_support does not raise. *)
Record kms_client := mk_kms_client {
  kc_id : N;
  kc_does_support : pystr -> bool;
  kc_get_aead : pystr -> result aead }.

(** _kms_clients.py:46-55 *)
Definition register_kms_client (clients : list kms_client) (c : kms_client) : list kms_client :=
  clients ++ [c].

(** _kms_clients.py:66-68 *)
Definition reset_kms_clients (clients : list kms_client) : list kms_client := [].

(** _kms_clients.py:46-68: the history of calls to register_kms_client and reset_kms_clients. *)
Inductive kms_op := KmsRegister (c : kms_client) | KmsReset.

Definition kms_step (clients : list kms_client) (op : kms_op) : list kms_client :=
  match op with
  | KmsRegister c => register_kms_client clients c
  | KmsReset => reset_kms_clients clients
  end.
Definition kms_run (clients : list kms_client) (ops : list kms_op) : list kms_client :=
  fold_left kms_step ops clients.

(** _kms_clients.py:58-63 *)
Fixpoint kms_client_from_uri (clients : list kms_client) (key_uri : pystr) : result kms_client :=
  match clients with
  | [] => Err (TinkError "No KMS client does support: ")
  | c :: r => if kc_does_support c key_uri then Ok c else kms_client_from_uri r key_uri
  end.

Definition kms_url (name : string) : pystr :=
  ulit ("type.googleapis.com/google.crypto.tink." ++ name)%string.

(** aead/_kms_envelope_aead.py:22-28 *)
Definition SUPPORTED_DEK_KEY_TYPES : list pystr :=
  [kms_url "AesGcmKey"; kms_url "XChaCha20Poly1305Key"; kms_url "AesCtrHmacAeadKey";
   kms_url "AesEaxKey"; kms_url "AesGcmSivKey"].

(** aead/_kms_envelope_aead.py:31-32 *)
Definition is_supported_dek_key_type (type_url : pystr) : bool :=
  existsb (str_eqb type_url) SUPPORTED_DEK_KEY_TYPES.

(** The random choices of one encryption, split into those of the DEK generation,
    of the DEK encryption and of the remote encryption (a bijection). *)
Definition coins_split (r : coins) : coins * coins * coins :=
  let '(a, bc) := Cantor.of_nat (N.to_nat r) in
  let '(b, c) := Cantor.of_nat bc in
  (N.of_nat a, N.of_nat b, N.of_nat c).

(** aead/_kms_envelope_aead.py:76-89 *)
Definition envelope_encrypt (reg : registry) (t : key_template) (remote : aead) (r : coins)
  (plaintext associated_data : bytes) : result bytes :=
  let '(r1, r2, r3) := coins_split r in
  dek <- registry_new_key_data reg r1 t ;;
  dek_aead <- registry_primitive reg dek ClsAead ;;
  ciphertext <- call_encrypt dek_aead r2 plaintext associated_data ;;
  encrypted_dek <- aead_encrypt remote r3 (kd_value dek) [] ;;
  enc_dek_len <- pack_be32 (N.of_nat (length encrypted_dek)) ;;
  Ok (enc_dek_len ++ encrypted_dek ++ ciphertext).

(** aead/_kms_envelope_aead.py:60 *)
Definition DEK_LEN_BYTES : nat := 4.

(** aead/_kms_envelope_aead.py:91-120 *)
Definition envelope_decrypt (reg : registry) (t : key_template) (remote : aead)
  (ciphertext associated_data : bytes) : result bytes :=
  let ct_len := length ciphertext in
  if Nat.ltb ct_len DEK_LEN_BYTES then Err (TinkError "")
  else
    let dek_len := be_N (firstn DEK_LEN_BYTES ciphertext) in
    if (N.of_nat (ct_len - DEK_LEN_BYTES) <? dek_len)%N then Err (TinkError "")
    else
      let n := N.to_nat dek_len in
      let encrypted_dek_bytes := firstn n (skipn DEK_LEN_BYTES ciphertext) in
      dek_bytes <- aead_decrypt remote encrypted_dek_bytes [] ;;
      let dek := mk_key_data (kt_type_url t) dek_bytes SYMMETRIC in
      dek_aead <- registry_primitive reg dek ClsAead ;;
      call_decrypt dek_aead (skipn (DEK_LEN_BYTES + n) ciphertext) associated_data.

(** aead/_kms_envelope_aead.py:62-74 KmsEnvelopeAead(key_template, remote); [r0] are
    the random choices of the trial key. The registry is the global one at the time
    of the call; simplification: later registrations are not seen by the object. *)
Definition new_kms_envelope_aead (reg : registry) (r0 : coins) (t : key_template) (remote : aead)
  : result aead :=
  if negb (is_supported_dek_key_type (kt_type_url t)) then
    Err (TinkError "Unsupported DEK key type")
  else
    _ <- registry_new_key_data reg r0 t ;;
    Ok (mk_aead (envelope_encrypt reg t remote) (envelope_decrypt reg t remote)).

(** proto/kms_aead.proto:31-40 and proto/kms_envelope.proto:33-45 *)
Record kms_aead_key_format := mk_kms_aead_key_format { kaf_key_uri : pystr }.
Record kms_aead_key := mk_kms_aead_key {
  kak_version : N;
  kak_params_opt : option kms_aead_key_format }.
Record kms_envelope_aead_key_format := mk_kms_envelope_aead_key_format {
  kef_kek_uri : pystr;
  kef_dek_template_opt : option key_template }.
Record kms_envelope_aead_key := mk_kms_envelope_aead_key {
  kek_version : N;
  kek_params_opt : option kms_envelope_aead_key_format }.

Definition default_kaf := mk_kms_aead_key_format [].
Definition default_template := mk_key_template [] [] 0.
Definition default_kef := mk_kms_envelope_aead_key_format [] None.
Definition kak_params (k : kms_aead_key) :=
  match kak_params_opt k with Some p => p | None => default_kaf end.
Definition kef_dek_template (k : kms_envelope_aead_key_format) :=
  match kef_dek_template_opt k with Some p => p | None => default_template end.
Definition kek_params (k : kms_envelope_aead_key) :=
  match kek_params_opt k with Some p => p | None => default_kef end.

(** proto/kms_aead.proto:32: key_uri = 1 *)
Definition fields_of_kaf (k : kms_aead_key_format) : list field := f_string 1 (kaf_key_uri k).
Definition kaf_step (k : kms_aead_key_format) (f : field) : option kms_aead_key_format :=
  match f with
  | (1%N, WLen x) =>
      match utf8_decode x with Some u => Some (mk_kms_aead_key_format u) | None => None end
  | _ => Some k
  end.
(** proto/kms_aead.proto:37-39: version = 1, params = 2 *)
Definition fields_of_kak (k : kms_aead_key) : list field :=
  f_uint32 1 (kak_version k) ++
  match kak_params_opt k with
  | Some p => [(2%N, WLen (encode_fields (fields_of_kaf p)))]
  | None => []
  end.
Definition kak_step (k : kms_aead_key) (f : field) : option kms_aead_key :=
  match f with
  | (1%N, WVarint n) => Some (mk_kms_aead_key (uint32_of_varint n) (kak_params_opt k))
  | (2%N, WLen x) =>
      match merge_message kaf_step (kak_params k) x with
      | Some p => Some (mk_kms_aead_key (kak_version k) (Some p))
      | None => None
      end
  | _ => Some k
  end.
(** proto/kms_envelope.proto:34-37: kek_uri = 1, dek_template = 2 *)
Definition fields_of_kef (k : kms_envelope_aead_key_format) : list field :=
  f_string 1 (kef_kek_uri k) ++
  match kef_dek_template_opt k with
  | Some p => [(2%N, WLen (serialize_key_template p))]
  | None => []
  end.
Definition kef_step (k : kms_envelope_aead_key_format) (f : field)
  : option kms_envelope_aead_key_format :=
  match f with
  | (1%N, WLen x) =>
      match utf8_decode x with
      | Some u => Some (mk_kms_envelope_aead_key_format u (kef_dek_template_opt k))
      | None => None
      end
  | (2%N, WLen x) =>
      match merge_message key_template_step (kef_dek_template k) x with
      | Some p => Some (mk_kms_envelope_aead_key_format (kef_kek_uri k) (Some p))
      | None => None
      end
  | _ => Some k
  end.
(** proto/kms_envelope.proto:42-44: version = 1, params = 2 *)
Definition fields_of_kek (k : kms_envelope_aead_key) : list field :=
  f_uint32 1 (kek_version k) ++
  match kek_params_opt k with
  | Some p => [(2%N, WLen (encode_fields (fields_of_kef p)))]
  | None => []
  end.
Definition kek_step (k : kms_envelope_aead_key) (f : field) : option kms_envelope_aead_key :=
  match f with
  | (1%N, WVarint n) => Some (mk_kms_envelope_aead_key (uint32_of_varint n) (kek_params_opt k))
  | (2%N, WLen x) =>
      match merge_message kef_step (kek_params k) x with
      | Some p => Some (mk_kms_envelope_aead_key (kek_version k) (Some p))
      | None => None
      end
  | _ => Some k
  end.

(** SerializeToString / FromString of these messages. *)
Definition serialize_kaf (k : kms_aead_key_format) : bytes := encode_fields (fields_of_kaf k).
Definition parse_kaf (x : bytes) : option kms_aead_key_format := merge_message kaf_step default_kaf x.
Definition serialize_kak (k : kms_aead_key) : bytes := encode_fields (fields_of_kak k).
Definition parse_kak (x : bytes) : option kms_aead_key :=
  merge_message kak_step (mk_kms_aead_key 0 None) x.
Definition serialize_kef (k : kms_envelope_aead_key_format) : bytes :=
  encode_fields (fields_of_kef k).
Definition parse_kef (x : bytes) : option kms_envelope_aead_key_format :=
  merge_message kef_step default_kef x.
Definition serialize_kek (k : kms_envelope_aead_key) : bytes := encode_fields (fields_of_kek k).
Definition parse_kek (x : bytes) : option kms_envelope_aead_key :=
  merge_message kek_step (mk_kms_envelope_aead_key 0 None) x.
Definition from_string {A} (o : option A) : result A :=
  match o with Some a => Ok a | None => Err DecodeError end.

(** aead/_kms_aead_key_manager.py:29-32 *)
Definition KMS_AEAD_KEY_TYPE_URL := kms_url "KmsAeadKey".
Definition KMS_ENVELOPE_AEAD_KEY_TYPE_URL := kms_url "KmsEnvelopeAeadKey".

(** aead/_kms_aead_key_manager.py:41-46 *)
Definition kms_aead_primitive (clients : list kms_client) (d : key_data) : result prim :=
  if negb (str_eqb (kd_type_url d) KMS_AEAD_KEY_TYPE_URL) then Err (TinkError "wrong key type: ")
  else
    kms_key <- from_string (parse_kak (kd_value d)) ;;
    client <- kms_client_from_uri clients (kaf_key_uri (kak_params kms_key)) ;;
    a <- kc_get_aead client (kaf_key_uri (kak_params kms_key)) ;;
    Ok (PrimAead a).

(** aead/_kms_aead_key_manager.py:51-64 *)
Definition kms_aead_new_key_data (t : key_template) : result key_data :=
  if negb (str_eqb (kt_type_url t) KMS_AEAD_KEY_TYPE_URL) then Err (TinkError "wrong key type: ")
  else
    params <- from_string (parse_kaf (kt_value t)) ;;
    Ok (mk_key_data KMS_AEAD_KEY_TYPE_URL (serialize_kak (mk_kms_aead_key 0 (Some params))) REMOTE).

(** aead/_kms_aead_key_manager.py:35-67 class KmsAeadKeyManager *)
Definition kms_aead_key_manager (id pytype : N) (clients : list kms_client) : key_manager :=
  mk_key_manager id pytype KMS_AEAD_KEY_TYPE_URL ClsAead (str_eqb KMS_AEAD_KEY_TYPE_URL)
    (kms_aead_primitive clients) (fun _ t => kms_aead_new_key_data t) None.

(** aead/_kms_aead_key_manager.py:76-85 *)
Definition kms_envelope_aead_primitive (reg : registry) (r0 : coins) (clients : list kms_client)
  (d : key_data) : result prim :=
  if negb (str_eqb (kd_type_url d) KMS_ENVELOPE_AEAD_KEY_TYPE_URL) then
    Err (TinkError "wrong key type: ")
  else
    env_key <- from_string (parse_kek (kd_value d)) ;;
    client <- kms_client_from_uri clients (kef_kek_uri (kek_params env_key)) ;;
    remote <- kc_get_aead client (kef_kek_uri (kek_params env_key)) ;;
    a <- new_kms_envelope_aead reg r0 (kef_dek_template (kek_params env_key)) remote ;;
    Ok (PrimAead a).

(** aead/_kms_aead_key_manager.py:90-112 *)
Definition kms_envelope_aead_new_key_data (t : key_template) : result key_data :=
  if negb (str_eqb (kt_type_url t) KMS_ENVELOPE_AEAD_KEY_TYPE_URL) then
    Err (TinkError "wrong key type: ")
  else
    params <- from_string (parse_kef (kt_value t)) ;;
    if negb (is_supported_dek_key_type (kt_type_url (kef_dek_template params))) then
      Err (TinkError "Unsupported DEK key type")
    else
      Ok (mk_key_data KMS_ENVELOPE_AEAD_KEY_TYPE_URL
            (serialize_kek (mk_kms_envelope_aead_key 0 (Some params))) REMOTE).

(** aead/_kms_aead_key_manager.py:70-115 class KmsEnvelopeAeadKeyManager. [reg] is the
    global registry when primitive() is called and [r0] its random choices. *)
Definition kms_envelope_aead_key_manager (id pytype : N) (reg : registry) (r0 : coins)
  (clients : list kms_client) : key_manager :=
  mk_key_manager id pytype KMS_ENVELOPE_AEAD_KEY_TYPE_URL ClsAead
    (str_eqb KMS_ENVELOPE_AEAD_KEY_TYPE_URL)
    (kms_envelope_aead_primitive reg r0 clients) (fun _ t => kms_envelope_aead_new_key_data t) None.

(** aead/_aead_key_templates.py:118-149 create_kms_aead_key_template *)
Definition create_kms_aead_key_template (key_uri : pystr) : key_template :=
  mk_key_template KMS_AEAD_KEY_TYPE_URL (serialize_kaf (mk_kms_aead_key_format key_uri)) RAW.

(** aead/_aead_key_templates.py:152-189 create_kms_envelope_aead_key_template *)
Definition create_kms_envelope_aead_key_template (kek_uri : pystr) (dek_template : key_template)
  : key_template :=
  mk_key_template KMS_ENVELOPE_AEAD_KEY_TYPE_URL
    (serialize_kef (mk_kms_envelope_aead_key_format kek_uri (Some dek_template))) RAW.
