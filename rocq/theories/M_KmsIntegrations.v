(** integration/awskms/_aws_kms_client.py, integration/gcpkms/_gcp_kms_client.py,
    integration/hcvault/_hcvault_kms_aead.py *)
From Coq Require Import Strings.Byte Strings.String List NArith ZArith Bool.
From Verif Require Import M_Base M_Utf8 M_Base64 M_Prims M_Kms.
Import ListNotations.
Open Scope list_scope.
Open Scope N_scope.

(** Python's str.startswith and the rest of the string. *)
Fixpoint strip_prefix (p s : pystr) : option pystr :=
  match p, s with
  | [], _ => Some s
  | a :: p', c :: s' => if a =? c then strip_prefix p' s' else None
  | _ :: _, [] => None
  end.
Definition startswith (s p : pystr) : bool :=
  match strip_prefix p s with Some _ => true | None => false end.

(** The longest prefix of characters in a class, as the greedy [class]+ of re. *)
Fixpoint span (cls : N -> bool) (s : pystr) : pystr * pystr :=
  match s with
  | [] => ([], [])
  | c :: r => if cls c then let (a, b) := span cls r in (c :: a, b) else ([], s)
  end.

(** str.split(sep) for a one-character separator: always at least one part. *)
Fixpoint split_on (sep : N) (s : pystr) : list pystr :=
  match s with
  | [] => [[]]
  | c :: r =>
      match split_on sep r with
      | [] => [[c]]
      | p :: ps => if c =? sep then [] :: p :: ps else (c :: p) :: ps
      end
  end.

(** 'if not x' for an Optional[str] *)
Definition or_none (x : option pystr) : option pystr :=
  match x with Some [] => None | _ => x end.

(** * AWS *)

(** awskms/_aws_kms_client.py:27 *)
Definition AWS_KEYURI_PREFIX : pystr := ulit "aws-kms://".

(** binascii.hexlify(x).decode('utf-8') *)
Definition hex_digit (n : N) : N := if n <? 10 then 48 + n else 87 + n.
Definition hexlify (x : bytes) : pystr :=
  concat (map (fun b => [hex_digit (Byte.to_N b / 16); hex_digit (Byte.to_N b mod 16)]) x).

(** awskms/_aws_kms_client.py:31-36; a dict as its list of items *)
Definition encryption_context (associated_data : bytes) : list (pystr * pystr) :=
  match associated_data with
  | [] => []
  | _ => [(ulit "associatedData", hexlify associated_data)]
  end.

(** A boto3 KMS client: the remote service. Arguments: KeyId, Plaintext or
    CiphertextBlob, EncryptionContext. Simplification: the response is given by its
    CiphertextBlob or Plaintext entry. *)
Record boto3_client := mk_boto3_client {
  boto3_encrypt : coins -> pystr -> bytes -> list (pystr * pystr) -> result bytes;
  boto3_decrypt : pystr -> bytes -> list (pystr * pystr) -> result bytes }.

(** 'except exceptions.ClientError as e: raise tink.TinkError(e)' *)
Definition catch_client_error {A} (r : result A) : result A :=
  match r with Err ClientError => Err (TinkError "ClientError") | _ => r end.

(** awskms/_aws_kms_client.py:39-66 class _AwsKmsAead *)
Definition aws_kms_aead (client : boto3_client) (key_arn : pystr) : aead :=
  mk_aead
    (fun r plaintext associated_data =>
       catch_client_error
         (boto3_encrypt client r key_arn plaintext (encryption_context associated_data)))
    (fun ciphertext associated_data =>
       catch_client_error
         (boto3_decrypt client key_arn ciphertext (encryption_context associated_data))).

(** [a-z0-9-] *)
Definition aws_region_char (c : N) : bool :=
  ((97 <=? c) && (c <=? 122)) || ((48 <=? c) && (c <=? 57)) || (c =? 45).

(** awskms/_aws_kms_client.py:69-71: re.match('aws-kms://arn:aws:kms:([a-z0-9-]+):', uri).
    The class does not contain ':', so the greedy match needs no backtracking. *)
Definition has_aws_key_uri_format (key_uri : pystr) : bool :=
  match strip_prefix (ulit "aws-kms://arn:aws:kms:") key_uri with
  | None => false
  | Some rest =>
      match span aws_region_char rest with
      | ([], _) => false
      | (_, c :: _) => c =? 58
      | (_, []) => false
      end
  end.

(** awskms/_aws_kms_client.py:74-77 *)
Definition key_uri_to_key_arn (key_uri : pystr) : result pystr :=
  match strip_prefix AWS_KEYURI_PREFIX key_uri with
  | None => Err (TinkError "invalid key URI")
  | Some arn => Ok arn
  end.

(** awskms/_aws_kms_client.py:92-97 and 178-182 does_support *)
Definition aws_does_support (bound : option pystr) (key_uri : pystr) : bool :=
  if negb (has_aws_key_uri_format key_uri) then false
  else match bound with None => true | Some u => str_eqb key_uri u end.

(** awskms/_aws_kms_client.py:83-90 and 161-166: the bound URI of a new client *)
Definition aws_bound_uri (key_uri : option pystr) : result (option pystr) :=
  match or_none key_uri with
  | None => Ok None
  | Some u => if negb (has_aws_key_uri_format u) then Err (TinkError "invalid key URI") else Ok (Some u)
  end.

(** awskms/_aws_kms_client.py:99-107 *)
Definition aws_get_aead (client : boto3_client) (bound : option pystr) (key_uri : pystr)
  : result aead :=
  if negb (aws_does_support bound key_uri) then
    match bound with
    | Some _ => Err (TinkError "This client is bound to another key")
    | None => Err (TinkError "This client does not support key")
    end
  else
    arn <- key_uri_to_key_arn key_uri ;;
    Ok (aws_kms_aead client arn).

(** awskms/_aws_kms_client.py:80-114 new_client and class _KmsClient *)
Definition aws_new_client (id : N) (client : boto3_client) (key_uri : option pystr)
  : result kms_client :=
  bound <- aws_bound_uri key_uri ;;
  Ok (mk_kms_client id (aws_does_support bound) (aws_get_aead client bound)).

(** awskms/_aws_kms_client.py:117-130, given what configparser read from the file:
    sections (DEFAULT excluded) with their options. *)
Definition aws_parse_config (config : list (pystr * list (pystr * pystr))) : result (pystr * pystr) :=
  match dict_get str_eqb (ulit "default") config with
  | None => Err (ValueError "invalid config: default not found")
  | Some default =>
      match dict_get str_eqb (ulit "aws_access_key_id") default with
      | None => Err (ValueError "invalid config: aws_access_key_id not found")
      | Some key_id =>
          match dict_get str_eqb (ulit "aws_secret_access_key") default with
          | None => Err (ValueError "invalid config: aws_secret_access_key not found")
          | Some secret => Ok (key_id, secret)
          end
      end
  end.

(** awskms/_aws_kms_client.py:133-139 *)
Definition get_region_from_key_arn (key_arn : pystr) : result pystr :=
  let parts := split_on 58 key_arn in
  if Nat.ltb (length parts) 6 then Err (TinkError "invalid key id")
  else Ok (nth 3 parts []).

(** awskms/_aws_kms_client.py:185-215; [session creds region] is
    boto3.session.Session(...).client('kms') *)
Definition aws_get_aead_session
  (session : option (pystr * pystr) -> pystr -> boto3_client)
  (creds : option (pystr * pystr)) (bound : option pystr) (key_uri : pystr) : result aead :=
  if negb (aws_does_support bound key_uri) then
    match bound with
    | Some _ => Err (TinkError "This client is bound to another key")
    | None => Err (TinkError "This client does not support key")
    end
  else
    arn <- key_uri_to_key_arn key_uri ;;
    region <- get_region_from_key_arn arn ;;
    Ok (aws_kms_aead (session creds region) arn).

(** awskms/_aws_kms_client.py:142-215 class AwsKmsClient; [read_config] is the
    result of reading a configuration file *)
Definition aws_kms_client (id : N) (session : option (pystr * pystr) -> pystr -> boto3_client)
  (read_config : pystr -> list (pystr * list (pystr * pystr)))
  (key_uri credentials_path : option pystr) : result kms_client :=
  bound <- aws_bound_uri key_uri ;;
  creds <- match or_none credentials_path with
           | None => Ok None
           | Some p => c <- aws_parse_config (read_config p) ;; Ok (Some c)
           end ;;
  Ok (mk_kms_client id (aws_does_support bound) (aws_get_aead_session session creds bound)).

(** awskms/_aws_kms_client.py:217-238 *)
Definition aws_register_client (id : N) (session : option (pystr * pystr) -> pystr -> boto3_client)
  (read_config : pystr -> list (pystr * list (pystr * pystr)))
  (key_uri credentials_path : option pystr) (clients : list kms_client)
  : result (list kms_client) :=
  c <- aws_kms_client id session read_config key_uri credentials_path ;;
  Ok (register_kms_client clients c).

(** * GCP *)

(** gcpkms/_gcp_kms_client.py:26 *)
Definition GCP_KEYURI_PREFIX : pystr := ulit "gcp-kms://".

(** kms_v1.KeyManagementServiceClient: name, payload, additional authenticated data.
    Simplification: the response is given by its ciphertext or plaintext field. *)
Record gcp_service := mk_gcp_service {
  gcp_encrypt : coins -> pystr -> bytes -> bytes -> result bytes;
  gcp_decrypt : pystr -> bytes -> bytes -> result bytes }.

(** [a-zA-Z0-9_-] *)
Definition gcp_name_char (c : N) : bool :=
  ((97 <=? c) && (c <=? 122)) || ((65 <=? c) && (c <=? 90)) || ((48 <=? c) && (c <=? 57))
  || (c =? 95) || (c =? 45).

(** One segment: [cls]{1,max}, deterministic because what follows is outside the
    class. *)
Definition segment (cls : N -> bool) (max : option nat) (s : pystr) : option pystr :=
  let (a, r) := span cls s in
  match a with
  | [] => None
  | _ => match max with
         | Some m => if Nat.leb (length a) m then Some r else None
         | None => Some r
         end
  end.

(** gcpkms/_gcp_kms_client.py:27-32 and _KMS_KEY_REGEX.match(key_name); '$' matches at
    the end and before a final line break. *)
Definition gcp_key_regex_match (key_name : pystr) : bool :=
  match strip_prefix (ulit "projects/") key_name with
  | None => false
  | Some s1 =>
  match segment (fun c => negb (c =? 47)) None s1 with
  | None => false
  | Some s2 =>
  match strip_prefix (ulit "/locations/") s2 with
  | None => false
  | Some s3 =>
  match segment gcp_name_char (Some 63%nat) s3 with
  | None => false
  | Some s4 =>
  match strip_prefix (ulit "/keyRings/") s4 with
  | None => false
  | Some s5 =>
  match segment gcp_name_char (Some 63%nat) s5 with
  | None => false
  | Some s6 =>
  match strip_prefix (ulit "/cryptoKeys/") s6 with
  | None => false
  | Some s7 =>
  match segment gcp_name_char (Some 63%nat) s7 with
  | Some [] => true
  | Some [c] => c =? 10
  | _ => false
  end end end end end end end end.

(** 'except core_exceptions.GoogleAPIError as e: raise tink.TinkError(e)' *)
Definition catch_google_error {A} (r : result A) : result A :=
  match r with Err GoogleAPIError => Err (TinkError "GoogleAPIError") | _ => r end.

(** gcpkms/_gcp_kms_client.py:35-78 class _GcpKmsAead *)
Definition gcp_kms_aead (client : gcp_service) (key_name : pystr) : result aead :=
  match key_name with
  | [] => Err (TinkError "key_name cannot be null.")
  | _ =>
      if negb (gcp_key_regex_match key_name) then Err (TinkError "Invalid key_name format")
      else Ok (mk_aead
        (fun r plaintext associated_data =>
           catch_google_error (gcp_encrypt client r key_name plaintext associated_data))
        (fun ciphertext associated_data =>
           catch_google_error (gcp_decrypt client key_name ciphertext associated_data)))
  end.

(** gcpkms/_gcp_kms_client.py:116-128 *)
Definition gcp_does_support (bound : option pystr) (key_uri : pystr) : bool :=
  match bound with
  | None => startswith key_uri GCP_KEYURI_PREFIX
  | Some u => str_eqb key_uri u
  end.

(** gcpkms/_gcp_kms_client.py:130-148 *)
Definition gcp_get_aead (client : gcp_service) (bound : option pystr) (key_uri : pystr)
  : result aead :=
  if match bound with Some u => negb (str_eqb u key_uri) | None => false end then
    Err (TinkError "This client is bound to another key")
  else
    match strip_prefix GCP_KEYURI_PREFIX key_uri with
    | None => Err (TinkError "Invalid key_uri.")
    | Some key_id => gcp_kms_aead client key_id
    end.

(** gcpkms/_gcp_kms_client.py:81-148 class GcpKmsClient; [service creds] creates the
    Google client, from the default credentials or a credentials file. *)
Definition gcp_kms_client (id : N) (service : option pystr -> result gcp_service)
  (key_uri credentials_path : option pystr) : result kms_client :=
  bound <- match or_none key_uri with
           | None => Ok None
           | Some u => if startswith u GCP_KEYURI_PREFIX then Ok (Some u)
                       else Err (TinkError "Invalid key_uri.")
           end ;;
  client <- service (or_none credentials_path) ;;
  Ok (mk_kms_client id (gcp_does_support bound) (gcp_get_aead client bound)).

(** gcpkms/_gcp_kms_client.py:150-171 *)
Definition gcp_register_client (id : N) (service : option pystr -> result gcp_service)
  (key_uri credentials_path : option pystr) (clients : list kms_client)
  : result (list kms_client) :=
  c <- gcp_kms_client id service key_uri credentials_path ;;
  Ok (register_kms_client clients c).

(** * HashiCorp Vault *)

(** urllib.parse.quote(s): safe characters are letters, digits, '_', '.', '-', '~'
    and '/'; every other byte of the UTF-8 encoding becomes %XX. *)
Definition quote_safe (n : N) : bool :=
  ((97 <=? n) && (n <=? 122)) || ((65 <=? n) && (n <=? 90)) || ((48 <=? n) && (n <=? 57))
  || (n =? 95) || (n =? 46) || (n =? 45) || (n =? 126) || (n =? 47).
Definition upper_hex_digit (n : N) : N := if n <? 10 then 48 + n else 55 + n.
Definition quote_byte (b : byte) : pystr :=
  let n := Byte.to_N b in
  if quote_safe n then [n] else [37; upper_hex_digit (n / 16); upper_hex_digit (n mod 16)].
Definition quote (s : pystr) : result pystr :=
  match utf8_encode s with
  | None => Err UnicodeError
  | Some e => Ok (concat (map quote_byte e))
  end.

(** '/'.join *)
Fixpoint join_slash (l : list pystr) : pystr :=
  match l with
  | [] => []
  | x :: r => match r with [] => x | _ => x ++ 47 :: join_slash r end
  end.

Definition nonempty (x : pystr) : bool := match x with [] => false | _ => true end.

(** hcvault/_hcvault_kms_aead.py:26-46 _PATH_MATCHER.fullmatch, as the regular
    expression reads on the '/'-separated segments: an optional empty first segment,
    then at least three nonempty ones, the last but one being 'keys'. *)
Definition path_match (path : pystr) : option (pystr * pystr) :=
  let segs := split_on 47 path in
  let segs := match segs with [] :: r => r | _ => segs end in
  match rev segs with
  | name :: k :: m1 :: ms =>
      if nonempty name && str_eqb k (ulit "keys") && forallb nonempty (m1 :: ms) then
        Some (join_slash (rev (m1 :: ms)), name)
      else None
  | _ => None
  end.

(** hcvault/_hcvault_kms_aead.py:49-68 *)
Definition get_endpoint_paths (key_path : pystr) : result (pystr * pystr) :=
  escaped_path <- quote key_path ;;
  match path_match escaped_path with
  | None => Err (TinkError "Invalid key_path")
  | Some mk => Ok mk
  end.

(** hvac.Client().secrets.transit: name, base64 text of the plaintext or ciphertext
    text, mount point. Simplification: context (always '') is left out and the
    response is given by its ['data']['ciphertext'] or ['data']['plaintext']. *)
Record vault_client := mk_vault_client {
  vault_encrypt : coins -> pystr -> bytes -> pystr -> result pystr;
  vault_decrypt : pystr -> pystr -> pystr -> result bytes }.

(** 'except Exception as e: raise tink.TinkError(e)' *)
Definition catch_all {A} (r : result A) : result A :=
  match r with Err _ => Err (TinkError "Exception") | Ok _ => r end.

Definition str_encode (s : pystr) : result bytes :=
  match utf8_encode s with Some e => Ok e | None => Err UnicodeError end.
Definition bytes_decode (x : bytes) : result pystr :=
  match utf8_decode x with Some s => Ok s | None => Err UnicodeError end.

(** hcvault/_hcvault_kms_aead.py:84-100 *)
Definition vault_aead_encrypt (client : vault_client) (mount_point key_name : pystr)
  (r : coins) (plaintext associated_data : bytes) : result bytes :=
  catch_all
    match associated_data with
    | _ :: _ => Err NotImplementedError
    | [] =>
        ct <- vault_encrypt client r key_name (b64encode plaintext) mount_point ;;
        str_encode ct
    end.

(** hcvault/_hcvault_kms_aead.py:102-118 *)
Definition vault_aead_decrypt (client : vault_client) (mount_point key_name : pystr)
  (ciphertext associated_data : bytes) : result bytes :=
  catch_all
    match associated_data with
    | _ :: _ => Err NotImplementedError
    | [] =>
        text <- bytes_decode ciphertext ;;
        pt <- vault_decrypt client key_name text mount_point ;;
        match b64decode pt with
        | Some x => Ok x
        | None => Err (ValueError "binascii.Error")
        end
    end.

(** hcvault/_hcvault_kms_aead.py:71-82 new_aead *)
Definition vault_new_aead (key_path : pystr) (client : vault_client) : result aead :=
  '(mount_point, key_name) <- get_endpoint_paths key_path ;;
  Ok (mk_aead (vault_aead_encrypt client mount_point key_name)
        (vault_aead_decrypt client mount_point key_name)).
