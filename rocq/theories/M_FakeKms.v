(** testing/fake_kms.py *)
From Coq Require Import Strings.Byte Strings.String List NArith ZArith Bool.
From Verif Require Import M_Base M_Utf8 M_Base64 M_Proto M_Prims M_Registry M_KeysetHandle M_KeysetIO M_Kms
  M_KmsIntegrations M_Walkthrough.
Import ListNotations.
Open Scope string_scope.
Open Scope list_scope.

(** testing/fake_kms.py:24 *)
Definition FAKE_KMS_PREFIX : pystr := ulit "fake-kms://".

(** testing/fake_kms.py:30-36 FakeKmsClient.__init__: the attribute _key_uri *)
Definition fake_bound_uri (key_uri : option pystr) : result (option pystr) :=
  match or_none key_uri with
  | None => Ok None
  | Some u => if startswith u FAKE_KMS_PREFIX then Ok (Some u) else Err (TinkError "invalid key URI")
  end.

(** testing/fake_kms.py:38-43 *)
Definition fake_does_support (bound : option pystr) (key_uri : pystr) : bool :=
  if negb (startswith key_uri FAKE_KMS_PREFIX) then false
  else match bound with None => true | Some u => str_eqb key_uri u end.

(** testing/fake_kms.py:45-53. [reg]: the global registry. UnicodeEncodeError is
    [UnicodeError], binascii.Error is a ValueError. *)
Definition fake_get_aead (reg : registry) (key_uri : pystr) : result aead :=
  match strip_prefix FAKE_KMS_PREFIX key_uri with
  | None => Err (TinkError "invalid key URI")
  | Some key_id =>
      match utf8_encode key_id with
      | None => Err UnicodeError
      | Some encoded =>
          match urlsafe_b64decode (encoded ++ [pad; pad; pad]) with
          | None => Err (ValueError "binascii.Error")
          | Some serialized_key =>
              handle <- proto_parse serialized_key SecretKeyAccessToken ;;
              p <- handle_primitive reg handle ClsAead ;;
              Ok (as_aead p)
          end
      end
  end.

(** testing/fake_kms.py:27-53 class FakeKmsClient *)
Definition FakeKmsClient (id : N) (reg : registry) (key_uri : option pystr) : result kms_client :=
  bound <- fake_bound_uri key_uri ;;
  Ok (mk_kms_client id (fake_does_support bound) (fake_get_aead reg)).

(** testing/fake_kms.py:56-59 register_client *)
Definition fake_register_client (id : N) (reg : registry) (key_uri : option pystr) (clients : list kms_client)
  : result (list kms_client) :=
  c <- FakeKmsClient id reg key_uri ;;
  Ok (register_kms_client clients c).
