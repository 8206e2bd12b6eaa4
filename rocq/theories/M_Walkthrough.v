(** The functions of python/examples/walkthrough and the five programs
    python/examples/*/*_basic.py. *)
From Coq Require Import Strings.Byte Strings.String List NArith ZArith Bool.
From Verif Require Import M_Base M_Proto M_Prims M_Registry M_KeysetHandle M_Kms M_Json
  M_JsonKeyset M_KeysetStream M_CcManagers M_KeyFormats M_Templates.
Import ListNotations.
Open Scope string_scope.
Open Scope list_scope.

(** A primitive of the handle used as an Aead: whatever its class is, encrypt and decrypt
    are looked up when they are called. *)
Definition as_aead (p : prim) : aead := mk_aead (call_encrypt p) (call_decrypt p).

Section Walkthrough.
  (** The global registry, Python's and protobuf's run time. *)
  Variable reg : registry.
  Variable rt : py_rt.
  Variable pb : pb_rt.

  (** examples/walkthrough/create_keyset.py:20-37. [rnd] and [draws]: the random choices
      for the key and its id. None: the loop for the key id needs more draws. *)
  Definition CreateAead128GcmKeyset (rnd : coins) (draws : list N) : option (result keyset_handle) :=
    match create_aes_gcm 16 TINK with
    | Err e => Some (Err e)
    | Ok key_template => new_keyset_handle reg rnd draws key_template
    end.

  (** examples/walkthrough/load_cleartext_keyset.py:20-40 *)
  Definition LoadKeyset (serialized_keyset : pystr) : result keyset_handle :=
    json_proto_parse rt pb serialized_keyset SecretKeyAccessToken.

  (** examples/walkthrough/write_cleartext_keyset.py:22-35; [io] is the text stream *)
  Definition WriteKeyset {St} (keyset : keyset_handle) (io : out_stream N St) (st : St)
    : result unit * St :=
    match json_proto_serialize rt keyset SecretKeyAccessToken with
    | Err e => (Err e, st)
    | Ok serialized_keyset => os_write io serialized_keyset st
    end.

  (** examples/walkthrough/write_keyset.py:22-28. None: as above. *)
  Definition GetKmsAead (rnd : coins) (draws : list N) (kms_kek_uri : pystr) : option (result prim) :=
    match new_keyset_handle reg rnd draws (create_kms_aead_key_template kms_kek_uri) with
    | None => None
    | Some made => Some (h <- made ;; handle_primitive reg h ClsAead)
    end.

  (** examples/walkthrough/write_keyset.py:31-58. [rnd'] is the random choice of the
      encryption. *)
  Definition WriteEncryptedKeyset {St} (rnd rnd' : coins) (draws : list N) (keyset_handle : keyset_handle)
      (io : out_stream N St) (kms_kek_uri : pystr) (associated_data : bytes) (st : St)
    : option (result unit * St) :=
    match GetKmsAead rnd draws kms_kek_uri with
    | None => None
    | Some (Err e) => Some (Err e, st)
    | Some (Ok kms_aead) =>
        Some (write_with_associated_data keyset_handle (json_keyset_writer_on rt io) (as_aead kms_aead)
                rnd' associated_data st)
    end.

  (** examples/walkthrough/load_encrypted_keyset.py:21-57 *)
  Definition LoadEncryptedKeyset (rnd : coins) (draws : list N) (json_serialized_encrypted_keyset : pystr)
      (kms_key_uri : pystr) (associated_data : bytes) : option (result keyset_handle) :=
    match GetKmsAead rnd draws kms_key_uri with
    | None => None
    | Some got =>
        Some (kms_aead <- got ;;
              json_proto_parse_encrypted rt pb json_serialized_encrypted_keyset (as_aead kms_aead)
                associated_data)
    end.

  (** examples/walkthrough/obtain_and_use_a_primitive.py:20-44 *)
  Definition AeadEncrypt (keyset_handle : keyset_handle) (rnd : coins) (plaintext associated_data : bytes)
    : result bytes :=
    aead_primitive <- handle_primitive reg keyset_handle ClsAead ;;
    call_encrypt aead_primitive rnd plaintext associated_data.

  (** examples/walkthrough/obtain_and_use_a_primitive.py:47-72 *)
  Definition AeadDecrypt (keyset_handle : keyset_handle) (ciphertext associated_data : bytes)
    : result bytes :=
    aead_primitive <- handle_primitive reg keyset_handle ClsAead ;;
    call_decrypt aead_primitive ciphertext associated_data.
End Walkthrough.

(** ** The *_basic.py programs *)

(** examples/aead/aead_basic.py:29-44 *)
Definition aead_basic_keyset : pystr := ulit "{
      ""key"": [{
          ""keyData"": {
              ""keyMaterialType"":
                  ""SYMMETRIC"",
              ""typeUrl"":
                  ""type.googleapis.com/google.crypto.tink.AesGcmKey"",
              ""value"":
                  ""GiBWyUfGgYk3RTRhj/LIUzSudIWlyjCftCOypTr0jCNSLg==""
          },
          ""keyId"": 294406504,
          ""outputPrefixType"": ""TINK"",
          ""status"": ""ENABLED""
      }],
      ""primaryKeyId"": 294406504
  }".

(** examples/deterministic_aead/deterministic_aead_basic.py:29-44 *)
Definition daead_basic_keyset : pystr := ulit "{
      ""key"": [{
          ""keyData"": {
              ""keyMaterialType"":
                  ""SYMMETRIC"",
              ""typeUrl"":
                  ""type.googleapis.com/google.crypto.tink.AesSivKey"",
              ""value"":
                  ""EkAl9HCMmKTN1p3V186uhZpJQ+tivyc4IKyE+opg6SsEbWQ/WesWHzwCRrlgRuxdaggvgMzwWhjPnkk9gptBnGLK""
          },
          ""keyId"": 1919301694,
          ""outputPrefixType"": ""TINK"",
          ""status"": ""ENABLED""
      }],
      ""primaryKeyId"": 1919301694
  }".

(** examples/mac/mac_basic.py:29-44 *)
Definition mac_basic_keyset : pystr := ulit "{
      ""key"": [{
          ""keyData"": {
              ""keyMaterialType"":
                  ""SYMMETRIC"",
              ""typeUrl"":
                  ""type.googleapis.com/google.crypto.tink.HmacKey"",
              ""value"":
                  ""EgQIAxAQGiA0LQjovcydWhVQV3k8W9ZSRkd7Ei4Y/TRWApE8guwV4Q==""
          },
          ""keyId"": 1892702217,
          ""outputPrefixType"": ""TINK"",
          ""status"": ""ENABLED""
      }],
      ""primaryKeyId"": 1892702217
  }".

(** examples/hybrid/hybrid_basic.py:32-47 *)
Definition hybrid_basic_private_keyset : pystr := ulit "{
      ""key"": [{
          ""keyData"": {
              ""keyMaterialType"":
                  ""ASYMMETRIC_PRIVATE"",
              ""typeUrl"":
                  ""type.googleapis.com/google.crypto.tink.HpkePrivateKey"",
              ""value"":
                  ""EioSBggBEAEYAhogVWQpmQoz74jcAp5WOD36KiBQ71MVCpn2iWfOzWLtKV4aINfn8qlMbyijNJcCzrafjsgJ493ZZGN256KTfKw0WN+p""
          },
          ""keyId"": 958452012,
          ""outputPrefixType"": ""TINK"",
          ""status"": ""ENABLED""
      }],
      ""primaryKeyId"": 958452012
  }".

(** examples/hybrid/hybrid_basic.py:51-65 *)
Definition hybrid_basic_public_keyset : pystr := ulit "{
      ""key"": [{
          ""keyData"": {
              ""keyMaterialType"":
                  ""ASYMMETRIC_PUBLIC"",
              ""typeUrl"":
                  ""type.googleapis.com/google.crypto.tink.HpkePublicKey"",
              ""value"":
                  ""EgYIARABGAIaIFVkKZkKM++I3AKeVjg9+iogUO9TFQqZ9olnzs1i7Sle""          },
          ""keyId"": 958452012,
          ""outputPrefixType"": ""TINK"",
          ""status"": ""ENABLED""
      }],
      ""primaryKeyId"": 958452012
  }".

(** examples/signature/signature_basic.py:30-45 *)
Definition signature_basic_private_keyset : pystr := ulit "{
      ""key"": [{
          ""keyData"": {
              ""keyMaterialType"":
                  ""ASYMMETRIC_PRIVATE"",
              ""typeUrl"":
                  ""type.googleapis.com/google.crypto.tink.EcdsaPrivateKey"",
              ""value"":
                  ""EkwSBggDEAIYAhogEiSZ9u2nDtvZuDgWgGsVTIZ5/V08N4ycUspTX0RYRrkiIHpEwHxQd1bImkyMvV2bqtUbgMh5uPSTdnUEGrPXdt56GiEA3iUi+CRN71qy0fOCK66xAW/IvFyjOGtxjppRhSFUneo=""
          },
          ""keyId"": 611814836,
          ""outputPrefixType"": ""TINK"",
          ""status"": ""ENABLED""
      }],
      ""primaryKeyId"": 611814836
  }".

(** examples/signature/signature_basic.py:49-64 *)
Definition signature_basic_public_keyset : pystr := ulit "{
      ""key"": [{
          ""keyData"": {
              ""keyMaterialType"":
                  ""ASYMMETRIC_PUBLIC"",
              ""typeUrl"":
                  ""type.googleapis.com/google.crypto.tink.EcdsaPublicKey"",
              ""value"":
                  ""EgYIAxACGAIaIBIkmfbtpw7b2bg4FoBrFUyGef1dPDeMnFLKU19EWEa5IiB6RMB8UHdWyJpMjL1dm6rVG4DIebj0k3Z1BBqz13beeg==""
          },
          ""keyId"": 611814836,
          ""outputPrefixType"": ""TINK"",
          ""status"": ""ENABLED""
      }],
      ""primaryKeyId"": 611814836
  }".

(** [assert b]; AssertionError is [OtherError 1]. *)
Definition python_assert (b : bool) : result unit := if b then Ok tt else Err (OtherError 1).

Section Basic.
  Variable w : cc_world.
  Variable env : py_env.
  Variable pb : pb_rt.

  (** [register()] in the current state of the registry, then the rest with the new
      registry. [n] numbers the objects, as in [setup_run]. *)
  Definition after_register (c : setup_call) (n : N) (r : registry) (rest : registry -> result unit)
    : registry * result unit :=
    match perform (setup_action w env n c) r with
    | (r', Ok _) => (r', rest r')
    | (r', Err e) => (r', Err e)
    end.

  (** examples/aead/aead_basic.py:21-67 *)
  Definition aead_basic (n : N) (r : registry) (rnd : coins) : registry * result unit :=
    after_register CallAead n r (fun reg =>
    keyset_handle <- json_proto_parse (pe_rt env) pb aead_basic_keyset SecretKeyAccessToken ;;
    primitive <- handle_primitive reg keyset_handle ClsAead ;;
    ciphertext <- call_encrypt primitive rnd (blit "msg") (blit "associated_data") ;;
    output <- call_decrypt primitive ciphertext (blit "associated_data") ;;
    python_assert (bytes_eqb output (blit "msg"))).

  (** examples/deterministic_aead/deterministic_aead_basic.py:21-68 *)
  Definition deterministic_aead_basic (n : N) (r : registry) : registry * result unit :=
    after_register CallDaead n r (fun reg =>
    keyset_handle <- json_proto_parse (pe_rt env) pb daead_basic_keyset SecretKeyAccessToken ;;
    primitive <- handle_primitive reg keyset_handle ClsDaead ;;
    ciphertext <- call_encrypt_deterministically primitive (blit "msg") (blit "associated_data") ;;
    output <- call_decrypt_deterministically primitive ciphertext (blit "associated_data") ;;
    python_assert (bytes_eqb output (blit "msg"))).

  (** examples/mac/mac_basic.py:21-66 *)
  Definition mac_basic (n : N) (r : registry) : registry * result unit :=
    after_register CallMac n r (fun reg =>
    keyset_handle <- json_proto_parse (pe_rt env) pb mac_basic_keyset SecretKeyAccessToken ;;
    primitive <- handle_primitive reg keyset_handle ClsMac ;;
    tag <- call_compute_mac primitive (blit "data") ;;
    call_verify_mac primitive tag (blit "data")).

  (** examples/hybrid/hybrid_basic.py:21-98 *)
  Definition hybrid_basic (n : N) (r : registry) (rnd : coins) : registry * result unit :=
    after_register CallHybrid n r (fun reg =>
    public_keyset_handle <- json_proto_parse_without_secret (pe_rt env) pb hybrid_basic_public_keyset ;;
    enc_primitive <- handle_primitive reg public_keyset_handle ClsHybridEncrypt ;;
    ciphertext <- call_encrypt enc_primitive rnd (blit "message") (blit "context_info") ;;
    private_keyset_handle <- json_proto_parse (pe_rt env) pb hybrid_basic_private_keyset SecretKeyAccessToken ;;
    dec_primitive <- handle_primitive reg private_keyset_handle ClsHybridDecrypt ;;
    decrypted <- call_decrypt dec_primitive ciphertext (blit "context_info") ;;
    python_assert (bytes_eqb decrypted (blit "message"))).

  (** examples/signature/signature_basic.py:21-104 *)
  Definition signature_basic (n : N) (r : registry) (rnd : coins) : registry * result unit :=
    after_register CallSignature n r (fun reg =>
    private_keyset_handle <- json_proto_parse (pe_rt env) pb signature_basic_private_keyset SecretKeyAccessToken ;;
    sign_primitive <- handle_primitive reg private_keyset_handle ClsSign ;;
    sig <- call_sign sign_primitive rnd (blit "msg") ;;
    public_handle <- json_proto_parse_without_secret (pe_rt env) pb signature_basic_public_keyset ;;
    verify_primitive <- handle_primitive reg public_handle ClsVerify ;;
    _ <- call_verify verify_primitive sig (blit "msg") ;;
    public_keyset_handle2 <- public_keyset_handle reg private_keyset_handle ;;
    verify_primitive2 <- handle_primitive reg public_keyset_handle2 ClsVerify ;;
    call_verify verify_primitive2 sig (blit "msg")).
End Basic.
