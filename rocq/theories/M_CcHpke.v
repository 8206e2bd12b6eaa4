(** HPKE in the C++ library: /repo/cc/hybrid/internal/hpke_{encrypt,decrypt,context,context_boringssl,util,util_boringssl}.cc
    and the key managers /repo/cc/hybrid/internal/hpke_{private,public}_key_manager.{h,cc}, hpke_key_manager_util.cc, with
    the keys of /repo/proto/hpke.proto.

    BoringSSL's EVP_HPKE functions are arguments. Not modelled: Export (Tink does not call it), FIPS mode, the new
    key classes (hpke_parameters.cc and so on), and failures of memory allocation. *)
From Coq Require Import Strings.Byte Strings.String List NArith ZArith Bool.
From Verif Require Import M_Base M_Proto M_Wire M_ProtoMsg M_KeyFormats M_Prims M_StreamTypes M_CcStream M_CcManagers M_CcAes
  M_CcStreamKeys M_CcModes M_CcSymmetric M_CcSymKeys M_CcEcies M_CcEciesKeys M_CcSignatures.
Import ListNotations.
Open Scope string_scope.
Open Scope list_scope.
Open Scope nat_scope.

(** ** BoringSSL *)

(** hpke_util.h:31-49: the algorithms that Tink knows; one KEM, one KDF, three AEADs *)
Inductive hpke_aead := HpkeAes128Gcm | HpkeAes256Gcm | HpkeChaCha20Poly1305.
(** EVP_HPKE_CTX_setup_sender (the encapsulated key and the context), EVP_HPKE_KEY_init,
    EVP_HPKE_CTX_setup_recipient with the key, EVP_HPKE_CTX_seal and EVP_HPKE_CTX_open for the
    first message of a context (Tink makes a context for each message); the KEM is X25519 with HKDF-SHA256, the KDF
    HKDF-SHA256. *)
Record hpke_crypto := mk_hpke_crypto {
  hpke_ctx : Type;
  hpke_setup_sender : hpke_aead -> bytes -> bytes -> coins -> option (bytes * hpke_ctx);
  hpke_key_init : bytes -> bool;
  hpke_setup_recipient : hpke_aead -> bytes -> bytes -> bytes -> option hpke_ctx;
  hpke_seal : hpke_ctx -> bytes -> bytes -> option bytes;
  hpke_open : hpke_ctx -> bytes -> bytes -> option bytes }.

(** ** Messages: proto/hpke.proto:53-67 *)
Definition HpkePublicKey : schema := [("version", 1%N, TUint32); ("params", 2%N, TMsg HpkeParams); ("public_key", 3%N, TBytes)].
Definition HpkePrivateKey : schema := [("version", 1%N, TUint32); ("public_key", 2%N, TMsg HpkePublicKey); ("private_key", 3%N, TBytes)].

Section Hpke.
  Variable ec : ec_crypto.
  Variable hc : hpke_crypto.

  (** ** Parameters *)

  (** hpke_util.cc:56-70 HpkeAeadProtoToEnum; hpke_util_boringssl.cc:83-96 AeadParam is the same choice again *)
  Definition hpke_aead_proto_to_enum (aead : Z) : st_or hpke_aead :=
    match aead with
    | 1 => StOk HpkeAes128Gcm | 2 => StOk HpkeAes256Gcm | 3 => StOk HpkeChaCha20Poly1305
    | _ => StErr (NotOk "Unable to convert unsupported HPKE AEAD")
    end%Z.
  (** hpke_util.cc:34-54, 74-83 HpkeParamsProtoToStruct; the AEAD is what is left to choose *)
  Definition hpke_params_proto_to_struct (kem kdf aead : Z) : st_or hpke_aead :=
    if negb (kem =? 1)%Z then StErr (NotOk "Unable to convert unsupported HPKE KEM")
    else if negb (kdf =? 1)%Z then StErr (NotOk "Unable to convert unsupported HPKE KDF")
    else hpke_aead_proto_to_enum aead.
  (** hpke_util.cc:85-97 HpkeEncapsulatedKeyLength *)
  Definition hpke_encapsulated_key_length (kem : Z) : st_or nat :=
    if (kem =? 1)%Z then ec_point_encoding_size CURVE25519 Uncompressed
    else StErr (NotOk "Unable to determine KEM-encoding length").

  (** ** Contexts *)

  (** hpke_context.cc:55-69 SetupSender, hpke_context_boringssl.cc:42-76 SetupSender *)
  Definition setup_sender (aead : hpke_aead) (recipient_public_key info : bytes) (rnd : coins) : st_or (bytes * hpke_ctx hc) :=
    match recipient_public_key with
    | [] => StErr (NotOk "Recipient public key is empty.")
    | _ =>
        match hpke_setup_sender hc aead recipient_public_key info rnd with
        | None => StErr (NotOk "Unable to set up HPKE sender context.")
        | Some context => StOk context
        end
    end.
  (** hpke_context.cc:71-90 SetupRecipient, hpke_context_boringssl.cc:78-113 SetupRecipient *)
  Definition setup_recipient (aead : hpke_aead) (recipient_private_key encapsulated_key info : bytes) : st_or (hpke_ctx hc) :=
    match recipient_private_key, encapsulated_key with
    | [], _ => StErr (NotOk "Recipient private key is empty.")
    | _, [] => StErr (NotOk "Encapsulated key is empty.")
    | _, _ =>
        if negb (hpke_key_init hc recipient_private_key) then StErr (NotOk "Unable to initialize BoringSSL HPKE recipient private key.")
        else match hpke_setup_recipient hc aead recipient_private_key encapsulated_key info with
             | None => StErr (NotOk "Unable to set up BoringSSL HPKE recipient context.")
             | Some context => StOk context
             end
    end.
  (** hpke_context_boringssl.cc:115-136 Seal, 138-155 Open *)
  Definition context_seal (context : hpke_ctx hc) (plaintext associated_data : bytes) : st_or bytes :=
    match hpke_seal hc context plaintext associated_data with
    | None => StErr (NotOk "BoringSSL HPKE encryption failed.") | Some ciphertext => StOk ciphertext
    end.
  Definition context_open (context : hpke_ctx hc) (ciphertext associated_data : bytes) : st_or bytes :=
    match hpke_open hc context ciphertext associated_data with
    | None => StErr (NotOk "BoringSSL HPKE decryption failed.") | Some plaintext => StOk plaintext
    end.

  (** ** Encryption and decryption *)

  (** hpke_encrypt.cc:66-83 Encrypt; hpke_context.cc:39-42 ConcatenatePayload *)
  Definition hpke_encrypt (kem kdf aead : Z) (recipient_public_key : bytes) (rnd : coins) (plaintext context_info : bytes) : st_or bytes :=
    bind_st (hpke_params_proto_to_struct kem kdf aead) (fun a =>
    bind_st (setup_sender a recipient_public_key context_info rnd) (fun '(encapsulated_key, context) =>
    bind_st (context_seal context plaintext []) (fun ciphertext =>
    StOk (encapsulated_key ++ ciphertext)))).
  (** hpke_decrypt.cc:80-104 Decrypt *)
  Definition hpke_decrypt (kem kdf aead : Z) (recipient_private_key : bytes) (ciphertext context_info : bytes) : st_or bytes :=
    bind_st (hpke_encapsulated_key_length kem) (fun encoding_size =>
    if Nat.ltb (length ciphertext) encoding_size then StErr (NotOk "Ciphertext is too short.")
    else
      let encapsulated_key := firstn encoding_size ciphertext in
      let ciphertext_payload := skipn encoding_size ciphertext in
      bind_st (hpke_params_proto_to_struct kem kdf aead) (fun a =>
      bind_st (setup_recipient a recipient_private_key encapsulated_key context_info) (fun context =>
      context_open context ciphertext_payload []))).
  (** hpke_encrypt.cc:40-64 New *)
  Definition hpke_encrypt_new (m : message) : st_or cc_hybrid_encrypt :=
    let num p := num_at HpkePublicKey m p in
    if empty_at HpkePublicKey m ["public_key"] then StErr (NotOk "Recipient public key is empty.")
    else if negb (has_at HpkePublicKey m ["params"]) then StErr (NotOk "Recipient public key is missing HPKE parameters.")
    else if negb (num ["params"; "kem"] =? 1)%Z then StErr (NotOk "Recipient public key has an unsupported KEM")
    else if negb (num ["params"; "kdf"] =? 1)%Z then StErr (NotOk "Recipient public key has an unsupported KDF")
    else if (num ["params"; "aead"] =? 0)%Z then StErr (NotOk "Recipient public key is missing AEAD")
    else StOk (mk_cc_hybrid_encrypt (fun rnd plaintext context_info =>
           hpke_encrypt (num ["params"; "kem"]) (num ["params"; "kdf"]) (num ["params"; "aead"])
             (bytes_at HpkePublicKey m ["public_key"]) rnd plaintext context_info)).
  (** hpke_decrypt.cc:46-78 New *)
  Definition hpke_decrypt_new (m : message) : st_or cc_hybrid_decrypt :=
    let num p := num_at HpkePrivateKey m p in
    if empty_at HpkePrivateKey m ["private_key"] then StErr (NotOk "Recipient private key is empty.")
    else if negb (has_at HpkePrivateKey m ["public_key"]) then StErr (NotOk "Recipient private key is missing public key.")
    else if negb (has_at HpkePrivateKey m ["public_key"; "params"]) then StErr (NotOk "Recipient private key is missing HPKE parameters.")
    else if negb (num ["public_key"; "params"; "kem"] =? 1)%Z then StErr (NotOk "Recipient private key has an unsupported KEM")
    else if negb (num ["public_key"; "params"; "kdf"] =? 1)%Z then StErr (NotOk "Recipient private key has an unsupported KDF")
    else if (num ["public_key"; "params"; "aead"] =? 0)%Z then StErr (NotOk "Recipient private key is missing AEAD")
    else StOk (mk_cc_hybrid_decrypt (fun ciphertext context_info =>
           hpke_decrypt (num ["public_key"; "params"; "kem"]) (num ["public_key"; "params"; "kdf"]) (num ["public_key"; "params"; "aead"])
             (bytes_at HpkePrivateKey m ["private_key"]) ciphertext context_info)).

  (** ** Key managers *)

  (** hpke_key_manager_util.cc:36-50 ValidateParams: [at_] leads to the HpkeParams *)
  Definition hpke_validate_params (fs : schema) (at_ : list string -> list string) (m : message) : option cc_status :=
    and_then (check (num_at fs m (at_ ["kem"]) =? 0)%Z "Invalid KEM param.")
      (and_then (check (num_at fs m (at_ ["kdf"]) =? 0)%Z "Invalid KDF param.")
         (check (num_at fs m (at_ ["aead"]) =? 0)%Z "Invalid AEAD param.")).
  (** hpke_key_manager_util.cc:52-61 ValidateKeyAndVersion, hpke_public_key_manager.cc:28-30 ValidateKey: [at_] leads to
      the HpkePublicKey *)
  Definition hpke_validate_public (fs : schema) (at_ : list string -> list string) (m : message) : option cc_status :=
    and_then (validate_version (num_at fs m (at_ ["version"])) 0)
      (and_then (check (negb (has_at fs m (at_ ["params"]))) "Missing HPKE key params.")
         (hpke_validate_params fs (fun q => at_ ("params" :: q)) m)).
  (** hpke_private_key_manager.cc:149-158 ValidateKey *)
  Definition hpke_validate_private (m : message) : option cc_status :=
    and_then (validate_version (num_at HpkePrivateKey m ["version"]) 0)
      (and_then (check (negb (has_at HpkePrivateKey m ["public_key"])) "Missing HPKE public key.")
         (hpke_validate_public HpkePrivateKey (cons "public_key") m)).
  (** hpke_private_key_manager.cc:87-93 ValidateKeyFormat *)
  Definition hpke_validate_format (m : message) : option cc_status :=
    and_then (check (negb (has_at HpkeKeyFormat m ["params"])) "Missing params.")
      (hpke_validate_params HpkeKeyFormat (cons "params") m).
  (** Lines 59-83 GenerateEcKey: the private and the public key *)
  Definition hpke_generate_ec_key (c : curve_type) (rnd : coins) : st_or (bytes * bytes) :=
    bind_st (new_ec_key ec c rnd) (fun '(priv, pub_x, pub_y) =>
    bind_st (get_ec_point ec c pub_x pub_y) (fun pub_point =>
    bind_st (ec_point_encode ec c Uncompressed pub_point) (fun encoded_pub_point =>
    StOk (priv, encoded_pub_point)))).
  (** Lines 47-57 GenerateX25519Key; 104-140, the switch over KEMs *)
  Definition hpke_generate_key (kem : Z) (rnd : coins) : st_or (bytes * bytes) :=
    match kem with
    | 1 => let private_key := x25519_generate ec rnd in StOk (private_key, x25519_public ec private_key)
    | 2 => hpke_generate_ec_key P256 rnd
    | 3 => hpke_generate_ec_key P384 rnd
    | 4 => hpke_generate_ec_key P521 rnd
    | _ => StErr (NotOk "Unsupported KEM type")
    end%Z.
  (** Lines 95-142 CreateKey *)
  Definition hpke_create_key (rnd : coins) (key_format : message) : st_or message :=
    bind_st (hpke_generate_key (num_at HpkeKeyFormat key_format ["params"; "kem"]) rnd) (fun '(private_key, public_key) =>
    StOk [Some (VNum 0);
          Some (VMsg [Some (VNum 0);
                      message_or_empty HpkeParams (get_path (TMsg HpkeKeyFormat) (Some (VMsg key_format)) ["params"]);
                      Some (VBytes public_key)]);
          Some (VBytes private_key)]).

  (** hpke_public_key_manager.h:37-66; key_manager_impl.h:183-200 GetPrimitive; 119-152: no key factory *)
  Definition hpke_public_key_manager : cc_lib_manager cc_hybrid_encrypt :=
    let url := ecies_url "HpkePublicKey" in
    mk_cc_lib_manager url (parse_key url HpkePublicKey (hpke_validate_public HpkePublicKey (fun q => q)) hpke_encrypt_new)
      (fun _ _ => StErr (NotOk "Creating new keys is not supported for this key manager.")) None.
  (** hpke_private_key_manager.h:38-80, .cc:144-147 GetPublicKey; key_manager_impl.h:87-114 NewKeyData;
      private_key_manager_impl.h:77-96 GetPublicKeyData *)
  Definition hpke_private_key_manager : cc_lib_manager cc_hybrid_decrypt :=
    let url := ecies_url "HpkePrivateKey" in
    mk_cc_lib_manager url (parse_key url HpkePrivateKey hpke_validate_private hpke_decrypt_new)
      (fun rnd serialized_key_format =>
         match parse_message HpkeKeyFormat serialized_key_format with
         | None => StErr (NotOk "Could not parse the passed string")
         | Some key_format =>
             checked (hpke_validate_format key_format)
             (bind_st (hpke_create_key rnd key_format) (fun key =>
              StOk (mk_key_data url (serialize_message HpkePrivateKey key) ASYMMETRIC_PRIVATE)))
         end)
      (Some (fun serialized_private_key =>
         match parse_message HpkePrivateKey serialized_private_key with
         | None => StErr (NotOk "Could not parse the passed string")
         | Some private_key =>
             checked (hpke_validate_private private_key)
             (StOk (mk_key_data (ecies_url "HpkePublicKey")
                (match message_or_empty HpkePublicKey (get_path (TMsg HpkePrivateKey) (Some (VMsg private_key)) ["public_key"]) with
                 | Some (VMsg public_key) => serialize_message HpkePublicKey public_key
                 | _ => []
                 end)
                ASYMMETRIC_PUBLIC))
         end)).
End Hpke.
