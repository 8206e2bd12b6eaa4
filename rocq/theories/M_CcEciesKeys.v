(** The key managers of ECIES-AEAD-HKDF in the C++ library:
    /repo/cc/hybrid/ecies_aead_hkdf_{private,public}_key_manager.{h,cc}, with
    cc/core/key_manager_impl.h, cc/core/private_key_manager_impl.h and the generation of keys
    in cc/internal/ec_util.cc. *)
From Coq Require Import Strings.Byte Strings.String List NArith ZArith Bool.
From Verif Require Import M_Base M_Proto M_Wire M_ProtoMsg M_KeyFormats M_Prims M_StreamTypes M_CcStream M_CcManagers M_CcAes
  M_CcStreamKeys M_CcModes M_CcSymmetric M_CcSymKeys M_CcEcies.
Import ListNotations.
Open Scope string_scope.
Open Scope list_scope.
Open Scope nat_scope.

Section EciesKeys.
  Variable ec : ec_crypto.
  Variable lib : crypto.
  Variable random : coins -> Z -> bytes.

  (** ec_util.cc:355-376 NewEcKey, 273-312 EcKeyFromSslEcKey, 417-445 NewX25519Key and
      EcKeyFromX25519Key: the private key and the two coordinates. *)
  Definition new_ec_key (c : curve_type) (rnd : coins) : st_or (bytes * bytes * bytes) :=
    match c with
    | CURVE25519 =>
        let private_key := x25519_generate ec rnd in
        StOk (private_key, x25519_public ec private_key, [])
    | _ =>
        bind_st (ec_group c) (fun size =>
        let (priv_key, pub_key) := ec_generate_key ec c rnd in
        bind_st (bn2binpad (fst pub_key) size) (fun pub_x =>
        bind_st (bn2binpad (snd pub_key) size) (fun pub_y =>
        bind_st (bn2binpad priv_key size) (fun priv =>
        StOk (priv, pub_x, pub_y)))))
    end.

  (** ecies_aead_hkdf_public_key_manager.cc:70-78 ValidateKey, of a message of type [fs] in
      which [at_] leads to the EciesAeadHkdfPublicKey *)
  Definition validate_public_key (fs : schema) (at_ : list string -> list string) (m : message) : option cc_status :=
    and_then (validate_version (num_at fs m (at_ ["version"])) 0)
      (and_then (check (negb (has_at fs m (at_ ["params"]))) "Missing params.")
         (validate_params fs (fun q => at_ ("params" :: q)) m)).
  (** ecies_aead_hkdf_private_key_manager.cc:86-94 ValidateKey *)
  Definition validate_private_key (m : message) : option cc_status :=
    and_then (validate_version (num_at EciesAeadHkdfPrivateKey m ["version"]) 0)
      (and_then (check (negb (has_at EciesAeadHkdfPrivateKey m ["public_key"])) "Missing public_key.")
         (validate_public_key EciesAeadHkdfPrivateKey (cons "public_key") m)).
  (** Lines 49-55 ValidateKeyFormat *)
  Definition validate_ecies_key_format (m : message) : option cc_status :=
    and_then (check (negb (has_at EciesAeadHkdfKeyFormat m ["params"])) "Missing params.")
      (validate_params EciesAeadHkdfKeyFormat (cons "params") m).
  (** Lines 57-79 CreateKey *)
  Definition create_ecies_key (rnd : coins) (key_format : message) : st_or message :=
    bind_st (new_ec_key (params_curve EciesAeadHkdfKeyFormat (cons "params") key_format) rnd) (fun '(priv, pub_x, pub_y) =>
    StOk [Some (VNum 0);
          Some (VMsg [Some (VNum 0);
                      message_or_empty EciesAeadHkdfParams (get_path (TMsg EciesAeadHkdfKeyFormat) (Some (VMsg key_format)) ["params"]);
                      Some (VBytes pub_x); Some (VBytes pub_y)]);
          Some (VBytes priv)]).

  (** The end of the process, None in [outcome], is a status that the code never returns. *)
  Definition or_undefined {A} (r : outcome A) : st_or A := match r with Some s => s | None => StErr Undefined end.

  Definition ecies_url (name : string) : pystr := ulit ("type.googleapis.com/google.crypto.tink." ++ name).
  (** ecies_aead_hkdf_public_key_manager.h:41-75; key_manager_impl.h:183-200 GetPrimitive;
      119-152: no key factory, so that NewKeyData fails *)
  Definition ecies_public_key_manager : cc_lib_manager cc_hybrid_encrypt :=
    let url := ecies_url "EciesAeadHkdfPublicKey" in
    mk_cc_lib_manager url
      (fun d =>
         if negb (str_eqb url (kd_type_url d)) then StErr (NotOk "Key type is not supported by this manager.")
         else match parse_message EciesAeadHkdfPublicKey (kd_value d) with
              | None => StErr (NotOk "Could not parse key_data.value")
              | Some key =>
                  match validate_public_key EciesAeadHkdfPublicKey (fun q => q) key with
                  | Some s => StErr s
                  | None =>
                      bind_st (ecies_encrypt_new ec lib random key) (fun encrypt =>
                      StOk (mk_cc_hybrid_encrypt (fun rnd plaintext context_info => or_undefined (encrypt rnd plaintext context_info))))
                  end
              end)
      (fun _ _ => StErr (NotOk "Creating new keys is not supported for this key manager."))
      None.
  (** ecies_aead_hkdf_private_key_manager.h:42-87; key_manager_impl.h:183-200 GetPrimitive,
      87-114 NewKeyData; private_key_manager_impl.h:77-96 GetPublicKeyData *)
  Definition ecies_private_key_manager : cc_lib_manager cc_hybrid_decrypt :=
    let url := ecies_url "EciesAeadHkdfPrivateKey" in
    mk_cc_lib_manager url
      (fun d =>
         if negb (str_eqb url (kd_type_url d)) then StErr (NotOk "Key type is not supported by this manager.")
         else match parse_message EciesAeadHkdfPrivateKey (kd_value d) with
              | None => StErr (NotOk "Could not parse key_data.value")
              | Some key =>
                  match validate_private_key key with
                  | Some s => StErr s
                  | None =>
                      bind_st (ecies_decrypt_new ec lib random key) (fun decrypt =>
                      StOk (mk_cc_hybrid_decrypt (fun ciphertext context_info => or_undefined (decrypt ciphertext context_info))))
                  end
              end)
      (fun rnd serialized_key_format =>
         match parse_message EciesAeadHkdfKeyFormat serialized_key_format with
         | None => StErr (NotOk "Could not parse the passed string")
         | Some key_format =>
             match validate_ecies_key_format key_format with
             | Some s => StErr s
             | None =>
                 bind_st (create_ecies_key rnd key_format) (fun key =>
                 StOk (mk_key_data url (serialize_message EciesAeadHkdfPrivateKey key) ASYMMETRIC_PRIVATE))
             end
         end)
      (Some (fun serialized_private_key =>
         match parse_message EciesAeadHkdfPrivateKey serialized_private_key with
         | None => StErr (NotOk "Could not parse the passed string")
         | Some private_key =>
             match validate_private_key private_key with
             | Some s => StErr s
             | None =>
                 StOk (mk_key_data (ecies_url "EciesAeadHkdfPublicKey")
                   (match message_or_empty EciesAeadHkdfPublicKey (get_path (TMsg EciesAeadHkdfPrivateKey) (Some (VMsg private_key)) ["public_key"]) with
                    | Some (VMsg public_key) => serialize_message EciesAeadHkdfPublicKey public_key
                    | _ => []
                    end)
                   ASYMMETRIC_PUBLIC)
             end
         end)).
End EciesKeys.
