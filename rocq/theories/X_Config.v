(** A small C++ library, for the examples. Nothing here models code of /repo. *)
From Coq Require Import Strings.Byte Strings.String List NArith ZArith Bool.
From Verif Require Import M_Base M_Proto M_Wire M_Prims M_PrimitiveSet M_Registry M_KeysetHandle M_Kms
  M_Json M_JwtKeys M_StreamTypes M_CcStream M_CcManagers S_Config X_Toy X_Rt.
Import ListNotations.
Open Scope string_scope.
Open Scope list_scope.

Definition status {A} (r : result A) : st_or A :=
  match r with Ok a => StOk a | Err _ => StErr (NotOk "failed") end.
Definition some_manager {P} (mk : bytes -> P) (material : Z) (private : bool) (url : pystr)
  : option (cc_lib_manager P) :=
  Some (mk_cc_lib_manager url
    (fun d => match kd_value d with [] => StErr (NotOk "no key") | v => StOk (mk v) end)
    (fun rnd f => StOk (mk_key_data url (blit "k" ++ f) material))
    (if private then Some (fun v => StOk (mk_key_data (ulit "public") v ASYMMETRIC_PUBLIC)) else None)).
Definition toy_world : cc_world :=
  mk_cc_world (StOk tt) (StOk tt) (StOk tt)
    (some_manager (fun k => mk_cc_aead (fun _ pt ad => status (toy_seal k ad pt)) (fun ct ad => status (toy_open k ct ad)))
       SYMMETRIC false)
    (some_manager (fun k => mk_cc_daead (fun pt ad => status (toy_seal k ad pt)) (fun ct ad => status (toy_open k ct ad)))
       SYMMETRIC false)
    (some_manager (fun k => mk_cc_hybrid_decrypt (fun ct ci => status (toy_open k ct ci))) ASYMMETRIC_PRIVATE true)
    (some_manager (fun k => mk_cc_hybrid_encrypt (fun _ pt ci => status (toy_seal k ci pt))) ASYMMETRIC_PUBLIC false)
    (some_manager (fun k => mk_cc_mac (fun d => status (toy_tag k d)) (fun t d => status (toy_check k t d))) SYMMETRIC false)
    (some_manager (fun k => mk_cc_prf (fun x n => StOk (firstn (N.to_nat n) (k ++ x)))) SYMMETRIC false)
    (some_manager (fun k => mk_cc_signer (fun _ d => status (toy_tag k d))) ASYMMETRIC_PRIVATE true)
    (some_manager (fun k => mk_cc_verifier (fun t d => status (toy_check k t d))) ASYMMETRIC_PUBLIC false)
    (some_manager (fun k => mk_cc_streaming_aead (fun _ => ORet (StErr (NotOk ""))) (fun _ => IRet (StErr (NotOk ""))))
       SYMMETRIC false).
Definition toy_env : py_env := mk_py_env empty_registry 0%N [] (fun _ => "") [x00] [x00] 1 toy_rt.
Definition toy_calls : list setup_call :=
  [CallAead; CallRegistry (OpRegisterWrapper (mk_wrapper 99 99 (ClsUser 7) ClsAead (fun _ => Ok (PrimUser 7))));
   CallTinkConfig; CallJwtMac; CallTinkConfig; CallJwtSignature].
Definition configured_registry : registry := fst (setup_run toy_world toy_env 0 toy_calls empty_registry).
Definition gcm_key (v : string) (id : N) (prefix : Z) : key :=
  mk_key (Some (mk_key_data (type_url "AesGcmKey") (blit v) SYMMETRIC)) ENABLED id prefix.
Definition gcm_handle : keyset_handle :=
  mk_handle (mk_keyset 42 [gcm_key "ka" 42 TINK; gcm_key "kb" 43 RAW]).
