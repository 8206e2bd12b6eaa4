(** Registration of the JWT key managers and wrappers: jwt/__init__.py:78-85. A
    register function is the list of the registry calls it makes. The call
    tink_bindings.register_jwt(), which fills the C++ registry, is the choice of the C++
    managers [cc...]; from_cc_registry raising is not modelled. *)
From Coq Require Import Strings.Byte Strings.String List NArith ZArith Bool.
From Verif Require Import M_Base M_Prims M_Registry M_Json M_JwtWrappers M_JwtKeys.
Import ListNotations.
Open Scope list_scope.

(** jwt/__init__.py:78-80, jwt/_jwt_hmac_key_manager.py:132-135,
    jwt/_jwt_mac_wrapper.py:101-102 *)
Definition register_jwt_mac (rt : py_rt) (cc : cc_manager mac) : list registry_op :=
  [OpRegisterKeyManager (jwt_hmac_manager rt cc) true;
   OpRegisterWrapper jwt_mac_wrapper].

(** jwt/__init__.py:83-85, jwt/_jwt_signature_key_manager.py:278-314,
    jwt/_jwt_signature_wrappers.py:111-113 *)
Definition register_jwt_signature (rt : py_rt)
    (ecdsa : cc_manager signer * cc_manager verifier)
    (pkcs1 : cc_manager signer * cc_manager verifier)
    (pss : cc_manager signer * cc_manager verifier) : list registry_op :=
  [OpRegisterKeyManager (jwt_sign_manager rt 31 (fst ecdsa) ecdsa_private_alg_kid) true;
   OpRegisterKeyManager (jwt_verify_manager rt 32 (snd ecdsa) ecdsa_public_alg_kid) true;
   OpRegisterKeyManager (jwt_sign_manager rt 33 (fst pkcs1) pkcs1_private_alg_kid) true;
   OpRegisterKeyManager (jwt_verify_manager rt 34 (snd pkcs1) pkcs1_public_alg_kid) true;
   OpRegisterKeyManager (jwt_sign_manager rt 35 (fst pss) pss_private_alg_kid) true;
   OpRegisterKeyManager (jwt_verify_manager rt 36 (snd pss) pss_public_alg_kid) true;
   OpRegisterWrapper jwt_sign_wrapper;
   OpRegisterWrapper jwt_verify_wrapper].
