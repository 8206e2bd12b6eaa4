(** The key managers over C++ key managers and the register functions:
    cc/cc_key_manager.h, the bindings of the primitives in cc/pybind,
    core/_key_manager.py:96-156, {aead,daead,hybrid,mac,prf,signature,streaming_aead}/
    _*_key_manager.py, jwt/__init__.py:78-85, tink_config.py.

    Tink's C++ library (/repo/cc) is any value of [cc_world] below:
    its functions return util::Status or util::StatusOr, and never throw. *)
From Coq Require Import Strings.Byte Strings.String List NArith ZArith Bool.
From Verif Require Import M_Base M_Proto M_Wire M_Prims M_PrimitiveSet M_Registry M_Wrappers
  M_Kms M_Json M_JwtWrappers M_JwtKeys M_StreamTypes M_CcStream M_Stream.
Import ListNotations.
Open Scope string_scope.
Open Scope list_scope.

(** ** Primitives of the C++ library, by their methods *)
Record cc_aead := mk_cc_aead {
  ca_encrypt : coins -> bytes -> bytes -> st_or bytes;
  ca_decrypt : bytes -> bytes -> st_or bytes }.
Record cc_daead := mk_cc_daead {
  cda_encrypt : bytes -> bytes -> st_or bytes;
  cda_decrypt : bytes -> bytes -> st_or bytes }.
Record cc_mac := mk_cc_mac {
  cm_compute : bytes -> st_or bytes;
  cm_verify : bytes -> bytes -> st_or unit }.
Record cc_prf := mk_cc_prf { cp_compute : bytes -> N -> st_or bytes }.
Record cc_signer := mk_cc_signer { cs_sign : coins -> bytes -> st_or bytes }.
Record cc_verifier := mk_cc_verifier { cv_verify : bytes -> bytes -> st_or unit }.
Record cc_hybrid_decrypt := mk_cc_hybrid_decrypt { chd_decrypt : bytes -> bytes -> st_or bytes }.
Record cc_hybrid_encrypt := mk_cc_hybrid_encrypt {
  che_encrypt : coins -> bytes -> bytes -> st_or bytes }.

(** cc/pybind/tink_exception.h:29-47 and [if (!result.ok()) throw
    TinkException(result.status())]; cc/pybind/tink_bindings.cc:46-47 makes it
    PythonTinkException. The text of the status is simplified. *)
Definition throw_not_ok {A} (r : st_or A) : result A :=
  match r with
  | StOk a => Ok a
  | StErr OutOfRange => Err (CcStatusNotOk "out of range")
  | StErr (NotOk m) => Err (CcStatusNotOk m)
  | StErr Undefined => Err (CcStatusNotOk "undefined")
  end.

(** cc/pybind/aead.cc:45-72 *)
Definition bind_aead (p : cc_aead) : aead :=
  mk_aead (fun r pt ad => throw_not_ok (ca_encrypt p r pt ad))
          (fun ct ad => throw_not_ok (ca_decrypt p ct ad)).
(** cc/pybind/deterministic_aead.cc:58-85 *)
Definition bind_daead (p : cc_daead) : daead :=
  mk_daead (fun pt ad => throw_not_ok (cda_encrypt p pt ad))
           (fun ct ad => throw_not_ok (cda_decrypt p ct ad)).
(** cc/pybind/mac.cc:46-72 *)
Definition bind_mac (p : cc_mac) : mac :=
  mk_mac (fun data => throw_not_ok (cm_compute p data))
         (fun tag data => throw_not_ok (cm_verify p tag data)).
(** cc/pybind/prf.cc:40-53: pybind11 raises TypeError for an output_length that is not
    a size_t. *)
Definition bind_prf (p : cc_prf) : prf :=
  mk_prf (fun x n =>
    if ((n <? 0) || (18446744073709551616 <=? n))%Z
    then Err (TypeError "incompatible function arguments")
    else throw_not_ok (cp_compute p x (Z.to_N n))).
(** cc/pybind/public_key_sign.cc:48-59 *)
Definition bind_signer (p : cc_signer) : signer :=
  mk_signer (fun r data => throw_not_ok (cs_sign p r data)).
(** cc/pybind/public_key_verify.cc:48-61 *)
Definition bind_verifier (p : cc_verifier) : verifier :=
  mk_verifier (fun s data => throw_not_ok (cv_verify p s data)).
(** cc/pybind/hybrid_decrypt.cc:39-51 *)
Definition bind_hybrid_decrypt (p : cc_hybrid_decrypt) : hybrid_decrypt :=
  mk_hybrid_decrypt (fun ct ci => throw_not_ok (chd_decrypt p ct ci)).
(** cc/pybind/hybrid_encrypt.cc:38-50 *)
Definition bind_hybrid_encrypt (p : cc_hybrid_encrypt) : hybrid_encrypt :=
  mk_hybrid_encrypt (fun r pt ci => throw_not_ok (che_encrypt p r pt ci)).

(** ** The Python wrappers of the bound primitives *)

(** aead/_aead_key_manager.py:24-36 *)
Definition aead_cc_to_py (p : aead) : aead :=
  mk_aead (fun r pt ad => use_tink_errors (aead_encrypt p r pt ad))
          (fun ct ad => use_tink_errors (aead_decrypt p ct ad)).
(** daead/_deterministic_aead_key_manager.py:23-39 *)
Definition daead_cc_to_py (p : daead) : daead :=
  mk_daead (fun pt ad => use_tink_errors (daead_encrypt p pt ad))
           (fun ct ad => use_tink_errors (daead_decrypt p ct ad)).
(** mac/_mac_key_manager.py:22-34 *)
Definition mac_cc_to_py (p : mac) : mac :=
  mk_mac (fun data => use_tink_errors (mac_compute p data))
         (fun tag data => use_tink_errors (mac_verify p tag data)).
(** prf/_prf_key_manager.py:23-31 *)
Definition prf_cc_to_py (p : prf) : prf :=
  mk_prf (fun x n => use_tink_errors (prf_compute p x n)).
(** signature/_signature_key_manager.py:24-32 *)
Definition signer_cc_to_py (p : signer) : signer :=
  mk_signer (fun r data => use_tink_errors (sign p r data)).
(** signature/_signature_key_manager.py:35-43 *)
Definition verifier_cc_to_py (p : verifier) : verifier :=
  mk_verifier (fun s data => use_tink_errors (verify p s data)).
(** hybrid/_hybrid_key_manager.py:24-32 *)
Definition hybrid_decrypt_cc_to_py (p : hybrid_decrypt) : hybrid_decrypt :=
  mk_hybrid_decrypt (fun ct ci => use_tink_errors (hd_decrypt p ct ci)).
(** hybrid/_hybrid_key_manager.py:35-43 *)
Definition hybrid_encrypt_cc_to_py (p : hybrid_encrypt) : hybrid_encrypt :=
  mk_hybrid_encrypt (fun r pt ci => use_tink_errors (he_encrypt p r pt ci)).

(** ** Key managers *)

(** KeyManager<P> of the C++ library. [cl_public_key_data] is None when the key factory
    is not a PrivateKeyFactory. *)
Record cc_lib_manager (P : Type) := mk_cc_lib_manager {
  cl_key_type : pystr;
  cl_get_primitive : key_data -> st_or P;
  cl_new_key_data : coins -> bytes -> st_or key_data;
  cl_public_key_data : option (bytes -> st_or key_data) }.
Arguments mk_cc_lib_manager {P}.
Arguments cl_key_type {P}.
Arguments cl_get_primitive {P}.
Arguments cl_new_key_data {P}.
Arguments cl_public_key_data {P}.

(** [message.ParseFromString(x)] with the result ignored. Simplification: a message that
    cannot be parsed is left empty, C++ leaves the fields read so far. *)
Definition parse_or_empty {A} (parse : bytes -> option A) (empty : A) (x : bytes) : A :=
  match parse x with Some a => a | None => empty end.

(** cc/cc_key_manager.h:64-74 GetPrimitive, 77-93 NewKeyData, 96-115 GetPublicKeyData,
    118 KeyType, bound in cc/pybind/cc_key_manager.cc:35-51. [bound] binds the C++
    primitive. *)
Definition cc_key_manager {P Q} (bound : P -> Q) (m : cc_lib_manager P) : cc_manager Q :=
  mk_cc_manager
    (cl_key_type m)
    (fun x =>
       p <- throw_not_ok (cl_get_primitive m (parse_or_empty parse_key_data default_key_data x)) ;;
       Ok (bound p))
    (fun rnd x =>
       let t := parse_or_empty parse_key_template default_template x in
       if negb (str_eqb (cl_key_type m) (kt_type_url t)) then
         Err (CcStatusNotOk "Key type is not supported by this manager.")
       else
         d <- throw_not_ok (cl_new_key_data m rnd (kt_value t)) ;;
         Ok (serialize_key_data d))
    (fun x =>
       match cl_public_key_data m with
       | None => Err (CcStatusNotOk "KeyManager does not have a PrivateKeyFactory.")
       | Some f =>
           d <- throw_not_ok (f (kd_value (parse_or_empty parse_key_data default_key_data x))) ;;
           Ok (serialize_key_data d)
       end).

(** cc/cc_key_manager.h:48-58 GetFromCcRegistry. [lookup] is the C++ registry. *)
Definition from_cc_registry {P Q} (bound : P -> Q) (lookup : pystr -> option (cc_lib_manager P))
    (type_url : pystr) : result (cc_manager Q) :=
  match lookup type_url with
  | Some m => Ok (cc_key_manager bound m)
  | None => Err (CcStatusNotOk "No manager for key type found in the registry.")
  end.

(** core/_key_manager.py:96-120 class KeyManagerCcToPyWrapper. All its objects have the
    same Python type; [id] is the object. *)
Definition key_manager_cc_to_py {Q} (id : N) (cc : cc_manager Q) (c : pclass) (wrap : Q -> prim)
  : key_manager :=
  mk_key_manager id 40 (cc_key_type cc) c (str_eqb (cc_key_type cc))
    (fun d => use_tink_errors (p <- cc_primitive cc (serialize_key_data d) ;; Ok (wrap p)))
    (cc_new_key cc) None.
(** core/_key_manager.py:123-156 class PrivateKeyManagerCcToPyWrapper *)
Definition private_key_manager_cc_to_py {Q} (id : N) (cc : cc_manager Q) (c : pclass)
    (wrap : Q -> prim) : key_manager :=
  mk_key_manager id 41 (cc_key_type cc) c (str_eqb (cc_key_type cc))
    (fun d => use_tink_errors (p <- cc_primitive cc (serialize_key_data d) ;; Ok (wrap p)))
    (cc_new_key cc) (Some (cc_public_key cc)).

(** ** The C++ library after its own registrations *)

(** [cw_tink_config], [cw_hpke_config] and [cw_jwt_config] are the results of
    TinkConfig::Register(), CcHpkeConfigRegister() and CcJwtConfigRegister(); the other
    fields are Registry::get_key_manager<P>. Simplification: the C++ registry does not
    change after the first of these calls. *)
Record cc_world := mk_cc_world {
  cw_tink_config : st_or unit;
  cw_hpke_config : st_or unit;
  cw_jwt_config : st_or unit;
  cw_aead : pystr -> option (cc_lib_manager cc_aead);
  cw_daead : pystr -> option (cc_lib_manager cc_daead);
  cw_hybrid_decrypt : pystr -> option (cc_lib_manager cc_hybrid_decrypt);
  cw_hybrid_encrypt : pystr -> option (cc_lib_manager cc_hybrid_encrypt);
  cw_mac : pystr -> option (cc_lib_manager cc_mac);
  cw_prf : pystr -> option (cc_lib_manager cc_prf);
  cw_sign : pystr -> option (cc_lib_manager cc_signer);
  cw_verify : pystr -> option (cc_lib_manager cc_verifier);
  cw_streaming : pystr -> option (cc_lib_manager cc_streaming_aead) }.

(** What the managers use when they are called later: the registered KMS clients, the
    global registry and random choices (for the KMS managers), the exception texts and
    buffers of streams, and Python's run time (for JWT). *)
Record py_env := mk_py_env {
  pe_registry : registry;
  pe_coins : coins;
  pe_clients : list kms_client;
  pe_what : exn -> string;
  pe_in_buffer : bytes;
  pe_out_buffer : bytes;
  pe_patience : nat;
  pe_rt : py_rt }.

(** ** The register functions *)

(** What the register functions are made of: calls of tink_bindings.register(),
    register_hpke() or register_jwt() (cc/cc_tink_config.cc:27-32,
    cc/pybind/cc_hpke_config.cc:33-38, cc/pybind/cc_jwt_config.cc:33-38), calls of a
    registry method whose argument is computed first, and consecutive statements. *)
Inductive action :=
| call_bindings (s : st_or unit)
| call_registry (op : result registry_op)
| run_all (l : list action).
(** A call that changes the registry and may raise; an exception ends the statements. *)
Fixpoint perform (a : action) (r : registry) {struct a} : registry * result unit :=
  match a with
  | call_bindings s => (r, throw_not_ok s)
  | call_registry (Err e) => (r, Err e)
  | call_registry (Ok o) =>
      match registry_apply r o with Ok r' => (r', Ok tt) | Err e => (r, Err e) end
  | run_all l =>
      (fix go (l : list action) (r : registry) : registry * result unit :=
         match l with
         | [] => (r, Ok tt)
         | b :: rest =>
             match perform b r with
             | (r', Ok _) => go rest r'
             | (r', Err e) => (r', Err e)
             end
         end) l r
  end.

Section Register.
  Variable w : cc_world.
  Variable env : py_env.

  (** [core.Registry.register_key_manager(Manager(from_cc_registry(type_url), ...),
      new_key_allowed=True)]; [n] is the object created by the call. *)
  Definition register_cc {P Q} (make : cc_manager Q -> key_manager) (bound : P -> Q)
      (lookup : pystr -> option (cc_lib_manager P)) (type_url : pystr) : action :=
    call_registry (m <- from_cc_registry bound lookup type_url ;; Ok (OpRegisterKeyManager (make m) true)).
  Definition register_wrapper (x : wrapper) : action := call_registry (Ok (OpRegisterWrapper x)).

  (** aead/_aead_key_manager.py:39-60 *)
  Definition aead_register (n : N) : action :=
    run_all
      (call_bindings (cw_tink_config w)
       :: map (fun ident =>
            register_cc (fun m => key_manager_cc_to_py n m ClsAead (fun p => PrimAead (aead_cc_to_py p)))
              bind_aead (cw_aead w) (kms_url ident))
            ["AesCtrHmacAeadKey"; "AesGcmKey"; "AesGcmSivKey"; "AesEaxKey"; "XChaCha20Poly1305Key"]
       ++ [register_wrapper aead_wrapper;
           call_registry (Ok (OpRegisterKeyManager (kms_aead_key_manager n 42 (pe_clients env)) true));
           call_registry (Ok (OpRegisterKeyManager
             (kms_envelope_aead_key_manager n 43 (pe_registry env) (pe_coins env) (pe_clients env)) true))]).

  (** daead/_deterministic_aead_key_manager.py:42-52 *)
  Definition daead_register (n : N) : action :=
    run_all
      [call_bindings (cw_tink_config w);
       register_cc (fun m => key_manager_cc_to_py n m ClsDaead (fun p => PrimDaead (daead_cc_to_py p)))
         bind_daead (cw_daead w) (kms_url "AesSivKey");
       register_wrapper daead_wrapper].

  (** hybrid/_hybrid_key_manager.py:46-89 *)
  Definition register_hybrid_decrypt (n : N) (ident : string) : action :=
    register_cc
      (fun m => private_key_manager_cc_to_py n m ClsHybridDecrypt
                  (fun p => PrimHybridDecrypt (hybrid_decrypt_cc_to_py p)))
      bind_hybrid_decrypt (cw_hybrid_decrypt w) (kms_url ident).
  Definition register_hybrid_encrypt (n : N) (ident : string) : action :=
    register_cc
      (fun m => key_manager_cc_to_py n m ClsHybridEncrypt
                  (fun p => PrimHybridEncrypt (hybrid_encrypt_cc_to_py p)))
      bind_hybrid_encrypt (cw_hybrid_encrypt w) (kms_url ident).
  Definition hybrid_register (n : N) : action :=
    run_all
      [call_bindings (cw_tink_config w);
       call_bindings (cw_hpke_config w);
       register_wrapper hybrid_decrypt_wrapper;
       register_wrapper hybrid_encrypt_wrapper;
       register_hybrid_decrypt n "EciesAeadHkdfPrivateKey";
       register_hybrid_encrypt n "EciesAeadHkdfPublicKey";
       register_hybrid_decrypt n "HpkePrivateKey";
       register_hybrid_encrypt n "HpkePublicKey"].

  (** mac/_mac_key_manager.py:37-46 *)
  Definition mac_register (n : N) : action :=
    run_all
      (call_bindings (cw_tink_config w)
       :: map (fun ident =>
            register_cc (fun m => key_manager_cc_to_py n m ClsMac (fun p => PrimMac (mac_cc_to_py p)))
              bind_mac (cw_mac w) (kms_url ident))
            ["HmacKey"; "AesCmacKey"]
       ++ [register_wrapper mac_wrapper]).

  (** prf/_prf_key_manager.py:34-47 *)
  Definition prf_register (n : N) : action :=
    run_all
      (call_bindings (cw_tink_config w)
       :: map (fun ident =>
            register_cc (fun m => key_manager_cc_to_py n m ClsPrf (fun p => PrimPrf (prf_cc_to_py p)))
              bind_prf (cw_prf w) (kms_url ident))
            ["AesCmacPrfKey"; "HmacPrfKey"; "HkdfPrfKey"]
       ++ [register_wrapper prf_set_wrapper]).

  (** signature/_signature_key_manager.py:46-69 *)
  Definition signature_register (n : N) : action :=
    run_all
      (call_bindings (cw_tink_config w)
       :: map (fun ident =>
            register_cc (fun m => private_key_manager_cc_to_py n m ClsSign (fun p => PrimSign (signer_cc_to_py p)))
              bind_signer (cw_sign w) (kms_url ident))
            ["EcdsaPrivateKey"; "Ed25519PrivateKey"; "RsaSsaPssPrivateKey"; "RsaSsaPkcs1PrivateKey"]
       ++ map (fun ident =>
            register_cc (fun m => key_manager_cc_to_py n m ClsVerify (fun p => PrimVerify (verifier_cc_to_py p)))
              bind_verifier (cw_verify w) (kms_url ident))
            ["EcdsaPublicKey"; "Ed25519PublicKey"; "RsaSsaPssPublicKey"; "RsaSsaPkcs1PublicKey"]
       ++ [register_wrapper public_key_sign_wrapper; register_wrapper public_key_verify_wrapper]).

  (** streaming_aead/_streaming_aead_key_manager.py:58-71. The C++ primitive is given to
      the Python wrapper as it is. *)
  Definition streaming_aead_register (n : N) : action :=
    run_all
      (call_bindings (cw_tink_config w)
       :: map (fun ident =>
            register_cc
              (fun m => key_manager_cc_to_py n m ClsRawStreamingAead
                 (fun p => PrimRawStreamingAead
                    (streaming_aead_cc_to_py (pe_what env) (pe_in_buffer env) (pe_out_buffer env) (pe_patience env) p)))
              (fun p => p) (cw_streaming w) (kms_url ident))
            ["AesCtrHmacStreamingKey"; "AesGcmHkdfStreamingKey"]
       ++ [register_wrapper streaming_aead_wrapper]).

  (** tink_config.py:26-33 *)
  Definition tink_config_register (n : N) : action :=
    run_all [aead_register n; daead_register n; hybrid_register n; mac_register n; prf_register n;
             signature_register n; streaming_aead_register n].

  (** jwt/__init__.py:78-80 register_jwt_mac, jwt/_jwt_hmac_key_manager.py:102-104, 132-135,
      jwt/_jwt_mac_wrapper.py:101-102 *)
  Definition jwt_mac_register (n : N) : action :=
    run_all
      [call_bindings (cw_jwt_config w);
       register_cc (jwt_hmac_manager (pe_rt env)) bind_mac (cw_mac w) JWT_HMAC_KEY_TYPE;
       register_wrapper jwt_mac_wrapper].

  (** jwt/__init__.py:83-85 register_jwt_signature,
      jwt/_jwt_signature_key_manager.py:278-314, jwt/_jwt_signature_wrappers.py:111-113 *)
  Definition jwt_signature_register (n : N) : action :=
    run_all
      [call_bindings (cw_jwt_config w);
       register_cc (fun m => jwt_sign_manager (pe_rt env) n m ecdsa_private_alg_kid)
         bind_signer (cw_sign w) JWT_ECDSA_PRIVATE_KEY_TYPE;
       register_cc (fun m => jwt_verify_manager (pe_rt env) n m ecdsa_public_alg_kid)
         bind_verifier (cw_verify w) JWT_ECDSA_PUBLIC_KEY_TYPE;
       register_cc (fun m => jwt_sign_manager (pe_rt env) n m pkcs1_private_alg_kid)
         bind_signer (cw_sign w) JWT_RSA_SSA_PKCS1_PRIVATE_KEY_TYPE;
       register_cc (fun m => jwt_verify_manager (pe_rt env) n m pkcs1_public_alg_kid)
         bind_verifier (cw_verify w) JWT_RSA_SSA_PKCS1_PUBLIC_KEY_TYPE;
       register_cc (fun m => jwt_sign_manager (pe_rt env) n m pss_private_alg_kid)
         bind_signer (cw_sign w) JWT_RSA_SSA_PSS_PRIVATE_KEY_TYPE;
       register_cc (fun m => jwt_verify_manager (pe_rt env) n m pss_public_alg_kid)
         bind_verifier (cw_verify w) JWT_RSA_SSA_PSS_PUBLIC_KEY_TYPE;
       register_wrapper jwt_sign_wrapper;
       register_wrapper jwt_verify_wrapper].
End Register.

(** ** Histories *)

(** The register functions of the package, and other calls of the registry by the user. *)
Inductive setup_call :=
| CallTinkConfig | CallAead | CallDaead | CallHybrid | CallMac | CallPrf | CallSignature
| CallStreamingAead | CallJwtMac | CallJwtSignature
| CallRegistry (op : registry_op).

(** One call; [n] numbers the calls of a history. *)
Definition setup_action (w : cc_world) (env : py_env) (n : N) (c : setup_call) : action :=
  match c with
  | CallTinkConfig => tink_config_register w env n
  | CallAead => aead_register w env n
  | CallDaead => daead_register w n
  | CallHybrid => hybrid_register w n
  | CallMac => mac_register w n
  | CallPrf => prf_register w n
  | CallSignature => signature_register w n
  | CallStreamingAead => streaming_aead_register w env n
  | CallJwtMac => jwt_mac_register w env n
  | CallJwtSignature => jwt_signature_register w env n
  | CallRegistry op => call_registry (Ok op)
  end.

(** A history of calls; an exception ends one call, not the history. The results are
    those of the calls, in order. *)
Fixpoint setup_run (w : cc_world) (env : py_env) (n : N) (l : list setup_call) (r : registry)
  : registry * list (result unit) :=
  match l with
  | [] => (r, [])
  | c :: rest =>
      let (r', x) := perform (setup_action w env n c) r in
      let (r'', xs) := setup_run w env (n + 1) rest r' in
      (r'', x :: xs)
  end.
