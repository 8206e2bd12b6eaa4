(** Specification of the register functions and of the managers they register: which
    package serves which key types with which primitive, and what it means that a Python
    object answers what the C++ object answers. *)
From Coq Require Import Strings.Byte Strings.String List NArith ZArith Bool.
From Verif Require Import M_Base M_Proto M_Prims M_PrimitiveSet M_Registry M_Kms M_Json M_JwtKeys
  M_StreamTypes M_CcStream M_CcManagers S_Registry S_Keyset S_Wire.
Import ListNotations.
Open Scope string_scope.
Open Scope list_scope.

Inductive package :=
| Aead | Daead | Hybrid | Mac | Prf | Signature | StreamingAead | JwtMac | JwtSignature.

(** The key types of a package that are implemented in C++: name, class of the
    primitive of one key, and whether keys are private keys. *)
Definition key_types (p : package) : list (string * pclass * bool) :=
  match p with
  | Aead => [("AesGcmKey", ClsAead, false); ("AesGcmSivKey", ClsAead, false);
             ("AesEaxKey", ClsAead, false); ("AesCtrHmacAeadKey", ClsAead, false);
             ("XChaCha20Poly1305Key", ClsAead, false)]
  | Daead => [("AesSivKey", ClsDaead, false)]
  | Hybrid => [("EciesAeadHkdfPrivateKey", ClsHybridDecrypt, true);
               ("EciesAeadHkdfPublicKey", ClsHybridEncrypt, false);
               ("HpkePrivateKey", ClsHybridDecrypt, true);
               ("HpkePublicKey", ClsHybridEncrypt, false)]
  | Mac => [("HmacKey", ClsMac, false); ("AesCmacKey", ClsMac, false)]
  | Prf => [("HmacPrfKey", ClsPrf, false); ("HkdfPrfKey", ClsPrf, false);
            ("AesCmacPrfKey", ClsPrf, false)]
  | Signature => [("EcdsaPrivateKey", ClsSign, true); ("EcdsaPublicKey", ClsVerify, false);
                  ("Ed25519PrivateKey", ClsSign, true); ("Ed25519PublicKey", ClsVerify, false);
                  ("RsaSsaPkcs1PrivateKey", ClsSign, true);
                  ("RsaSsaPkcs1PublicKey", ClsVerify, false);
                  ("RsaSsaPssPrivateKey", ClsSign, true); ("RsaSsaPssPublicKey", ClsVerify, false)]
  | StreamingAead => [("AesGcmHkdfStreamingKey", ClsRawStreamingAead, false);
                      ("AesCtrHmacStreamingKey", ClsRawStreamingAead, false)]
  | JwtMac => [("JwtHmacKey", ClsJwtMacInternal, false)]
  | JwtSignature => [("JwtEcdsaPrivateKey", ClsJwtSignInternal, true);
                     ("JwtEcdsaPublicKey", ClsJwtVerifyInternal, false);
                     ("JwtRsaSsaPkcs1PrivateKey", ClsJwtSignInternal, true);
                     ("JwtRsaSsaPkcs1PublicKey", ClsJwtVerifyInternal, false);
                     ("JwtRsaSsaPssPrivateKey", ClsJwtSignInternal, true);
                     ("JwtRsaSsaPssPublicKey", ClsJwtVerifyInternal, false)]
  end.
(** The key types of a package that are implemented in Python. *)
Definition remote_key_types (p : package) : list (string * pclass) :=
  match p with
  | Aead => [("KmsAeadKey", ClsAead); ("KmsEnvelopeAeadKey", ClsAead)]
  | _ => []
  end.
(** What a keyset handle of the package can be turned into, and from which primitive of
    the single keys. *)
Definition primitives (p : package) : list (pclass * pclass) :=
  match p with
  | Aead => [(ClsAead, ClsAead)]
  | Daead => [(ClsDaead, ClsDaead)]
  | Hybrid => [(ClsHybridDecrypt, ClsHybridDecrypt); (ClsHybridEncrypt, ClsHybridEncrypt)]
  | Mac => [(ClsMac, ClsMac)]
  | Prf => [(ClsPrfSet, ClsPrf)]
  | Signature => [(ClsSign, ClsSign); (ClsVerify, ClsVerify)]
  | StreamingAead => [(ClsStreamingAead, ClsRawStreamingAead)]
  | JwtMac => [(ClsJwtMac, ClsJwtMacInternal)]
  | JwtSignature => [(ClsJwtSign, ClsJwtSignInternal); (ClsJwtVerify, ClsJwtVerifyInternal)]
  end.
Definition packages : list package :=
  [Aead; Daead; Hybrid; Mac; Prf; Signature; StreamingAead; JwtMac; JwtSignature].

Definition type_url (name : string) : pystr := ulit ("type.googleapis.com/google.crypto.tink." ++ name).
Definition type_urls (p : package) : list pystr :=
  map (fun x => type_url (fst (fst x))) (key_types p) ++
  map (fun x => type_url (fst x)) (remote_key_types p).

(** Which packages a call sets up. *)
Definition sets_up (c : setup_call) (p : package) : Prop :=
  match c with
  | CallTinkConfig => ~ In p [JwtMac; JwtSignature]
  | CallAead => p = Aead
  | CallDaead => p = Daead
  | CallHybrid => p = Hybrid
  | CallMac => p = Mac
  | CallPrf => p = Prf
  | CallSignature => p = Signature
  | CallStreamingAead => p = StreamingAead
  | CallJwtMac => p = JwtMac
  | CallJwtSignature => p = JwtSignature
  | CallRegistry _ => False
  end.
(** A call of the user that is not about key types and primitives of the package. *)
Definition unrelated (c : setup_call) : Prop :=
  match c with
  | CallRegistry (OpRegisterKeyManager km _) => forall p, ~ In (km_key_type km) (type_urls p)
  | CallRegistry (OpRegisterWrapper x) => forall p, ~ In (w_primitive_class x) (map fst (primitives p))
  | _ => True
  end.

(** The functions of the C++ manager for a key type: key creation and the public part. *)
Definition manager_functions {P} (o : option (cc_lib_manager P))
  : option (pystr * (coins -> bytes -> st_or key_data) * option (bytes -> st_or key_data)) :=
  match o with
  | Some m => Some (cl_key_type m, cl_new_key_data m, cl_public_key_data m)
  | None => None
  end.
Definition cc_functions (w : cc_world) (c : pclass) (url : pystr) :=
  match c with
  | ClsAead => manager_functions (cw_aead w url)
  | ClsDaead => manager_functions (cw_daead w url)
  | ClsHybridDecrypt => manager_functions (cw_hybrid_decrypt w url)
  | ClsHybridEncrypt => manager_functions (cw_hybrid_encrypt w url)
  | ClsMac | ClsJwtMacInternal => manager_functions (cw_mac w url)
  | ClsPrf => manager_functions (cw_prf w url)
  | ClsSign | ClsJwtSignInternal => manager_functions (cw_sign w url)
  | ClsVerify | ClsJwtVerifyInternal => manager_functions (cw_verify w url)
  | ClsRawStreamingAead => manager_functions (cw_streaming w url)
  | _ => None
  end.

(** The C++ library can set up a package: its configurations report no error and its
    registry has a manager for every key type, under the type's own url. *)
Definition cc_ready (w : cc_world) (p : package) : Prop :=
  match p with
  | JwtMac | JwtSignature => cw_jwt_config w = StOk tt
  | Hybrid => cw_tink_config w = StOk tt /\ cw_hpke_config w = StOk tt
  | _ => cw_tink_config w = StOk tt
  end /\
  forall name c b, In (name, c, b) (key_types p) ->
    exists create public, cc_functions w c (type_url name) = Some (type_url name, create, public).

(** The registry [r] is reached by the calls [l], with results [xs]. *)
Definition reached (w : cc_world) (env : py_env) (l : list setup_call) (r : registry)
  (xs : list (result unit)) : Prop :=
  setup_run w env 0 l empty_registry = (r, xs) /\
  (forall c p, In c l -> sets_up c p -> cc_ready w p) /\
  (forall c, In c l -> unrelated c).
(** ... by calls of which one sets up [p]. *)
Definition configured (w : cc_world) (env : py_env) (p : package) (r : registry) : Prop :=
  exists l xs c, reached w env l r xs /\ In c l /\ sets_up c p.

(** A Python call answers what the C++ call answered: the same value, or TinkError for a
    status that is not OK. *)
Definition answers {A} (x : result A) (s : st_or A) : Prop :=
  match s with
  | StOk a => x = Ok a
  | StErr _ => raises_tink x
  end.
(** The same for objects: the Python object is one that [presents] accepts. *)
Definition answers_with {A B} (presents : A -> B -> Prop) (x : result B) (s : st_or A) : Prop :=
  match s with
  | StOk a => exists y, x = Ok y /\ presents a y
  | StErr _ => raises_tink x
  end.

(** The Python primitive [p] does what the C++ primitive [q] does. *)
Definition presents_aead (q : cc_aead) (p : prim) : Prop :=
  exists a, p = PrimAead a /\
    (forall r pt ad, answers (aead_encrypt a r pt ad) (ca_encrypt q r pt ad)) /\
    (forall ct ad, answers (aead_decrypt a ct ad) (ca_decrypt q ct ad)).
Definition presents_daead (q : cc_daead) (p : prim) : Prop :=
  exists a, p = PrimDaead a /\
    (forall pt ad, answers (daead_encrypt a pt ad) (cda_encrypt q pt ad)) /\
    (forall ct ad, answers (daead_decrypt a ct ad) (cda_decrypt q ct ad)).
Definition presents_mac (q : cc_mac) (p : prim) : Prop :=
  exists a, p = PrimMac a /\
    (forall data, answers (mac_compute a data) (cm_compute q data)) /\
    (forall tag data, answers (mac_verify a tag data) (cm_verify q tag data)).
Definition presents_signer (q : cc_signer) (p : prim) : Prop :=
  exists a, p = PrimSign a /\ forall r data, answers (sign a r data) (cs_sign q r data).
Definition presents_verifier (q : cc_verifier) (p : prim) : Prop :=
  exists a, p = PrimVerify a /\ forall s data, answers (verify a s data) (cv_verify q s data).
Definition presents_hybrid_decrypt (q : cc_hybrid_decrypt) (p : prim) : Prop :=
  exists a, p = PrimHybridDecrypt a /\
    forall ct ci, answers (hd_decrypt a ct ci) (chd_decrypt q ct ci).
Definition presents_hybrid_encrypt (q : cc_hybrid_encrypt) (p : prim) : Prop :=
  exists a, p = PrimHybridEncrypt a /\
    forall r pt ci, answers (he_encrypt a r pt ci) (che_encrypt q r pt ci).
(** For output lengths that C++ can be asked for. *)
Definition presents_prf (q : cc_prf) (p : prim) : Prop :=
  exists a, p = PrimPrf a /\
    forall x n, (n < 2 ^ 64)%N -> answers (prf_compute a x (Z.of_N n)) (cp_compute q x n).
Definition presents_streaming (env : py_env) (q : cc_streaming_aead) (p : prim) : Prop :=
  p = PrimRawStreamingAead
        (streaming_aead_cc_to_py (pe_what env) (pe_in_buffer env) (pe_out_buffer env) (pe_patience env) q).

(** What the registry answers for a key [d] and class [c] is what the C++ manager for the
    key type answers. *)
Definition primitive_from_cc (w : cc_world) (env : py_env) (c : pclass) (d : key_data)
  (x : result prim) : Prop :=
  let u := kd_type_url d in
  match c with
  | ClsAead => exists m, cw_aead w u = Some m /\ answers_with presents_aead x (cl_get_primitive m d)
  | ClsDaead => exists m, cw_daead w u = Some m /\ answers_with presents_daead x (cl_get_primitive m d)
  | ClsMac => exists m, cw_mac w u = Some m /\ answers_with presents_mac x (cl_get_primitive m d)
  | ClsPrf => exists m, cw_prf w u = Some m /\ answers_with presents_prf x (cl_get_primitive m d)
  | ClsSign => exists m, cw_sign w u = Some m /\ answers_with presents_signer x (cl_get_primitive m d)
  | ClsVerify => exists m, cw_verify w u = Some m /\ answers_with presents_verifier x (cl_get_primitive m d)
  | ClsHybridDecrypt =>
      exists m, cw_hybrid_decrypt w u = Some m /\ answers_with presents_hybrid_decrypt x (cl_get_primitive m d)
  | ClsHybridEncrypt =>
      exists m, cw_hybrid_encrypt w u = Some m /\ answers_with presents_hybrid_encrypt x (cl_get_primitive m d)
  | ClsRawStreamingAead =>
      exists m, cw_streaming w u = Some m /\ answers_with (presents_streaming env) x (cl_get_primitive m d)
  | _ => True
  end.

(** [d] is a key of a key type implemented in C++ whose primitive has class [c]. JWT keys
    are left out: their managers parse the key in Python. *)
Definition cc_key (c : pclass) (d : key_data) : Prop :=
  wf_key_data d /\ proto_size (M_Wire.serialize_key_data d) /\
  exists p name b, ~ In p [JwtMac; JwtSignature] /\ In (name, c, b) (key_types p) /\
    kd_type_url d = type_url name.

(** Every method of the primitive returns or raises TinkError. A PRF is asked for an
    output length that C++ can be asked for. *)
Definition only_tink (x : prim) : Prop :=
  match x with
  | PrimAead a => (forall r pt ad, tink_total (aead_encrypt a r pt ad)) /\
                  (forall ct ad, tink_total (aead_decrypt a ct ad))
  | PrimDaead a => (forall pt ad, tink_total (daead_encrypt a pt ad)) /\
                   (forall ct ad, tink_total (daead_decrypt a ct ad))
  | PrimMac a => (forall data, tink_total (mac_compute a data)) /\
                 (forall tag data, tink_total (mac_verify a tag data))
  | PrimSign a => forall r data, tink_total (sign a r data)
  | PrimVerify a => forall s data, tink_total (verify a s data)
  | PrimHybridDecrypt a => forall ct ci, tink_total (hd_decrypt a ct ci)
  | PrimHybridEncrypt a => forall r pt ci, tink_total (he_encrypt a r pt ci)
  | PrimPrfSet pid all prim0 =>
      tink_total pid /\ tink_total prim0 /\
      forall id y, In (id, y) all -> exists q, y = PrimPrf q /\
        forall x n, (n < 2 ^ 64)%N -> tink_total (prf_compute q x (Z.of_N n))
  | _ => False
  end.

(** The modules that export key templates, and the package each belongs to. *)
Definition module_packages (m : string) : list package :=
  if String.eqb m "aead" then [Aead]
  else if String.eqb m "daead" then [Daead]
  else if String.eqb m "mac" then [Mac]
  else if String.eqb m "prf" then [Prf]
  else if String.eqb m "streaming_aead" then [StreamingAead]
  else if String.eqb m "signature" then [Signature]
  else if String.eqb m "hybrid" then [Hybrid]
  else [JwtMac; JwtSignature].
