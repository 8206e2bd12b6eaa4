(** Primitive interfaces. A primitive object is a record of its methods; the
    record can be the C++ implementation behind a key manager (arbitrary
    functions) or a wrapped primitive built by this package. Randomised methods
    take the random choices of the call as an extra argument [coins]. *)
From Coq Require Import List NArith ZArith Bool.
From Verif Require Import M_Base M_JwtTypes M_StreamTypes.
Import ListNotations.

Definition coins := N.

(** aead/_aead.py class Aead *)
Record aead := mk_aead {
  aead_encrypt : coins -> bytes -> bytes -> result bytes;
  aead_decrypt : bytes -> bytes -> result bytes }.

(** daead/_deterministic_aead.py class DeterministicAead *)
Record daead := mk_daead {
  daead_encrypt : bytes -> bytes -> result bytes;
  daead_decrypt : bytes -> bytes -> result bytes }.

(** mac/_mac.py class Mac *)
Record mac := mk_mac {
  mac_compute : bytes -> result bytes;
  mac_verify : bytes -> bytes -> result unit }.

(** signature/_public_key_sign.py, signature/_public_key_verify.py *)
Record signer := mk_signer { sign : coins -> bytes -> result bytes }.
Record verifier := mk_verifier { verify : bytes -> bytes -> result unit }.

(** hybrid/_hybrid_encrypt.py, hybrid/_hybrid_decrypt.py *)
Record hybrid_encrypt := mk_hybrid_encrypt { he_encrypt : coins -> bytes -> bytes -> result bytes }.
Record hybrid_decrypt := mk_hybrid_decrypt { hd_decrypt : bytes -> bytes -> result bytes }.

(** prf/_prf_set.py class Prf *)
Record prf := mk_prf { prf_compute : bytes -> Z -> result bytes }.

(** jwt/_jwt_mac.py class JwtMac and jwt/_jwt_hmac_key_manager.py (internal
    interface with the extra kid argument). [now] is the time of the call in
    microseconds, used when the validator has no fixed time. *)
Record jwt_mac := mk_jwt_mac {
  jm_compute : raw_jwt -> result pystr;
  jm_verify : Z -> pystr -> jwt_validator -> result verified_jwt }.
Record jwt_mac_internal := mk_jwt_mac_internal {
  jmi_compute : raw_jwt -> option pystr -> result pystr;
  jmi_verify : Z -> pystr -> jwt_validator -> option pystr -> result verified_jwt }.
Record jwt_sign := mk_jwt_sign { js_sign : coins -> raw_jwt -> result pystr }.
Record jwt_sign_internal := mk_jwt_sign_internal {
  jsi_sign : coins -> raw_jwt -> option pystr -> result pystr }.
Record jwt_verify := mk_jwt_verify {
  jv_verify : Z -> pystr -> jwt_validator -> result verified_jwt }.
Record jwt_verify_internal := mk_jwt_verify_internal {
  jvi_verify : Z -> pystr -> jwt_validator -> option pystr -> result verified_jwt }.

(** Primitive objects as Python values: a tagged union. [PrimPrfSet] carries the
    results of primary_id(), all() and primary(). [PrimStreamingAead] is left
    abstract here, see M_Stream. *)
Inductive prim :=
| PrimAead (p : aead)
| PrimDaead (p : daead)
| PrimMac (p : mac)
| PrimSign (p : signer)
| PrimVerify (p : verifier)
| PrimHybridEncrypt (p : hybrid_encrypt)
| PrimHybridDecrypt (p : hybrid_decrypt)
| PrimPrf (p : prf)
| PrimPrfSet (primary_id : result N) (all : list (N * prim)) (primary : result prim)
| PrimRawStreamingAead (p : raw_streaming_aead)
| PrimStreamingAead (enc : result prim) (candidates : list prim)
| PrimJwtMac (p : jwt_mac)
| PrimJwtMacInternal (p : jwt_mac_internal)
| PrimJwtSign (p : jwt_sign)
| PrimJwtSignInternal (p : jwt_sign_internal)
| PrimJwtVerify (p : jwt_verify)
| PrimJwtVerifyInternal (p : jwt_verify_internal)
| PrimUser (cls : N).

(** Primitive classes (Python class objects). [ClsUser] are classes defined by
    the user. *)
Inductive pclass :=
| ClsAead | ClsDaead | ClsMac | ClsSign | ClsVerify | ClsHybridEncrypt | ClsHybridDecrypt
| ClsPrf | ClsPrfSet | ClsRawStreamingAead | ClsStreamingAead
| ClsJwtMac | ClsJwtMacInternal | ClsJwtSign | ClsJwtSignInternal
| ClsJwtVerify | ClsJwtVerifyInternal | ClsUser (n : N).

Definition class_of (p : prim) : pclass :=
  match p with
  | PrimAead _ => ClsAead | PrimDaead _ => ClsDaead | PrimMac _ => ClsMac
  | PrimSign _ => ClsSign | PrimVerify _ => ClsVerify
  | PrimHybridEncrypt _ => ClsHybridEncrypt | PrimHybridDecrypt _ => ClsHybridDecrypt
  | PrimPrf _ => ClsPrf | PrimPrfSet _ _ _ => ClsPrfSet
  | PrimRawStreamingAead _ => ClsRawStreamingAead | PrimStreamingAead _ _ => ClsStreamingAead
  | PrimJwtMac _ => ClsJwtMac | PrimJwtMacInternal _ => ClsJwtMacInternal
  | PrimJwtSign _ => ClsJwtSign | PrimJwtSignInternal _ => ClsJwtSignInternal
  | PrimJwtVerify _ => ClsJwtVerify | PrimJwtVerifyInternal _ => ClsJwtVerifyInternal
  | PrimUser n => ClsUser n
  end.

Definition pclass_eqb (x y : pclass) : bool :=
  match x, y with
  | ClsAead, ClsAead | ClsDaead, ClsDaead | ClsMac, ClsMac | ClsSign, ClsSign
  | ClsVerify, ClsVerify | ClsHybridEncrypt, ClsHybridEncrypt
  | ClsHybridDecrypt, ClsHybridDecrypt | ClsPrf, ClsPrf | ClsPrfSet, ClsPrfSet
  | ClsRawStreamingAead, ClsRawStreamingAead | ClsStreamingAead, ClsStreamingAead
  | ClsJwtMac, ClsJwtMac | ClsJwtMacInternal, ClsJwtMacInternal
  | ClsJwtSign, ClsJwtSign | ClsJwtSignInternal, ClsJwtSignInternal
  | ClsJwtVerify, ClsJwtVerify | ClsJwtVerifyInternal, ClsJwtVerifyInternal => true
  | ClsUser n, ClsUser m => N.eqb n m
  | _, _ => false
  end.

(** [isinstance(p, cls)]. Simplification: no subclassing between primitive
    classes (none exists among the classes of this package). *)
Definition isinstance (p : prim) (c : pclass) : bool := pclass_eqb (class_of p) c.

(** Method calls on a duck-typed object: AttributeError if the object has no such
    method. *)
Definition call_encrypt (p : prim) (r : coins) (pt ad : bytes) : result bytes :=
  match p with
  | PrimAead a => aead_encrypt a r pt ad
  | PrimHybridEncrypt h => he_encrypt h r pt ad
  | _ => Err AttributeError
  end.
Definition call_decrypt (p : prim) (ct ad : bytes) : result bytes :=
  match p with
  | PrimAead a => aead_decrypt a ct ad
  | PrimHybridDecrypt h => hd_decrypt h ct ad
  | _ => Err AttributeError
  end.
Definition call_encrypt_deterministically (p : prim) (pt ad : bytes) : result bytes :=
  match p with PrimDaead d => daead_encrypt d pt ad | _ => Err AttributeError end.
Definition call_decrypt_deterministically (p : prim) (ct ad : bytes) : result bytes :=
  match p with PrimDaead d => daead_decrypt d ct ad | _ => Err AttributeError end.
Definition call_compute_mac (p : prim) (data : bytes) : result bytes :=
  match p with PrimMac m => mac_compute m data | _ => Err AttributeError end.
Definition call_verify_mac (p : prim) (tag data : bytes) : result unit :=
  match p with PrimMac m => mac_verify m tag data | _ => Err AttributeError end.
Definition call_sign (p : prim) (r : coins) (data : bytes) : result bytes :=
  match p with PrimSign g => sign g r data | _ => Err AttributeError end.
Definition call_verify (p : prim) (sg data : bytes) : result unit :=
  match p with PrimVerify v => verify v sg data | _ => Err AttributeError end.
