(** A small concrete world for the non-vacuity examples: toy primitives, a
    registry reached from the empty one by registrations, and keysets with keys of
    every prefix type and status. Nothing here models code of /repo. *)
From Coq Require Import Strings.Byte Strings.String List NArith ZArith Bool.
From Verif Require Import M_Base M_Proto M_Prims M_PrimitiveSet M_Registry M_KeysetHandle
  M_Wrappers.
Import ListNotations.
Open Scope list_scope.

(** [x] without the leading [p]. *)
Fixpoint strip (p x : bytes) : option bytes :=
  match p, x with
  | [], _ => Some x
  | a :: p', c :: x' => if Byte.eqb a c then strip p' x' else None
  | _, [] => None
  end.

Definition toy_seal (key ad pt : bytes) : result bytes :=
  Ok (key ++ byte_of_N (N.of_nat (length ad)) :: ad ++ pt).
Definition toy_open (key ct ad : bytes) : result bytes :=
  match strip (key ++ byte_of_N (N.of_nat (length ad)) :: ad) ct with
  | Some pt => Ok pt
  | None => Err (TinkError "toy")
  end.
Definition toy_tag (key data : bytes) : result bytes := Ok (blit "tag:" ++ key ++ blit ":" ++ data).
Definition toy_check (key tag data : bytes) : result unit :=
  if bytes_eqb tag (blit "tag:" ++ key ++ blit ":" ++ data) then Ok tt
  else Err (TinkError "toy").

Definition toy_aead (k : bytes) : aead :=
  mk_aead (fun _ pt ad => toy_seal k ad pt) (fun ct ad => toy_open k ct ad).
Definition toy_daead (k : bytes) : daead :=
  mk_daead (fun pt ad => toy_seal k ad pt) (fun ct ad => toy_open k ct ad).
Definition toy_mac (k : bytes) : mac := mk_mac (toy_tag k) (toy_check k).
Definition toy_signer (k : bytes) : signer := mk_signer (fun _ => toy_tag k).
Definition toy_verifier (k : bytes) : verifier := mk_verifier (toy_check k).
Definition toy_he (k : bytes) : hybrid_encrypt :=
  mk_hybrid_encrypt (fun _ pt ci => toy_seal k ci pt).
Definition toy_hd (k : bytes) : hybrid_decrypt :=
  mk_hybrid_decrypt (fun ct ci => toy_open k ct ci).
Definition toy_prf (k : bytes) : prf :=
  mk_prf (fun x n => Ok (firstn (Z.to_nat n) (k ++ x))).

Definition u_aead := ulit "toy.Aead".
Definition u_daead := ulit "toy.Daead".
Definition u_mac := ulit "toy.Mac".
Definition u_sign := ulit "toy.SignPrivate".
Definition u_verify := ulit "toy.SignPublic".
Definition u_hd := ulit "toy.HybridPrivate".
Definition u_he := ulit "toy.HybridPublic".
Definition u_prf := ulit "toy.Prf".

Definition toy_km (id : N) (url : pystr) (c : pclass) (mk : bytes -> prim) (material : Z)
  (pub : option pystr) : key_manager :=
  mk_key_manager id id url c (str_eqb url)
    (fun d => match kd_value d with [] => Err (TinkError "toy") | v => Ok (mk v) end)
    (fun rnd t => Ok (mk_key_data url (kt_value t ++ [byte_of_N rnd]) material))
    (match pub with
     | None => None
     | Some u => Some (fun d => Ok (mk_key_data u (kd_value d) ASYMMETRIC_PUBLIC))
     end).

Definition km_aead := toy_km 1 u_aead ClsAead (fun v => PrimAead (toy_aead v)) SYMMETRIC None.
Definition km_sign :=
  toy_km 4 u_sign ClsSign (fun v => PrimSign (toy_signer v)) ASYMMETRIC_PRIVATE (Some u_verify).

Definition toy_ops : list registry_op :=
  [ OpRegisterKeyManager km_aead true;
    OpRegisterKeyManager (toy_km 2 u_daead ClsDaead (fun v => PrimDaead (toy_daead v)) SYMMETRIC None) true;
    OpRegisterKeyManager (toy_km 3 u_mac ClsMac (fun v => PrimMac (toy_mac v)) SYMMETRIC None) true;
    OpRegisterKeyManager km_sign true;
    OpRegisterKeyManager (toy_km 5 u_verify ClsVerify (fun v => PrimVerify (toy_verifier v))
                            ASYMMETRIC_PUBLIC None) true;
    OpRegisterKeyManager (toy_km 6 u_hd ClsHybridDecrypt (fun v => PrimHybridDecrypt (toy_hd v))
                            ASYMMETRIC_PRIVATE (Some u_he)) true;
    OpRegisterKeyManager (toy_km 7 u_he ClsHybridEncrypt (fun v => PrimHybridEncrypt (toy_he v))
                            ASYMMETRIC_PUBLIC None) true;
    OpRegisterKeyManager (toy_km 8 u_prf ClsPrf (fun v => PrimPrf (toy_prf v)) SYMMETRIC None) true;
    OpRegisterWrapper aead_wrapper; OpRegisterWrapper daead_wrapper;
    OpRegisterWrapper mac_wrapper; OpRegisterWrapper public_key_sign_wrapper;
    OpRegisterWrapper public_key_verify_wrapper; OpRegisterWrapper hybrid_decrypt_wrapper;
    OpRegisterWrapper hybrid_encrypt_wrapper; OpRegisterWrapper prf_set_wrapper ].
Definition toy_registry : registry := registry_run empty_registry toy_ops.

Definition toy_key (url : pystr) (material : Z) (v : string) (status : Z) (id : N) (prefix : Z) : key :=
  mk_key (Some (mk_key_data url (blit v) material)) status id prefix.

(** Four keys: TINK primary 42, RAW 7, DISABLED CRUNCHY 9, LEGACY 300. *)
Definition toy_keyset (url : pystr) (material : Z) : keyset :=
  mk_keyset 42
    [ toy_key url material "ka" ENABLED 42 TINK;
      toy_key url material "kb" ENABLED 7 RAW;
      toy_key url material "kc" DISABLED 9 CRUNCHY;
      toy_key url material "kd" ENABLED 300 LEGACY ].
Definition toy_handle (url : pystr) (material : Z) : keyset_handle :=
  mk_handle (toy_keyset url material).
Definition toy_primary (url : pystr) (material : Z) : key :=
  toy_key url material "ka" ENABLED 42 TINK.

(** The toy handle with two more keys in other positions and another primary. *)
Definition toy_rotated (url : pystr) (material : Z) : keyset_handle :=
  mk_handle (mk_keyset 1000
    [ toy_key url material "ke" ENABLED 1000 TINK;
      toy_key url material "ka" ENABLED 42 TINK;
      toy_key url material "kb" ENABLED 7 RAW;
      toy_key url material "kf" ENABLED 8 RAW;
      toy_key url material "kd" ENABLED 300 LEGACY ]).

(** A handle for PRF sets: RAW keys only. *)
Definition toy_prf_handle : keyset_handle :=
  mk_handle (mk_keyset 5
    [ toy_key u_prf SYMMETRIC "pa" ENABLED 5 RAW;
      toy_key u_prf SYMMETRIC "pb" ENABLED 6 RAW;
      toy_key u_prf SYMMETRIC "pc" DISABLED 5 TINK ]).

(** The wrapped primitives of the toy handles. *)
Definition the_aead (r : result prim) : aead :=
  match r with Ok (PrimAead a) => a | _ => mk_aead (fun _ _ _ => Err KeyError) (fun _ _ => Err KeyError) end.
Definition the_daead (r : result prim) : daead :=
  match r with Ok (PrimDaead a) => a | _ => mk_daead (fun _ _ => Err KeyError) (fun _ _ => Err KeyError) end.
Definition the_mac (r : result prim) : mac :=
  match r with Ok (PrimMac a) => a | _ => mk_mac (fun _ => Err KeyError) (fun _ _ => Err KeyError) end.
Definition the_signer (r : result prim) : signer :=
  match r with Ok (PrimSign a) => a | _ => mk_signer (fun _ _ => Err KeyError) end.
Definition the_verifier (r : result prim) : verifier :=
  match r with Ok (PrimVerify a) => a | _ => mk_verifier (fun _ _ => Err KeyError) end.
Definition the_he (r : result prim) : hybrid_encrypt :=
  match r with Ok (PrimHybridEncrypt a) => a | _ => mk_hybrid_encrypt (fun _ _ _ => Err KeyError) end.
Definition the_hd (r : result prim) : hybrid_decrypt :=
  match r with Ok (PrimHybridDecrypt a) => a | _ => mk_hybrid_decrypt (fun _ _ => Err KeyError) end.
Definition the_handle (r : result keyset_handle) : keyset_handle :=
  match r with Ok h => h | Err _ => mk_handle (mk_keyset 0 []) end.

Definition w_aead : aead := the_aead (handle_primitive toy_registry (toy_handle u_aead SYMMETRIC) ClsAead).
Definition w_daead : daead := the_daead (handle_primitive toy_registry (toy_handle u_daead SYMMETRIC) ClsDaead).
Definition w_mac : mac := the_mac (handle_primitive toy_registry (toy_handle u_mac SYMMETRIC) ClsMac).
Definition sign_handle := toy_handle u_sign ASYMMETRIC_PRIVATE.
Definition sign_public_handle := the_handle (public_keyset_handle toy_registry sign_handle).
Definition w_signer : signer := the_signer (handle_primitive toy_registry sign_handle ClsSign).
Definition w_verifier : verifier := the_verifier (handle_primitive toy_registry sign_public_handle ClsVerify).
Definition hybrid_handle := toy_handle u_hd ASYMMETRIC_PRIVATE.
Definition hybrid_public_handle := the_handle (public_keyset_handle toy_registry hybrid_handle).
Definition w_hd : hybrid_decrypt := the_hd (handle_primitive toy_registry hybrid_handle ClsHybridDecrypt).
Definition w_he : hybrid_encrypt := the_he (handle_primitive toy_registry hybrid_public_handle ClsHybridEncrypt).
