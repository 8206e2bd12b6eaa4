(** Specification of AEAD, deterministic AEAD, MAC and PRF as users of Python see them, in
    terms of the keys of a keyset and of the published algorithms. *)
From Coq Require Import Strings.Byte Strings.String List NArith ZArith Bool.
From Verif Require Import M_Base M_Proto M_Wire M_ProtoMsg M_KeyFormats M_Prims M_PrimitiveSet M_Registry M_KeysetHandle M_StreamTypes M_CcStream M_CcManagers M_CcAes
  M_CcStreamKeys M_CcModes M_CcSymmetric M_CcSymKeys S_Keyset S_Wrappers S_Wire S_Config S_CcAes S_CcStreamKeys S_CcModes S_CcSymmetric S_CcSymKeys.
Import ListNotations.
Open Scope string_scope.
Open Scope list_scope.
Open Scope nat_scope.

(** The C++ library has the key managers for symmetric keys, among others. *)
Definition sym_world (lib : crypto) (random : coins -> Z -> bytes) (w : cc_world) : Prop :=
  cw_tink_config w = StOk tt /\
  (forall url m, aead_managers lib random url = Some m -> cw_aead w url = Some m) /\
  (forall url m, daead_managers lib random url = Some m -> cw_daead w url = Some m) /\
  (forall url m, mac_managers lib random url = Some m -> cw_mac w url = Some m) /\
  (forall url m, prf_managers lib random url = Some m -> cw_prf w url = Some m).
(** A valid keyset whose enabled keys, in this order, are these, all of them admissible and
    of the kind [is_for] *)
Definition sym_keyset (is_for : sym_key -> bool) (ks : keyset) (l : list (key * sym_key)) : Prop :=
  valid_keyset ks /\ map fst l = enabled_keys ks /\
  Forall (fun x => wf_key_data (k_key_data (fst x)) /\ proto_size (serialize_key_data (k_key_data (fst x))) /\
    is_key (k_key_data (fst x)) (snd x) /\ is_for (snd x) = true /\ usable (snd x) /\
    exists p, has_prefix (k_output_prefix_type (fst x)) (k_key_id (fst x)) p) l.
(** [x] is the prefix of the key [k], and [body]. *)
Definition stamped (k : key) (x body : bytes) : Prop :=
  exists p, has_prefix (k_output_prefix_type k) (k_key_id k) p /\ x = p ++ body.

(** ** AEAD *)

(** [C] is the ciphertext of [P] with associated data [ad], made with [nonce]. *)
Definition aead_ciphertext (lib : crypto) (k : sym_key) (nonce ad P C : bytes) : Prop :=
  match k with
  | EaxKey key iv => length nonce = iv /\ eax_sizes P ad /\ eax_ciphertext (aes_encrypt lib key) nonce ad P C
  | GcmKey key => length nonce = 12 /\ sealed_ciphertext lib AesGcm key nonce ad P C
  | GcmSivKey key => length nonce = 12 /\ sealed_ciphertext lib AesGcmSiv key nonce ad P C
  | XChaChaKey key => length nonce = 24 /\ sealed_ciphertext lib XChaCha20Poly1305 key nonce ad P C
  | CtrHmacAeadKey k => length nonce = iv_size k /\ ctr_hmac_sizes P ad /\ ctr_then_hmac lib k nonce ad P C
  | _ => False
  end.
Definition nonce_size (k : sym_key) : nat :=
  match k with EaxKey _ iv => iv | GcmKey _ | GcmSivKey _ => 12 | XChaChaKey _ => 24 | CtrHmacAeadKey k => iv_size k | _ => 0 end.
(** How much longer ciphertexts are than plaintexts *)
Definition overhead (k : sym_key) : nat :=
  nonce_size k + match k with CtrHmacAeadKey k => hmac_tag_size k | _ => 16 end.
(** Sizes that can be encrypted *)
Definition admits (k : sym_key) (P ad : bytes) : Prop :=
  match k with EaxKey _ _ => eax_sizes P ad | CtrHmacAeadKey _ => ctr_hmac_sizes P ad | _ => aead_sizes P ad end.
(** One of the keys opens [C] as [P]. *)
Definition opens (lib : crypto) (l : list (key * sym_key)) (C ad P : bytes) : Prop :=
  exists k sk nonce c, In (k, sk) l /\ stamped k C c /\ aead_ciphertext lib sk nonce ad P c.
Definition aead_works (lib : crypto) (random : coins -> Z -> bytes) (ks : keyset) (l : list (key * sym_key)) (a : aead) : Prop :=
  (forall k sk, is_primary ks l k sk -> forall rnd P ad,
     (forall C, aead_encrypt a rnd P ad = Ok C <->
        exists c, stamped k C c /\ aead_ciphertext lib sk (random rnd (Z.of_nat (nonce_size sk))) ad P c) /\
     (admits sk P ad -> exists C, aead_encrypt a rnd P ad = Ok C)) /\
  (forall rnd P ad, tink_total (aead_encrypt a rnd P ad)) /\
  (forall C ad P, aead_decrypt a C ad = Ok P -> opens lib l C ad P) /\
  (forall C ad P, opens lib l C ad P -> exists P', aead_decrypt a C ad = Ok P') /\
  (forall C ad, tink_total (aead_decrypt a C ad)) /\
  ((forall k sk, ~ is_primary ks l k sk) -> forall rnd P ad, raises_tink (aead_encrypt a rnd P ad)).

(** ** Deterministic AEAD *)
Definition daead_ciphertext (lib : crypto) (k : sym_key) (ad P C : bytes) : Prop :=
  match k with
  | SivKey key => siv_ciphertext (aes_encrypt lib (firstn 32 key)) (aes_encrypt lib (skipn 32 key)) ad P C
  | _ => False
  end.
Definition daead_opens (lib : crypto) (l : list (key * sym_key)) (C ad P : bytes) : Prop :=
  exists k sk c, In (k, sk) l /\ stamped k C c /\ daead_ciphertext lib sk ad P c.
Definition daead_works (lib : crypto) (ks : keyset) (l : list (key * sym_key)) (a : daead) : Prop :=
  (forall k sk, is_primary ks l k sk -> forall P ad,
     (forall C, daead_encrypt a P ad = Ok C <-> exists c, stamped k C c /\ daead_ciphertext lib sk ad P c) /\
     exists C, daead_encrypt a P ad = Ok C) /\
  (forall P ad, tink_total (daead_encrypt a P ad)) /\
  (forall C ad P, daead_decrypt a C ad = Ok P -> daead_opens lib l C ad P) /\
  (forall C ad P, daead_opens lib l C ad P -> exists P', daead_decrypt a C ad = Ok P') /\
  (forall C ad, tink_total (daead_decrypt a C ad)) /\
  ((forall k sk, ~ is_primary ks l k sk) -> forall P ad, raises_tink (daead_encrypt a P ad)).

(** ** MAC *)
Definition mac_tag (lib : crypto) (k : sym_key) (data T : bytes) : Prop :=
  match k with
  | HmacMacKey h ts key => T = firstn ts (evp_hmac lib h key data)
  | CmacMacKey ts key => exists t, cmac (aes_encrypt lib key) data t /\ T = firstn ts t
  | _ => False
  end.
Definition mac_works (lib : crypto) (ks : keyset) (l : list (key * sym_key)) (a : mac) : Prop :=
  (forall k sk, is_primary ks l k sk -> forall data,
     (forall T, mac_compute a data = Ok T <-> exists t, stamped k T t /\ mac_tag lib sk (legacy_data k data) t) /\
     exists T, mac_compute a data = Ok T) /\
  (forall data, tink_total (mac_compute a data)) /\
  (forall T data, mac_verify a T data = Ok tt <->
     exists k sk t, In (k, sk) l /\ stamped k T t /\ mac_tag lib sk (legacy_data k data) t) /\
  (forall T data, tink_total (mac_verify a T data)) /\
  ((forall k sk, ~ is_primary ks l k sk) -> forall data, raises_tink (mac_compute a data)).

(** ** PRF *)
Definition prf_value (lib : crypto) (k : sym_key) (x : bytes) (n : nat) (y : bytes) : Prop :=
  match k with
  | HmacPrf h key => n <= hash_size h /\ y = firstn n (evp_hmac lib h key x)
  | CmacPrf key => n <= 16 /\ exists t, cmac (aes_encrypt lib key) x t /\ y = firstn n t
  | HkdfPrf h salt key => hkdf_output (evp_hmac lib h) salt key x n y
  | _ => False
  end.
Definition max_output (k : sym_key) : nat :=
  match k with HmacPrf h _ => hash_size h | CmacPrf _ => 16 | HkdfPrf h _ _ => 255 * hash_size h | _ => 0 end.
Definition prf_works (lib : crypto) (k : sym_key) (f : prf) : Prop :=
  forall x n, (n < 2 ^ 31)%N ->
    (forall y, prf_compute f x (Z.of_N n) = Ok y <-> prf_value lib k x (N.to_nat n) y) /\
    ((exists y, prf_compute f x (Z.of_N n) = Ok y) <-> (n <= N.of_nat (max_output k))%N) /\
    tink_total (prf_compute f x (Z.of_N n)).
(** primary_id(), all() and primary() *)
Definition prf_set_works (lib : crypto) (ks : keyset) (l : list (key * sym_key))
  (pid : result N) (all : list (N * prim)) (prim0 : result prim) : Prop :=
  (forall id, dict_get N.eqb id all = None <-> last_with_id id l = None) /\
  (forall id sk, last_with_id id l = Some sk -> exists f, dict_get N.eqb id all = Some (PrimPrf f) /\ prf_works lib sk f) /\
  (forall k sk, is_primary ks l k sk ->
     pid = Ok (k_key_id k) /\ exists f, prim0 = Ok (PrimPrf f) /\ prf_works lib sk f) /\
  ((forall k sk, ~ is_primary ks l k sk) -> raises_tink pid /\ raises_tink prim0).

(** ** Keys that a key format cannot tell apart: the same type, parameters and sizes *)
Definition alike (k k' : sym_key) : Prop :=
  sk_name k = sk_name k' /\ format_attributes k = format_attributes k' /\ map (@length byte) (material k) = map (@length byte) (material k').

(** [h] is a new handle for the template [name]: its keyset has one key, the primary key [k],
    which is what the template asks for and whose material [sk] was chosen at random. *)
Definition new_handle (random : coins -> Z -> bytes) (rnd : coins) (is_for : sym_key -> bool) (templates : list (string * sym_key * Z))
  (name : string) (h : keyset_handle) (k : key) (sk : sym_key) : Prop :=
  exists sk0 prefix, In (name, sk0, prefix) templates /\ alike sk0 sk /\ chosen random rnd sk /\
    sym_keyset is_for (kh_keyset h) [(k, sk)] /\ k_output_prefix_type k = prefix /\ k_key_id k = ks_primary_key_id (kh_keyset h).
(** The prefixes of keys with the id of [k] tell its ciphertexts from those of other keys. *)
Definition tells_apart (k : key) (sk : sym_key) (l : list (key * sym_key)) : Prop :=
  k_output_prefix_type k <> RAW /\
  forall k' sk', In (k', sk') l -> k_output_prefix_type k' <> RAW /\ (k_key_id k' = k_key_id k -> sk' = sk).
