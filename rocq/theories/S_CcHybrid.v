(** Specification of hybrid encryption with keysets that have ECIES keys, HPKE keys or both,
    and of the example programs that use them. *)
From Coq Require Import Strings.Byte Strings.String List NArith ZArith Bool.
From Verif Require Import M_Base M_Utf8 M_Proto M_Wire M_Prims M_PrimitiveSet M_Registry M_KeysetHandle M_CcStream M_CcManagers M_Cli
  M_CcAes M_CcModes M_CcSymmetric M_CcEcies M_CcEciesKeys M_CcHpke S_Keyset S_Handle S_Wrappers S_Wire S_Config S_Cli S_CcLaws S_CcAes S_CcStreamKeys S_CcModes S_CcSymmetric
  S_CcSymKeys S_CcSymHandles S_CcEcies S_CcEciesKeys S_CcEciesHandles S_CcHpke S_CcHpkeHandles.
Import ListNotations.
Open Scope string_scope.
Open Scope list_scope.
Open Scope nat_scope.

(** The keys *)
Inductive any_public := EciesPublic (k : ecies_public) | HpkePublic (k : hpke_public).
Inductive any_private := EciesPrivate (k : ecies_private) | HpkePrivate (k : hpke_private).
Definition any_public_of (q : any_private) : any_public :=
  match q with EciesPrivate k => EciesPublic (prv_public k) | HpkePrivate k => HpkePublic (hprv_public k) end.
Definition is_any_public (d : key_data) (k : any_public) : Prop :=
  match k with EciesPublic k => is_public d k | HpkePublic k => is_hpke_public d k end.
Definition is_any_private (d : key_data) (k : any_private) : Prop :=
  match k with EciesPrivate k => is_private d k | HpkePrivate k => is_hpke_private d k end.
Definition good_any_public (ec : ec_crypto) (k : any_public) : Prop :=
  match k with EciesPublic k => good_public ec k | HpkePublic k => good_hpke_public k end.
Definition good_any_private (ec : ec_crypto) (k : any_private) : Prop :=
  match k with EciesPrivate k => good_private ec k | HpkePrivate k => good_hpke_private ec k end.

(** [C] is the ciphertext of [P] for the public key [k], made with the choices [rnd]. *)
Definition any_ciphertext (ec : ec_crypto) (lib : crypto) (random : coins -> Z -> bytes) (hc : hpke_crypto) (k : any_public) (rnd : coins) (info P C : bytes) : Prop :=
  match k with
  | EciesPublic k => hybrid_ciphertext ec lib random k rnd info P C
  | HpkePublic k => exists alg, suite_works (hpub_suite k) alg /\ hpke_ciphertext hc alg (hpub_key k) info rnd P C
  end.
(** The private key [k] opens [C] as [P]. *)
Definition any_plaintext (ec : ec_crypto) (lib : crypto) (hc : hpke_crypto) (k : any_private) (info C P : bytes) : Prop :=
  match k with
  | EciesPrivate k => exists kem S nonce, recipient_secret ec (pub_params (prv_public k)) (prv_value k) kem S /\
      ecies_ciphertext lib (pub_params (prv_public k)) kem S info nonce P C
  | HpkePrivate k => exists alg, suite_works (hpub_suite (hprv_public k)) alg /\ hpke_plaintext hc alg (hprv_key k) info C P
  end.
(** The process ends during encryption (C88), and nothing is said. *)
Definition any_ends (ec : ec_crypto) (k : any_public) (rnd : coins) : Prop :=
  match k with EciesPublic k => low_order ec k rnd | HpkePublic _ => False end.
(** Plaintexts whose size can be encrypted *)
Definition any_admits (k : any_public) (P : bytes) : Prop :=
  match k with EciesPublic k => dem_admits (ep_dem (pub_params k)) P | HpkePublic _ => hpke_admits P end.

(** ** Handles *)
Definition any_encrypt_works (ec : ec_crypto) (lib : crypto) (random : coins -> Z -> bytes) (hc : hpke_crypto) (ks : keyset)
  (l : list (key * any_public)) (a : hybrid_encrypt) : Prop :=
  (forall k q, is_primary ks l k q -> forall rnd P info, ~ any_ends ec q rnd ->
     (forall C, he_encrypt a rnd P info = Ok C <-> exists c, stamped k C c /\ any_ciphertext ec lib random hc q rnd info P c) /\
     (any_admits q P -> (exists s, good_any_private ec s /\ any_public_of s = q) -> exists C, he_encrypt a rnd P info = Ok C) /\
     tink_total (he_encrypt a rnd P info)) /\
  ((forall k q, ~ is_primary ks l k q) -> forall rnd P info, raises_tink (he_encrypt a rnd P info)).
(** One of the keys opens [C] as [P]. *)
Definition any_opens (ec : ec_crypto) (lib : crypto) (hc : hpke_crypto) (l : list (key * any_private)) (C info P : bytes) : Prop :=
  exists k q c, In (k, q) l /\ stamped k C c /\ any_plaintext ec lib hc q info c P.
Definition any_decrypt_works (ec : ec_crypto) (lib : crypto) (hc : hpke_crypto) (l : list (key * any_private)) (a : hybrid_decrypt) : Prop :=
  (forall C info P, hd_decrypt a C info = Ok P -> any_opens ec lib hc l C info P) /\
  (forall C info P, any_opens ec lib hc l C info P -> exists P', hd_decrypt a C info = Ok P') /\
  (forall C info, tink_total (hd_decrypt a C info)).
(** Only one of the keys can be meant by the prefix of the key [k]: this is [q]. *)
Definition any_told_apart (k : key) (q : any_private) (l : list (key * any_private)) : Prop :=
  l = [(k, q)] \/
  (k_output_prefix_type k <> RAW /\
   forall k' q', In (k', q') l -> k_output_prefix_type k' <> RAW /\ (k_key_id k' = k_key_id k -> q' = q)).

(** Public keysets: the same keys with the same identifiers, statuses and prefixes *)
Definition any_public_half (x : key * any_private) (y : key * any_public) : Prop :=
  k_status (fst y) = k_status (fst x) /\ k_key_id (fst y) = k_key_id (fst x) /\ k_output_prefix_type (fst y) = k_output_prefix_type (fst x) /\
  is_any_public (k_key_data (fst y)) (any_public_of (snd x)) /\ snd y = any_public_of (snd x).
(** All keys of a keyset, whatever their status *)
Definition all_any_private (ks : keyset) (l : list (key * any_private)) : Prop :=
  map fst l = ks_key ks /\
  Forall (fun x => wf_key_data (k_key_data (fst x)) /\ proto_size (serialize_key_data (k_key_data (fst x))) /\
    kd_key_material_type (k_key_data (fst x)) = ASYMMETRIC_PRIVATE /\ is_any_private (k_key_data (fst x)) (snd x) /\
    match snd x with EciesPrivate _ => True | HpkePrivate k => suite_stated (hpub_suite (hprv_public k)) end) l.
Definition any_public_fits (ec : ec_crypto) (lib : crypto) (random : coins -> Z -> bytes) (hc : hpke_crypto) (k : key) (q : any_private) : Prop :=
  match q with EciesPrivate _ => public_fits ec lib random k | HpkePrivate _ => hpke_public_fits ec hc k end.

(** ** The example programs *)

(** The C++ library has the key managers of ECIES and of HPKE, and can register them. *)
Definition hybrid_library (ec : ec_crypto) (lib : crypto) (random : coins -> Z -> bytes) (hc : hpke_crypto) (w : cc_world) : Prop :=
  ecies_world ec lib random w /\ hpke_world ec hc w /\ cw_tink_config w = StOk tt /\ cw_hpke_config w = StOk tt.
(** The run writes to [out] the ciphertext of [P] for the primary key; if it cannot encrypt, it
    fails and leaves [out] empty. *)
Definition hybrid_encrypts_file (ec : ec_crypto) (lib : crypto) (random : coins -> Z -> bytes) (hc : hpke_crypto) (ks : keyset) (l : list (key * any_public)) (rnd : coins)
  (P info : bytes) (run : result Z * files) (out : pystr) (fs : files) : Prop :=
  (forall k q, is_primary ks l k q -> ~ any_ends ec q rnd ->
     (forall C, writes run out C fs <-> exists c, stamped k C c /\ any_ciphertext ec lib random hc q rnd info P c) /\
     (any_admits q P -> (exists s, good_any_private ec s /\ any_public_of s = q) -> exists C, writes run out C fs) /\
     ((exists C, writes run out C fs) \/ empties run out fs)) /\
  ((forall k q, ~ is_primary ks l k q) -> empties run out fs).
(** The run writes to [out] a plaintext as which one of the keys opens [C]; if there is none, it
    fails and leaves [out] empty. *)
Definition hybrid_decrypts_file (ec : ec_crypto) (lib : crypto) (hc : hpke_crypto) (l : list (key * any_private)) (C info : bytes)
  (run : result Z * files) (out : pystr) (fs : files) : Prop :=
  (exists P, any_opens ec lib hc l C info P /\ writes run out P fs) \/
  ((forall P, ~ any_opens ec lib hc l C info P) /\ empties run out fs).
