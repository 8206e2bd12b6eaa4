(** C95: HPKE hybrid encryption in the C++ library, its keys and key managers. *)
From Coq Require Import Strings.Byte Strings.String List NArith ZArith Bool Lia.
From Verif Require Import M_Base L_Base M_Proto M_Wire S_Wire M_ProtoMsg S_ProtoMsg M_KeyFormats M_Templates M_Prims M_StreamTypes M_CcStream M_CcManagers M_CcAes
  M_CcStreamKeys M_CcModes M_CcSymmetric M_CcSymKeys M_CcEcies M_CcEciesKeys M_CcSignatures M_CcHpke S_Config S_CcAes S_CcStreamKeys S_CcModes S_CcSymmetric S_CcSymKeys S_CcSymHandles S_CcEcies S_CcHpke
  L_CcHpke L_CcHpke2 X_CcSymmetric X_CcSymKeys X_CcEcies X_CcHpke.
Import ListNotations.
Open Scope string_scope.
Open Scope list_scope.
Open Scope nat_scope.

(** ** What keys do *)
Theorem C95_encrypt_made : forall hc d,
  (exists x, cl_get_primitive (hpke_public_key_manager hc) d = StOk x) <-> (exists k, is_hpke_public d k /\ hpub_key k <> [] /\ suite_taken (hpub_suite k)).
Proof. exact hpke_encrypter_made. Qed.
Print Assumptions C95_encrypt_made.
Theorem C95_encrypts : forall hc d k x, is_hpke_public d k -> cl_get_primitive (hpke_public_key_manager hc) d = StOk x ->
  forall rnd P info, (forall C, che_encrypt x rnd P info = StOk C <-> exists a, suite_works (hpub_suite k) a /\ hpke_ciphertext hc a (hpub_key k) info rnd P C) /\
    che_encrypt x rnd P info <> StErr Undefined.
Proof. exact hpke_encrypts. Qed.
Print Assumptions C95_encrypts.
Theorem C95_decrypt_made : forall ec hc d,
  (exists x, cl_get_primitive (hpke_private_key_manager ec hc) d = StOk x) <-> (exists k, is_hpke_private d k /\ hprv_key k <> [] /\ suite_taken (hpub_suite (hprv_public k))).
Proof. exact hpke_decrypter_made. Qed.
Print Assumptions C95_decrypt_made.
Theorem C95_decrypts : forall ec hc d k x, hpke_laws ec hc -> is_hpke_private d k -> cl_get_primitive (hpke_private_key_manager ec hc) d = StOk x ->
  forall C info, (forall P, chd_decrypt x C info = StOk P <-> exists a, suite_works (hpub_suite (hprv_public k)) a /\ hpke_plaintext hc a (hprv_key k) info C P) /\
    chd_decrypt x C info <> StErr Undefined.
Proof. exact hpke_decrypts. Qed.
Print Assumptions C95_decrypts.
Theorem C95_round_trip : forall ec lib hc d d' k a, ec_laws ec lib -> hpke_laws ec hc -> is_hpke_private d k -> is_hpke_public d' (hprv_public k) -> hpke_pair ec k -> suite_works (hpub_suite (hprv_public k)) a ->
  exists x y, cl_get_primitive (hpke_public_key_manager hc) d' = StOk x /\ cl_get_primitive (hpke_private_key_manager ec hc) d = StOk y /\
    forall rnd P info, (hpke_admits P -> exists C, che_encrypt x rnd P info = StOk C) /\ (forall C, che_encrypt x rnd P info = StOk C -> chd_decrypt y C info = StOk P).
Proof. exact hpke_round_trip. Qed.
Print Assumptions C95_round_trip.

(** ** Public keys *)
Theorem C95_public_key : forall ec hc d k, is_hpke_private d k -> suite_stated (hpub_suite (hprv_public k)) ->
  exists get d', cl_public_key_data (hpke_private_key_manager ec hc) = Some get /\ get (kd_value d) = StOk d' /\
    kd_type_url d' = type_url "HpkePublicKey" /\ kd_key_material_type d' = ASYMMETRIC_PUBLIC /\ (proto_size (kd_value d') -> is_hpke_public d' (hprv_public k)).
Proof. exact hpke_public_key. Qed.
Print Assumptions C95_public_key.
Theorem C95_public_only : forall ec hc get x d, cl_public_key_data (hpke_private_key_manager ec hc) = Some get -> get x = StOk d ->
  exists k, is_hpke_private (mk_key_data (type_url "HpkePrivateKey") x ASYMMETRIC_PRIVATE) k /\ suite_stated (hpub_suite (hprv_public k)).
Proof. exact hpke_public_only. Qed.
Print Assumptions C95_public_only.
Theorem C95_no_new_public : forall hc rnd x, exists s, cl_new_key_data (hpke_public_key_manager hc) rnd x = StErr s.
Proof. exact hpke_no_new_public. Qed.
Print Assumptions C95_no_new_public.

(** ** New keys *)
Theorem C95_new_key : forall ec lib hc rnd x p, ec_laws ec lib -> asks_for_hpke (type_url "HpkePrivateKey") x p -> suite_made p ->
  exists d, cl_new_key_data (hpke_private_key_manager ec hc) rnd x = StOk d /\ kd_type_url d = type_url "HpkePrivateKey" /\ kd_key_material_type d = ASYMMETRIC_PRIVATE /\
    (proto_size (kd_value d) -> exists sk pk, is_hpke_private d (mk_hpke_private (mk_hpke_public p pk) sk) /\ fresh_hpke ec (hs_kem p) rnd sk pk).
Proof. exact hpke_new_key. Qed.
Print Assumptions C95_new_key.
Theorem C95_new_key_only : forall ec lib hc rnd x d, ec_laws ec lib -> cl_new_key_data (hpke_private_key_manager ec hc) rnd x = StOk d ->
  kd_type_url d = type_url "HpkePrivateKey" /\ kd_key_material_type d = ASYMMETRIC_PRIVATE /\
  exists p, asks_for_hpke (type_url "HpkePrivateKey") x p /\ suite_made p /\
    (proto_size (kd_value d) -> exists sk pk, is_hpke_private d (mk_hpke_private (mk_hpke_public p pk) sk) /\ fresh_hpke ec (hs_kem p) rnd sk pk).
Proof. exact hpke_new_key_only. Qed.
Print Assumptions C95_new_key_only.
Theorem C95_from_format : forall ec lib hc rnd x p a, ec_laws ec lib -> hpke_laws ec hc -> asks_for_hpke (type_url "HpkePrivateKey") x p -> suite_works p a ->
  exists d get, cl_new_key_data (hpke_private_key_manager ec hc) rnd x = StOk d /\ cl_public_key_data (hpke_private_key_manager ec hc) = Some get /\
    (proto_size (kd_value d) -> exists d', get (kd_value d) = StOk d' /\
      (proto_size (kd_value d') -> exists e y, cl_get_primitive (hpke_public_key_manager hc) d' = StOk e /\ cl_get_primitive (hpke_private_key_manager ec hc) d = StOk y /\
         forall rnd' P info, (hpke_admits P -> exists C, che_encrypt e rnd' P info = StOk C) /\ (forall C, che_encrypt e rnd' P info = StOk C -> chd_decrypt y C info = StOk P))).
Proof. exact hpke_from_format. Qed.
Print Assumptions C95_from_format.
Theorem C95_templates : Forall2 hpke_template_asks (skipn 4 hybrid_templates) hpke_templates.
Proof. exact hpke_templates_ask. Qed.
Print Assumptions C95_templates.

(** ** Keys that are made, or accepted, and of no use *)
Theorem C95_new_key_works_refuted : forall ec lib hc rnd x p, ec_laws ec lib -> asks_for_hpke (type_url "HpkePrivateKey") x p -> suite_made p -> ~ suite_taken p ->
  exists d, cl_new_key_data (hpke_private_key_manager ec hc) rnd x = StOk d /\
    (proto_size (kd_value d) -> (forall y, cl_get_primitive (hpke_private_key_manager ec hc) d <> StOk y) /\
       (forall pk d' y, is_hpke_public d' (mk_hpke_public p pk) -> cl_get_primitive (hpke_public_key_manager hc) d' <> StOk y)).
Proof. exact hpke_new_key_unusable. Qed.
Print Assumptions C95_new_key_works_refuted.
Theorem C95_accepted_key_works_refuted : forall hc d k, is_hpke_public d k -> hpub_key k <> [] -> suite_taken (hpub_suite k) -> (forall a, ~ hpke_aead_number a (hs_aead (hpub_suite k))) ->
  exists x, cl_get_primitive (hpke_public_key_manager hc) d = StOk x /\ forall rnd P info, exists s, che_encrypt x rnd P info = StErr s /\ s <> Undefined.
Proof. exact hpke_unknown_aead. Qed.
Print Assumptions C95_accepted_key_works_refuted.

(** The laws are those of some library. *)
Example C95_laws_met : ec_laws toy_ec sym_toy /\ hpke_laws toy_ec toy_hpke.
Proof. split; [exact toy_ec_laws | exact toy_hpke_laws]. Qed.
Definition manager := hpke_private_key_manager toy_ec toy_hpke.
Definition public_data (d : key_data) : st_or key_data :=
  match cl_public_key_data manager with Some get => get (kd_value d) | None => StErr Undefined end.
Definition format_with (kem kdf aead : Z) : bytes := serialize_message HpkeKeyFormat [Some (VMsg [Some (VNum kem); Some (VNum kdf); Some (VNum aead)])].
(** The hypotheses are met: a key of the second algorithm and its public key *)
Example C95_hypotheses_met : let p := mk_hpke_suite 1 1 2 in
  asks_for_hpke (type_url "HpkePrivateKey") (format_with 1 1 2) p /\ suite_works p HpkeAes256Gcm /\
  exists d d' sk pk, cl_new_key_data manager 5%N (format_with 1 1 2) = StOk d /\ public_data d = StOk d' /\ proto_size (kd_value d) /\ proto_size (kd_value d') /\
    let k := mk_hpke_private (mk_hpke_public p pk) sk in is_hpke_private d k /\ is_hpke_public d' (hprv_public k) /\ hpke_pair toy_ec k.
Proof.
  cbv zeta. set (p := mk_hpke_suite 1 1 2).
  assert (A : asks_for_hpke (type_url "HpkePrivateKey") (format_with 1 1 2) p) by (split; [reflexivity |]; eexists; split; [vm_compute; reflexivity |]; split; [| split]; vm_compute; reflexivity).
  assert (W : suite_works p HpkeAes256Gcm) by (split; [reflexivity |]; split; [reflexivity |]; cbn; auto). split; [exact A |]. split; [exact W |].
  destruct (hpke_new_key toy_ec sym_toy toy_hpke 5%N _ p toy_ec_laws A (works_made p _ W)) as (d & E & _ & _ & H).
  assert (B : (match cl_new_key_data manager 5%N (format_with 1 1 2) with StOk d => Nat.ltb (length (kd_value d)) 1000 && match public_data d with StOk d' => Nat.ltb (length (kd_value d')) 1000 | _ => false end | _ => false end)%bool = true)
    by (vm_compute; reflexivity).
  unfold manager in B at 1. rewrite E in B. destruct (public_data d) as [d' |] eqn:E'; [| rewrite andb_false_r in B; discriminate B].
  apply andb_prop in B. destruct B as (B1 & B2). apply Nat.ltb_lt in B1, B2.
  assert (PS : forall x, length x < 1000 -> proto_size x). { intros x Q. unfold proto_size. lia. }
  destruct (H (PS _ B1)) as (sk & pk & K & F). destruct (hpke_public_key toy_ec toy_hpke d _ K (made_stated p (works_made p _ W))) as (get & d2 & G & E2 & _ & _ & H2).
  unfold public_data in E'. unfold manager in E'. rewrite G, E2 in E'. injection E' as ->. exists d, d', sk, pk. split; [exact E |]. split; [unfold public_data, manager; rewrite G; exact E2 |]. split; [exact (PS _ B1) |]. split; [exact (PS _ B2) |].
  split; [exact K |]. split; [exact (H2 (PS _ B2)) |]. exact (fresh_pair_hpke toy_ec sym_toy p 5%N sk pk _ toy_ec_laws W F).
Qed.
Definition plaintext : bytes := list_byte_of_string "the plaintext".
Definition context : bytes := list_byte_of_string "the context".
Definition st_is (r : st_or bytes) (b : bytes) : bool := match r with StOk c => bytes_eqb c b | _ => false end.
Definition st_fails {A} (r : st_or A) : bool := match r with StErr _ => true | _ => false end.
Definition with_keys (x : bytes) (f : key_data -> key_data -> bool) : bool :=
  match cl_new_key_data manager 5%N x with StOk d => match public_data d with StOk d' => f d d' | _ => false end | _ => false end.
Example C95_concrete :
  with_keys (format_with 1 1 3) (fun d d' =>
    match cl_get_primitive (hpke_public_key_manager toy_hpke) d', cl_get_primitive manager d with
    | StOk enc, StOk dec =>
        match che_encrypt enc 7%N plaintext context with
        | StOk C => st_is (chd_decrypt dec C context) plaintext && st_fails (chd_decrypt dec C plaintext) && st_fails (chd_decrypt dec (firstn 31 C) context) &&
            st_fails (cl_get_primitive (hpke_public_key_manager toy_hpke) d) && st_fails (cl_get_primitive manager d') && st_fails (public_data d')
        | _ => false
        end
    | _, _ => false
    end)%bool = true.
Proof. vm_compute. reflexivity. Qed.
(** Keys for the curve P-256, for another KDF, and for an AEAD that does not exist *)
Example C95_unusable_concrete :
  (with_keys (format_with 2 1 1) (fun d d' => st_fails (cl_get_primitive manager d) && st_fails (cl_get_primitive (hpke_public_key_manager toy_hpke) d')) &&
   with_keys (format_with 1 2 1) (fun d d' => st_fails (cl_get_primitive manager d) && st_fails (cl_get_primitive (hpke_public_key_manager toy_hpke) d')) &&
   with_keys (format_with 1 1 7) (fun d d' => match cl_get_primitive (hpke_public_key_manager toy_hpke) d' with StOk enc => st_fails (che_encrypt enc 7%N plaintext context) | _ => false end) &&
   st_fails (cl_new_key_data manager 5%N (format_with 0 1 1)) && st_fails (cl_new_key_data manager 5%N (format_with 5 1 1)))%bool = true.
Proof. vm_compute. reflexivity. Qed.
(** The hypotheses of the two refutations are met. *)
Example C95_refutations_met : let p := mk_hpke_suite 2 1 1 in let q := mk_hpke_suite 1 1 7 in
  (asks_for_hpke (type_url "HpkePrivateKey") (format_with 2 1 1) p /\ suite_made p /\ ~ suite_taken p) /\
  (exists d pk, is_hpke_public d (mk_hpke_public q pk) /\ pk <> [] /\ suite_taken q /\ forall a, ~ hpke_aead_number a 7).
Proof.
  cbv zeta. split.
  - split; [split; [reflexivity |]; eexists; split; [vm_compute; reflexivity |]; split; [| split]; vm_compute; reflexivity |]. split; [split; [cbn; auto | split; discriminate] |]. intros (H & _). discriminate H.
  - exists (mk_key_data (type_url "HpkePublicKey") (serialize_message HpkePublicKey [Some (VNum 0); Some (VMsg [Some (VNum 1); Some (VNum 1); Some (VNum 7)]); Some (VBytes [x01])]) ASYMMETRIC_PUBLIC), [x01].
    split; [split; [reflexivity |]; eexists; split; [vm_compute; reflexivity |]; split; [vm_compute; reflexivity |]; split; [split; [| split] |]; vm_compute; reflexivity |].
    split; [discriminate |]. split; [split; [reflexivity |]; split; [reflexivity | discriminate] |]. intros a [H | [H | [H | []]]]; discriminate H.
Qed.
