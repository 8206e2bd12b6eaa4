(** C95: HPKE hybrid encryption in the C++ library, its keys and key managers. *)
From Coq Require Import Strings.Byte Strings.String List NArith ZArith Bool Lia.
From Verif Require Import M_Base L_Base M_Proto M_Wire S_Wire M_ProtoMsg S_ProtoMsg M_KeyFormats M_Templates M_Prims M_StreamTypes M_CcStream M_CcManagers M_CcAes
  M_CcStreamKeys M_CcModes M_CcSymmetric M_CcSymKeys M_CcEcies M_CcEciesKeys M_CcSignatures M_CcHpke S_Config S_CcAes S_CcStreamKeys S_CcModes S_CcSymmetric S_CcSymKeys S_CcSymHandles S_CcEcies S_CcHpke
  L_CcHpke L_CcHpke2 X_CcSymmetric X_CcSymKeys X_CcEcies X_CcHpke.
Import ListNotations.
Open Scope string_scope.
Open Scope list_scope.
Open Scope nat_scope.

(** ** What keys do *)
@thm C95_encrypt_made hpke_encrypter_made
@thm C95_encrypts hpke_encrypts
@thm C95_decrypt_made hpke_decrypter_made
@thm C95_decrypts hpke_decrypts
@thm C95_round_trip hpke_round_trip

(** ** Public keys *)
@thm C95_public_key hpke_public_key
@thm C95_public_only hpke_public_only
@thm C95_no_new_public hpke_no_new_public

(** ** New keys *)
@thm C95_new_key hpke_new_key
@thm C95_new_key_only hpke_new_key_only
@thm C95_from_format hpke_from_format
@thm C95_templates hpke_templates_ask

(** ** Keys that are made, or accepted, and of no use *)
@thm C95_new_key_works_refuted hpke_new_key_unusable
@thm C95_accepted_key_works_refuted hpke_unknown_aead

(** The laws are those of some library. *)
Example C95_laws_met : ec_laws toy_ec sym_toy /\ hpke_laws toy_ec toy_hpke.
Proof. split; [exact toy_ec_laws | exact toy_hpke_laws]. Qed.
Definition manager := hpke_private_key_manager toy_ec toy_hpke.
Definition public_data (d : key_data) : st_or key_data :=
  match cl_public_key_data manager with Some get => get (kd_value d) | None => StErr Undefined end.
Definition format_with (kem kdf aead : Z) : bytes := serialize_message HpkeKeyFormat [Some (VMsg [Some (VNum kem); Some (VNum kdf); Some (VNum aead)])].
(** The hypotheses are met: a key of the second algorithm and its public key *)
Example C95_hypotheses_met : let p := mk_hpke_suite 1 1 2 in
  asks_for_hpke (type_url "HpkePrivateKey") (format_with 1 1 2) p /\ suite_works p HpkeAes256Gcm /\
  exists d d' sk pk, cl_new_key_data manager 5%N (format_with 1 1 2) = StOk d /\ public_data d = StOk d' /\ proto_size (kd_value d) /\ proto_size (kd_value d') /\
    let k := mk_hpke_private (mk_hpke_public p pk) sk in is_hpke_private d k /\ is_hpke_public d' (hprv_public k) /\ hpke_pair toy_ec k.
Proof.
  cbv zeta. set (p := mk_hpke_suite 1 1 2).
  assert (A : asks_for_hpke (type_url "HpkePrivateKey") (format_with 1 1 2) p) by (split; [reflexivity |]; eexists; split; [vm_compute; reflexivity |]; split; [| split]; vm_compute; reflexivity).
  assert (W : suite_works p HpkeAes256Gcm) by (split; [reflexivity |]; split; [reflexivity |]; cbn; auto). split; [exact A |]. split; [exact W |].
  destruct (hpke_new_key toy_ec sym_toy toy_hpke 5%N _ p toy_ec_laws A (works_made p _ W)) as (d & E & _ & _ & H).
  assert (B : (match cl_new_key_data manager 5%N (format_with 1 1 2) with StOk d => Nat.ltb (length (kd_value d)) 1000 && match public_data d with StOk d' => Nat.ltb (length (kd_value d')) 1000 | _ => false end | _ => false end)%bool = true)
    by (vm_compute; reflexivity).
  unfold manager in B at 1. rewrite E in B. destruct (public_data d) as [d' |] eqn:E'; [| rewrite andb_false_r in B; discriminate B].
  apply andb_prop in B. destruct B as (B1 & B2). apply Nat.ltb_lt in B1, B2.
  assert (PS : forall x, length x < 1000 -> proto_size x). { intros x Q. unfold proto_size. lia. }
  destruct (H (PS _ B1)) as (sk & pk & K & F). destruct (hpke_public_key toy_ec toy_hpke d _ K (made_stated p (works_made p _ W))) as (get & d2 & G & E2 & _ & _ & H2).
  unfold public_data in E'. unfold manager in E'. rewrite G, E2 in E'. injection E' as ->. exists d, d', sk, pk. split; [exact E |]. split; [unfold public_data, manager; rewrite G; exact E2 |]. split; [exact (PS _ B1) |]. split; [exact (PS _ B2) |].
  split; [exact K |]. split; [exact (H2 (PS _ B2)) |]. exact (fresh_pair_hpke toy_ec sym_toy p 5%N sk pk _ toy_ec_laws W F).
Qed.
Definition plaintext : bytes := list_byte_of_string "the plaintext".
Definition context : bytes := list_byte_of_string "the context".
Definition st_is (r : st_or bytes) (b : bytes) : bool := match r with StOk c => bytes_eqb c b | _ => false end.
Definition st_fails {A} (r : st_or A) : bool := match r with StErr _ => true | _ => false end.
Definition with_keys (x : bytes) (f : key_data -> key_data -> bool) : bool :=
  match cl_new_key_data manager 5%N x with StOk d => match public_data d with StOk d' => f d d' | _ => false end | _ => false end.
Example C95_concrete :
  with_keys (format_with 1 1 3) (fun d d' =>
    match cl_get_primitive (hpke_public_key_manager toy_hpke) d', cl_get_primitive manager d with
    | StOk enc, StOk dec =>
        match che_encrypt enc 7%N plaintext context with
        | StOk C => st_is (chd_decrypt dec C context) plaintext && st_fails (chd_decrypt dec C plaintext) && st_fails (chd_decrypt dec (firstn 31 C) context) &&
            st_fails (cl_get_primitive (hpke_public_key_manager toy_hpke) d) && st_fails (cl_get_primitive manager d') && st_fails (public_data d')
        | _ => false
        end
    | _, _ => false
    end)%bool = true.
Proof. vm_compute. reflexivity. Qed.
(** Keys for the curve P-256, for another KDF, and for an AEAD that does not exist *)
Example C95_unusable_concrete :
  (with_keys (format_with 2 1 1) (fun d d' => st_fails (cl_get_primitive manager d) && st_fails (cl_get_primitive (hpke_public_key_manager toy_hpke) d')) &&
   with_keys (format_with 1 2 1) (fun d d' => st_fails (cl_get_primitive manager d) && st_fails (cl_get_primitive (hpke_public_key_manager toy_hpke) d')) &&
   with_keys (format_with 1 1 7) (fun d d' => match cl_get_primitive (hpke_public_key_manager toy_hpke) d' with StOk enc => st_fails (che_encrypt enc 7%N plaintext context) | _ => false end) &&
   st_fails (cl_new_key_data manager 5%N (format_with 0 1 1)) && st_fails (cl_new_key_data manager 5%N (format_with 5 1 1)))%bool = true.
Proof. vm_compute. reflexivity. Qed.
(** The hypotheses of the two refutations are met. *)
Example C95_refutations_met : let p := mk_hpke_suite 2 1 1 in let q := mk_hpke_suite 1 1 7 in
  (asks_for_hpke (type_url "HpkePrivateKey") (format_with 2 1 1) p /\ suite_made p /\ ~ suite_taken p) /\
  (exists d pk, is_hpke_public d (mk_hpke_public q pk) /\ pk <> [] /\ suite_taken q /\ forall a, ~ hpke_aead_number a 7).
Proof.
  cbv zeta. split.
  - split; [split; [reflexivity |]; eexists; split; [vm_compute; reflexivity |]; split; [| split]; vm_compute; reflexivity |]. split; [split; [cbn; auto | split; discriminate] |]. intros (H & _). discriminate H.
  - exists (mk_key_data (type_url "HpkePublicKey") (serialize_message HpkePublicKey [Some (VNum 0); Some (VMsg [Some (VNum 1); Some (VNum 1); Some (VNum 7)]); Some (VBytes [x01])]) ASYMMETRIC_PUBLIC), [x01].
    split; [split; [reflexivity |]; eexists; split; [vm_compute; reflexivity |]; split; [vm_compute; reflexivity |]; split; [split; [| split] |]; vm_compute; reflexivity |].
    split; [discriminate |]. split; [split; [reflexivity |]; split; [reflexivity | discriminate] |]. intros a [H | [H | [H | []]]]; discriminate H.
Qed.
