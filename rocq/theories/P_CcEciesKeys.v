(** C89: the keys of ECIES hybrid encryption in the C++ library. *)
From Coq Require Import Strings.Byte Strings.String List NArith ZArith Bool Lia.
From Verif Require Import M_Base L_Base M_Proto M_Wire S_Wire M_ProtoMsg S_ProtoMsg M_KeyFormats M_Templates M_Prims M_StreamTypes M_CcStream M_CcManagers M_CcAes
  M_CcStreamKeys M_CcModes M_CcSymmetric M_CcSymKeys M_CcEcies M_CcEciesKeys S_Config S_CcAes S_CcStreamKeys S_CcModes S_CcSymmetric S_CcSymKeys S_CcSymHandles S_CcEcies S_CcEciesKeys
  L_CcEcies4 L_CcEcies5 L_CcEciesKeys L_CcEciesKeys2 X_CcSymmetric X_CcSymKeys X_CcEcies.
Import ListNotations.
Open Scope string_scope.
Open Scope list_scope.
Open Scope nat_scope.

(** ** New keys and their public keys *)
Theorem C89_new_key : forall ec lib random rnd x p, ec_laws ec lib -> asks_for_ecies (type_url "EciesAeadHkdfPrivateKey") x p ->
  exists d, cl_new_key_data (ecies_private_key_manager ec lib random) rnd x = StOk d /\
    kd_type_url d = type_url "EciesAeadHkdfPrivateKey" /\ kd_key_material_type d = ASYMMETRIC_PRIVATE /\
    (proto_size (kd_value d) -> exists s X Y, is_ecies_private d p s X Y /\ fresh_key ec (ep_curve p) rnd s X Y /\ key_pair ec (ep_curve p) s X Y).
Proof. exact ecies_new_key. Qed.
Print Assumptions C89_new_key.
Theorem C89_new_key_only : forall ec lib random rnd x d, cl_new_key_data (ecies_private_key_manager ec lib random) rnd x = StOk d ->
  kd_type_url d = type_url "EciesAeadHkdfPrivateKey" /\ kd_key_material_type d = ASYMMETRIC_PRIVATE /\
  exists m c zc zh zf dem, parse_message EciesAeadHkdfKeyFormat x = Some m /\
    number EciesAeadHkdfKeyFormat m ["params"; "kem_params"; "curve_type"] zc /\ curve_number c zc /\
    number EciesAeadHkdfKeyFormat m ["params"; "kem_params"; "hkdf_hash_type"] zh /\ zh <> 0%Z /\
    number EciesAeadHkdfKeyFormat m ["params"; "ec_point_format"] zf /\ zf <> 0%Z /\
    get_path (TMsg EciesAeadHkdfKeyFormat) (Some (VMsg m)) ["params"; "dem_params"; "aead_dem"] = Some (VMsg dem).
Proof. exact ecies_new_key_only. Qed.
Print Assumptions C89_new_key_only.
Theorem C89_public_key : forall ec lib random d p s X Y, is_ecies_private d p s X Y ->
  exists get d', cl_public_key_data (ecies_private_key_manager ec lib random) = Some get /\ get (kd_value d) = StOk d' /\
    kd_type_url d' = type_url "EciesAeadHkdfPublicKey" /\ kd_key_material_type d' = ASYMMETRIC_PUBLIC /\
    (proto_size (kd_value d') -> is_ecies_public d' p X Y).
Proof. exact ecies_public_key. Qed.
Print Assumptions C89_public_key.
Theorem C89_no_new_public : forall ec lib random rnd x, exists s, cl_new_key_data (ecies_public_key_manager ec lib random) rnd x = StErr s.
Proof. exact ecies_no_new_public. Qed.
Print Assumptions C89_no_new_public.
Theorem C89_public_only_private : forall ec lib random get x d, cl_public_key_data (ecies_private_key_manager ec lib random) = Some get -> get x = StOk d ->
  exists m, parse_message EciesAeadHkdfPrivateKey x = Some m /\ number EciesAeadHkdfPrivateKey m ["version"] 0%Z /\ number EciesAeadHkdfPrivateKey m ["public_key"; "version"] 0%Z /\
    kd_type_url d = type_url "EciesAeadHkdfPublicKey" /\ kd_key_material_type d = ASYMMETRIC_PUBLIC.
Proof. exact ecies_public_only_private. Qed.
Print Assumptions C89_public_only_private.
Theorem C89_templates : Forall2 ecies_template_asks (firstn 4 hybrid_templates) ecies_template_keys /\
  Forall (fun x => exists t, snd x = Ok t /\ kt_type_url t = type_url "HpkePrivateKey") (skipn 4 hybrid_templates).
Proof. exact ecies_templates. Qed.
Print Assumptions C89_templates.

(** ** What keys do *)
Theorem C89_encrypt_made : forall ec lib random d p X Y, is_ecies_public d p X Y -> dem_kind (ep_dem p) = true ->
  ((exists cc, cl_get_primitive (ecies_public_key_manager ec lib random) d = StOk cc) <-> public_ok ec (ep_curve p) X Y).
Proof. exact ecies_public_primitive. Qed.
Print Assumptions C89_encrypt_made.
Theorem C89_decrypt_made : forall ec lib random d p s X Y, is_ecies_private d p s X Y -> dem_kind (ep_dem p) = true ->
  ((exists cc, cl_get_primitive (ecies_private_key_manager ec lib random) d = StOk cc) <-> private_ok (ep_curve p) s X Y).
Proof. exact ecies_private_primitive. Qed.
Print Assumptions C89_decrypt_made.
Theorem C89_encrypts : forall ec lib random d p X Y cc, ec_laws ec lib -> crypto_laws lib -> random_law random ->
  is_ecies_public d p X Y -> proper p -> cl_get_primitive (ecies_public_key_manager ec lib random) d = StOk cc -> forall rnd P info,
  (forall C, che_encrypt cc rnd P info = StOk C <->
     exists kem S, sender_secret ec p X Y rnd kem S /\ ecies_ciphertext lib p kem S info (random rnd (Z.of_nat (nonce_size (ep_dem p)))) P C) /\
  (dem_admits (ep_dem p) P -> (ep_curve p = CURVE25519 /\ x25519_derive ec (x25519_generate ec rnd) X = None) \/ exists C, che_encrypt cc rnd P info = StOk C) /\
  (ep_curve p = CURVE25519 -> x25519_derive ec (x25519_generate ec rnd) X = None -> che_encrypt cc rnd P info = StErr Undefined).
Proof. exact ecies_public_encrypts. Qed.
Print Assumptions C89_encrypts.
Theorem C89_decrypts : forall ec lib random d p s X Y cc, ec_laws ec lib -> crypto_laws lib ->
  is_ecies_private d p s X Y -> proper p -> cl_get_primitive (ecies_private_key_manager ec lib random) d = StOk cc -> forall C info,
  (forall P, chd_decrypt cc C info = StOk P <-> exists kem S nonce, recipient_secret ec p s kem S /\ ecies_ciphertext lib p kem S info nonce P C).
Proof. exact ecies_private_decrypts. Qed.
Print Assumptions C89_decrypts.
Theorem C89_round_trip : forall ec lib random d d' p s X Y, ec_laws ec lib -> crypto_laws lib -> random_law random ->
  is_ecies_private d p s X Y -> is_ecies_public d' p X Y -> proper p -> key_pair ec (ep_curve p) s X Y ->
  exists enc dec, cl_get_primitive (ecies_public_key_manager ec lib random) d' = StOk enc /\ cl_get_primitive (ecies_private_key_manager ec lib random) d = StOk dec /\
    forall rnd P info, dem_admits (ep_dem p) P -> exists C, che_encrypt enc rnd P info = StOk C /\ chd_decrypt dec C info = StOk P.
Proof. exact ecies_keys_round_trip. Qed.
Print Assumptions C89_round_trip.
Theorem C89_from_format : forall ec lib random rnd x p, ec_laws ec lib -> crypto_laws lib -> random_law random ->
  asks_for_ecies (type_url "EciesAeadHkdfPrivateKey") x p -> proper p ->
  exists d get d', cl_new_key_data (ecies_private_key_manager ec lib random) rnd x = StOk d /\
    cl_public_key_data (ecies_private_key_manager ec lib random) = Some get /\
    (proto_size (kd_value d) -> get (kd_value d) = StOk d' /\
      (proto_size (kd_value d') -> exists enc dec, cl_get_primitive (ecies_public_key_manager ec lib random) d' = StOk enc /\
         cl_get_primitive (ecies_private_key_manager ec lib random) d = StOk dec /\
         forall rnd' P info, dem_admits (ep_dem p) P -> exists C, che_encrypt enc rnd' P info = StOk C /\ chd_decrypt dec C info = StOk P)).
Proof. exact ecies_from_format. Qed.
Print Assumptions C89_from_format.

(** ** Only such keys *)
Theorem C89_encrypts_only : forall ec lib random d cc rnd P info C, ec_laws ec lib -> crypto_laws lib ->
  cl_get_primitive (ecies_public_key_manager ec lib random) d = StOk cc -> che_encrypt cc rnd P info = StOk C ->
  exists p X Y, is_ecies_public d p X Y /\ proper p /\ public_ok ec (ep_curve p) X Y.
Proof. exact ecies_public_only. Qed.
Print Assumptions C89_encrypts_only.
Theorem C89_decrypts_only : forall ec lib random d cc C info P, ec_laws ec lib -> crypto_laws lib ->
  cl_get_primitive (ecies_private_key_manager ec lib random) d = StOk cc -> chd_decrypt cc C info = StOk P ->
  exists p s X Y, is_ecies_private d p s X Y /\ proper p /\ private_ok (ep_curve p) s X Y.
Proof. exact ecies_private_only. Qed.
Print Assumptions C89_decrypts_only.
Theorem C89_other_dem : forall ec lib random p, dem_kind (ep_dem p) = false ->
  (forall d X Y, is_ecies_public d p X Y -> exists e, cl_get_primitive (ecies_public_key_manager ec lib random) d = StErr e) /\
  (forall d s X Y, is_ecies_private d p s X Y -> exists e, cl_get_primitive (ecies_private_key_manager ec lib random) d = StErr e).
Proof. exact ecies_other_dem. Qed.
Print Assumptions C89_other_dem.
(** A key that is made need not be of any use. *)
Theorem C89_new_key_works_refuted : exists x, forall ec lib random rnd, ec_laws ec lib ->
  exists d, cl_new_key_data (ecies_private_key_manager ec lib random) rnd x = StOk d /\
    (proto_size (kd_value d) -> exists e, cl_get_primitive (ecies_private_key_manager ec lib random) d = StErr e).
Proof. exact ecies_new_key_unusable. Qed.
Print Assumptions C89_new_key_works_refuted.

(** The laws are those of some library, and its keys meet the hypotheses. *)
Example C89_laws_met : ec_laws toy_ec sym_toy /\ crypto_laws sym_toy /\ random_law toy_draw.
Proof.
  split; [exact toy_ec_laws |]. split; [exact sym_toy_laws |]. intros rnd size H. unfold toy_draw. rewrite repeat_length. lia.
Qed.
Definition first_template : bytes := match hybrid_templates with (_, Ok t) :: _ => kt_value t | _ => [] end.
Definition toy_private : st_or key_data := cl_new_key_data (ecies_private_key_manager toy_ec sym_toy toy_draw) 5%N first_template.
Definition toy_public_of (d : key_data) : st_or key_data :=
  match cl_public_key_data (ecies_private_key_manager toy_ec sym_toy toy_draw) with Some get => get (kd_value d) | None => StErr Undefined end.
Definition gcm_template_params : ecies_params := mk_ecies_params P256 M_CcAes.SHA256 [] Uncompressed (GcmKey (repeat x00 16)).
Example C89_hypotheses_met : asks_for_ecies (type_url "EciesAeadHkdfPrivateKey") first_template gcm_template_params /\ proper gcm_template_params /\
  exists d d' s X Y, toy_private = StOk d /\ toy_public_of d = StOk d' /\ proto_size (kd_value d) /\ proto_size (kd_value d') /\
    is_ecies_private d gcm_template_params s X Y /\ is_ecies_public d' gcm_template_params X Y /\ key_pair toy_ec P256 s X Y /\ public_ok toy_ec P256 X Y /\ private_ok P256 s X Y.
Proof.
  assert (A : asks_for_ecies (type_url "EciesAeadHkdfPrivateKey") first_template gcm_template_params /\ proper gcm_template_params).
  { pose proof (proj1 ecies_templates) as F. unfold first_template. destruct hybrid_templates as [| (n, r) l]; [inversion F |]. cbn [firstn] in F.
    inversion_clear F as [| ? ? ? ? H _]. destruct H as (_ & t & E & A & P & _). cbn [snd] in E, A, P. subst r. split; [| exact P]. destruct A as (_ & A). split; [reflexivity | exact A]. }
  split; [apply A |]. split; [apply A |]. destruct A as (A & _).
  destruct (ecies_new_key toy_ec sym_toy toy_draw 5%N _ _ toy_ec_laws A) as (d & E & _ & _ & H).
  assert (B : (match toy_private with StOk d => Nat.ltb (length (kd_value d)) 1000 && match toy_public_of d with StOk d' => Nat.ltb (length (kd_value d')) 1000 | _ => false end | _ => false end)%bool = true)
    by (vm_compute; reflexivity).
  unfold toy_private in *. rewrite E in *. destruct (toy_public_of d) as [d' |] eqn:E'; [| rewrite andb_false_r in B; discriminate B].
  apply andb_prop in B. destruct B as (B1 & B2). apply Nat.ltb_lt in B1, B2.
  assert (PS : forall x, length x < 1000 -> proto_size x). { intros x Q. unfold proto_size. lia. }
  destruct (H (PS _ B1)) as (s & X & Y & K & _ & KP). destruct (ecies_public_key toy_ec sym_toy toy_draw d _ _ _ _ K) as (get & d2 & G & E2 & _ & _ & H2).
  unfold toy_public_of in E'. rewrite G in E'. rewrite E2 in E'. injection E' as ->. exists d, d', s, X, Y. split; [reflexivity |]. split; [unfold toy_public_of; rewrite G; exact E2 |]. split; [exact (PS _ B1) |]. split; [exact (PS _ B2) |].
  split; [exact K |]. split; [exact (H2 (PS _ B2)) |]. split; [exact KP |].
  destruct (ecies_keys_round_trip toy_ec sym_toy toy_draw d d' _ s X Y toy_ec_laws sym_toy_laws (proj2 (proj2 C89_laws_met)) K (H2 (PS _ B2))) as (enc & dec & EN & DE & _); [| exact KP |].
  - split; [discriminate |]. split; [discriminate |]. split; [discriminate |]. split; [discriminate |]. split; [reflexivity |]. split; [cbn; auto |]. cbn. lia.
  - split; [apply (ecies_public_primitive toy_ec sym_toy toy_draw d' _ X Y (H2 (PS _ B2)) eq_refl); eexists; exact EN |].
    apply (ecies_private_primitive toy_ec sym_toy toy_draw d _ s X Y K eq_refl). eexists. exact DE.
Qed.
Definition plaintext : bytes := list_byte_of_string "the plaintext".
Definition context : bytes := list_byte_of_string "the context".
Definition st_is (r : st_or bytes) (b : bytes) : bool := match r with StOk c => bytes_eqb c b | _ => false end.
Definition st_fails {A} (r : st_or A) : bool := match r with StErr _ => true | _ => false end.
Example C89_concrete :
  match toy_private with
  | StOk d =>
      match toy_public_of d with
      | StOk d' =>
          match cl_get_primitive (ecies_public_key_manager toy_ec sym_toy toy_draw) d', cl_get_primitive (ecies_private_key_manager toy_ec sym_toy toy_draw) d with
          | StOk enc, StOk dec =>
              match che_encrypt enc 7%N plaintext context with
              | StOk C => Nat.eqb (length C) (65 + 28 + length plaintext) && st_is (chd_decrypt dec C context) plaintext && st_fails (chd_decrypt dec C []) &&
                  st_fails (cl_get_primitive (ecies_public_key_manager toy_ec sym_toy toy_draw) d) && st_fails (cl_get_primitive (ecies_private_key_manager toy_ec sym_toy toy_draw) d') &&
                  st_fails (toy_public_of d')
              | _ => false
              end
          | _, _ => false
          end
      | _ => false
      end
  | _ => false
  end%bool = true.
Proof. vm_compute. reflexivity. Qed.
(** The key of the refutation is made, and fails. *)
Example C89_unusable_concrete :
  match cl_new_key_data (ecies_private_key_manager toy_ec sym_toy toy_draw) 5%N eax_dem_format with
  | StOk d => Nat.ltb (length (kd_value d)) 1000 && st_fails (cl_get_primitive (ecies_private_key_manager toy_ec sym_toy toy_draw) d)
  | _ => false
  end%bool = true.
Proof. vm_compute. reflexivity. Qed.
