(** C89: the keys of ECIES hybrid encryption in the C++ library. *)
From Coq Require Import Strings.Byte Strings.String List NArith ZArith Bool Lia.
From Verif Require Import M_Base L_Base M_Proto M_Wire S_Wire M_ProtoMsg S_ProtoMsg M_KeyFormats M_Templates M_Prims M_StreamTypes M_CcStream M_CcManagers M_CcAes
  M_CcStreamKeys M_CcModes M_CcSymmetric M_CcSymKeys M_CcEcies M_CcEciesKeys S_Config S_CcAes S_CcStreamKeys S_CcModes S_CcSymmetric S_CcSymKeys S_CcSymHandles S_CcEcies S_CcEciesKeys
  L_CcEcies4 L_CcEcies5 L_CcEciesKeys L_CcEciesKeys2 X_CcSymmetric X_CcSymKeys X_CcEcies.
Import ListNotations.
Open Scope string_scope.
Open Scope list_scope.
Open Scope nat_scope.

(** ** New keys and their public keys *)
@thm C89_new_key ecies_new_key
@thm C89_new_key_only ecies_new_key_only
@thm C89_public_key ecies_public_key
@thm C89_no_new_public ecies_no_new_public
@thm C89_public_only_private ecies_public_only_private
@thm C89_templates ecies_templates

(** ** What keys do *)
@thm C89_encrypt_made ecies_public_primitive
@thm C89_decrypt_made ecies_private_primitive
@thm C89_encrypts ecies_public_encrypts
@thm C89_decrypts ecies_private_decrypts
@thm C89_round_trip ecies_keys_round_trip
@thm C89_from_format ecies_from_format

(** ** Only such keys *)
@thm C89_encrypts_only ecies_public_only
@thm C89_decrypts_only ecies_private_only
@thm C89_other_dem ecies_other_dem
(** A key that is made need not be of any use. *)
@thm C89_new_key_works_refuted ecies_new_key_unusable

(** The laws are those of some library, and its keys meet the hypotheses. *)
Example C89_laws_met : ec_laws toy_ec sym_toy /\ crypto_laws sym_toy /\ random_law toy_draw.
Proof.
  split; [exact toy_ec_laws |]. split; [exact sym_toy_laws |]. intros rnd size H. unfold toy_draw. rewrite repeat_length. lia.
Qed.
Definition first_template : bytes := match hybrid_templates with (_, Ok t) :: _ => kt_value t | _ => [] end.
Definition toy_private : st_or key_data := cl_new_key_data (ecies_private_key_manager toy_ec sym_toy toy_draw) 5%N first_template.
Definition toy_public_of (d : key_data) : st_or key_data :=
  match cl_public_key_data (ecies_private_key_manager toy_ec sym_toy toy_draw) with Some get => get (kd_value d) | None => StErr Undefined end.
Definition gcm_template_params : ecies_params := mk_ecies_params P256 M_CcAes.SHA256 [] Uncompressed (GcmKey (repeat x00 16)).
Example C89_hypotheses_met : asks_for_ecies (type_url "EciesAeadHkdfPrivateKey") first_template gcm_template_params /\ proper gcm_template_params /\
  exists d d' s X Y, toy_private = StOk d /\ toy_public_of d = StOk d' /\ proto_size (kd_value d) /\ proto_size (kd_value d') /\
    is_ecies_private d gcm_template_params s X Y /\ is_ecies_public d' gcm_template_params X Y /\ key_pair toy_ec P256 s X Y /\ public_ok toy_ec P256 X Y /\ private_ok P256 s X Y.
Proof.
  assert (A : asks_for_ecies (type_url "EciesAeadHkdfPrivateKey") first_template gcm_template_params /\ proper gcm_template_params).
  { pose proof (proj1 ecies_templates) as F. unfold first_template. destruct hybrid_templates as [| (n, r) l]; [inversion F |]. cbn [firstn] in F.
    inversion_clear F as [| ? ? ? ? H _]. destruct H as (_ & t & E & A & P & _). cbn [snd] in E, A, P. subst r. split; [| exact P]. destruct A as (_ & A). split; [reflexivity | exact A]. }
  split; [apply A |]. split; [apply A |]. destruct A as (A & _).
  destruct (ecies_new_key toy_ec sym_toy toy_draw 5%N _ _ toy_ec_laws A) as (d & E & _ & _ & H).
  assert (B : (match toy_private with StOk d => Nat.ltb (length (kd_value d)) 1000 && match toy_public_of d with StOk d' => Nat.ltb (length (kd_value d')) 1000 | _ => false end | _ => false end)%bool = true)
    by (vm_compute; reflexivity).
  unfold toy_private in *. rewrite E in *. destruct (toy_public_of d) as [d' |] eqn:E'; [| rewrite andb_false_r in B; discriminate B].
  apply andb_prop in B. destruct B as (B1 & B2). apply Nat.ltb_lt in B1, B2.
  assert (PS : forall x, length x < 1000 -> proto_size x). { intros x Q. unfold proto_size. lia. }
  destruct (H (PS _ B1)) as (s & X & Y & K & _ & KP). destruct (ecies_public_key toy_ec sym_toy toy_draw d _ _ _ _ K) as (get & d2 & G & E2 & _ & _ & H2).
  unfold toy_public_of in E'. rewrite G in E'. rewrite E2 in E'. injection E' as ->. exists d, d', s, X, Y. split; [reflexivity |]. split; [unfold toy_public_of; rewrite G; exact E2 |]. split; [exact (PS _ B1) |]. split; [exact (PS _ B2) |].
  split; [exact K |]. split; [exact (H2 (PS _ B2)) |]. split; [exact KP |].
  destruct (ecies_keys_round_trip toy_ec sym_toy toy_draw d d' _ s X Y toy_ec_laws sym_toy_laws (proj2 (proj2 C89_laws_met)) K (H2 (PS _ B2))) as (enc & dec & EN & DE & _); [| exact KP |].
  - split; [discriminate |]. split; [discriminate |]. split; [discriminate |]. split; [discriminate |]. split; [reflexivity |]. split; [cbn; auto |]. cbn. lia.
  - split; [apply (ecies_public_primitive toy_ec sym_toy toy_draw d' _ X Y (H2 (PS _ B2)) eq_refl); eexists; exact EN |].
    apply (ecies_private_primitive toy_ec sym_toy toy_draw d _ s X Y K eq_refl). eexists. exact DE.
Qed.
Definition plaintext : bytes := list_byte_of_string "the plaintext".
Definition context : bytes := list_byte_of_string "the context".
Definition st_is (r : st_or bytes) (b : bytes) : bool := match r with StOk c => bytes_eqb c b | _ => false end.
Definition st_fails {A} (r : st_or A) : bool := match r with StErr _ => true | _ => false end.
Example C89_concrete :
  match toy_private with
  | StOk d =>
      match toy_public_of d with
      | StOk d' =>
          match cl_get_primitive (ecies_public_key_manager toy_ec sym_toy toy_draw) d', cl_get_primitive (ecies_private_key_manager toy_ec sym_toy toy_draw) d with
          | StOk enc, StOk dec =>
              match che_encrypt enc 7%N plaintext context with
              | StOk C => Nat.eqb (length C) (65 + 28 + length plaintext) && st_is (chd_decrypt dec C context) plaintext && st_fails (chd_decrypt dec C []) &&
                  st_fails (cl_get_primitive (ecies_public_key_manager toy_ec sym_toy toy_draw) d) && st_fails (cl_get_primitive (ecies_private_key_manager toy_ec sym_toy toy_draw) d') &&
                  st_fails (toy_public_of d')
              | _ => false
              end
          | _, _ => false
          end
      | _ => false
      end
  | _ => false
  end%bool = true.
Proof. vm_compute. reflexivity. Qed.
(** The key of the refutation is made, and fails. *)
Example C89_unusable_concrete :
  match cl_new_key_data (ecies_private_key_manager toy_ec sym_toy toy_draw) 5%N eax_dem_format with
  | StOk d => Nat.ltb (length (kd_value d)) 1000 && st_fails (cl_get_primitive (ecies_private_key_manager toy_ec sym_toy toy_draw) d)
  | _ => false
  end%bool = true.
Proof. vm_compute. reflexivity. Qed.
