(** C91: digital signatures of the C++ library. *)
From Coq Require Import Strings.Byte Strings.String List NArith ZArith Bool Lia.
From Verif Require Import M_Base L_Base M_Proto M_Wire S_Wire M_ProtoMsg S_ProtoMsg M_KeyFormats M_Templates M_Prims M_StreamTypes M_CcStream M_CcManagers M_CcAes
  M_CcStreamKeys M_CcModes M_CcSymmetric M_CcSymKeys M_CcEcies M_CcEciesKeys M_CcSignatures S_Config S_CcAes S_CcStreamKeys S_CcModes S_CcSymmetric S_CcSymKeys S_CcSymHandles S_CcEcies S_CcEciesKeys S_CcSignatures
  L_CcSigDer L_CcSignatures L_CcSigKeys L_CcSigKeys2 L_CcSigNew L_CcSigNew2 X_CcSymmetric X_CcSymKeys X_CcEcies X_CcSignatures.
Import ListNotations.
Open Scope string_scope.
Open Scope list_scope.
Open Scope nat_scope.

(** ** What keys do *)
Theorem C91_verifier_made : forall ec sg kd d,
  (exists v, cl_get_primitive (verify_manager ec sg kd) d = StOk v) <-> (exists k, public_kind k = kd /\ is_sig_public d k /\ good_public ec k).
Proof. exact sig_verifier_made. Qed.
Print Assumptions C91_verifier_made.
Theorem C91_verifies : forall ec sg d k v, sig_laws ec sg -> is_sig_public d k -> cl_get_primitive (verify_manager ec sg (public_kind k)) d = StOk v ->
  forall x data, cv_verify v x data = StOk tt <-> valid_signature sg k data x.
Proof. exact sig_verifies. Qed.
Print Assumptions C91_verifies.
Theorem C91_signer_made : forall ec sg self_test kd d, sig_laws ec sg ->
  ((exists s, cl_get_primitive (sign_manager ec sg self_test kd) d = StOk s) <-> (exists k, private_kind k = kd /\ is_sig_private d k /\ good_private ec sg k)).
Proof. exact sig_signer_made. Qed.
Print Assumptions C91_signer_made.
Theorem C91_signs : forall ec sg self_test d k s, sig_laws ec sg -> is_sig_private d k -> cl_get_primitive (sign_manager ec sg self_test (private_kind k)) d = StOk s ->
  forall rnd data, (exists x, cs_sign s rnd data = StOk x) /\ (forall x, cs_sign s rnd data = StOk x <-> signature_of sg k rnd data x).
Proof. exact sig_signs. Qed.
Print Assumptions C91_signs.
Theorem C91_round_trip : forall ec sg self_test d d' k, sig_laws ec sg -> is_sig_private d k -> is_sig_public d' (public_of k) -> good_private ec sg k -> matching ec sg k ->
  exists s v, cl_get_primitive (sign_manager ec sg self_test (private_kind k)) d = StOk s /\ cl_get_primitive (verify_manager ec sg (private_kind k)) d' = StOk v /\
    forall rnd data, exists x, cs_sign s rnd data = StOk x /\ cv_verify v x data = StOk tt.
Proof. exact sig_round_trip. Qed.
Print Assumptions C91_round_trip.

(** ** New keys and their public keys *)
Theorem C91_public_key : forall ec sg self_test d k, is_sig_private d k -> valid_private k ->
  exists get d', cl_public_key_data (sign_manager ec sg self_test (private_kind k)) = Some get /\ get (kd_value d) = StOk d' /\
    kd_type_url d' = type_url (kind_name (private_kind k) ++ "PublicKey") /\ kd_key_material_type d' = ASYMMETRIC_PUBLIC /\
    (proto_size (kd_value d') -> is_sig_public d' (public_of k)).
Proof. exact sig_public_key. Qed.
Print Assumptions C91_public_key.
Theorem C91_public_only : forall ec sg self_test kd get x d, cl_public_key_data (sign_manager ec sg self_test kd) = Some get -> get x = StOk d ->
  exists k, private_kind k = kd /\ is_sig_private (mk_key_data (type_url (kind_name kd ++ "PrivateKey")) x ASYMMETRIC_PRIVATE) k /\ valid_private k.
Proof. exact sig_public_only. Qed.
Print Assumptions C91_public_only.
Theorem C91_new_key : forall ec lib sg self_test rnd x f, ec_laws ec lib -> sig_laws ec sg -> asks_for_sig (type_url (kind_name (format_kind f) ++ "PrivateKey")) x f -> format_ok f -> format_size_ok f ->
  exists d, cl_new_key_data (sign_manager ec sg self_test (format_kind f)) rnd x = StOk d /\
    kd_type_url d = type_url (kind_name (format_kind f) ++ "PrivateKey") /\ kd_key_material_type d = ASYMMETRIC_PRIVATE /\
    (proto_size (kd_value d) -> exists k, private_kind k = format_kind f /\ is_sig_private d k /\ fresh_sig ec sg f rnd k).
Proof. exact sig_new_key. Qed.
Print Assumptions C91_new_key.
Theorem C91_new_key_only : forall ec lib sg self_test kd rnd x d, ec_laws ec lib -> sig_laws ec sg -> cl_new_key_data (sign_manager ec sg self_test kd) rnd x = StOk d ->
  kd_type_url d = type_url (kind_name kd ++ "PrivateKey") /\ kd_key_material_type d = ASYMMETRIC_PRIVATE /\
  exists f, format_kind f = kd /\ asks_for_sig (type_url (kind_name kd ++ "PrivateKey")) x f /\ format_ok f /\
    (proto_size (kd_value d) -> exists k, is_sig_private d k /\ fresh_sig ec sg f rnd k).
Proof. exact sig_new_key_only. Qed.
Print Assumptions C91_new_key_only.
Theorem C91_new_key_good : forall ec lib sg f rnd k, ec_laws ec lib -> sig_laws ec sg -> format_ok f -> fresh_sig ec sg f rnd k ->
  valid_private k /\ matching ec sg k /\ (good_private ec sg k <-> format_signs f).
Proof. exact fresh_sig_good. Qed.
Print Assumptions C91_new_key_good.
Theorem C91_no_new_public : forall ec sg kd rnd x, exists s, cl_new_key_data (verify_manager ec sg kd) rnd x = StErr s.
Proof. exact sig_no_new_public. Qed.
Print Assumptions C91_no_new_public.
Theorem C91_from_format : forall ec lib sg self_test rnd x f, ec_laws ec lib -> sig_laws ec sg -> asks_for_sig (type_url (kind_name (format_kind f) ++ "PrivateKey")) x f -> format_ok f -> format_size_ok f -> format_signs f ->
  exists d get, cl_new_key_data (sign_manager ec sg self_test (format_kind f)) rnd x = StOk d /\ cl_public_key_data (sign_manager ec sg self_test (format_kind f)) = Some get /\
    (proto_size (kd_value d) -> exists d', get (kd_value d) = StOk d' /\
      (proto_size (kd_value d') -> exists s v, cl_get_primitive (sign_manager ec sg self_test (format_kind f)) d = StOk s /\ cl_get_primitive (verify_manager ec sg (format_kind f)) d' = StOk v /\
         forall rnd' data, exists y, cs_sign s rnd' data = StOk y /\ cv_verify v y data = StOk tt)).
Proof. exact sig_from_format. Qed.
Print Assumptions C91_from_format.
Theorem C91_templates : Forall2 sig_template_asks signature_templates sig_template_formats.
Proof. exact sig_templates. Qed.
Print Assumptions C91_templates.
(** A key that is made need not be of any use. *)
Theorem C91_new_key_works_refuted : exists x, forall ec lib sg self_test rnd, ec_laws ec lib -> sig_laws ec sg ->
  exists d, cl_new_key_data (sign_manager ec sg self_test Pss) rnd x = StOk d /\
    (proto_size (kd_value d) -> exists e, cl_get_primitive (sign_manager ec sg self_test Pss) d = StErr e).
Proof. exact sig_new_key_unusable. Qed.
Print Assumptions C91_new_key_works_refuted.

(** The laws are those of some library, and its keys meet the hypotheses. *)
Example C91_laws_met : ec_laws toy_ec sym_toy /\ sig_laws toy_ec toy_sig.
Proof. split; [exact toy_ec_laws | exact toy_sig_laws]. Qed.
Definition template_value (n : nat) : bytes := match nth n signature_templates ("", Err (TinkError "")) with (_, Ok t) => kt_value t | _ => [] end.
Definition new_private (kd : sig_kind) (x : bytes) : st_or key_data := cl_new_key_data (sign_manager toy_ec toy_sig 1%N kd) 5%N x.
Definition public_from (kd : sig_kind) (d : key_data) : st_or key_data :=
  match cl_public_key_data (sign_manager toy_ec toy_sig 1%N kd) with Some get => get (kd_value d) | None => StErr Undefined end.
Definition p384_format : sig_format := EcdsaFormat P384 M_CcAes.SHA384 EncDer.
Example C91_hypotheses_met : asks_for_sig (type_url "EcdsaPrivateKey") (template_value 3) p384_format /\ format_ok p384_format /\ format_size_ok p384_format /\ format_signs p384_format /\
  exists d d' k, new_private Ecdsa (template_value 3) = StOk d /\ public_from Ecdsa d = StOk d' /\ proto_size (kd_value d) /\ proto_size (kd_value d') /\
    is_sig_private d k /\ is_sig_public d' (public_of k) /\ good_private toy_ec toy_sig k /\ matching toy_ec toy_sig k.
Proof.
  assert (A : asks_for_sig (type_url "EcdsaPrivateKey") (template_value 3) p384_format).
  { pose proof sig_templates as F. unfold template_value. destruct signature_templates as [| a l]; [inversion F |]. inversion F as [| ? ? ? ? _ F1]; subst; clear F. destruct l as [| b l]; [inversion F1 |]. inversion F1 as [| ? ? ? ? _ F2]; subst; clear F1.
    destruct l as [| c l]; [inversion F2 |]. inversion F2 as [| ? ? ? ? _ F3]; subst; clear F2. destruct l as [| (n, r) l]; [inversion F3 |]. inversion F3 as [| ? ? ? ? H _]; subst; clear F3.
    cbn [nth]. destruct H as (_ & t & E & A & _). cbn [snd] in E, A. subst r. destruct A as (U & A). split; [reflexivity | exact A]. }
  assert (OK : format_ok p384_format) by (unfold p384_format, format_ok, ecdsa_ok; cbn; tauto).
  split; [exact A |]. split; [exact OK |]. split; [exact I |]. split; [exact I |].
  destruct (sig_new_key toy_ec sym_toy toy_sig 1%N 5%N _ p384_format toy_ec_laws toy_sig_laws A OK I) as (d & E & _ & _ & H).
  assert (B : (match new_private Ecdsa (template_value 3) with StOk d => Nat.ltb (length (kd_value d)) 1000 && match public_from Ecdsa d with StOk d' => Nat.ltb (length (kd_value d')) 1000 | _ => false end | _ => false end)%bool = true)
    by (vm_compute; reflexivity).
  unfold new_private in *. cbn [format_kind p384_format] in E. rewrite E in *. destruct (public_from Ecdsa d) as [d' |] eqn:E'; [| rewrite andb_false_r in B; discriminate B].
  apply andb_prop in B. destruct B as (B1 & B2). apply Nat.ltb_lt in B1, B2.
  assert (PS : forall x, length x < 1000 -> proto_size x). { intros x Q. unfold proto_size. lia. }
  destruct (H (PS _ B1)) as (k & K & D & F). destruct (fresh_sig_good _ _ _ _ _ _ toy_ec_laws toy_sig_laws OK F) as (V & M & G).
  destruct (sig_public_key toy_ec toy_sig 1%N d k D V) as (get & d2 & GG & E2 & _ & _ & H2). rewrite K in GG. cbn [format_kind p384_format] in GG.
  unfold public_from in E'. rewrite GG in E'. rewrite E2 in E'. apply (f_equal (fun o => match o with StOk y => y | StErr _ => d end)) in E'. subst d2.
  exists d, d', k. split; [reflexivity |]. split; [unfold public_from; rewrite GG; exact E2 |]. split; [exact (PS _ B1) |]. split; [exact (PS _ B2) |]. split; [exact D |]. split; [exact (H2 (PS _ B2)) |]. split; [exact (proj2 G I) | exact M].
Qed.
Definition message_signed : bytes := list_byte_of_string "the message".
Definition accepts (r : st_or unit) : bool := match r with StOk _ => true | _ => false end.
Definition fails {A} (r : st_or A) : bool := match r with StErr _ => true | _ => false end.
(** A new key signs what its public key verifies, and nothing else. *)
Definition signs_and_verifies (kd : sig_kind) (x : bytes) : bool :=
  match new_private kd x with
  | StOk d =>
      match public_from kd d with
      | StOk d' =>
          match cl_get_primitive (sign_manager toy_ec toy_sig 1%N kd) d, cl_get_primitive (verify_manager toy_ec toy_sig kd) d' with
          | StOk s, StOk v =>
              match cs_sign s 7%N message_signed with
              | StOk sig => accepts (cv_verify v sig message_signed) && fails (cv_verify v sig []) && fails (cv_verify v (sig ++ [x00]) message_signed) && fails (cv_verify v [] message_signed) &&
                  fails (cl_get_primitive (sign_manager toy_ec toy_sig 1%N kd) d') && fails (cl_get_primitive (verify_manager toy_ec toy_sig kd) d) && fails (public_from kd d')
              | _ => false
              end
          | _, _ => false
          end
      | _ => false
      end
  | _ => false
  end%bool.
Example C91_ecdsa_concrete : signs_and_verifies Ecdsa (template_value 3) && signs_and_verifies Ecdsa (template_value 9) = true.
Proof. vm_compute. reflexivity. Qed.
Example C91_ed25519_concrete : signs_and_verifies Ed25519 (template_value 10) = true.
Proof. vm_compute. reflexivity. Qed.
Definition small_rsa (params : list (option pval)) (fs : schema) : bytes := serialize_message fs [Some (VMsg params); Some (VNum 2048); Some (VBytes [x01; x00; x01])].
Example C91_rsa_concrete : signs_and_verifies Pkcs1 (small_rsa [Some (VNum 3)] RsaSsaPkcs1KeyFormat) && signs_and_verifies Pss (small_rsa [Some (VNum 3); Some (VNum 3); Some (VNum 32)] RsaSsaPssKeyFormat) = true.
Proof. vm_compute. reflexivity. Qed.
(** That a signer is made does not mean that the public key in the private key is its own:
    what is signed with such a key is not valid for its public key. *)
Definition mixed_key : sig_private := Ed25519Private (repeat x04 32) (repeat x02 32).
Definition mixed_data : key_data := mk_key_data (type_url "Ed25519PrivateKey")
  (serialize_message Ed25519PrivateKey [Some (VNum 0); Some (VBytes (repeat x02 32)); Some (VMsg [Some (VNum 0); Some (VBytes (repeat x04 32))])]) ASYMMETRIC_PRIVATE.
Theorem C91_signer_matches_refuted : exists ec sg d k s x, sig_laws ec sg /\ is_sig_private d k /\ cl_get_primitive (sign_manager ec sg 1%N (private_kind k)) d = StOk s /\
  cs_sign s 1%N message_signed = StOk x /\ ~ valid_signature sg (public_of k) message_signed x.
Proof.
  assert (D : is_sig_private mixed_data mixed_key). { split; [reflexivity |]. eexists. split; [vm_compute; reflexivity |]. split; [reflexivity |]. split; [split; reflexivity | reflexivity]. }
  destruct (proj2 (sig_signer_made toy_ec toy_sig 1%N Ed25519 mixed_data toy_sig_laws)) as (s & S).
  { exists mixed_key. split; [reflexivity |]. split; [exact D |]. split; [split; [reflexivity | exact I] | reflexivity]. }
  destruct (sig_signs toy_ec toy_sig 1%N mixed_data mixed_key s toy_sig_laws D S 1%N message_signed) as ((x & X) & H).
  exists toy_ec, toy_sig, mixed_data, mixed_key, s, x. split; [exact toy_sig_laws |]. split; [exact D |]. split; [exact S |]. split; [exact X |]. apply H in X. cbn in X. subst x. intros (_ & V). vm_compute in V. discriminate V.
Qed.
Print Assumptions C91_signer_matches_refuted.
