(** C93: the JWT keys of the C++ library. *)
From Coq Require Import Strings.Byte Strings.String List NArith ZArith Bool Lia.
From Verif Require Import M_Base L_Base M_Proto M_Wire S_Wire M_ProtoMsg S_ProtoMsg M_KeyFormats M_Templates M_Prims M_StreamTypes M_CcStream M_CcManagers M_CcAes
  M_CcStreamKeys M_CcModes M_CcSymmetric M_CcSymKeys M_CcEcies M_CcEciesKeys M_CcSignatures M_CcJwt S_Config S_CcAes S_CcStreamKeys S_CcModes S_CcSymmetric S_CcSymKeys S_CcSymHandles S_CcEcies S_CcEciesKeys S_CcSignatures S_CcJwt
  L_CcSigDer L_CcSignatures L_CcSigKeys L_CcSigKeys2 L_CcSigNew L_CcSigNew2 L_CcJwt L_CcJwt2 X_CcSymmetric X_CcSymKeys X_CcEcies X_CcSignatures.
Import ListNotations.
Open Scope string_scope.
Open Scope list_scope.
Open Scope nat_scope.

(** ** Signatures *)
Theorem C93_verifier_made : forall ec sg f d,
  (exists v, cl_get_primitive (jwt_verify_cc_manager ec sg f) d = StOk v) <-> (exists k, public_family k = f /\ is_jwt_public d k /\ good_public ec (scheme k)).
Proof. exact jwt_cc_verifier_made. Qed.
Print Assumptions C93_verifier_made.
Theorem C93_verifies : forall ec sg d k v, sig_laws ec sg -> is_jwt_public d k -> cl_get_primitive (jwt_verify_cc_manager ec sg (public_family k)) d = StOk v ->
  forall x data, cv_verify v x data = StOk tt <-> valid_signature sg (scheme k) data x.
Proof. exact jwt_cc_verifies. Qed.
Print Assumptions C93_verifies.
Theorem C93_signer_made : forall ec sg self_test f d, sig_laws ec sg ->
  ((exists s, cl_get_primitive (jwt_sign_cc_manager ec sg self_test f) d = StOk s) <-> (exists k, private_family k = f /\ is_jwt_private d k /\ good_private ec sg (private_scheme k))).
Proof. exact jwt_cc_signer_made. Qed.
Print Assumptions C93_signer_made.
Theorem C93_signs : forall ec sg self_test d k s, sig_laws ec sg -> is_jwt_private d k -> cl_get_primitive (jwt_sign_cc_manager ec sg self_test (private_family k)) d = StOk s ->
  forall rnd data, (exists x, cs_sign s rnd data = StOk x) /\ (forall x, cs_sign s rnd data = StOk x <-> signature_of sg (private_scheme k) rnd data x).
Proof. exact jwt_cc_signs. Qed.
Print Assumptions C93_signs.
Theorem C93_round_trip : forall ec sg self_test d d' k, sig_laws ec sg -> is_jwt_private d k -> is_jwt_public d' (jwt_public_of k) -> good_private ec sg (private_scheme k) -> matching ec sg (private_scheme k) ->
  exists s v, cl_get_primitive (jwt_sign_cc_manager ec sg self_test (private_family k)) d = StOk s /\ cl_get_primitive (jwt_verify_cc_manager ec sg (private_family k)) d' = StOk v /\
    forall rnd data, exists x, cs_sign s rnd data = StOk x /\ cv_verify v x data = StOk tt.
Proof. exact jwt_cc_round_trip. Qed.
Print Assumptions C93_round_trip.
Theorem C93_public_key : forall ec sg self_test d k, is_jwt_private d k -> valid_private (private_scheme k) ->
  exists get d', cl_public_key_data (jwt_sign_cc_manager ec sg self_test (private_family k)) = Some get /\ get (kd_value d) = StOk d' /\
    kd_type_url d' = type_url (family_name (private_family k) ++ "PublicKey") /\ kd_key_material_type d' = ASYMMETRIC_PUBLIC /\
    (proto_size (kd_value d') -> is_jwt_public d' (jwt_public_of k)).
Proof. exact jwt_cc_public_key. Qed.
Print Assumptions C93_public_key.
Theorem C93_public_only : forall ec sg self_test f get x d, cl_public_key_data (jwt_sign_cc_manager ec sg self_test f) = Some get -> get x = StOk d ->
  exists k, private_family k = f /\ is_jwt_private (mk_key_data (type_url (family_name f ++ "PrivateKey")) x ASYMMETRIC_PRIVATE) k /\ valid_private (private_scheme k).
Proof. exact jwt_cc_public_only. Qed.
Print Assumptions C93_public_only.
Theorem C93_new_key : forall ec lib sg self_test rnd x f, ec_laws ec lib -> sig_laws ec sg -> asks_for_jwt (type_url (family_name (jwt_format_family f) ++ "PrivateKey")) x f -> jwt_format_ok f -> jwt_format_size_ok f ->
  exists d, cl_new_key_data (jwt_sign_cc_manager ec sg self_test (jwt_format_family f)) rnd x = StOk d /\
    kd_type_url d = type_url (family_name (jwt_format_family f) ++ "PrivateKey") /\ kd_key_material_type d = ASYMMETRIC_PRIVATE /\
    (proto_size (kd_value d) -> exists k, is_jwt_private d k /\ fresh_jwt ec sg f rnd k /\ good_private ec sg (private_scheme k) /\ matching ec sg (private_scheme k)).
Proof. exact jwt_cc_new_key. Qed.
Print Assumptions C93_new_key.
Theorem C93_new_key_only : forall ec lib sg self_test fam rnd x d, ec_laws ec lib -> sig_laws ec sg -> cl_new_key_data (jwt_sign_cc_manager ec sg self_test fam) rnd x = StOk d ->
  kd_type_url d = type_url (family_name fam ++ "PrivateKey") /\ kd_key_material_type d = ASYMMETRIC_PRIVATE /\
  exists f, jwt_format_family f = fam /\ asks_for_jwt (type_url (family_name fam ++ "PrivateKey")) x f /\ jwt_format_ok f /\
    (proto_size (kd_value d) -> exists k, is_jwt_private d k /\ fresh_jwt ec sg f rnd k /\ good_private ec sg (private_scheme k) /\ matching ec sg (private_scheme k)).
Proof. exact jwt_cc_new_key_only. Qed.
Print Assumptions C93_new_key_only.
Theorem C93_no_new_public : forall ec sg f rnd x, exists s, cl_new_key_data (jwt_verify_cc_manager ec sg f) rnd x = StErr s.
Proof. exact jwt_cc_no_new_public. Qed.
Print Assumptions C93_no_new_public.
Theorem C93_from_format : forall ec lib sg self_test rnd x f, ec_laws ec lib -> sig_laws ec sg -> asks_for_jwt (type_url (family_name (jwt_format_family f) ++ "PrivateKey")) x f -> jwt_format_ok f -> jwt_format_size_ok f ->
  exists d get, cl_new_key_data (jwt_sign_cc_manager ec sg self_test (jwt_format_family f)) rnd x = StOk d /\ cl_public_key_data (jwt_sign_cc_manager ec sg self_test (jwt_format_family f)) = Some get /\
    (proto_size (kd_value d) -> exists d', get (kd_value d) = StOk d' /\
      (proto_size (kd_value d') -> exists s v, cl_get_primitive (jwt_sign_cc_manager ec sg self_test (jwt_format_family f)) d = StOk s /\ cl_get_primitive (jwt_verify_cc_manager ec sg (jwt_format_family f)) d' = StOk v /\
         forall rnd' data, exists y, cs_sign s rnd' data = StOk y /\ cv_verify v y data = StOk tt)).
Proof. exact jwt_cc_from_format. Qed.
Print Assumptions C93_from_format.

(** ** HMAC *)
Theorem C93_mac_made : forall lib random d, (exists p, cl_get_primitive (jwt_mac_manager lib random) d = StOk p) <-> (exists k, is_jwt_hmac d k /\ jwt_hmac_ok k).
Proof. exact jwt_cc_mac_made. Qed.
Print Assumptions C93_mac_made.
Theorem C93_mac_computes : forall lib random d k p, hmac_size_law lib -> is_jwt_hmac d k -> cl_get_primitive (jwt_mac_manager lib random) d = StOk p ->
  forall data, cm_compute p data = StOk (evp_hmac lib (hs_hash k) (hs_value k) data) /\
    (forall tag, cm_verify p tag data = StOk tt <-> tag = evp_hmac lib (hs_hash k) (hs_value k) data).
Proof. exact jwt_cc_mac_computes. Qed.
Print Assumptions C93_mac_computes.
Theorem C93_new_mac_key : forall lib random rnd x d, (forall r n, (0 <= n)%Z -> Z.of_nat (length (random r n)) = n) ->
  (cl_new_key_data (jwt_mac_manager lib random) rnd x = StOk d -> proto_size (kd_value d) ->
   exists h size, asks_for_jwt_hmac x h size /\ (Z.of_nat (hash_size h) <= size)%Z /\ kd_key_material_type d = SYMMETRIC /\
     is_jwt_hmac d (mk_jwt_hmac_secret h (random (2 * rnd)%N size) None) /\ jwt_hmac_ok (mk_jwt_hmac_secret h (random (2 * rnd)%N size) None)).
Proof. exact jwt_cc_new_mac_key. Qed.
Print Assumptions C93_new_mac_key.
Theorem C93_new_mac_made : forall lib random rnd x h size, asks_for_jwt_hmac x h size -> (Z.of_nat (hash_size h) <= size)%Z ->
  exists d, cl_new_key_data (jwt_mac_manager lib random) rnd x = StOk d /\ kd_type_url d = type_url "JwtHmacKey".
Proof. exact jwt_cc_new_mac_made. Qed.
Print Assumptions C93_new_mac_made.

Theorem C93_templates : Forall2 jwt_template_asks jwt_templates jwt_template_formats.
Proof. exact jwt_cc_templates. Qed.
Print Assumptions C93_templates.

(** The laws are those of some library, and its keys meet the hypotheses. *)
Example C93_laws_met : ec_laws toy_ec sym_toy /\ sig_laws toy_ec toy_sig /\ hmac_size_law sym_toy.
Proof. split; [exact toy_ec_laws |]. split; [exact toy_sig_laws | apply sym_toy_laws]. Qed.
Definition jwt_template_value (n : nat) : bytes := match nth n jwt_templates ("", Err (TinkError "")) with (_, Ok t) => kt_value t | _ => [] end.
Definition new_jwt_private (f : jwt_family) (x : bytes) : st_or key_data := cl_new_key_data (jwt_sign_cc_manager toy_ec toy_sig 1%N f) 5%N x.
Definition jwt_public_from (f : jwt_family) (d : key_data) : st_or key_data :=
  match cl_public_key_data (jwt_sign_cc_manager toy_ec toy_sig 1%N f) with Some get => get (kd_value d) | None => StErr Undefined end.
Example C93_hypotheses_met : asks_for_jwt (type_url "JwtEcdsaPrivateKey") (jwt_template_value 8) (EsFormat M_CcAes.SHA384) /\
  exists d d' k, new_jwt_private ES (jwt_template_value 8) = StOk d /\ jwt_public_from ES d = StOk d' /\ proto_size (kd_value d) /\ proto_size (kd_value d') /\
    is_jwt_private d k /\ is_jwt_public d' (jwt_public_of k) /\ good_private toy_ec toy_sig (private_scheme k) /\ matching toy_ec toy_sig (private_scheme k).
Proof.
  assert (A : asks_for_jwt (type_url "JwtEcdsaPrivateKey") (jwt_template_value 8) (EsFormat M_CcAes.SHA384)).
  { split; [reflexivity |]. eexists. split; [vm_compute; reflexivity |]. split; [| exact I]. eexists. split; [vm_compute; reflexivity | cbn; tauto]. }
  split; [exact A |]. destruct (jwt_cc_new_key toy_ec sym_toy toy_sig 1%N 5%N _ (EsFormat M_CcAes.SHA384) toy_ec_laws toy_sig_laws A I I) as (d & E & _ & _ & H).
  assert (B : (match new_jwt_private ES (jwt_template_value 8) with StOk d => Nat.ltb (length (kd_value d)) 1000 && match jwt_public_from ES d with StOk d' => Nat.ltb (length (kd_value d')) 1000 | _ => false end | _ => false end)%bool = true)
    by (vm_compute; reflexivity).
  unfold new_jwt_private in *. cbn [jwt_format_family] in E. rewrite E in *. destruct (jwt_public_from ES d) as [d' |] eqn:E'; [| rewrite andb_false_r in B; discriminate B].
  apply andb_prop in B. destruct B as (B1 & B2). apply Nat.ltb_lt in B1, B2.
  assert (PS : forall x, length x < 1000 -> proto_size x). { intros x Q. unfold proto_size. lia. }
  destruct (H (PS _ B1)) as (k & D & (K & F) & G & M).
  assert (V : valid_private (private_scheme k)) by (apply jwt_valid_private; rewrite scheme_of_public; apply G).
  destruct (jwt_cc_public_key toy_ec toy_sig 1%N d k D V) as (get & d2 & GG & E2 & _ & _ & H2). rewrite K in GG. cbn [jwt_format_family] in GG.
  unfold jwt_public_from in E'. rewrite GG in E'. rewrite E2 in E'. apply (f_equal (fun o => match o with StOk y => y | StErr _ => d end)) in E'. subst d2.
  exists d, d', k. split; [reflexivity |]. split; [unfold jwt_public_from; rewrite GG; exact E2 |]. split; [exact (PS _ B1) |]. split; [exact (PS _ B2) |]. split; [exact D |]. split; [exact (H2 (PS _ B2)) |]. split; [exact G | exact M].
Qed.
Definition jwt_message_signed : bytes := list_byte_of_string "the message".
Definition jwt_accepts (r : st_or unit) : bool := match r with StOk _ => true | _ => false end.
Definition jwt_fails {A} (r : st_or A) : bool := match r with StErr _ => true | _ => false end.
(** A new key signs what its public key verifies, and nothing else. *)
Definition jwt_signs_and_verifies (f : jwt_family) (x : bytes) : bool :=
  match new_jwt_private f x with
  | StOk d =>
      match jwt_public_from f d with
      | StOk d' =>
          match cl_get_primitive (jwt_sign_cc_manager toy_ec toy_sig 1%N f) d, cl_get_primitive (jwt_verify_cc_manager toy_ec toy_sig f) d' with
          | StOk s, StOk v =>
              match cs_sign s 7%N jwt_message_signed with
              | StOk sig => jwt_accepts (cv_verify v sig jwt_message_signed) && jwt_fails (cv_verify v sig []) && jwt_fails (cv_verify v (sig ++ [x00]) jwt_message_signed) &&
                  jwt_fails (cl_get_primitive (jwt_sign_cc_manager toy_ec toy_sig 1%N f) d') && jwt_fails (cl_get_primitive (jwt_verify_cc_manager toy_ec toy_sig f) d) && jwt_fails (jwt_public_from f d')
              | _ => false
              end
          | _, _ => false
          end
      | _ => false
      end
  | _ => false
  end%bool.
Example C93_concrete : jwt_signs_and_verifies ES (jwt_template_value 8) && jwt_signs_and_verifies RS (jwt_template_value 12) && jwt_signs_and_verifies PS (jwt_template_value 20) = true.
Proof. vm_compute. reflexivity. Qed.
(** HMAC keys with a custom kid; one byte less is not enough. *)
Definition hs256_data (n : nat) : key_data := mk_key_data (type_url "JwtHmacKey")
  (serialize_message JwtHmacKey [Some (VNum 0); Some (VNum 1); Some (VBytes (repeat x02 n)); Some (VMsg [Some (VString (ulit "kid-1"))])]) SYMMETRIC.
Example C93_mac_hypotheses_met : is_jwt_hmac (hs256_data 32) (mk_jwt_hmac_secret M_CcAes.SHA256 (repeat x02 32) (Some (ulit "kid-1"))) /\ jwt_hmac_ok (mk_jwt_hmac_secret M_CcAes.SHA256 (repeat x02 32) (Some (ulit "kid-1"))).
Proof.
  split; [| unfold jwt_hmac_ok; cbn; lia]. split; [reflexivity |]. eexists. split; [vm_compute; reflexivity |]. split; [reflexivity |]. split; [eexists; split; [reflexivity | cbn; tauto] |]. split; [reflexivity |]. split; reflexivity.
Qed.
Example C93_mac_concrete :
  match cl_get_primitive (jwt_mac_manager sym_toy toy_draw) (hs256_data 32) with
  | StOk p => match cm_compute p jwt_message_signed with StOk tag => Nat.eqb (length tag) 32 && jwt_accepts (cm_verify p tag jwt_message_signed) && jwt_fails (cm_verify p (firstn 31 tag) jwt_message_signed) | _ => false end
  | _ => false
  end && jwt_fails (cl_get_primitive (jwt_mac_manager sym_toy toy_draw) (hs256_data 31)) &&
  jwt_fails (cl_new_key_data (jwt_mac_manager sym_toy toy_draw) 1%N (serialize_message JwtHmacKeyFormat [Some (VNum 0); Some (VNum 2); Some (VNum 47)])) &&
  negb (jwt_fails (cl_new_key_data (jwt_mac_manager sym_toy toy_draw) 1%N (serialize_message JwtHmacKeyFormat [Some (VNum 0); Some (VNum 2); Some (VNum 48)]))) = true.
Proof. vm_compute. reflexivity. Qed.
