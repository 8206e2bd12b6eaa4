(** The templates of signature keys, and new keys that cannot sign. *)
From Coq Require Import Strings.Byte Strings.String List NArith ZArith Bool Lia.
From Verif Require Import M_Base L_Base M_Proto M_Utf8 M_Wire L_Wire S_Wire M_ProtoMsg S_ProtoMsg L_ProtoMsg M_KeyFormats M_Templates M_Prims M_StreamTypes M_CcStream M_CcManagers M_CcAes
  M_CcStreamKeys M_CcModes M_CcSymmetric M_CcSymKeys M_CcEcies M_CcEciesKeys M_CcSignatures S_Config S_CcAes S_CcStreamKeys S_CcModes S_CcSymmetric S_CcSymKeys S_CcSymHandles
  S_CcEcies S_CcEciesKeys S_CcSignatures L_CcStreamKeys L_CcModes L_CcModes4 L_CcSymmetric L_CcSymmetric2 L_CcSymKeys L_CcSymKeys2 L_CcSymHandles L_CcEcies L_CcEcies2 L_CcEcies3 L_CcEciesKeys L_CcSigDer L_CcSignatures L_CcSigKeys L_CcSigKeys2 L_CcSigNew.
Import ListNotations.
Open Scope string_scope.
Open Scope list_scope.
Open Scope nat_scope.

(** ** Templates *)
Definition sig_template_asks (x : string * result key_template) (y : string * sig_format) : Prop :=
  fst x = fst y /\ exists t, snd x = Ok t /\ asks_for_sig (kt_type_url t) (kt_value t) (snd y) /\ format_ok (snd y) /\ format_size_ok (snd y) /\ format_signs (snd y) /\
    kt_output_prefix_type t = (if String.eqb (fst y) "ECDSA_P256_RAW" then RAW else TINK).
Lemma odd_f4 : exponent_ok (num [x01; x00; x01]).
Proof. split; [exists 32768%N; reflexivity | split; reflexivity]. Qed.
Theorem sig_templates : Forall2 sig_template_asks signature_templates sig_template_formats.
Proof.
  unfold signature_templates, sig_template_formats. cbv zeta.
  repeat match goal with |- Forall2 _ (_ :: _) (_ :: _) => apply Forall2_cons | |- Forall2 _ [] [] => constructor end;
    (split; [reflexivity |]; eexists; split; [vm_compute; reflexivity |]; cbn [kt_type_url kt_value kt_output_prefix_type fst snd]; split; [| split; [| split; [| split; [| reflexivity]]]]).
  all: try (cbn [format_signs hash_size]; (exact I || (vm_compute; discriminate))). all: try (cbn [format_size_ok]; (exact I || lia)).
  all: try (cbn [format_ok]; unfold ecdsa_ok, safe_hash; first [exact I | cbn; tauto | split; [cbn; tauto |]; split; [lia | exact odd_f4] | split; [cbn; tauto |]; split; [reflexivity |]; split; [lia |]; split; [lia | exact odd_f4]]).
  all: split; [vm_compute; reflexivity |]; eexists; (split; [vm_compute; reflexivity |]); try exact I.
  all: try (split; [| split; vm_compute; reflexivity]).
  all: try (eexists; split; [vm_compute; reflexivity | cbn; tauto]).
  all: split; [eexists; split; [vm_compute; reflexivity | cbn; tauto] |]; split; [eexists; split; [vm_compute; reflexivity | cbn; tauto] |];
    first [vm_compute; reflexivity | eexists; split; [vm_compute; reflexivity | cbn; tauto]].
Qed.

(** ** A salt that is too long for the modulus *)
Definition long_salt_format : bytes :=
  serialize_message RsaSsaPssKeyFormat [Some (VMsg [Some (VNum 3); Some (VNum 3); Some (VNum 223)]); Some (VNum 2048); Some (VBytes [x01; x00; x01])].
Lemma long_salt_asks : asks_for_sig (type_url "RsaSsaPssPrivateKey") long_salt_format (PssFormat M_CcAes.SHA256 M_CcAes.SHA256 223 2048 [x01; x00; x01]).
Proof.
  split; [reflexivity |]. eexists. split; [vm_compute; reflexivity |]. split; [| split; vm_compute; reflexivity].
  split; [eexists; split; [vm_compute; reflexivity | cbn; tauto] |]. split; [eexists; split; [vm_compute; reflexivity | cbn; tauto] |]. vm_compute. reflexivity.
Qed.
Theorem sig_new_key_unusable : exists x, forall ec lib sg self_test rnd, ec_laws ec lib -> sig_laws ec sg ->
  exists d, cl_new_key_data (sign_manager ec sg self_test Pss) rnd x = StOk d /\
    (proto_size (kd_value d) -> exists e, cl_get_primitive (sign_manager ec sg self_test Pss) d = StErr e).
Proof.
  exists long_salt_format. intros ec lib sg self_test rnd L SL. set (f := PssFormat M_CcAes.SHA256 M_CcAes.SHA256 223 2048 [x01; x00; x01]).
  assert (OK : format_ok f) by (cbn [f format_ok]; unfold safe_hash; split; [cbn; tauto |]; split; [reflexivity |]; split; [lia |]; split; [lia | exact odd_f4]).
  destruct (sig_new_key ec lib sg self_test rnd _ f L SL long_salt_asks OK) as (d & E & _ & _ & H); [cbn; lia |]. exists d. split; [exact E |]. intros PS. destruct (H PS) as (k & K & D & F).
  destruct (cl_get_primitive (sign_manager ec sg self_test Pss) d) as [s | e] eqn:G; [| exists e; reflexivity]. exfalso.
  destruct (proj1 (sig_signer_made ec sg self_test Pss d SL) (ex_intro _ s G)) as (k' & K' & D' & GO). rewrite <- (is_private_fun d k k' D D' (eq_trans K (eq_sym K'))) in GO.
  apply (fresh_sig_good ec lib sg f rnd k L SL OK F) in GO. vm_compute in GO. apply GO. reflexivity.
Qed.
