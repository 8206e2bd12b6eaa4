(** C57: what the register functions set up. *)
From Coq Require Import Strings.Byte Strings.String List NArith ZArith Bool Lia.
From Verif Require Import M_Base M_Proto M_Wire M_Prims M_PrimitiveSet M_Registry M_KeysetHandle M_Wrappers M_Kms
  M_Json M_JwtWrappers M_JwtKeys M_StreamTypes M_CcStream M_Stream M_CcManagers M_KeyFormats M_Templates.
From Verif Require Import S_Keyset S_Wrappers S_Registry S_Wire S_Config S_CcLaws L_Base L_Wire L_Config L_Config2 L_Config3 L_Config4.
From Verif Require Import X_Toy X_Rt X_Config.
Import ListNotations.
Open Scope string_scope.
Open Scope list_scope.

@thm C57_register_complete setup_complete
@thm C57_primitive_is_the_cc_primitive configured_primitive
@thm C57_new_key_is_the_cc_key configured_new_key
@thm C57_public_key_is_the_cc_public_key configured_public_key
@thm C57_jwt_managers configured_jwt
@thm C57_templates_are_served template_served
@thm C57_handle_only_tink_errors configured_handle_total
@thm C57_primitives_only_tink_errors configured_only_tink
@thm C57_aead_round_trip configured_aead_round_trip
@thm C57_aead_over_cc aead_over_cc_ok
@thm C57_daead_over_cc daead_over_cc_ok
@thm C57_hybrid_encrypt_over_cc hybrid_encrypt_over_cc_ok
@thm C57_hybrid_decrypt_over_cc hybrid_decrypt_over_cc_ok
@thm C57_mac_over_cc mac_over_cc_ok
@thm C57_sign_over_cc signer_over_cc_ok
@thm C57_verify_over_cc verifier_over_cc_ok
@thm C57_failed_configuration config_failure

(** The history [toy_calls] (with repeated calls and a registration by the user) is one
    the theorems speak about. *)
Lemma toy_ready : forall p, cc_ready toy_world p.
Proof.
  intros p. split.
  - destruct p; try exact eq_refl; split; exact eq_refl.
  - intros name c b Hin.
    destruct p; cbn in Hin; repeat (destruct Hin as [Hin | Hin]; [injection Hin as <- <- <-; do 2 eexists; reflexivity |]);
      contradiction.
Qed.
Lemma toy_reached : exists xs, reached toy_world toy_env toy_calls configured_registry xs.
Proof.
  exists (snd (setup_run toy_world toy_env 0 toy_calls empty_registry)). split; [| split].
  - unfold configured_registry. destruct (setup_run _ _ _ _ _). reflexivity.
  - intros c p _ _. apply toy_ready.
  - intros c Hc. cbn in Hc. intuition subst; try exact I.
    cbn. intros p. destruct p; cbn; intuition discriminate.
Qed.
Example C57_configured_met : forall p, configured toy_world toy_env p configured_registry.
Proof.
  intros p. destruct toy_reached as (xs & H).
  destruct p;
    first [exists toy_calls, xs, CallTinkConfig; split; [exact H |]; split; [cbn; tauto | cbn; intuition discriminate]
          |exists toy_calls, xs, CallJwtMac; split; [exact H |]; split; [cbn; tauto | reflexivity]
          |exists toy_calls, xs, CallJwtSignature; split; [exact H |]; split; [cbn; tauto | reflexivity]].
Qed.
(** AES-GCM keys are keys the theorems speak about, the handle is usable and the
    hypotheses of the round trip hold. *)
Example C57_round_trip_met :
  (forall k, In k (enabled_keys (kh_keyset gcm_handle)) -> cc_key ClsAead (k_key_data k)) /\
  match handle_primitive configured_registry gcm_handle ClsAead with
  | Ok (PrimAead a) =>
      match aead_encrypt a 0%N (blit "hello") (blit "ad") with
      | Ok ct => bytes_eqb ct ([x01; x00; x00; x00; x2a] ++ blit "ka" ++ [x02] ++ blit "adhello") &&
          match aead_decrypt a ct (blit "ad") with Ok pt => bytes_eqb pt (blit "hello") | Err _ => false end
      | Err _ => false
      end &&
      match aead_decrypt a (blit "kb" ++ [x02] ++ blit "adhello") (blit "ad") with
      | Ok pt => bytes_eqb pt (blit "hello") | Err _ => false end &&
      match aead_decrypt a (blit "nothing") [] with Err e => is_tink_error e | Ok _ => false end
  | _ => false
  end%bool = true.
Proof.
  split; [| vm_compute; reflexivity].
  intros k Hk. split; [| split].
  - split; [| destruct Hk as [<- | [<- | []]]; unfold int32_range; split; vm_compute; congruence].
    intros c Hc. left.
    assert (T : forallb (fun c => (c <? 55296)%N) (type_url "AesGcmKey") = true) by (vm_compute; reflexivity).
    rewrite forallb_forall in T. apply N.ltb_lt, T. destruct Hk as [<- | [<- | []]]; exact Hc.
  - destruct Hk as [<- | [<- | []]]; vm_compute; reflexivity.
  - exists Aead, "AesGcmKey", false. split; [cbn; intuition discriminate |]. split; [left; reflexivity |].
    destruct Hk as [<- | [<- | []]]; reflexivity.
Qed.

(** What is not true: an output length that C++ cannot be asked for is reported as
    TypeError, and so is not covered by C57_primitives_only_tink_errors. *)
Definition prf_key_data : key_data := mk_key_data (type_url "HkdfPrfKey") (blit "k") SYMMETRIC.
Definition prf_handle : keyset_handle := mk_handle (mk_keyset 1 [mk_key (Some prf_key_data) ENABLED 1 RAW]).
Theorem C57_prf_output_length_refuted :
  exists h pid all prim0 q, handle_primitive configured_registry h ClsPrfSet = Ok (PrimPrfSet pid all prim0) /\
    prim0 = Ok (PrimPrf q) /\ forall x n, (n < 0 \/ 2 ^ 64 <= n)%Z -> exists m, prf_compute q x n = Err (TypeError m).
Proof.
  exists prf_handle, (Ok 1%N), [(1%N, PrimPrf (prf_cc_to_py (bind_prf (mk_cc_prf (fun x n => StOk (firstn (N.to_nat n) (blit "k" ++ x)))))))],
    (Ok (PrimPrf (prf_cc_to_py (bind_prf (mk_cc_prf (fun x n => StOk (firstn (N.to_nat n) (blit "k" ++ x)))))))).
  eexists. split; [vm_compute; reflexivity |]. split; [reflexivity |].
  intros x n Hn. eexists. cbn [prf_compute prf_cc_to_py bind_prf].
  replace ((n <? 0) || (18446744073709551616 <=? n))%Z with true; [reflexivity |].
  symmetry. apply orb_true_iff. rewrite Z.ltb_lt, Z.leb_le. change 18446744073709551616%Z with (2 ^ 64)%Z. exact Hn.
Qed.
Print Assumptions C57_prf_output_length_refuted.
(** A KMS key whose value is not a KmsAeadKey message makes the handle raise
    DecodeError. *)
Theorem C57_kms_key_decode_error_refuted :
  exists d, kd_type_url d = type_url "KmsAeadKey" /\
    handle_primitive configured_registry (mk_handle (mk_keyset 1 [mk_key (Some d) ENABLED 1 RAW])) ClsAead = Err DecodeError.
Proof.
  exists (mk_key_data (type_url "KmsAeadKey") [xff] REMOTE). split; [reflexivity | vm_compute; reflexivity].
Qed.
Print Assumptions C57_kms_key_decode_error_refuted.
Example C57_keys_met :
  match registry_new_key_data configured_registry 0%N (mk_key_template (type_url "AesGcmKey") (blit "f") TINK) with
  | Ok d => bytes_eqb (kd_value d) (blit "kf") | Err _ => false end = true /\
  match registry_public_key_data configured_registry (mk_key_data (type_url "EcdsaPrivateKey") (blit "s") ASYMMETRIC_PRIVATE) with
  | Ok d => bytes_eqb (kd_value d) (blit "s") | Err _ => false end = true /\
  cc_functions toy_world ClsSign (type_url "EcdsaPrivateKey") <> None /\
  existsb (fun e => existsb (fun x => match snd x with Ok _ => true | Err _ => false end) (snd e)) predefined_templates = true.
Proof. split; [vm_compute; reflexivity |]. split; [vm_compute; reflexivity |]. split; [discriminate | vm_compute; reflexivity]. Qed.
Example C57_failure_met : exists w, cw_tink_config w <> StOk tt /\ cw_hpke_config w <> StOk tt /\ cw_jwt_config w <> StOk tt.
Proof.
  exists (mk_cc_world (StErr (NotOk "")) (StErr (NotOk "")) (StErr (NotOk "")) (cw_aead toy_world) (cw_daead toy_world)
    (cw_hybrid_decrypt toy_world) (cw_hybrid_encrypt toy_world) (cw_mac toy_world) (cw_prf toy_world) (cw_sign toy_world)
    (cw_verify toy_world) (cw_streaming toy_world)). repeat split; discriminate.
Qed.
