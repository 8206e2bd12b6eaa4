(** C57: what the register functions set up. *)
From Coq Require Import Strings.Byte Strings.String List NArith ZArith Bool Lia.
From Verif Require Import M_Base M_Proto M_Wire M_Prims M_PrimitiveSet M_Registry M_KeysetHandle M_Wrappers M_Kms
  M_Json M_JwtWrappers M_JwtKeys M_StreamTypes M_CcStream M_Stream M_CcManagers M_KeyFormats M_Templates.
From Verif Require Import S_Keyset S_Wrappers S_Registry S_Wire S_Config S_CcLaws L_Base L_Wire L_Config L_Config2 L_Config3 L_Config4.
From Verif Require Import X_Toy X_Rt X_Config.
Import ListNotations.
Open Scope string_scope.
Open Scope list_scope.

Theorem C57_register_complete : forall w env l r xs, reached w env l r xs ->
  Forall2 (fun c x => (exists p, sets_up c p) -> x = Ok tt) l xs /\
  (forall p, (exists c, In c l /\ sets_up c p) ->
     (forall name c b, In (name, c, b) (key_types p) \/ (In (name, c) (remote_key_types p) /\ b = false) ->
        exists km, manager_of r (type_url name) = Some (km, true) /\ km_key_type km = type_url name /\
          km_primitive_class km = c /\ (km_public_key_data km = None <-> b = false)) /\
     (forall c i, In (c, i) (primitives p) ->
        exists x, wrapper_of r c = Some x /\ w_primitive_class x = c /\ w_input_primitive_class x = i)) /\
  (forall p, ~ (exists c, In c l /\ sets_up c p) ->
     (forall u, In u (type_urls p) -> manager_of r u = None) /\
     (forall c, In c (map fst (primitives p)) -> wrapper_of r c = None)).
Proof. exact setup_complete. Qed.
Print Assumptions C57_register_complete.
Theorem C57_primitive_is_the_cc_primitive : forall w env p r name c b d,
  configured w env p r -> ~ In p [JwtMac; JwtSignature] -> In (name, c, b) (key_types p) ->
  kd_type_url d = type_url name -> wf_key_data d -> proto_size (serialize_key_data d) ->
  primitive_from_cc w env c d (registry_primitive r d c).
Proof. exact configured_primitive. Qed.
Print Assumptions C57_primitive_is_the_cc_primitive.
Theorem C57_new_key_is_the_cc_key : forall w env p r name c b u create public rnd t,
  configured w env p r -> In (name, c, b) (key_types p) ->
  cc_functions w c (type_url name) = Some (u, create, public) ->
  kt_type_url t = type_url name -> wf_key_template t -> proto_size (serialize_key_template t) ->
  (forall d, create rnd (kt_value t) = StOk d -> wf_key_data d /\ proto_size (serialize_key_data d)) ->
  answers (registry_new_key_data r rnd t) (create rnd (kt_value t)).
Proof. exact configured_new_key. Qed.
Print Assumptions C57_new_key_is_the_cc_key.
Theorem C57_public_key_is_the_cc_public_key : forall w env p r name c u create public d,
  configured w env p r -> In (name, c, true) (key_types p) ->
  cc_functions w c (type_url name) = Some (u, create, Some public) ->
  kd_type_url d = type_url name -> kd_key_material_type d = ASYMMETRIC_PRIVATE ->
  wf_key_data d -> proto_size (serialize_key_data d) ->
  (forall d', public (kd_value d) = StOk d' -> wf_key_data d' /\ proto_size (serialize_key_data d')) ->
  answers (registry_public_key_data r d) (public (kd_value d)).
Proof. exact configured_public_key. Qed.
Print Assumptions C57_public_key_is_the_cc_public_key.
Theorem C57_jwt_managers : forall w env r,
  (configured w env JwtMac r -> exists m, cw_mac w (type_url "JwtHmacKey") = Some m /\
     manager_of r (type_url "JwtHmacKey") = Some (jwt_hmac_manager (pe_rt env) (cc_key_manager bind_mac m), true)) /\
  (configured w env JwtSignature r ->
     (forall name akid, In (name, akid)
        [("JwtEcdsaPrivateKey", ecdsa_private_alg_kid); ("JwtRsaSsaPkcs1PrivateKey", pkcs1_private_alg_kid);
         ("JwtRsaSsaPssPrivateKey", pss_private_alg_kid)] ->
        exists n m, cw_sign w (type_url name) = Some m /\
          manager_of r (type_url name) = Some (jwt_sign_manager (pe_rt env) n (cc_key_manager bind_signer m) akid, true)) /\
     (forall name akid, In (name, akid)
        [("JwtEcdsaPublicKey", ecdsa_public_alg_kid); ("JwtRsaSsaPkcs1PublicKey", pkcs1_public_alg_kid);
         ("JwtRsaSsaPssPublicKey", pss_public_alg_kid)] ->
        exists n m, cw_verify w (type_url name) = Some m /\
          manager_of r (type_url name) = Some (jwt_verify_manager (pe_rt env) n (cc_key_manager bind_verifier m) akid, true))).
Proof. exact configured_jwt. Qed.
Print Assumptions C57_jwt_managers.
Theorem C57_templates_are_served : forall w env r m ts name t,
  In (m, ts) predefined_templates -> In (name, Ok t) ts ->
  (forall p, In p (module_packages m) -> configured w env p r) ->
  exists km, manager_of r (kt_type_url t) = Some (km, true) /\ km_key_type km = kt_type_url t /\
    forall rnd, registry_new_key_data r rnd t = km_new_key_data km rnd t.
Proof. exact template_served. Qed.
Print Assumptions C57_templates_are_served.
Theorem C57_handle_only_tink_errors : forall w env p r h c i,
  configured w env p r -> In (c, i) (primitives p) ->
  (forall k, In k (ks_key (kh_keyset h)) -> (k_key_id k < 2 ^ 32)%N) ->
  (forall k, In k (enabled_keys (kh_keyset h)) -> exists c', cc_key c' (k_key_data k)) ->
  tink_total (handle_primitive r h c).
Proof. exact configured_handle_total. Qed.
Print Assumptions C57_handle_only_tink_errors.
Theorem C57_primitives_only_tink_errors : forall w env p r h c i x,
  configured w env p r -> ~ In p [StreamingAead; JwtMac; JwtSignature] -> In (c, i) (primitives p) ->
  (forall k, In k (enabled_keys (kh_keyset h)) -> exists c', cc_key c' (k_key_data k)) ->
  handle_primitive r h c = Ok x -> only_tink x.
Proof. exact configured_only_tink. Qed.
Print Assumptions C57_primitives_only_tink_errors.
Theorem C57_aead_round_trip : forall w env r h a k m q,
  configured w env Aead r -> handle_primitive r h ClsAead = Ok (PrimAead a) ->
  (forall k', In k' (enabled_keys (kh_keyset h)) -> cc_key ClsAead (k_key_data k')) ->
  In k (enabled_keys (kh_keyset h)) -> k_key_id k = ks_primary_key_id (kh_keyset h) ->
  cw_aead w (kd_type_url (k_key_data k)) = Some m -> cl_get_primitive m (k_key_data k) = StOk q ->
  forall rnd pt ad c prefix,
    ca_encrypt q rnd pt ad = StOk c -> c <> [] -> ca_decrypt q c ad = StOk pt ->
    has_prefix (k_output_prefix_type k) (k_key_id k) prefix ->
    (forall k' m' q' body, In k' (enabled_keys (kh_keyset h)) -> k' <> k ->
       cw_aead w (kd_type_url (k_key_data k')) = Some m' -> cl_get_primitive m' (k_key_data k') = StOk q' ->
       reaches k' (prefix ++ c) body -> exists s, ca_decrypt q' body ad = StErr s) ->
    aead_encrypt a rnd pt ad = Ok (prefix ++ c) /\ aead_decrypt a (prefix ++ c) ad = Ok pt.
Proof. exact configured_aead_round_trip. Qed.
Print Assumptions C57_aead_round_trip.
Theorem C57_aead_over_cc : forall w env r ks l, configured w env Aead r -> cc_keyset ClsAead (cw_aead w) ks l ->
  exists a, handle_primitive r (mk_handle ks) ClsAead = Ok (PrimAead a) /\ aead_over_cc ks l a.
Proof. exact aead_over_cc_ok. Qed.
Print Assumptions C57_aead_over_cc.
Theorem C57_daead_over_cc : forall w env r ks l, configured w env Daead r -> cc_keyset ClsDaead (cw_daead w) ks l ->
  exists a, handle_primitive r (mk_handle ks) ClsDaead = Ok (PrimDaead a) /\ daead_over_cc ks l a.
Proof. exact daead_over_cc_ok. Qed.
Print Assumptions C57_daead_over_cc.
Theorem C57_hybrid_encrypt_over_cc : forall w env r ks l, configured w env Hybrid r -> cc_keyset ClsHybridEncrypt (cw_hybrid_encrypt w) ks l ->
  exists a, handle_primitive r (mk_handle ks) ClsHybridEncrypt = Ok (PrimHybridEncrypt a) /\ hybrid_encrypt_over_cc ks l a.
Proof. exact hybrid_encrypt_over_cc_ok. Qed.
Print Assumptions C57_hybrid_encrypt_over_cc.
Theorem C57_hybrid_decrypt_over_cc : forall w env r ks l, configured w env Hybrid r -> cc_keyset ClsHybridDecrypt (cw_hybrid_decrypt w) ks l ->
  exists a, handle_primitive r (mk_handle ks) ClsHybridDecrypt = Ok (PrimHybridDecrypt a) /\ hybrid_decrypt_over_cc l a.
Proof. exact hybrid_decrypt_over_cc_ok. Qed.
Print Assumptions C57_hybrid_decrypt_over_cc.
Theorem C57_mac_over_cc : forall w env r ks l, configured w env Mac r -> cc_keyset ClsMac (cw_mac w) ks l ->
  exists a, handle_primitive r (mk_handle ks) ClsMac = Ok (PrimMac a) /\ mac_over_cc ks l a.
Proof. exact mac_over_cc_ok. Qed.
Print Assumptions C57_mac_over_cc.
Theorem C57_sign_over_cc : forall w env r ks l, configured w env Signature r -> cc_keyset ClsSign (cw_sign w) ks l ->
  exists a, handle_primitive r (mk_handle ks) ClsSign = Ok (PrimSign a) /\ signer_over_cc ks l a.
Proof. exact signer_over_cc_ok. Qed.
Print Assumptions C57_sign_over_cc.
Theorem C57_verify_over_cc : forall w env r ks l, configured w env Signature r -> cc_keyset ClsVerify (cw_verify w) ks l ->
  exists a, handle_primitive r (mk_handle ks) ClsVerify = Ok (PrimVerify a) /\ verifier_over_cc l a.
Proof. exact verifier_over_cc_ok. Qed.
Print Assumptions C57_verify_over_cc.
Theorem C57_failed_configuration : forall w env n r,
  (cw_tink_config w <> StOk tt -> forall c,
     In c [CallTinkConfig; CallAead; CallDaead; CallHybrid; CallMac; CallPrf; CallSignature; CallStreamingAead] ->
     exists e, perform (setup_action w env n c) r = (r, Err e) /\ is_tink_error e = false) /\
  (cw_hpke_config w <> StOk tt -> exists e, perform (setup_action w env n CallHybrid) r = (r, Err e) /\ is_tink_error e = false) /\
  (cw_jwt_config w <> StOk tt -> forall c, In c [CallJwtMac; CallJwtSignature] ->
     exists e, perform (setup_action w env n c) r = (r, Err e) /\ is_tink_error e = false).
Proof. exact config_failure. Qed.
Print Assumptions C57_failed_configuration.

(** The history [toy_calls] (with repeated calls and a registration by the user) is one
    the theorems speak about. *)
Lemma toy_ready : forall p, cc_ready toy_world p.
Proof.
  intros p. split.
  - destruct p; try exact eq_refl; split; exact eq_refl.
  - intros name c b Hin.
    destruct p; cbn in Hin; repeat (destruct Hin as [Hin | Hin]; [injection Hin as <- <- <-; do 2 eexists; reflexivity |]);
      contradiction.
Qed.
Lemma toy_reached : exists xs, reached toy_world toy_env toy_calls configured_registry xs.
Proof.
  exists (snd (setup_run toy_world toy_env 0 toy_calls empty_registry)). split; [| split].
  - unfold configured_registry. destruct (setup_run _ _ _ _ _). reflexivity.
  - intros c p _ _. apply toy_ready.
  - intros c Hc. cbn in Hc. intuition subst; try exact I.
    cbn. intros p. destruct p; cbn; intuition discriminate.
Qed.
Example C57_configured_met : forall p, configured toy_world toy_env p configured_registry.
Proof.
  intros p. destruct toy_reached as (xs & H).
  destruct p;
    first [exists toy_calls, xs, CallTinkConfig; split; [exact H |]; split; [cbn; tauto | cbn; intuition discriminate]
          |exists toy_calls, xs, CallJwtMac; split; [exact H |]; split; [cbn; tauto | reflexivity]
          |exists toy_calls, xs, CallJwtSignature; split; [exact H |]; split; [cbn; tauto | reflexivity]].
Qed.
(** AES-GCM keys are keys the theorems speak about, the handle is usable and the
    hypotheses of the round trip hold. *)
Example C57_round_trip_met :
  (forall k, In k (enabled_keys (kh_keyset gcm_handle)) -> cc_key ClsAead (k_key_data k)) /\
  match handle_primitive configured_registry gcm_handle ClsAead with
  | Ok (PrimAead a) =>
      match aead_encrypt a 0%N (blit "hello") (blit "ad") with
      | Ok ct => bytes_eqb ct ([x01; x00; x00; x00; x2a] ++ blit "ka" ++ [x02] ++ blit "adhello") &&
          match aead_decrypt a ct (blit "ad") with Ok pt => bytes_eqb pt (blit "hello") | Err _ => false end
      | Err _ => false
      end &&
      match aead_decrypt a (blit "kb" ++ [x02] ++ blit "adhello") (blit "ad") with
      | Ok pt => bytes_eqb pt (blit "hello") | Err _ => false end &&
      match aead_decrypt a (blit "nothing") [] with Err e => is_tink_error e | Ok _ => false end
  | _ => false
  end%bool = true.
Proof.
  split; [| vm_compute; reflexivity].
  intros k Hk. split; [| split].
  - split; [| destruct Hk as [<- | [<- | []]]; unfold int32_range; split; vm_compute; congruence].
    intros c Hc. left.
    assert (T : forallb (fun c => (c <? 55296)%N) (type_url "AesGcmKey") = true) by (vm_compute; reflexivity).
    rewrite forallb_forall in T. apply N.ltb_lt, T. destruct Hk as [<- | [<- | []]]; exact Hc.
  - destruct Hk as [<- | [<- | []]]; vm_compute; reflexivity.
  - exists Aead, "AesGcmKey", false. split; [cbn; intuition discriminate |]. split; [left; reflexivity |].
    destruct Hk as [<- | [<- | []]]; reflexivity.
Qed.

(** What is not true: an output length that C++ cannot be asked for is reported as
    TypeError, and so is not covered by C57_primitives_only_tink_errors. *)
Definition prf_key_data : key_data := mk_key_data (type_url "HkdfPrfKey") (blit "k") SYMMETRIC.
Definition prf_handle : keyset_handle := mk_handle (mk_keyset 1 [mk_key (Some prf_key_data) ENABLED 1 RAW]).
Theorem C57_prf_output_length_refuted :
  exists h pid all prim0 q, handle_primitive configured_registry h ClsPrfSet = Ok (PrimPrfSet pid all prim0) /\
    prim0 = Ok (PrimPrf q) /\ forall x n, (n < 0 \/ 2 ^ 64 <= n)%Z -> exists m, prf_compute q x n = Err (TypeError m).
Proof.
  exists prf_handle, (Ok 1%N), [(1%N, PrimPrf (prf_cc_to_py (bind_prf (mk_cc_prf (fun x n => StOk (firstn (N.to_nat n) (blit "k" ++ x)))))))],
    (Ok (PrimPrf (prf_cc_to_py (bind_prf (mk_cc_prf (fun x n => StOk (firstn (N.to_nat n) (blit "k" ++ x)))))))).
  eexists. split; [vm_compute; reflexivity |]. split; [reflexivity |].
  intros x n Hn. eexists. cbn [prf_compute prf_cc_to_py bind_prf].
  replace ((n <? 0) || (18446744073709551616 <=? n))%Z with true; [reflexivity |].
  symmetry. apply orb_true_iff. rewrite Z.ltb_lt, Z.leb_le. change 18446744073709551616%Z with (2 ^ 64)%Z. exact Hn.
Qed.
Print Assumptions C57_prf_output_length_refuted.
(** A KMS key whose value is not a KmsAeadKey message makes the handle raise
    DecodeError. *)
Theorem C57_kms_key_decode_error_refuted :
  exists d, kd_type_url d = type_url "KmsAeadKey" /\
    handle_primitive configured_registry (mk_handle (mk_keyset 1 [mk_key (Some d) ENABLED 1 RAW])) ClsAead = Err DecodeError.
Proof.
  exists (mk_key_data (type_url "KmsAeadKey") [xff] REMOTE). split; [reflexivity | vm_compute; reflexivity].
Qed.
Print Assumptions C57_kms_key_decode_error_refuted.
Example C57_keys_met :
  match registry_new_key_data configured_registry 0%N (mk_key_template (type_url "AesGcmKey") (blit "f") TINK) with
  | Ok d => bytes_eqb (kd_value d) (blit "kf") | Err _ => false end = true /\
  match registry_public_key_data configured_registry (mk_key_data (type_url "EcdsaPrivateKey") (blit "s") ASYMMETRIC_PRIVATE) with
  | Ok d => bytes_eqb (kd_value d) (blit "s") | Err _ => false end = true /\
  cc_functions toy_world ClsSign (type_url "EcdsaPrivateKey") <> None /\
  existsb (fun e => existsb (fun x => match snd x with Ok _ => true | Err _ => false end) (snd e)) predefined_templates = true.
Proof. split; [vm_compute; reflexivity |]. split; [vm_compute; reflexivity |]. split; [discriminate | vm_compute; reflexivity]. Qed.
Example C57_failure_met : exists w, cw_tink_config w <> StOk tt /\ cw_hpke_config w <> StOk tt /\ cw_jwt_config w <> StOk tt.
Proof.
  exists (mk_cc_world (StErr (NotOk "")) (StErr (NotOk "")) (StErr (NotOk "")) (cw_aead toy_world) (cw_daead toy_world)
    (cw_hybrid_decrypt toy_world) (cw_hybrid_encrypt toy_world) (cw_mac toy_world) (cw_prf toy_world) (cw_sign toy_world)
    (cw_verify toy_world) (cw_streaming toy_world)). repeat split; discriminate.
Qed.
