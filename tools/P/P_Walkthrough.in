(** C77, C78: the walkthrough examples and the *_basic.py examples. *)
From Coq Require Import Strings.Byte Strings.String List NArith ZArith Bool Lia.
From Verif Require Import M_Base M_Utf8 M_Proto M_Wire M_Prims M_PrimitiveSet M_Registry M_KeysetHandle M_KeysetIO M_Kms M_KmsIntegrations
  M_JwtTypes M_Json M_JsonKeyset M_KeysetStream M_CcStream M_CcManagers M_KeyFormats M_Templates M_Cli M_Walkthrough
  S_Keyset S_Wire S_Json S_JsonKeyset S_Handle S_Kms S_Config S_CcLaws S_Cli S_Walkthrough S_Basic
  L_Base L_Cli5 L_Walkthrough L_Basic X_Toy L_Toy X_Rt X_Config P_JsonKeyset P_Config.
Import ListNotations.
Open Scope string_scope.
Open Scope list_scope.

(** ** C77: keysets encrypted with a KMS *)
@thm C77_kms_aead kms_aead_spec
@thm C77_write write_encrypted_keyset_spec
@thm C77_load load_encrypted_keyset_spec
@thm C77_document_loads document_loads
@thm C77_stored_keyset_loads stored_keyset_loads
@thm C77_cleartext cleartext_keyset_spec
@thm C77_create create_keyset_spec
@thm C77_use aead_functions_spec
@thm C77_round_trip aead_functions_round_trip
@thm C77_pipeline walkthrough_pipeline

(** ** C78: the programs *_basic.py *)
@thm C78_aead aead_basic_spec
@thm C78_deterministic_aead deterministic_aead_basic_spec
@thm C78_hybrid hybrid_basic_spec
@thm C78_mac mac_basic_spec
@thm C78_signature signature_basic_spec
(** If register() raises, so does the program, and the registry is as register() left it. *)
Theorem C78_register_fails : forall w env pb c n r r' e, perform (setup_action w env n c) r = (r', Err e) ->
  (forall rnd, c = CallAead -> aead_basic w env pb n r rnd = (r', Err e)) /\
  (c = CallDaead -> deterministic_aead_basic w env pb n r = (r', Err e)) /\
  (c = CallMac -> mac_basic w env pb n r = (r', Err e)) /\
  (forall rnd, c = CallHybrid -> hybrid_basic w env pb n r rnd = (r', Err e)) /\
  (forall rnd, c = CallSignature -> signature_basic w env pb n r rnd = (r', Err e)).
Proof.
  intros w env pb c n r r' e H.
  repeat split; intros; subst c; unfold aead_basic, deterministic_aead_basic, mac_basic, hybrid_basic, signature_basic, after_register;
    rewrite H; reflexivity.
Qed.
Print Assumptions C78_register_fails.

(** ** Examples *)
Definition kms_client_of (id : N) (prefix : string) (key : string) : kms_client :=
  mk_kms_client id (fun u => startswith u (ulit prefix)) (fun _ => Ok (toy_aead (blit key))).
Definition broken_client : kms_client :=
  mk_kms_client 3 (fun u => startswith u (ulit "broken://")) (fun _ => Err (OtherError 7)).
Definition kms_env : py_env :=
  mk_py_env empty_registry 0%N [kms_client_of 1 "a://" "other"; kms_client_of 2 "b://" "KEK"; broken_client]
    (fun _ => "") [x00] [x00] 1 toy_rt.
Definition walk_registry : registry := fst (setup_run toy_world kms_env 0 [CallAead] empty_registry).
Definition walk_uri : pystr := ulit "b://key".
Definition walk_format : bytes := aes128_gcm_format.
Definition walk_key : key_data := mk_key_data (type_url "AesGcmKey") (blit "k" ++ walk_format) SYMMETRIC.
Definition walk_keyset : keyset := one_key walk_key 8.

Lemma walk_configured : configured toy_world kms_env Aead walk_registry.
Proof.
  exists [CallAead], (snd (setup_run toy_world kms_env 0 [CallAead] empty_registry)), CallAead.
  split; [| split; [left; reflexivity | reflexivity]]. split; [| split].
  - unfold walk_registry. destruct (setup_run _ _ _ _ _). reflexivity.
  - intros c p _ _. apply toy_ready.
  - intros c [<- | []]. exact I.
Qed.
Lemma walk_usable : usable_uri walk_uri.
Proof. split; [apply text_range; vm_compute; reflexivity | vm_compute; reflexivity]. Qed.
Lemma walk_kms : kms_gives (pe_clients kms_env) walk_uri (Ok (toy_aead (blit "KEK"))).
Proof.
  exists (kms_client_of 2 "b://" "KEK"). split; [| reflexivity].
  exists [kms_client_of 1 "a://" "other"], [broken_client]. split; [reflexivity |]. split; [reflexivity |].
  intros d [<- | []]. reflexivity.
Qed.
(** All three outcomes of looking for a KMS occur. *)
Example C77_kms_met :
  configured toy_world kms_env Aead walk_registry /\ usable_uri walk_uri /\
  kms_gives (pe_clients kms_env) walk_uri (Ok (toy_aead (blit "KEK"))) /\
  kms_gives (pe_clients kms_env) (ulit "broken://key") (Err (OtherError 7)) /\
  no_kms (pe_clients kms_env) (ulit "c://key") /\
  match GetKmsAead walk_registry 0%N [7%N] walk_uri with
  | Some (Ok (PrimAead a)) =>
      match aead_encrypt a 0%N (blit "hello") (blit "ad") with
      | Ok ct => bytes_eqb ct (blit "KEK" ++ [x02] ++ blit "adhello")
      | Err _ => false
      end
  | _ => false
  end = true /\
  GetKmsAead walk_registry 0%N [7%N] (ulit "broken://key") = Some (Err (OtherError 7)) /\
  match GetKmsAead walk_registry 0%N [7%N] (ulit "c://key") with Some (Err e) => is_tink_error e | _ => false end = true.
Proof.
  split; [exact walk_configured |]. split; [exact walk_usable |]. split; [exact walk_kms |].
  split; [exists broken_client; split; [| reflexivity]; exists [kms_client_of 1 "a://" "other"; kms_client_of 2 "b://" "KEK"], [];
          split; [reflexivity |]; split; [reflexivity |]; intros d [<- | [<- | []]]; reflexivity |].
  split; [intros c [<- | [<- | [<- | []]]]; reflexivity |]. split; [vmr |]. split; vmr.
Qed.

(** The hypotheses of the pipeline, and the pipeline itself. *)
Definition walk_ct : bytes := blit "KEK" ++ [x02] ++ blit "ad" ++ serialize_keyset walk_keyset.
Example C77_pipeline_met :
  (exists m, cw_aead toy_world (type_url "AesGcmKey") = Some m /\
     cl_new_key_data m 0%N aes128_gcm_format = StOk walk_key /\ exists q, cl_get_primitive m walk_key = StOk q /\
       ca_encrypt q 0%N (blit "hello") [] = StOk (blit "k" ++ walk_format ++ [x00] ++ blit "hello") /\
       ca_decrypt q (blit "k" ++ walk_format ++ [x00] ++ blit "hello") [] = StOk (blit "hello")) /\
  wf_key_data walk_key /\ python_digit_limit toy_rt /\ one_key walk_key (1 + 7 mod 2147483647) = walk_keyset /\
  proto_size (serialize_keyset walk_keyset) /\ proto_size (serialize_key_data walk_key) /\
  aead_encrypt (toy_aead (blit "KEK")) 0%N (serialize_keyset walk_keyset) (blit "ad") = Ok walk_ct /\
  aead_decrypt (toy_aead (blit "KEK")) walk_ct (blit "ad") = Ok (serialize_keyset walk_keyset) /\
  match CreateAead128GcmKeyset walk_registry 0%N [7%N] with
  | Some (Ok h) =>
      match WriteEncryptedKeyset walk_registry toy_rt 0%N 0%N [9%N] h memory_stream walk_uri (blit "ad") [] with
      | Some (Ok tt, t) =>
          match LoadEncryptedKeyset walk_registry toy_rt new_pb 0%N [5%N] t walk_uri (blit "ad") with
          | Some (Ok h') =>
              match AeadEncrypt walk_registry h' 0%N (blit "hello") [] with
              | Ok ct => match AeadDecrypt walk_registry h ct [] with Ok pt => bytes_eqb pt (blit "hello") | Err _ => false end
              | Err _ => false
              end
          | _ => false
          end &&
          match LoadEncryptedKeyset walk_registry toy_rt new_pb 0%N [5%N] t walk_uri (blit "other") with
          | Some (Err e) => is_tink_error e | _ => false end &&
          match LoadEncryptedKeyset walk_registry toy_rt new_pb 0%N [5%N] t (ulit "a://key") (blit "ad") with
          | Some (Err e) => is_tink_error e | _ => false end
      | _ => false
      end
  | _ => false
  end%bool = true.
Proof.
  split; [eexists; split; [reflexivity |]; split; [vmr |]; eexists; split; [vmr |]; split; vmr |].
  split; [split; [apply text_range; vm_compute; reflexivity | unfold int32_range; vm_compute; split; congruence] |].
  split; [exact toy_limit |]. split; [vmr |]. split; [vmr |]. split; [vmr |]. split; [vmr |]. split; [vmr | vm_compute; reflexivity].
Qed.
(** Keys decrypt what another key encrypted only after they are in the same keyset: a
    rotated keyset still decrypts. *)
Definition old_key : key := mk_key (Some walk_key) ENABLED 8 TINK.
Definition new_key : key := mk_key (Some (mk_key_data (type_url "AesGcmKey") (blit "new") SYMMETRIC)) ENABLED 9 TINK.
Example C77_rotated_met :
  match AeadEncrypt walk_registry (mk_handle walk_keyset) 0%N (blit "hello") (blit "ad") with
  | Ok ct =>
      match AeadDecrypt walk_registry (mk_handle (mk_keyset 9 [old_key; new_key])) ct (blit "ad") with
      | Ok pt => bytes_eqb pt (blit "hello") | Err _ => false end &&
      match AeadDecrypt walk_registry (mk_handle (mk_keyset 9 [new_key])) ct (blit "ad") with
      | Err e => is_tink_error e | Ok _ => false end
  | Err _ => false
  end%bool = true.
Proof. vmr. Qed.
(** Cleartext. *)
Example C77_cleartext_met :
  valid_keyset walk_keyset /\ wf_keyset walk_keyset /\
  match WriteKeyset toy_rt (mk_handle walk_keyset) memory_stream [] with
  | (Ok tt, t) => match LoadKeyset toy_rt new_pb t with
                  | Ok h => bytes_eqb (serialize_keyset (kh_keyset h)) (serialize_keyset walk_keyset) | Err _ => false end
  | _ => false
  end = true.
Proof.
  split; [apply one_key_valid |]. split; [apply one_key_wf; [exact (proj1 (proj2 C77_pipeline_met)) | reflexivity] |]. vm_compute. reflexivity.
Qed.
(** The text is written but not flushed: a stream that buffers has not stored it yet.
    WriteEncryptedKeyset does flush. *)
Definition buffering_stream : out_stream N (pystr * pystr) :=
  mk_out_stream (fun data st => (Ok tt, (fst st, snd st ++ data))) (fun st => (Ok tt, (fst st ++ snd st, []))).
Example C77_no_flush :
  fst (snd (WriteKeyset toy_rt (mk_handle walk_keyset) buffering_stream ([], []))) = [] /\
  match WriteEncryptedKeyset walk_registry toy_rt 0%N 0%N [9%N] (mk_handle walk_keyset) buffering_stream walk_uri (blit "ad") ([], []) with
  | Some (Ok tt, (stored, [])) => negb (N.eqb (N.of_nat (length stored)) 0%N)
  | _ => false
  end = true.
Proof. split; vm_compute; reflexivity. Qed.

(** A library whose keys are interchangeable, for the examples of C78. *)
Definition basic_world : cc_world :=
  let k := blit "k" in
  mk_cc_world (StOk tt) (StOk tt) (StOk tt) (cw_aead toy_world) (cw_daead toy_world)
    (some_manager (fun _ => mk_cc_hybrid_decrypt (fun ct ci => status (toy_open k ct ci))) ASYMMETRIC_PRIVATE true)
    (some_manager (fun _ => mk_cc_hybrid_encrypt (fun _ pt ci => status (toy_seal k ci pt))) ASYMMETRIC_PUBLIC false)
    (cw_mac toy_world) (cw_prf toy_world)
    (fun url => Some (mk_cc_lib_manager url (fun _ => StOk (mk_cc_signer (fun _ d => status (toy_tag k d))))
       (fun _ f => StOk (mk_key_data url f ASYMMETRIC_PRIVATE)) (Some (fun _ => StOk signature_basic_public_key))))
    (some_manager (fun _ => mk_cc_verifier (fun t d => status (toy_check k t d))) ASYMMETRIC_PUBLIC false)
    (cw_streaming toy_world).
Lemma basic_ready : forall p, cc_ready basic_world p.
Proof.
  intros p. split.
  - destruct p; try exact eq_refl; split; exact eq_refl.
  - intros name c b Hin.
    destruct p; cbn in Hin; repeat (destruct Hin as [Hin | Hin]; [injection Hin as <- <- <-; do 2 eexists; reflexivity |]);
      contradiction.
Qed.
Definition ok (x : result unit) : bool := match x with Ok _ => true | Err _ => false end.
(** The programs run to their end, one after the other in one process. *)
Example C78_met : exists xs1 r1, reached basic_world toy_env [CallAead; CallMac] r1 xs1 /\
  let r2 := fst (aead_basic basic_world toy_env new_pb 2 r1 0%N) in
  (ok (snd (aead_basic basic_world toy_env new_pb 2 r1 0%N)) &&
   ok (snd (deterministic_aead_basic basic_world toy_env new_pb 3 r2)) &&
   ok (snd (mac_basic basic_world toy_env new_pb 3 r2)) &&
   ok (snd (hybrid_basic basic_world toy_env new_pb 3 r2 0%N)) &&
   ok (snd (signature_basic basic_world toy_env new_pb 3 r2 0%N)))%bool = true.
Proof.
  exists (snd (setup_run basic_world toy_env 0 [CallAead; CallMac] empty_registry)),
    (fst (setup_run basic_world toy_env 0 [CallAead; CallMac] empty_registry)). split.
  - split; [destruct (setup_run _ _ _ _ _); reflexivity |]. split.
    + intros c p _ _. apply basic_ready.
    + intros c [<- | [<- | []]]; exact I.
  - vm_compute. reflexivity.
Qed.
(** A library that decrypts to something else ends with AssertionError, one that cannot
    decrypt with TinkError. *)
Definition wrong_world (dec : bytes -> bytes -> st_or bytes) : cc_world :=
  mk_cc_world (StOk tt) (StOk tt) (StOk tt)
    (some_manager (fun _ => mk_cc_aead (fun _ pt ad => StOk pt) dec) SYMMETRIC false) (cw_daead toy_world)
    (cw_hybrid_decrypt toy_world) (cw_hybrid_encrypt toy_world)
    (cw_mac toy_world) (cw_prf toy_world) (cw_sign toy_world) (cw_verify toy_world) (cw_streaming toy_world).
Example C78_wrong_library :
  snd (aead_basic (wrong_world (fun ct _ => StOk (ct ++ ct))) toy_env new_pb 0 empty_registry 0%N) = Err (OtherError 1) /\
  match snd (aead_basic (wrong_world (fun _ _ => StErr (NotOk "no"))) toy_env new_pb 0 empty_registry 0%N) with
  | Err e => is_tink_error e | Ok _ => false end = true.
Proof. split; vm_compute; reflexivity. Qed.
(** A library that cannot be configured *)
Definition broken_world : cc_world :=
  mk_cc_world (StErr (NotOk "no")) (StOk tt) (StOk tt) (cw_aead toy_world) (cw_daead toy_world) (cw_hybrid_decrypt toy_world)
    (cw_hybrid_encrypt toy_world) (cw_mac toy_world) (cw_prf toy_world) (cw_sign toy_world) (cw_verify toy_world) (cw_streaming toy_world).
Example C78_register_fails_met :
  forallb (fun c => match perform (setup_action broken_world toy_env 0 c) empty_registry with (_, Err _) => true | _ => false end)
    [CallAead; CallDaead; CallMac; CallHybrid; CallSignature] = true.
Proof. vm_compute. reflexivity. Qed.
