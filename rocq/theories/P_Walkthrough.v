(** C77, C78: the walkthrough examples and the *_basic.py examples. *)
From Coq Require Import Strings.Byte Strings.String List NArith ZArith Bool Lia.
From Verif Require Import M_Base M_Utf8 M_Proto M_Wire M_Prims M_PrimitiveSet M_Registry M_KeysetHandle M_KeysetIO M_Kms M_KmsIntegrations
  M_JwtTypes M_Json M_JsonKeyset M_KeysetStream M_CcStream M_CcManagers M_KeyFormats M_Templates M_Cli M_Walkthrough
  S_Keyset S_Wire S_Json S_JsonKeyset S_Handle S_Kms S_Config S_CcLaws S_Cli S_Walkthrough S_Basic
  L_Base L_Cli5 L_Walkthrough L_Basic X_Toy L_Toy X_Rt X_Config P_JsonKeyset P_Config.
Import ListNotations.
Open Scope string_scope.
Open Scope list_scope.

(** ** C77: keysets encrypted with a KMS *)
Theorem C77_kms_aead : forall w env reg rnd raw draws uri, configured w env Aead reg -> usable_uri uri ->
  exists res, GetKmsAead reg rnd (raw :: draws) uri = Some res /\
    (forall remote, kms_gives (pe_clients env) uri (Ok remote) ->
       exists a, res = Ok (PrimAead a) /\ stands_for a remote) /\
    (forall e, kms_gives (pe_clients env) uri (Err e) -> res = Err e) /\
    (no_kms (pe_clients env) uri -> raises_tink res).
Proof. exact kms_aead_spec. Qed.
Print Assumptions C77_kms_aead.
Theorem C77_write : forall w env reg rt rnd rnd' raw draws h St (io : out_stream N St) uri ad st,
  configured w env Aead reg -> usable_uri uri -> python_digit_limit rt ->
  exists run, WriteEncryptedKeyset reg rt rnd rnd' (raw :: draws) h io uri ad st = Some run /\
    (forall remote, kms_gives (pe_clients env) uri (Ok remote) ->
       (exists t ct, encrypts_keyset remote rnd' ad (kh_keyset h) ct /\ encrypted_document rt t ct (kh_keyset h) /\
          run = write_and_flush io t st) \/
       ((forall ct, ~ encrypts_keyset remote rnd' ad (kh_keyset h) ct) /\
        exists e, run = (Err e, st) /\
          (tink_total (aead_encrypt remote rnd' (serialize_keyset (kh_keyset h)) ad) ->
           (forall ct, tink_total (aead_decrypt remote ct ad)) -> is_tink_error e = true))) /\
    (forall e, kms_gives (pe_clients env) uri (Err e) -> run = (Err e, st)) /\
    (no_kms (pe_clients env) uri -> exists e, run = (Err e, st) /\ is_tink_error e = true).
Proof. exact write_encrypted_keyset_spec. Qed.
Print Assumptions C77_write.
Theorem C77_load : forall w env reg rt pb rnd raw draws text uri ad,
  configured w env Aead reg -> usable_uri uri ->
  exists res, LoadEncryptedKeyset reg rt pb rnd (raw :: draws) text uri ad = Some res /\
    (forall remote, kms_gives (pe_clients env) uri (Ok remote) ->
       (forall h, res = Ok h <->
          exists ek pt, kr_read_encrypted (json_keyset_reader rt pb text) = Ok ek /\
            ek_encrypted_keyset ek <> [] /\ aead_decrypt remote (ek_encrypted_keyset ek) ad = Ok pt /\
            parse_keyset pt = Some (kh_keyset h) /\ valid_keyset (kh_keyset h)) /\
       (tink_total (kr_read_encrypted (json_keyset_reader rt pb text)) ->
        (forall ct, tink_total (aead_decrypt remote ct ad)) -> tink_total res)) /\
    (forall e, kms_gives (pe_clients env) uri (Err e) -> res = Err e) /\
    (no_kms (pe_clients env) uri -> raises_tink res).
Proof. exact load_encrypted_keyset_spec. Qed.
Print Assumptions C77_load.
Theorem C77_document_loads : forall w env reg rt pb rnd raw draws t uri ad remote ct pt ks ks',
  configured w env Aead reg -> usable_uri uri -> kms_gives (pe_clients env) uri (Ok remote) ->
  encrypted_document rt t ct ks' -> ct <> [] -> aead_decrypt remote ct ad = Ok pt -> parse_keyset pt = Some ks ->
  valid_keyset ks ->
  LoadEncryptedKeyset reg rt pb rnd (raw :: draws) t uri ad = Some (Ok (mk_handle ks)).
Proof. exact document_loads. Qed.
Print Assumptions C77_document_loads.
Theorem C77_stored_keyset_loads : forall w env reg w' env' reg' rt pb rnd rnd' raw draws rnd2 raw2 draws2 h uri ad remote remote' st st',
  configured w env Aead reg -> configured w' env' Aead reg' -> usable_uri uri -> python_digit_limit rt ->
  kms_gives (pe_clients env) uri (Ok remote) -> kms_gives (pe_clients env') uri (Ok remote') ->
  (forall pt ct, aead_encrypt remote rnd' pt ad = Ok ct -> ct <> [] /\ aead_decrypt remote' ct ad = Ok pt) ->
  valid_keyset (kh_keyset h) -> proto_size (serialize_keyset (kh_keyset h)) ->
  WriteEncryptedKeyset reg rt rnd rnd' (raw :: draws) h memory_stream uri ad st = Some (Ok tt, st') ->
  exists t, st' = st ++ t /\
    LoadEncryptedKeyset reg' rt pb rnd2 (raw2 :: draws2) t uri ad = Some (Ok h).
Proof. exact stored_keyset_loads. Qed.
Print Assumptions C77_stored_keyset_loads.
Theorem C77_cleartext : forall rt pb h, python_digit_limit rt -> valid_keyset (kh_keyset h) ->
  wf_keyset (kh_keyset h) ->
  exists v t, json_text rt v t /\ no_repeated_names v /\ shows_keyset padded_base64 v (kh_keyset h) /\
    LoadKeyset rt pb t = Ok h /\
    forall St (io : out_stream N St) st, WriteKeyset rt h io st = os_write io t st.
Proof. exact cleartext_keyset_spec. Qed.
Print Assumptions C77_cleartext.
Theorem C77_create : forall w env reg m rnd raw draws, configured w env Aead reg ->
  cw_aead w (type_url "AesGcmKey") = Some m ->
  (forall d, cl_new_key_data m rnd aes128_gcm_format = StOk d -> wf_key_data d /\ proto_size (serialize_key_data d)) ->
  exists made, CreateAead128GcmKeyset reg rnd (raw :: draws) = Some made /\
    match cl_new_key_data m rnd aes128_gcm_format with
    | StOk d => made = Ok (mk_handle (one_key d (1 + raw mod 2147483647)))
    | StErr _ => exists e, made = Err e
    end.
Proof. exact create_keyset_spec. Qed.
Print Assumptions C77_create.
Theorem C77_use : forall w env reg h l, configured w env Aead reg ->
  cc_keyset ClsAead (cw_aead w) (kh_keyset h) l ->
  (forall rnd pt ad, aead_outcome (kh_keyset h) l Encrypt rnd pt ad (AeadEncrypt reg h rnd pt ad)) /\
  (forall rnd ct ad, aead_outcome (kh_keyset h) l Decrypt rnd ct ad (AeadDecrypt reg h ct ad)).
Proof. exact aead_functions_spec. Qed.
Print Assumptions C77_use.
Theorem C77_round_trip : forall w env reg h l w' env' reg' h' l' k q k' q' rnd pt ad prefix c,
  configured w env Aead reg -> cc_keyset ClsAead (cw_aead w) (kh_keyset h) l ->
  configured w' env' Aead reg' -> cc_keyset ClsAead (cw_aead w') (kh_keyset h') l' ->
  is_primary (kh_keyset h) l k q -> has_prefix (k_output_prefix_type k) (k_key_id k) prefix ->
  In (k', q') l' -> has_prefix (k_output_prefix_type k') (k_key_id k') prefix ->
  ca_encrypt q rnd pt ad = StOk c -> c <> [] -> ca_decrypt q' c ad = StOk pt ->
  (forall k2 q2 body, In (k2, q2) l' -> k2 <> k' -> reaches k2 (prefix ++ c) body ->
     exists s, ca_decrypt q2 body ad = StErr s) ->
  AeadEncrypt reg h rnd pt ad = Ok (prefix ++ c) /\ AeadDecrypt reg' h' (prefix ++ c) ad = Ok pt.
Proof. exact aead_functions_round_trip. Qed.
Print Assumptions C77_round_trip.
Theorem C77_pipeline : forall w1 env1 reg1 m1 w2 env2 reg2 m2 q2 w3 env3 reg3 m3 q3 rt pb uri ad
  rnd raw draws d rnd1 rnd1' raw1 draws1 remote1 st rnd2 raw2 draws2 remote2 rnd3 raw3 draws3 remote3 pt pad rndE c ct,
  configured w1 env1 Aead reg1 -> configured w2 env2 Aead reg2 -> configured w3 env3 Aead reg3 ->
  usable_uri uri -> python_digit_limit rt ->
  cw_aead w1 (type_url "AesGcmKey") = Some m1 -> cl_new_key_data m1 rnd aes128_gcm_format = StOk d ->
  wf_key_data d -> kd_type_url d = type_url "AesGcmKey" ->
  let ks := one_key d (1 + raw mod 2147483647) in proto_size (serialize_keyset ks) -> proto_size (serialize_key_data d) ->
  kms_gives (pe_clients env1) uri (Ok remote1) -> kms_gives (pe_clients env2) uri (Ok remote2) ->
  kms_gives (pe_clients env3) uri (Ok remote3) ->
  aead_encrypt remote1 rnd1' (serialize_keyset ks) ad = Ok ct -> ct <> [] ->
  aead_decrypt remote1 ct ad = Ok (serialize_keyset ks) -> aead_decrypt remote2 ct ad = Ok (serialize_keyset ks) ->
  aead_decrypt remote3 ct ad = Ok (serialize_keyset ks) ->
  cw_aead w2 (type_url "AesGcmKey") = Some m2 -> cl_get_primitive m2 d = StOk q2 ->
  cw_aead w3 (type_url "AesGcmKey") = Some m3 -> cl_get_primitive m3 d = StOk q3 ->
  ca_encrypt q2 rndE pt pad = StOk c -> c <> [] -> ca_decrypt q3 c pad = StOk pt ->
  exists h t ct', CreateAead128GcmKeyset reg1 rnd (raw :: draws) = Some (Ok h) /\
    WriteEncryptedKeyset reg1 rt rnd1 rnd1' (raw1 :: draws1) h memory_stream uri ad st = Some (Ok tt, st ++ t) /\
    LoadEncryptedKeyset reg2 rt pb rnd2 (raw2 :: draws2) t uri ad = Some (Ok h) /\
    AeadEncrypt reg2 h rndE pt pad = Ok ct' /\
    LoadEncryptedKeyset reg3 rt pb rnd3 (raw3 :: draws3) t uri ad = Some (Ok h) /\
    AeadDecrypt reg3 h ct' pad = Ok pt.
Proof. exact walkthrough_pipeline. Qed.
Print Assumptions C77_pipeline.

(** ** C78: the programs *_basic.py *)
Theorem C78_aead : forall w env pb l r xs rnd m q, reached w env l r xs -> cc_ready w Aead ->
  python_digit_limit (pe_rt env) ->
  cw_aead w (type_url "AesGcmKey") = Some m -> cl_get_primitive m aead_basic_key = StOk q ->
  configured w env Aead (fst (aead_basic w env pb (N.of_nat (length l)) r rnd)) /\
  ends_as (ca_encrypt q rnd (blit "msg") (blit "associated_data")) (fun c => ca_decrypt q c (blit "associated_data"))
    (blit "msg") (snd (aead_basic w env pb (N.of_nat (length l)) r rnd)).
Proof. exact aead_basic_spec. Qed.
Print Assumptions C78_aead.
Theorem C78_deterministic_aead : forall w env pb l r xs m q, reached w env l r xs -> cc_ready w Daead ->
  python_digit_limit (pe_rt env) ->
  cw_daead w (type_url "AesSivKey") = Some m -> cl_get_primitive m daead_basic_key = StOk q ->
  configured w env Daead (fst (deterministic_aead_basic w env pb (N.of_nat (length l)) r)) /\
  ends_as (cda_encrypt q (blit "msg") (blit "associated_data")) (fun c => cda_decrypt q c (blit "associated_data"))
    (blit "msg") (snd (deterministic_aead_basic w env pb (N.of_nat (length l)) r)).
Proof. exact deterministic_aead_basic_spec. Qed.
Print Assumptions C78_deterministic_aead.
Theorem C78_hybrid : forall w env pb l r xs rnd m q m' q', reached w env l r xs -> cc_ready w Hybrid ->
  python_digit_limit (pe_rt env) ->
  cw_hybrid_encrypt w (type_url "HpkePublicKey") = Some m -> cl_get_primitive m hybrid_basic_public_key = StOk q ->
  cw_hybrid_decrypt w (type_url "HpkePrivateKey") = Some m' -> cl_get_primitive m' hybrid_basic_private_key = StOk q' ->
  configured w env Hybrid (fst (hybrid_basic w env pb (N.of_nat (length l)) r rnd)) /\
  ends_as (che_encrypt q rnd (blit "message") (blit "context_info")) (fun c => chd_decrypt q' c (blit "context_info"))
    (blit "message") (snd (hybrid_basic w env pb (N.of_nat (length l)) r rnd)).
Proof. exact hybrid_basic_spec. Qed.
Print Assumptions C78_hybrid.
Theorem C78_mac : forall w env pb l r xs m q, reached w env l r xs -> cc_ready w Mac ->
  python_digit_limit (pe_rt env) ->
  cw_mac w (type_url "HmacKey") = Some m -> cl_get_primitive m mac_basic_key = StOk q ->
  configured w env Mac (fst (mac_basic w env pb (N.of_nat (length l)) r)) /\
  ends_checked (cm_compute q (blit "data")) [fun t => cm_verify q t (blit "data")]
    (snd (mac_basic w env pb (N.of_nat (length l)) r)).
Proof. exact mac_basic_spec. Qed.
Print Assumptions C78_mac.
Theorem C78_signature : forall w env pb l r xs rnd m q m' q' public d2 q2, reached w env l r xs ->
  cc_ready w Signature -> python_digit_limit (pe_rt env) ->
  cw_sign w (type_url "EcdsaPrivateKey") = Some m -> cl_get_primitive m signature_basic_private_key = StOk q ->
  cw_verify w (type_url "EcdsaPublicKey") = Some m' -> cl_get_primitive m' signature_basic_public_key = StOk q' ->
  cl_public_key_data m = Some public -> public (kd_value signature_basic_private_key) = StOk d2 ->
  kd_type_url d2 = type_url "EcdsaPublicKey" -> wf_key_data d2 -> proto_size (serialize_key_data d2) ->
  cl_get_primitive m' d2 = StOk q2 ->
  configured w env Signature (fst (signature_basic w env pb (N.of_nat (length l)) r rnd)) /\
  ends_checked (cs_sign q rnd (blit "msg")) [fun s => cv_verify q' s (blit "msg"); fun s => cv_verify q2 s (blit "msg")]
    (snd (signature_basic w env pb (N.of_nat (length l)) r rnd)).
Proof. exact signature_basic_spec. Qed.
Print Assumptions C78_signature.
(** If register() raises, so does the program, and the registry is as register() left it. *)
Theorem C78_register_fails : forall w env pb c n r r' e, perform (setup_action w env n c) r = (r', Err e) ->
  (forall rnd, c = CallAead -> aead_basic w env pb n r rnd = (r', Err e)) /\
  (c = CallDaead -> deterministic_aead_basic w env pb n r = (r', Err e)) /\
  (c = CallMac -> mac_basic w env pb n r = (r', Err e)) /\
  (forall rnd, c = CallHybrid -> hybrid_basic w env pb n r rnd = (r', Err e)) /\
  (forall rnd, c = CallSignature -> signature_basic w env pb n r rnd = (r', Err e)).
Proof.
  intros w env pb c n r r' e H.
  repeat split; intros; subst c; unfold aead_basic, deterministic_aead_basic, mac_basic, hybrid_basic, signature_basic, after_register;
    rewrite H; reflexivity.
Qed.
Print Assumptions C78_register_fails.

(** ** Examples *)
Definition kms_client_of (id : N) (prefix : string) (key : string) : kms_client :=
  mk_kms_client id (fun u => startswith u (ulit prefix)) (fun _ => Ok (toy_aead (blit key))).
Definition broken_client : kms_client :=
  mk_kms_client 3 (fun u => startswith u (ulit "broken://")) (fun _ => Err (OtherError 7)).
Definition kms_env : py_env :=
  mk_py_env empty_registry 0%N [kms_client_of 1 "a://" "other"; kms_client_of 2 "b://" "KEK"; broken_client]
    (fun _ => "") [x00] [x00] 1 toy_rt.
Definition walk_registry : registry := fst (setup_run toy_world kms_env 0 [CallAead] empty_registry).
Definition walk_uri : pystr := ulit "b://key".
Definition walk_format : bytes := aes128_gcm_format.
Definition walk_key : key_data := mk_key_data (type_url "AesGcmKey") (blit "k" ++ walk_format) SYMMETRIC.
Definition walk_keyset : keyset := one_key walk_key 8.

Lemma walk_configured : configured toy_world kms_env Aead walk_registry.
Proof.
  exists [CallAead], (snd (setup_run toy_world kms_env 0 [CallAead] empty_registry)), CallAead.
  split; [| split; [left; reflexivity | reflexivity]]. split; [| split].
  - unfold walk_registry. destruct (setup_run _ _ _ _ _). reflexivity.
  - intros c p _ _. apply toy_ready.
  - intros c [<- | []]. exact I.
Qed.
Lemma walk_usable : usable_uri walk_uri.
Proof. split; [apply text_range; vm_compute; reflexivity | vm_compute; reflexivity]. Qed.
Lemma walk_kms : kms_gives (pe_clients kms_env) walk_uri (Ok (toy_aead (blit "KEK"))).
Proof.
  exists (kms_client_of 2 "b://" "KEK"). split; [| reflexivity].
  exists [kms_client_of 1 "a://" "other"], [broken_client]. split; [reflexivity |]. split; [reflexivity |].
  intros d [<- | []]. reflexivity.
Qed.
(** All three outcomes of looking for a KMS occur. *)
Example C77_kms_met :
  configured toy_world kms_env Aead walk_registry /\ usable_uri walk_uri /\
  kms_gives (pe_clients kms_env) walk_uri (Ok (toy_aead (blit "KEK"))) /\
  kms_gives (pe_clients kms_env) (ulit "broken://key") (Err (OtherError 7)) /\
  no_kms (pe_clients kms_env) (ulit "c://key") /\
  match GetKmsAead walk_registry 0%N [7%N] walk_uri with
  | Some (Ok (PrimAead a)) =>
      match aead_encrypt a 0%N (blit "hello") (blit "ad") with
      | Ok ct => bytes_eqb ct (blit "KEK" ++ [x02] ++ blit "adhello")
      | Err _ => false
      end
  | _ => false
  end = true /\
  GetKmsAead walk_registry 0%N [7%N] (ulit "broken://key") = Some (Err (OtherError 7)) /\
  match GetKmsAead walk_registry 0%N [7%N] (ulit "c://key") with Some (Err e) => is_tink_error e | _ => false end = true.
Proof.
  split; [exact walk_configured |]. split; [exact walk_usable |]. split; [exact walk_kms |].
  split; [exists broken_client; split; [| reflexivity]; exists [kms_client_of 1 "a://" "other"; kms_client_of 2 "b://" "KEK"], [];
          split; [reflexivity |]; split; [reflexivity |]; intros d [<- | [<- | []]]; reflexivity |].
  split; [intros c [<- | [<- | [<- | []]]]; reflexivity |]. split; [vmr |]. split; vmr.
Qed.

(** The hypotheses of the pipeline, and the pipeline itself. *)
Definition walk_ct : bytes := blit "KEK" ++ [x02] ++ blit "ad" ++ serialize_keyset walk_keyset.
Example C77_pipeline_met :
  (exists m, cw_aead toy_world (type_url "AesGcmKey") = Some m /\
     cl_new_key_data m 0%N aes128_gcm_format = StOk walk_key /\ exists q, cl_get_primitive m walk_key = StOk q /\
       ca_encrypt q 0%N (blit "hello") [] = StOk (blit "k" ++ walk_format ++ [x00] ++ blit "hello") /\
       ca_decrypt q (blit "k" ++ walk_format ++ [x00] ++ blit "hello") [] = StOk (blit "hello")) /\
  wf_key_data walk_key /\ python_digit_limit toy_rt /\ one_key walk_key (1 + 7 mod 2147483647) = walk_keyset /\
  proto_size (serialize_keyset walk_keyset) /\ proto_size (serialize_key_data walk_key) /\
  aead_encrypt (toy_aead (blit "KEK")) 0%N (serialize_keyset walk_keyset) (blit "ad") = Ok walk_ct /\
  aead_decrypt (toy_aead (blit "KEK")) walk_ct (blit "ad") = Ok (serialize_keyset walk_keyset) /\
  match CreateAead128GcmKeyset walk_registry 0%N [7%N] with
  | Some (Ok h) =>
      match WriteEncryptedKeyset walk_registry toy_rt 0%N 0%N [9%N] h memory_stream walk_uri (blit "ad") [] with
      | Some (Ok tt, t) =>
          match LoadEncryptedKeyset walk_registry toy_rt new_pb 0%N [5%N] t walk_uri (blit "ad") with
          | Some (Ok h') =>
              match AeadEncrypt walk_registry h' 0%N (blit "hello") [] with
              | Ok ct => match AeadDecrypt walk_registry h ct [] with Ok pt => bytes_eqb pt (blit "hello") | Err _ => false end
              | Err _ => false
              end
          | _ => false
          end &&
          match LoadEncryptedKeyset walk_registry toy_rt new_pb 0%N [5%N] t walk_uri (blit "other") with
          | Some (Err e) => is_tink_error e | _ => false end &&
          match LoadEncryptedKeyset walk_registry toy_rt new_pb 0%N [5%N] t (ulit "a://key") (blit "ad") with
          | Some (Err e) => is_tink_error e | _ => false end
      | _ => false
      end
  | _ => false
  end%bool = true.
Proof.
  split; [eexists; split; [reflexivity |]; split; [vmr |]; eexists; split; [vmr |]; split; vmr |].
  split; [split; [apply text_range; vm_compute; reflexivity | unfold int32_range; vm_compute; split; congruence] |].
  split; [exact toy_limit |]. split; [vmr |]. split; [vmr |]. split; [vmr |]. split; [vmr |]. split; [vmr | vm_compute; reflexivity].
Qed.
(** Keys decrypt what another key encrypted only after they are in the same keyset: a
    rotated keyset still decrypts. *)
Definition old_key : key := mk_key (Some walk_key) ENABLED 8 TINK.
Definition new_key : key := mk_key (Some (mk_key_data (type_url "AesGcmKey") (blit "new") SYMMETRIC)) ENABLED 9 TINK.
Example C77_rotated_met :
  match AeadEncrypt walk_registry (mk_handle walk_keyset) 0%N (blit "hello") (blit "ad") with
  | Ok ct =>
      match AeadDecrypt walk_registry (mk_handle (mk_keyset 9 [old_key; new_key])) ct (blit "ad") with
      | Ok pt => bytes_eqb pt (blit "hello") | Err _ => false end &&
      match AeadDecrypt walk_registry (mk_handle (mk_keyset 9 [new_key])) ct (blit "ad") with
      | Err e => is_tink_error e | Ok _ => false end
  | Err _ => false
  end%bool = true.
Proof. vmr. Qed.
(** Cleartext. *)
Example C77_cleartext_met :
  valid_keyset walk_keyset /\ wf_keyset walk_keyset /\
  match WriteKeyset toy_rt (mk_handle walk_keyset) memory_stream [] with
  | (Ok tt, t) => match LoadKeyset toy_rt new_pb t with
                  | Ok h => bytes_eqb (serialize_keyset (kh_keyset h)) (serialize_keyset walk_keyset) | Err _ => false end
  | _ => false
  end = true.
Proof.
  split; [apply one_key_valid |]. split; [apply one_key_wf; [exact (proj1 (proj2 C77_pipeline_met)) | reflexivity] |]. vm_compute. reflexivity.
Qed.
(** The text is written but not flushed: a stream that buffers has not stored it yet.
    WriteEncryptedKeyset does flush. *)
Definition buffering_stream : out_stream N (pystr * pystr) :=
  mk_out_stream (fun data st => (Ok tt, (fst st, snd st ++ data))) (fun st => (Ok tt, (fst st ++ snd st, []))).
Example C77_no_flush :
  fst (snd (WriteKeyset toy_rt (mk_handle walk_keyset) buffering_stream ([], []))) = [] /\
  match WriteEncryptedKeyset walk_registry toy_rt 0%N 0%N [9%N] (mk_handle walk_keyset) buffering_stream walk_uri (blit "ad") ([], []) with
  | Some (Ok tt, (stored, [])) => negb (N.eqb (N.of_nat (length stored)) 0%N)
  | _ => false
  end = true.
Proof. split; vm_compute; reflexivity. Qed.

(** A library whose keys are interchangeable, for the examples of C78. *)
Definition basic_world : cc_world :=
  let k := blit "k" in
  mk_cc_world (StOk tt) (StOk tt) (StOk tt) (cw_aead toy_world) (cw_daead toy_world)
    (some_manager (fun _ => mk_cc_hybrid_decrypt (fun ct ci => status (toy_open k ct ci))) ASYMMETRIC_PRIVATE true)
    (some_manager (fun _ => mk_cc_hybrid_encrypt (fun _ pt ci => status (toy_seal k ci pt))) ASYMMETRIC_PUBLIC false)
    (cw_mac toy_world) (cw_prf toy_world)
    (fun url => Some (mk_cc_lib_manager url (fun _ => StOk (mk_cc_signer (fun _ d => status (toy_tag k d))))
       (fun _ f => StOk (mk_key_data url f ASYMMETRIC_PRIVATE)) (Some (fun _ => StOk signature_basic_public_key))))
    (some_manager (fun _ => mk_cc_verifier (fun t d => status (toy_check k t d))) ASYMMETRIC_PUBLIC false)
    (cw_streaming toy_world).
Lemma basic_ready : forall p, cc_ready basic_world p.
Proof.
  intros p. split.
  - destruct p; try exact eq_refl; split; exact eq_refl.
  - intros name c b Hin.
    destruct p; cbn in Hin; repeat (destruct Hin as [Hin | Hin]; [injection Hin as <- <- <-; do 2 eexists; reflexivity |]);
      contradiction.
Qed.
Definition ok (x : result unit) : bool := match x with Ok _ => true | Err _ => false end.
(** The programs run to their end, one after the other in one process. *)
Example C78_met : exists xs1 r1, reached basic_world toy_env [CallAead; CallMac] r1 xs1 /\
  let r2 := fst (aead_basic basic_world toy_env new_pb 2 r1 0%N) in
  (ok (snd (aead_basic basic_world toy_env new_pb 2 r1 0%N)) &&
   ok (snd (deterministic_aead_basic basic_world toy_env new_pb 3 r2)) &&
   ok (snd (mac_basic basic_world toy_env new_pb 3 r2)) &&
   ok (snd (hybrid_basic basic_world toy_env new_pb 3 r2 0%N)) &&
   ok (snd (signature_basic basic_world toy_env new_pb 3 r2 0%N)))%bool = true.
Proof.
  exists (snd (setup_run basic_world toy_env 0 [CallAead; CallMac] empty_registry)),
    (fst (setup_run basic_world toy_env 0 [CallAead; CallMac] empty_registry)). split.
  - split; [destruct (setup_run _ _ _ _ _); reflexivity |]. split.
    + intros c p _ _. apply basic_ready.
    + intros c [<- | [<- | []]]; exact I.
  - vm_compute. reflexivity.
Qed.
(** A library that decrypts to something else ends with AssertionError, one that cannot
    decrypt with TinkError. *)
Definition wrong_world (dec : bytes -> bytes -> st_or bytes) : cc_world :=
  mk_cc_world (StOk tt) (StOk tt) (StOk tt)
    (some_manager (fun _ => mk_cc_aead (fun _ pt ad => StOk pt) dec) SYMMETRIC false) (cw_daead toy_world)
    (cw_hybrid_decrypt toy_world) (cw_hybrid_encrypt toy_world)
    (cw_mac toy_world) (cw_prf toy_world) (cw_sign toy_world) (cw_verify toy_world) (cw_streaming toy_world).
Example C78_wrong_library :
  snd (aead_basic (wrong_world (fun ct _ => StOk (ct ++ ct))) toy_env new_pb 0 empty_registry 0%N) = Err (OtherError 1) /\
  match snd (aead_basic (wrong_world (fun _ _ => StErr (NotOk "no"))) toy_env new_pb 0 empty_registry 0%N) with
  | Err e => is_tink_error e | Ok _ => false end = true.
Proof. split; vm_compute; reflexivity. Qed.
(** A library that cannot be configured *)
Definition broken_world : cc_world :=
  mk_cc_world (StErr (NotOk "no")) (StOk tt) (StOk tt) (cw_aead toy_world) (cw_daead toy_world) (cw_hybrid_decrypt toy_world)
    (cw_hybrid_encrypt toy_world) (cw_mac toy_world) (cw_prf toy_world) (cw_sign toy_world) (cw_verify toy_world) (cw_streaming toy_world).
Example C78_register_fails_met :
  forallb (fun c => match perform (setup_action broken_world toy_env 0 c) empty_registry with (_, Err _) => true | _ => false end)
    [CallAead; CallDaead; CallMac; CallHybrid; CallSignature] = true.
Proof. vm_compute. reflexivity. Qed.
