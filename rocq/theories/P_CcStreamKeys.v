(** C75, C76: the keys of AES streaming, and AES streaming as users of Python see it. *)
From Coq Require Import Strings.Byte Strings.String List NArith ZArith Bool Lia.
From Verif Require Import M_Base L_Base M_Utf8 M_Proto M_Wire M_ProtoMsg M_KeyFormats M_StreamTypes M_Prims M_PrimitiveSet M_Registry M_KeysetHandle M_KeysetIO
  M_JsonKeyset M_Templates M_Stream M_CcStream M_Buffered M_CcManagers M_Cli M_CliStream M_CcAes M_CcStreamKeys
  S_Keyset S_PrimitiveSet S_Registry S_Wire S_Stream S_CcStream S_Buffered S_Config S_CcLaws S_Cli S_CliStream S_CcSegments S_CcAes S_CcStreamKeys
  L_Keyset L_Wrappers2 L_CcStreamKeys L_CcStreamKeys2 L_CcStreamKeys3
  X_Toy L_Toy X_Rt X_Config X_CliStream X_CcAes L_XCcAes X_CcStreamKeys P_Cli P_CliStream P_CcAes.
Import ListNotations.
Open Scope string_scope.
Open Scope list_scope.
Open Scope Z_scope.

(** ** C75: keys *)
Theorem C75_primitive : forall n lib salt prefix random d cc,
  (exists m, streaming_managers n lib salt prefix random (kd_type_url d) = Some m /\ cl_get_primitive m d = StOk cc) <->
  (exists sp, key_params d sp /\ params_usable sp /\ segments_fit sp /\ aes_streaming n lib sp salt prefix = StOk cc).
Proof. exact streaming_key_primitive. Qed.
Print Assumptions C75_primitive.
Theorem C75_one_meaning : forall d sp sp', key_params d sp -> key_params d sp' -> sp = sp'.
Proof. exact key_params_unique. Qed.
Print Assumptions C75_one_meaning.
Theorem C75_formats : forall n lib salt prefix random rnd url x,
  (exists m d, streaming_managers n lib salt prefix random url = Some m /\ cl_new_key_data m rnd x = StOk d) <->
  (exists sp, asks_for url x sp /\ format_accepted sp).
Proof. exact streaming_new_key_accepted. Qed.
Print Assumptions C75_formats.
Theorem C75_new_key : forall n lib salt prefix random rnd url x m d,
  streaming_managers n lib salt prefix random url = Some m -> cl_new_key_data m rnd x = StOk d ->
  random_law random -> proto_size (kd_value d) ->
  kd_type_url d = url /\ kd_key_material_type d = SYMMETRIC /\
  exists sp, asks_for url x sp /\ format_accepted sp /\ key_params d sp /\
    key_material sp = random rnd (Z.of_nat (length (key_material sp))).
Proof. exact streaming_new_key. Qed.
Print Assumptions C75_new_key.
Theorem C75_templates : Forall2 (fun x y => fst x = fst y /\ exists t, snd x = Ok t /\
    asks_for (kt_type_url t) (kt_value t) (snd y) /\ params_usable (snd y) /\ segments_fit (snd y) /\
    kt_output_prefix_type t = RAW) streaming_templates template_params.
Proof. exact templates_ask. Qed.
Print Assumptions C75_templates.
Theorem C75_new_handle : forall n lib random salt prefix w env r name t rnd raw draws,
  aes_world n lib random salt prefix w -> random_law random -> configured w env StreamingAead r -> In (name, Ok t) streaming_templates ->
  exists sp h k, In (name, sp) template_params /\ generate_new r rnd (raw :: draws) t = Some (Ok h) /\
    aes_keyset (kh_keyset h) [(k, with_key sp (random rnd (Z.of_nat (length (key_material sp)))))] /\
    k_key_id k = ks_primary_key_id (kh_keyset h).
Proof. exact new_streaming_handle. Qed.
Print Assumptions C75_new_handle.
(** A new key can be used, unless its segments are too big. *)
Theorem C75_new_key_works : forall n lib salt prefix random rnd url x m d,
  streaming_managers n lib salt prefix random url = Some m -> cl_new_key_data m rnd x = StOk d ->
  random_law random -> proto_size (kd_value d) -> (forall sp, asks_for url x sp -> segments_fit sp) ->
  exists cc, cl_get_primitive m d = StOk cc.
Proof.
  intros n lib salt prefix random rnd url x m d Hm Hd RL Hs Hf.
  destruct (streaming_new_key _ _ _ _ _ _ _ _ _ _ Hm Hd RL Hs) as (Eu & _ & sp & Ha & (Hu & _) & Hk & _).
  destruct (aes_streaming_made n lib sp salt prefix Hu) as (cc & Hcc).
  destruct (proj2 (streaming_key_primitive n lib salt prefix random d cc)) as (m' & Hm' & H).
  - exists sp. auto.
  - rewrite Eu, Hm in Hm'. apply some_inj in Hm'. subst m'. exists cc. exact H.
Qed.
Print Assumptions C75_new_key_works.

Lemma gcm_value_params : forall x id, x = x61 \/ x = x62 -> key_params (k_key_data (aes_gcm_key x id)) (toy_gcm x).
Proof.
  intros x id H. split; [reflexivity |]. destruct H as [-> | ->]; (eexists; split; [vm_compute; reflexivity |]; split; [reflexivity |]; split; [reflexivity |];
    split; [reflexivity |]; split; [reflexivity |]; split; [reflexivity |]; exists 3; split; [reflexivity | cbn; tauto]).
Qed.
Lemma ctr_value_params : forall x id, x = x61 \/ x = x62 -> key_params (k_key_data (aes_ctr_key x id)) (toy_ctr x).
Proof.
  intros x id H. split; [reflexivity |]. destruct H as [-> | ->]; (eexists; split; [vm_compute; reflexivity |]; split; [reflexivity |]; split; [reflexivity |];
    split; [reflexivity |]; split; [reflexivity |]; split; [reflexivity |]; exists 3; split; [reflexivity |]; split; [cbn; tauto |];
    split; [reflexivity |]; exists 3; split; [reflexivity | cbn; tauto]).
Qed.
Lemma toy_segments_fit : forall x, segments_fit (toy_gcm x) /\ segments_fit (toy_ctr x).
Proof. intro x. split; reflexivity. Qed.
Lemma toy_random_law : random_law toy_random.
Proof. intros rnd size H. unfold toy_random. rewrite repeat_length. lia. Qed.
Lemma aes_toy_world : forall salt, aes_world 60 toy_ssl toy_random (toy_salt salt) toy_prefix (aes_toy salt).
Proof. intro salt. split; [vm_compute; reflexivity | intro url; reflexivity]. Qed.
Definition aes_registry (salt : byte) : registry := fst (setup_run (aes_toy salt) stream_env 0 [CallStreamingAead] empty_registry).
Lemma aes_configured : forall salt, configured (aes_toy salt) stream_env StreamingAead (aes_registry salt).
Proof.
  intro salt. exists [CallStreamingAead], (snd (setup_run (aes_toy salt) stream_env 0 [CallStreamingAead] empty_registry)), CallStreamingAead.
  split; [| split; [left; reflexivity | reflexivity]]. split; [unfold aes_registry; destruct (setup_run _ _ _ _ _); reflexivity |].
  split; [| intros c [<- | []]; exact I]. intros c p [<- | []] Hp. rewrite Hp. exact (aes_world_ready _ _ _ _ _ _ (aes_toy_world salt)).
Qed.
Example C75_primitive_hypotheses_met : forall x, x = x61 \/ x = x62 ->
  key_params (k_key_data (aes_gcm_key x 42)) (toy_gcm x) /\ params_usable (toy_gcm x) /\ segments_fit (toy_gcm x) /\
  key_params (k_key_data (aes_ctr_key x 43)) (toy_ctr x) /\ params_usable (toy_ctr x) /\ segments_fit (toy_ctr x).
Proof.
  intros x H. split; [apply gcm_value_params, H |]. split; [apply toy_usable |]. split; [apply toy_segments_fit |].
  split; [apply ctr_value_params, H |]. split; [apply toy_usable | apply toy_segments_fit].
Qed.
Definition template_value (name : string) : bytes :=
  match find (fun x => String.eqb (fst x) name) streaming_templates with Some (_, Ok t) => kt_value t | _ => [] end.
Example C75_new_key_hypotheses_met : exists m d,
  streaming_managers 60 toy_ssl (toy_salt x01) toy_prefix toy_random (type_url "AesGcmHkdfStreamingKey") = Some m /\
  cl_new_key_data m 0%N (template_value "AES128_GCM_HKDF_4KB") = StOk d /\ random_law toy_random /\ proto_size (kd_value d) /\
  (forall sp, asks_for (type_url "AesGcmHkdfStreamingKey") (template_value "AES128_GCM_HKDF_4KB") sp -> segments_fit sp).
Proof.
  eexists. eexists. split; [reflexivity |]. split; [vm_compute; reflexivity |]. split; [exact toy_random_law |]. split; [vm_compute; reflexivity |].
  intros sp (E & m & Hm & _ & Hs & _). destruct sp as [p | p]; [| vm_compute in E; discriminate].
  vm_compute in Hm. apply some_inj in Hm. subst m. unfold segments_fit. set (z := Z.of_nat (segment_size (GcmHkdf p))) in *. clearbody z.
  vm_compute in Hs. injection Hs as <-. reflexivity.
Qed.
Example C75_new_handle_hypotheses_met : exists t,
  aes_world 60 toy_ssl toy_random (toy_salt x01) toy_prefix (aes_toy x01) /\ random_law toy_random /\
  configured (aes_toy x01) stream_env StreamingAead (aes_registry x01) /\ In ("AES256_CTR_HMAC_SHA256_4KB", Ok t) streaming_templates.
Proof.
  eexists. split; [apply aes_toy_world |]. split; [exact toy_random_law |]. split; [apply aes_configured |].
  vm_compute. do 6 right. left. reflexivity.
Qed.
(** Not true: "a key that was generated can be used". Key generation does not look for
    AES-GCM-HKDF keys whose segments have 2^31 bytes or more. *)
Theorem C75_new_key_works_refuted : exists m d s,
  streaming_managers 60 toy_ssl (toy_salt x01) toy_prefix toy_random (type_url "AesGcmHkdfStreamingKey") = Some m /\
  cl_new_key_data m 0%N big_format = StOk d /\ cl_get_primitive m d = StErr s.
Proof.
  assert (R : forall A (x : st_or A), match x with StErr _ => true | StOk _ => false end = true -> exists s, x = StErr s)
    by (intros A [a | s] H; [discriminate | eauto]).
  assert (R' : forall A (x : st_or A), match x with StErr _ => false | StOk _ => true end = true -> exists d, x = StOk d)
    by (intros A [a | s] H; [eauto | discriminate]).
  set (m := aes_gcm_hkdf_streaming_key_manager 60 toy_ssl (toy_salt x01) toy_prefix toy_random).
  destruct (R' _ (cl_new_key_data m 0%N big_format) ltac:(vm_compute; reflexivity)) as (d & Hd).
  assert (E : match cl_new_key_data m 0%N big_format with
              | StOk d => match cl_get_primitive m d with StErr _ => true | StOk _ => false end
              | StErr _ => false end = true) by (vm_compute; reflexivity).
  rewrite Hd in E. destruct (R _ _ E) as (s & Hs).
  exists m, d, s. split; [reflexivity |]. split; assumption.
Qed.
Print Assumptions C75_new_key_works_refuted.

(** ** C76: streams *)
Theorem C76_primitive : forall n lib random salt prefix w env, aes_world n lib random salt prefix w ->
  forall r ks l, configured w env StreamingAead r -> aes_keyset ks l ->
  exists Q, handle_primitive r (mk_handle ks) ClsStreamingAead = Ok Q.
Proof. exact aes_handle. Qed.
Print Assumptions C76_primitive.
Theorem C76_writes : forall n lib random salt prefix w env, aes_world n lib random salt prefix w ->
  forall r ks l Q ad, configured w env StreamingAead r -> aes_keyset ks l ->
  handle_primitive r (mk_handle ks) ClsStreamingAead = Ok Q ->
  forall k sp X, In (k, sp) l -> k_key_id k = ks_primary_key_id ks ->
  ssl_laws lib sp -> length salt = salt_size sp -> length prefix = 7%nat ->
  forall e W0 size m calls v W x v' C, 0 < size ->
  S_CcStream.writes X [] (new_encrypting_stream Q ad) (Ok e) W0 ->
  writer_history X size m e (bw_new e) W0 calls v W -> S_CcStream.writes X W (bw_close m e v) (x, v') C ->
  match x with
  | Ok _ => Forall succeeded calls /\ stream_ciphertext lib sp ad salt prefix (written calls) C /\
            (length (written calls) <= params_capacity sp)%nat
  | Err y => can_fail X (params_capacity sp) (written calls) /\ is_tink_error y = true
  end.
Proof. exact aes_stream_writes. Qed.
Print Assumptions C76_writes.
Theorem C76_reads : forall n lib random salt prefix w env, aes_world n lib random salt prefix w ->
  forall r ks l Q ad, configured w env StreamingAead r -> aes_keyset ks l ->
  handle_primitive r (mk_handle ks) ClsStreamingAead = Ok Q ->
  forall k sp salt0 prefix0 P C Y, In (k, sp) l ->
  ssl_laws lib sp -> length salt0 = salt_size sp -> length prefix0 = 7%nat -> (length P <= params_capacity sp)%nat ->
  stream_ciphertext lib sp ad salt0 prefix0 P C ->
  (forall k' sp', In (k', sp') l -> k' <> k -> cannot_open lib ad C sp') ->
  eof_is_clear (pe_what env) Y -> pe_in_buffer env <> [] ->
  forall S (src : py_source S) fuel s b calls b', plays Y src C s 0 ->
  open_decrypting_stream src fuel Q s ad = Some (Ok b) ->
  reader_history (decrypting_call src fuel) b calls b' ->
  reads_as (raises Y) True P calls.
Proof. exact aes_stream_reads. Qed.
Print Assumptions C76_reads.
Theorem C76_tampered : forall n lib random salt prefix w env, aes_world n lib random salt prefix w ->
  forall r ks l Q ad, configured w env StreamingAead r -> aes_keyset ks l ->
  handle_primitive r (mk_handle ks) ClsStreamingAead = Ok Q ->
  forall k sp sent C Y, In (k, sp) l ->
  ssl_laws lib sp -> sent_streams (salt_size sp) sent -> no_forged_segment lib sp ad sent C ->
  (forall k' sp', In (k', sp') l -> k' <> k -> cannot_open lib ad C sp') ->
  eof_is_clear (pe_what env) Y -> pe_in_buffer env <> [] ->
  exists P whole,
    (P = [] /\ whole = false \/
     exists salt0 prefix0 R, In (salt0, prefix0, R) sent /\ has_header sp salt0 prefix0 C /\ (exists rest, R = P ++ rest) /\
       (whole = true -> P = R /\ exists D junk, stream_ciphertext lib sp ad salt0 prefix0 P D /\ C = D ++ junk /\
          (junk = [] \/ exists i, length D = i * segment_size sp)%nat)) /\
    forall S (src : py_source S) fuel s b calls b', plays Y src C s 0 ->
    open_decrypting_stream src fuel Q s ad = Some (Ok b) ->
    reader_history (decrypting_call src fuel) b calls b' ->
    reads_as (raises Y \/ whole = false) (whole = true) P calls.
Proof. exact aes_stream_tampered. Qed.
Print Assumptions C76_tampered.
Theorem C76_no_key : forall n lib random salt prefix w env, aes_world n lib random salt prefix w ->
  forall r ks l Q ad, configured w env StreamingAead r -> aes_keyset ks l ->
  handle_primitive r (mk_handle ks) ClsStreamingAead = Ok Q ->
  forall C Y, (forall k sp, In (k, sp) l -> cannot_open lib ad C sp) ->
  eof_is_clear (pe_what env) Y -> pe_in_buffer env <> [] ->
  forall S (src : py_source S) fuel s b calls b', plays Y src C s 0 ->
  open_decrypting_stream src fuel Q s ad = Some (Ok b) ->
  reader_history (decrypting_call src fuel) b calls b' ->
  reads_as True False [] calls.
Proof. exact aes_stream_no_key. Qed.
Print Assumptions C76_no_key.
Theorem C76_new_handle_round_trip : forall n lib random salt prefix w env n' random' salt' prefix' w' env' r r' name t rnd raw draws ad,
  aes_world n lib random salt prefix w -> aes_world n' lib random' salt' prefix' w' -> random_law random ->
  (forall sp, params_usable sp -> ssl_laws lib sp) -> length prefix = 7%nat ->
  (forall sp, In (name, sp) template_params -> length salt = salt_size sp) ->
  configured w env StreamingAead r -> configured w' env' StreamingAead r' -> In (name, Ok t) streaming_templates ->
  exists h Q Q', generate_new r rnd (raw :: draws) t = Some (Ok h) /\
    handle_primitive r h ClsStreamingAead = Ok Q /\ handle_primitive r' h ClsStreamingAead = Ok Q' /\
    forall X Y e W0 size m calls v W u v' C, 0 < size ->
    S_CcStream.writes X [] (new_encrypting_stream Q ad) (Ok e) W0 ->
    writer_history X size m e (bw_new e) W0 calls v W -> S_CcStream.writes X W (bw_close m e v) (Ok u, v') C ->
    Forall succeeded calls /\
    (eof_is_clear (pe_what env') Y -> pe_in_buffer env' <> [] ->
     forall S (src : py_source S) fuel s b calls' b', plays Y src C s 0 ->
     open_decrypting_stream src fuel Q' s ad = Some (Ok b) ->
     reader_history (decrypting_call src fuel) b calls' b' ->
     reads_as (raises Y) True (written calls) calls').
Proof. exact new_streaming_round_trip. Qed.
Print Assumptions C76_new_handle_round_trip.
(** ... and the example *)
Theorem C76_program_encrypts : forall n lib random salt prefix w env, aes_world n lib random salt prefix w ->
  forall pb o,
  forall m f fs ks l ad data k sp run,
  aes_finds env o f fs ks l ad data -> cf_input_path f <> cf_output_path f -> cf_mode f = Encrypt ->
  In (k, sp) l -> k_key_id k = ks_primary_key_id ks -> ssl_laws lib sp -> length salt = salt_size sp -> length prefix = 7%nat ->
  (length data <= params_capacity sp)%nat ->
  streaming_aead_cli w env pb o m f fs = Some run ->
  exists C, stream_ciphertext lib sp ad salt prefix data C /\ S_Cli.writes run (cf_output_path f) C fs.
Proof. exact aes_program_encrypts. Qed.
Print Assumptions C76_program_encrypts.
Theorem C76_program_decrypts : forall n lib random salt prefix w env, aes_world n lib random salt prefix w ->
  forall pb o,
  forall m f fs ks l ad C k sp salt0 prefix0 P run,
  aes_finds env o f fs ks l ad C -> reads_files env -> cf_input_path f <> cf_output_path f -> cf_mode f = Decrypt ->
  In (k, sp) l -> ssl_laws lib sp -> length salt0 = salt_size sp -> length prefix0 = 7%nat -> (length P <= params_capacity sp)%nat ->
  stream_ciphertext lib sp ad salt0 prefix0 P C ->
  (forall k' sp', In (k', sp') l -> k' <> k -> cannot_open lib ad C sp') ->
  streaming_aead_cli w env pb o m f fs = Some run -> S_Cli.writes run (cf_output_path f) P fs.
Proof. exact aes_program_decrypts. Qed.
Print Assumptions C76_program_decrypts.
Theorem C76_program_round_trip : forall n lib random salt prefix w env n' random' salt' prefix' w' env' pb pb' o o' m m' f f' fs fs' ks ks' l l' ad data k k' sp run run',
  aes_world n lib random salt prefix w -> aes_world n' lib random' salt' prefix' w' ->
  aes_finds env o f fs ks l ad data -> cf_input_path f <> cf_output_path f -> cf_mode f = Encrypt ->
  In (k, sp) l -> k_key_id k = ks_primary_key_id ks -> ssl_laws lib sp -> length salt = salt_size sp -> length prefix = 7%nat ->
  (length data <= params_capacity sp)%nat -> streaming_aead_cli w env pb o m f fs = Some run ->
  forall C, content (snd run) (cf_output_path f) = Some C ->
  aes_finds env' o' f' fs' ks' l' ad C -> reads_files env' -> cf_input_path f' <> cf_output_path f' -> cf_mode f' = Decrypt ->
  In (k', sp) l' -> (forall k1 sp1, In (k1, sp1) l' -> k1 <> k' -> cannot_open lib ad C sp1) ->
  streaming_aead_cli w' env' pb' o' m' f' fs' = Some run' ->
  fst run = Ok 0 /\ S_Cli.writes run' (cf_output_path f') data fs'.
Proof. exact aes_program_round_trip. Qed.
Print Assumptions C76_program_round_trip.
Theorem C76_program_tampered : forall n lib random salt prefix w env, aes_world n lib random salt prefix w ->
  forall pb o,
  forall m f fs ks l ad C k sp sent run,
  aes_finds env o f fs ks l ad C -> reads_files env -> cf_input_path f <> cf_output_path f -> cf_mode f = Decrypt ->
  In (k, sp) l -> ssl_laws lib sp -> sent_streams (salt_size sp) sent -> no_forged_segment lib sp ad sent C ->
  (forall k' sp', In (k', sp') l -> k' <> k -> cannot_open lib ad C sp') ->
  streaming_aead_cli w env pb o m f fs = Some run ->
  (exists salt0 prefix0 R D junk, In (salt0, prefix0, R) sent /\ stream_ciphertext lib sp ad salt0 prefix0 R D /\ C = D ++ junk /\
     (junk = [] \/ exists i, length D = i * segment_size sp)%nat /\ S_Cli.writes run (cf_output_path f) R fs) \/
  (exists W, ends run 1 (cf_output_path f) W fs /\ (W = [] \/ exists salt0 prefix0 R, In (salt0, prefix0, R) sent /\ has_header sp salt0 prefix0 C /\ front W R)).
Proof. exact aes_program_tampered. Qed.
Print Assumptions C76_program_tampered.
Theorem C76_program_cut_off : forall n lib random salt prefix w env, aes_world n lib random salt prefix w ->
  forall pb o m f fs ks l ad C k sp sent salt0 prefix0 P cut run,
  aes_finds env o f fs ks l ad C -> reads_files env -> cf_input_path f <> cf_output_path f -> cf_mode f = Decrypt ->
  In (k, sp) l -> ssl_laws lib sp -> sent_streams (salt_size sp) sent -> no_forged_segment lib sp ad sent C ->
  In (salt0, prefix0, P) sent -> (length P <= params_capacity sp)%nat ->
  stream_ciphertext lib sp ad salt0 prefix0 P (C ++ cut) -> cut <> [] ->
  (forall k' sp', In (k', sp') l -> k' <> k -> cannot_open lib ad C sp') ->
  streaming_aead_cli w env pb o m f fs = Some run ->
  exists W, front W P /\ ends run 1 (cf_output_path f) W fs.
Proof. exact aes_program_cut_off. Qed.
Print Assumptions C76_program_cut_off.
Theorem C76_program_no_key : forall n lib random salt prefix w env, aes_world n lib random salt prefix w ->
  forall pb o,
  forall m f fs ks l ad C run,
  aes_finds env o f fs ks l ad C -> reads_files env -> cf_input_path f <> cf_output_path f -> cf_mode f = Decrypt ->
  l <> [] -> (forall k sp, In (k, sp) l -> cannot_open lib ad C sp) ->
  streaming_aead_cli w env pb o m f fs = Some run -> empties run (cf_output_path f) fs.
Proof. exact aes_program_no_key. Qed.
Print Assumptions C76_program_no_key.

Definition aes_a : key := aes_gcm_key x61 42.
Definition aes_b : key := aes_ctr_key x62 43.
Definition aes_two (primary : N) : keyset := mk_keyset primary [aes_b; aes_a].
Definition aes_params : list (key * stream_params) := [(aes_b, toy_ctr x62); (aes_a, toy_gcm x61)].
Lemma aes_wf : forall id, (id < 100)%N -> wf_keyset (aes_two id).
Proof.
  intros id H. split; [unfold uint32_range, aes_two, ks_primary_key_id; lia |].
  intros k [<- | [<- | []]].
  - refine (proj2 (alone_wf "AesCtrHmacStreamingKey" (ctr_value x62) SYMMETRIC 43 TINK _ _ _) _ (or_introl eq_refl)); [vm_compute; reflexivity | reflexivity |].
    unfold int32_range, TINK. lia.
  - refine (proj2 (alone_wf "AesGcmHkdfStreamingKey" (gcm_value 44 x61) SYMMETRIC 42 RAW _ _ _) _ (or_introl eq_refl)); [vm_compute; reflexivity | reflexivity |].
    unfold int32_range, RAW. lia.
Qed.
Lemma aes_valid : forall id, In id [42; 43]%N -> valid_keyset (aes_two id).
Proof. intros id [<- | [<- | []]]; apply validate_keyset_ok; vm_compute; reflexivity. Qed.
Lemma aes_two_keyset : forall id, In id [42; 43]%N -> aes_keyset (aes_two id) aes_params.
Proof.
  intros id H. split; [apply aes_valid, H |]. split; [reflexivity |].
  assert (W : forall k, In k [aes_b; aes_a] -> wf_key_data (k_key_data k) /\ proto_size (serialize_key_data (k_key_data k))).
  { intros k Hk. assert (E : checked_key k = true) by (destruct Hk as [<- | [<- | []]]; vm_compute; reflexivity).
    assert (K : cc_key ClsRawStreamingAead (k_key_data k)).
    { destruct Hk as [<- | [<- | []]]; [eapply (checked_cc_key ClsRawStreamingAead StreamingAead "AesCtrHmacStreamingKey" false) |
        eapply (checked_cc_key ClsRawStreamingAead StreamingAead "AesGcmHkdfStreamingKey" false)];
        try exact E; try reflexivity; try (intros [K | [K | []]]; discriminate); cbn; tauto. }
    destruct K as (K1 & K2 & _). split; assumption. }
  constructor; [| constructor; [| constructor]]; cbn [fst snd].
  - destruct (W aes_b (or_introl eq_refl)) as (W1 & W2). split; [exact W1 |]. split; [exact W2 |]. split; [apply ctr_value_params; right; reflexivity |].
    split; [apply toy_usable |]. split; [apply toy_segments_fit |]. exists [x01; x00; x00; x00; x2b]. apply (tink_prefix x2b).
  - destruct (W aes_a (or_intror (or_introl eq_refl))) as (W1 & W2). split; [exact W1 |]. split; [exact W2 |]. split; [apply gcm_value_params; left; reflexivity |].
    split; [apply toy_usable |]. split; [apply toy_segments_fit |]. exists []. left. split; reflexivity.
Qed.
Lemma aes_two_finds : forall id mode input output fs data, In id [42; 43]%N -> content fs (ulit "keys") = Some (file_of (aes_two id)) ->
  content fs (ulit input) = Some data ->
  aes_finds stream_env stream_os (stream_flags mode "keys" input output) fs (aes_two id) aes_params (blit "ad") data.
Proof.
  intros id mode input output fs data Hid Hk Hi. split.
  { apply file_of_holds; [apply aes_wf; destruct Hid as [<- | [<- | []]]; reflexivity | apply aes_valid; exact Hid | exact Hk]. }
  split; [apply aes_two_keyset; exact Hid |]. split; [reflexivity |]. split; [exact Hi | reflexivity].
Qed.
(** "hello" with the key [aes_a] *)
Definition hello_c : bytes := toy_hello (toy_gcm x61).
Lemma b_cannot_open : forall k' sp', In (k', sp') aes_params -> k' <> aes_a -> cannot_open toy_ssl (blit "ad") hello_c sp'.
Proof.
  intros k' sp' [E | [E | []]] Hn; injection E as <- <-; [| congruence]. split; [apply toy_laws |].
  apply (C74_unknown_header_hypotheses_met (toy_gcm x61) (toy_ctr x62) (blit "ad")); tauto.
Qed.
Example C76_streams_hypotheses_met :
  aes_world 60 toy_ssl toy_random (toy_salt x01) toy_prefix (aes_toy x01) /\
  configured (aes_toy x01) stream_env StreamingAead (aes_registry x01) /\ aes_keyset (aes_two 42) aes_params /\
  In (aes_a, toy_gcm x61) aes_params /\ k_key_id aes_a = ks_primary_key_id (aes_two 42) /\ ssl_laws toy_ssl (toy_gcm x61) /\
  length (toy_salt x01) = salt_size (toy_gcm x61) /\ length toy_prefix = 7%nat /\
  (length (blit "hello") <= params_capacity (toy_gcm x61))%nat /\
  stream_ciphertext toy_ssl (toy_gcm x61) (blit "ad") (toy_salt x01) toy_prefix (blit "hello") hello_c /\
  (forall k' sp', In (k', sp') aes_params -> k' <> aes_a -> cannot_open toy_ssl (blit "ad") hello_c sp') /\
  eof_is_clear (pe_what stream_env) never /\ pe_in_buffer stream_env <> [].
Proof.
  destruct (C72_hypotheses_met (toy_gcm x61) (or_introl eq_refl)) as (_ & A & B & C & D & E & _).
  split; [apply aes_toy_world |]. split; [apply aes_configured |]. split; [apply aes_two_keyset; left; reflexivity |].
  split; [right; left; reflexivity |]. split; [reflexivity |]. split; [exact A |]. split; [exact B |]. split; [exact C |]. split; [exact D |].
  split; [exact E |]. split; [exact b_cannot_open |]. split; [split; [reflexivity | intros e []] | discriminate].
Qed.
Example C76_no_key_hypotheses_met : forall k sp, In (k, sp) aes_params -> cannot_open toy_ssl (blit "other") (toy_hello sp) sp.
Proof.
  intros k sp [E | [E | []]]; injection E as <- <-; (split; [apply toy_laws |]).
  - intros key Hk. injection Hk as <-.
    apply no_forgery_short; [vm_compute; lia | intro; apply ctr_nothing; cbn; lia | toy_nothing_opens | toy_nothing_opens].
  - apply (C74_unknown_header_hypotheses_met (toy_gcm x61) (toy_gcm x61) (blit "other")); tauto.
Qed.
Lemma toy_all_laws : forall sp, params_usable sp -> ssl_laws toy_ssl sp.
Proof.
  intros [p | p] H; (split; [exact toy_hkdf_law |]); [exact toy_gcm_law |].
  split; [exact toy_ctr_law |]. destruct H as (_ & _ & H). apply toy_hmac_law. lia.
Qed.
Example C76_new_handle_hypotheses_met :
  aes_world 60 toy_ssl toy_random (toy_salt x01) toy_prefix (aes_toy x01) /\ aes_world 60 toy_ssl toy_random (toy_salt x02) toy_prefix (aes_toy x02) /\
  random_law toy_random /\ (forall sp, params_usable sp -> ssl_laws toy_ssl sp) /\
  (forall sp, In ("AES128_GCM_HKDF_4KB", sp) template_params -> length (toy_salt x01) = salt_size sp) /\
  configured (aes_toy x01) stream_env StreamingAead (aes_registry x01) /\ configured (aes_toy x02) stream_env StreamingAead (aes_registry x02).
Proof.
  split; [apply aes_toy_world |]. split; [apply aes_toy_world |]. split; [exact toy_random_law |]. split; [exact toy_all_laws |].
  split; [| split; apply aes_configured].
  intros sp [E | H]; [injection E as <-; reflexivity |]. exfalso.
  repeat (destruct H as [H | H]; [discriminate H |]). exact H.
Qed.
(** The round trip of the program, with the keyset rotated in between. *)
Definition aes_before : files := [(ulit "keys", file_of (aes_two 42)); (ulit "plain", blit "hello"); (ulit "x", blit "zzz")].
Definition aes_after : files := [(ulit "keys", file_of (aes_two 43)); (ulit "cipher", hello_c); (ulit "x", blit "zzz")].
Example C76_program_hypotheses_met : exists run run',
  aes_finds stream_env stream_os (stream_flags Encrypt "keys" "plain" "cipher") aes_before (aes_two 42) aes_params (blit "ad") (blit "hello") /\
  reads_files stream_env /\
  aes_run x01 Encrypt "keys" "plain" "cipher" aes_before = Some run /\
  content (snd run) (ulit "cipher") = Some hello_c /\
  aes_finds stream_env stream_os (stream_flags Decrypt "keys" "cipher" "x") aes_after (aes_two 43) aes_params (blit "ad") hello_c /\
  aes_run x02 Decrypt "keys" "cipher" "x" aes_after = Some run' /\
  content (snd run') (ulit "x") = Some (blit "hello").
Proof.
  destruct (some_run _ (aes_run x01 Encrypt "keys" "plain" "cipher" aes_before) (wrote "cipher" hello_c) ltac:(vm_compute; reflexivity)) as (run & R1 & C1).
  destruct (some_run _ (aes_run x02 Decrypt "keys" "cipher" "x" aes_after) (wrote "x" (blit "hello")) ltac:(vm_compute; reflexivity)) as (run' & R2 & C2).
  assert (S : forall a b, same_bytes a (Some b) = true -> a = Some b) by (intros [a |] b E; [f_equal; apply bytes_eqb_spec; exact E | discriminate]).
  exists run, run'. split; [apply aes_two_finds; [cbn; tauto | reflexivity | reflexivity] |]. split; [split; [reflexivity | discriminate] |].
  split; [exact R1 |]. split; [apply S; exact C1 |]. split; [apply aes_two_finds; [cbn; tauto | reflexivity | reflexivity] |].
  split; [exact R2 | apply S; exact C2].
Qed.
(** Damaged, cut off, and with a byte more: the exit status is 1. *)
Example C76_program_tampered_runs :
  let files c := [(ulit "keys", file_of (aes_two 43)); (ulit "cipher", c)] in
  is_outcome (aes_run x02 Decrypt "keys" "cipher" "x" (files (toy_damaged (toy_gcm x61)))) "x" 1 [] &&
  is_outcome (aes_run x02 Decrypt "keys" "cipher" "x" (files (firstn 60 hello_c))) "x" 1 [] &&
  is_outcome (aes_run x02 Decrypt "keys" "cipher" "x" (files (hello_c ++ blit "x"))) "x" 1 [] = true.
Proof. vm_compute. reflexivity. Qed.
Example C76_tampered_hypotheses_met :
  sent_streams (salt_size (toy_gcm x61)) toy_sent /\ In (toy_salt x01, toy_prefix, blit "hello") toy_sent /\
  no_forged_segment toy_ssl (toy_gcm x61) (blit "ad") toy_sent (firstn 60 hello_c) /\
  stream_ciphertext toy_ssl (toy_gcm x61) (blit "ad") (toy_salt x01) toy_prefix (blit "hello") (firstn 60 hello_c ++ skipn 60 hello_c) /\
  skipn 60 hello_c <> [] /\
  (forall k' sp', In (k', sp') aes_params -> k' <> aes_a -> cannot_open toy_ssl (blit "ad") (firstn 60 hello_c) sp').
Proof.
  destruct (C74_cut_off_hypotheses_met (toy_gcm x61) 60 (or_introl eq_refl) (or_introl eq_refl)) as (_ & _ & A & B & C & _ & D & E).
  split; [exact A |]. split; [exact C |]. split; [exact B |]. split; [exact D |]. split; [exact E |].
  intros k' sp' [K | [K | []]] Hn; injection K as <- <-; [| congruence]. split; [apply toy_laws |].
  intros key Hk. injection Hk as <-.
  apply no_forgery_short; [vm_compute; lia | intro; apply ctr_nothing; cbn; lia | toy_nothing_opens | toy_nothing_opens].
Qed.
