(** Proofs: the walkthrough examples. *)
From Coq Require Import Strings.Byte Strings.String List NArith ZArith Bool Lia.
From Verif Require Import M_Base M_Utf8 M_Proto M_Wire M_Prims M_PrimitiveSet M_Registry M_KeysetHandle M_KeysetIO
  M_Wrappers M_Kms M_JwtTypes M_Json M_JsonKeyset M_KeysetStream M_CcStream M_CcManagers M_KeyFormats M_Templates M_Cli
  M_Walkthrough
  S_Keyset S_Wrappers S_Wire S_Json S_JsonKeyset S_Handle S_Kms S_Config S_CcLaws S_Cli S_Walkthrough
  L_Base L_Utf8 L_Wire L_Kms L_Json4 L_JsonKeyset L_JsonKeyset2 L_JsonKeyset3 L_Keyset L_PrimitiveSet L_Registry
  L_Wrappers L_Wrappers2 L_Handle L_Config L_Config2 L_Config4 L_Cli3 L_Cli4 L_Cli5.
Import ListNotations.
Open Scope string_scope.
Open Scope list_scope.

(** ** Remote keys *)
Definition remote_key (d : key_data) (id : N) : keyset := mk_keyset id [mk_key (Some d) ENABLED id RAW].
Definition raw_wrapped (id : N) (p : prim) : pset :=
  let e := mk_entry p [] ENABLED RAW id in mk_pset [([], [e])] (Some e) ClsAead.

Lemma remote_handle : forall reg d id, dict_get pclass_eqb ClsAead (r_wrappers reg) = Some aead_wrapper ->
  (forall p, registry_primitive reg d ClsAead = Ok p -> class_of p = ClsAead) ->
  handle_primitive reg (mk_handle (remote_key d id)) ClsAead =
  match registry_primitive reg d ClsAead with
  | Ok p => Ok (PrimAead (mk_aead (wrapped_aead_encrypt (raw_wrapped id p)) (wrapped_aead_decrypt (raw_wrapped id p))))
  | Err e => Err e
  end.
Proof.
  intros reg d id Hw Hc. unfold handle_primitive. cbn [kh_keyset].
  assert (V : validate_keyset (remote_key d id) = Ok tt).
  { assert (H : create (remote_key d id) = Ok (mk_handle (remote_key d id))).
    { apply create_ok. split; [apply (single_valid d id RAW); discriminate | reflexivity]. }
    unfold create in H. destruct (validate_keyset (remote_key d id)) as [[] |]; [reflexivity | discriminate]. }
  rewrite V. cbn [bind]. unfold registry_input_primitive_class, registry_wrap. rewrite Hw.
  change (w_input_primitive_class aead_wrapper) with ClsAead. cbn [bind].
  cbn [remote_key ks_key ks_primary_key_id add_key_primitives]. unfold add_key_primitive.
  change (k_status (mk_key (Some d) ENABLED id RAW) =? ENABLED)%Z with true.
  change (k_key_data (mk_key (Some d) ENABLED id RAW)) with d. cbn iota.
  destruct (registry_primitive reg d ClsAead) as [p | e] eqn:E; cbn [bind]; [| reflexivity].
  unfold add_primitive, isinstance. cbn [ps_primitive_class new_primitive_set]. rewrite (Hc p eq_refl).
  cbn [pclass_eqb negb]. cbn [k_key_id output_prefix]. rewrite N.eqb_refl. reflexivity.
Qed.

Lemma raw_stands_for : forall id remote,
  stands_for (mk_aead (wrapped_aead_encrypt (raw_wrapped id (PrimAead remote)))
    (wrapped_aead_decrypt (raw_wrapped id (PrimAead remote)))) remote.
Proof.
  intros id remote. split.
  - intros rnd pt ad. cbn. destruct (aead_encrypt remote rnd pt ad); reflexivity.
  - intros ct ad. cbn [aead_decrypt]. unfold wrapped_aead_decrypt.
    assert (R : same_outcome (aead_decrypt remote ct ad)
      (try_each (fun e => call_decrypt (e_primitive e) ct ad) (raw_primitives (raw_wrapped id (PrimAead remote)))
        (Err (TinkError "Decryption failed.")))).
    { cbn. destruct (aead_decrypt remote ct ad) as [x | e]; [left; reflexivity |].
      destruct (is_tink_error e) eqn:E; [right | left; reflexivity].
      split; eexists; (split; [reflexivity | auto]). }
    destruct (Nat.ltb NON_RAW_PREFIX_SIZE (length ct)) eqn:El; [| exact R].
    assert (N : primitive_from_identifier (raw_wrapped id (PrimAead remote)) (prefix_part ct) = []).
    { unfold prefix_part. destruct ct as [| c ct]; [discriminate El | reflexivity]. }
    rewrite N. exact R.
Qed.

Lemma no_first : forall clients uri, no_kms clients uri -> raises_tink (kms_client_from_uri clients uri).
Proof.
  intros clients uri H. destruct (kms_client_from_uri clients uri) as [c | e] eqn:E.
  - apply kms_from_uri_first in E. destruct E as (x & y & -> & Hc & _). rewrite (H c) in Hc; [discriminate |].
    apply in_or_app. right. left. reflexivity.
  - apply kms_from_uri_err in E. exists e. split; [reflexivity | apply E].
Qed.

Theorem kms_aead_spec : forall w env reg rnd raw draws uri, configured w env Aead reg -> usable_uri uri ->
  exists res, GetKmsAead reg rnd (raw :: draws) uri = Some res /\
    (forall remote, kms_gives (pe_clients env) uri (Ok remote) ->
       exists a, res = Ok (PrimAead a) /\ stands_for a remote) /\
    (forall e, kms_gives (pe_clients env) uri (Err e) -> res = Err e) /\
    (no_kms (pe_clients env) uri -> raises_tink res).
Proof.
  intros w env reg rnd raw draws uri Hc [Hu Hs].
  assert (Hi : In (type_url "KmsAeadKey") (type_urls Aead)) by (cbn; tauto).
  destruct (configured_manager _ _ _ _ _ Hc Hi) as (km & Hm & Hb).
  assert (K : exists n, km = kms_aead_key_manager n 42 (pe_clients env)).
  { clear - Hb. remember (type_url "KmsAeadKey") as u eqn:Eu. destruct Hb; try discriminate Eu; eauto.
    all: exfalso; match goal with H : In _ _ |- _ => cbn in H;
      repeat (destruct H as [H | H]; [injection H; intros; subst; discriminate Eu |]); exact H end. }
  destruct K as (n & ->). clear Hb.
  assert (Hw : dict_get pclass_eqb ClsAead (r_wrappers reg) = Some aead_wrapper)
    by (apply (configured_wrapper _ _ _ _ _ _ Hc); [cbn; tauto | reflexivity]).
  destruct (kms_aead_template_key uri (pe_clients env) Hu Hs) as (d & Hd & _ & _).
  assert (Ed : d = mk_key_data KMS_AEAD_KEY_TYPE_URL
    (serialize_kak (mk_kms_aead_key 0 (Some (mk_kms_aead_key_format uri)))) REMOTE).
  { unfold kms_aead_new_key_data, create_kms_aead_key_template in Hd. cbn [kt_type_url kt_value] in Hd.
    rewrite str_eqb_refl in Hd. cbn [negb] in Hd. unfold parse_kaf in Hd. rewrite kaf_merge in Hd; [| exact Hu |].
    2: { apply size_part with (n := 2%N) (2 := Hs). unfold fields_of_kak. cbn. left. reflexivity. }
    cbn [from_string bind] in Hd. apply ok_inj in Hd. symmetry. exact Hd. }
  assert (P : registry_primitive reg d ClsAead =
    (client <- kms_client_from_uri (pe_clients env) uri ;; a <- kc_get_aead client uri ;; Ok (PrimAead a))).
  { destruct (registry_primitive_spec reg d ClsAead) as [H _]. subst d. cbn [kd_type_url] in H.
    rewrite (H _ _ Hm eq_refl). cbn [kms_aead_key_manager km_primitive]. unfold kms_aead_primitive.
    cbn [kd_type_url kd_value]. rewrite str_eqb_refl. cbn [negb].
    rewrite kak_round_trip; [| exact Hu | reflexivity | exact Hs]. reflexivity. }
  assert (N : new_keyset_handle reg rnd (raw :: draws) (create_kms_aead_key_template uri) =
    Some (Ok (mk_handle (remote_key d (1 + raw mod 2147483647))))).
  { unfold new_keyset_handle, generate_new.
    destruct (registry_new_key_data_spec reg rnd (create_kms_aead_key_template uri)) as [H _].
    cbn [create_kms_aead_key_template kt_type_url] in H. rewrite (H _ Hm).
    cbn [kms_aead_key_manager km_new_key_data].
    change (mk_key_template KMS_AEAD_KEY_TYPE_URL (serialize_kaf (mk_kms_aead_key_format uri)) RAW)
      with (create_kms_aead_key_template uri). rewrite Hd.
    assert (Hid : generate_unused_key_id (raw :: draws) (mk_keyset 0 []) = Some (1 + raw mod 2147483647)%N)
      by reflexivity.
    rewrite Hid. f_equal. cbn [create_kms_aead_key_template kt_output_prefix_type].
    apply create_ok. split; [apply (single_valid d _ RAW); discriminate | reflexivity]. }
  exists (handle_primitive reg (mk_handle (remote_key d (1 + raw mod 2147483647))) ClsAead).
  split; [unfold GetKmsAead; rewrite N; reflexivity |].
  rewrite remote_handle; [| exact Hw |].
  2: { intros p. rewrite P. intros H. apply bind_ok in H. destruct H as (c & _ & H). apply bind_ok in H.
       destruct H as (a & _ & H). apply ok_inj in H. subst p. reflexivity. }
  rewrite P. split; [| split].
  - intros remote (c & Hf & Hg). apply kms_from_uri_first in Hf. rewrite Hf. cbn [bind]. rewrite Hg. cbn [bind].
    eexists. split; [reflexivity |]. apply raw_stands_for.
  - intros e (c & Hf & Hg). apply kms_from_uri_first in Hf. rewrite Hf. cbn [bind]. rewrite Hg. reflexivity.
  - intros Hn. destruct (no_first _ _ Hn) as (e & -> & He). exists e. auto.
Qed.

(** ** Encrypted keysets *)
Lemma stands_for_ok : forall a remote ct ad pt, stands_for a remote ->
  (aead_decrypt a ct ad = Ok pt <-> aead_decrypt remote ct ad = Ok pt).
Proof.
  intros a remote ct ad pt [_ H]. destruct (H ct ad) as [-> | [(e & -> & _) (e' & -> & _)]]; [tauto |].
  split; discriminate.
Qed.
Lemma stands_for_total : forall a remote ad, stands_for a remote ->
  (forall ct, tink_total (aead_decrypt remote ct ad)) -> forall ct, tink_total (aead_decrypt a ct ad).
Proof.
  intros a remote ad [_ H] T ct. destruct (H ct ad) as [<- | [_ (e' & -> & He)]]; [apply T | exact He].
Qed.

Theorem write_encrypted_keyset_spec : forall w env reg rt rnd rnd' raw draws h St (io : out_stream N St) uri ad st,
  configured w env Aead reg -> usable_uri uri -> python_digit_limit rt ->
  exists run, WriteEncryptedKeyset reg rt rnd rnd' (raw :: draws) h io uri ad st = Some run /\
    (forall remote, kms_gives (pe_clients env) uri (Ok remote) ->
       (exists t ct, encrypts_keyset remote rnd' ad (kh_keyset h) ct /\ encrypted_document rt t ct (kh_keyset h) /\
          run = write_and_flush io t st) \/
       ((forall ct, ~ encrypts_keyset remote rnd' ad (kh_keyset h) ct) /\
        exists e, run = (Err e, st) /\
          (tink_total (aead_encrypt remote rnd' (serialize_keyset (kh_keyset h)) ad) ->
           (forall ct, tink_total (aead_decrypt remote ct ad)) -> is_tink_error e = true))) /\
    (forall e, kms_gives (pe_clients env) uri (Err e) -> run = (Err e, st)) /\
    (no_kms (pe_clients env) uri -> exists e, run = (Err e, st) /\ is_tink_error e = true).
Proof.
  intros w env reg rt rnd rnd' raw draws h St io uri ad st Hc Hu Hl.
  destruct (kms_aead_spec w env reg rnd raw draws uri Hc Hu) as (res & E & H1 & H2 & H3).
  unfold WriteEncryptedKeyset. rewrite E. destruct res as [p | e].
  - eexists. split; [reflexivity |]. split; [| split].
    + intros remote Hg. destruct (H1 remote Hg) as (a & Ea & Ha). apply ok_inj in Ea. subst p.
      destruct (write_encrypted_spec _ h (json_keyset_writer_on rt io) (as_aead (PrimAead a)) rnd' ad st)
        as [(ct & pt & info & G1 & G2 & G3 & G4 & G5) | (Hno & e & He & Ht)]; [left | right].
      * change (aead_encrypt (as_aead (PrimAead a))) with (aead_encrypt a) in G1.
        change (aead_decrypt (as_aead (PrimAead a))) with (aead_decrypt a) in G2.
        pose proof Ha as [Ha1 _]. rewrite Ha1 in G1. apply (stands_for_ok _ _ _ _ _ Ha) in G2.
        assert (Hwk : wf_keyset (kh_keyset h)) by (eapply parse_keyset_wf; exact G3).
        assert (Hw : wf_encrypted_keyset (mk_encrypted_keyset ct (Some info))).
        { intros i Hi. cbn [ek_keyset_info] in Hi. apply some_inj in Hi. subst i. eapply describes_wf; eassumption. }
        destruct (json_writer_writes_encrypted rt _ [] Hl Hw) as (v & t & Et & Hj & Hn & Hs).
        exists t, ct. split; [split; [exact G1 | eauto] |]. split; [exists v, info; auto |].
        rewrite G5. cbn [json_keyset_writer_on kw_write_encrypted].
        cbn [json_keyset_writer kw_write_encrypted] in Et. unfold write_json in Et.
        destruct (dumps_indent rt 0 (encrypted_keyset_json (mk_encrypted_keyset ct (Some info)))) as [t' | e'];
          [| discriminate Et]. injection Et as ->. reflexivity.
      * split.
        -- intros ct [G1 (pt & G2 & G3)]. apply (Hno ct pt); [| | exact G3].
           ++ change (aead_encrypt a rnd' (serialize_keyset (kh_keyset h)) ad = Ok ct). rewrite (proj1 Ha). exact G1.
           ++ change (aead_decrypt a ct ad = Ok pt). apply (stands_for_ok _ _ _ _ _ Ha). exact G2.
        -- exists e. split; [exact He |]. intros T1 T2. apply Ht.
           ++ change (tink_total (aead_encrypt a rnd' (serialize_keyset (kh_keyset h)) ad)). rewrite (proj1 Ha). exact T1.
           ++ exact (stands_for_total _ _ _ Ha T2).
    + intros e Hg. specialize (H2 e Hg). discriminate.
    + intros Hn. destruct (H3 Hn) as (e & He & _). discriminate.
  - eexists. split; [reflexivity |]. split; [| split].
    + intros remote Hg. destruct (H1 remote Hg) as (a & Ea & _). discriminate.
    + intros e' Hg. specialize (H2 e' Hg). congruence.
    + intros Hn. destruct (H3 Hn) as (e' & He & Ht). exists e. split; [reflexivity | congruence].
Qed.

Theorem load_encrypted_keyset_spec : forall w env reg rt pb rnd raw draws text uri ad,
  configured w env Aead reg -> usable_uri uri ->
  exists res, LoadEncryptedKeyset reg rt pb rnd (raw :: draws) text uri ad = Some res /\
    (forall remote, kms_gives (pe_clients env) uri (Ok remote) ->
       (forall h, res = Ok h <->
          exists ek pt, kr_read_encrypted (json_keyset_reader rt pb text) = Ok ek /\
            ek_encrypted_keyset ek <> [] /\ aead_decrypt remote (ek_encrypted_keyset ek) ad = Ok pt /\
            parse_keyset pt = Some (kh_keyset h) /\ valid_keyset (kh_keyset h)) /\
       (tink_total (kr_read_encrypted (json_keyset_reader rt pb text)) ->
        (forall ct, tink_total (aead_decrypt remote ct ad)) -> tink_total res)) /\
    (forall e, kms_gives (pe_clients env) uri (Err e) -> res = Err e) /\
    (no_kms (pe_clients env) uri -> raises_tink res).
Proof.
  intros w env reg rt pb rnd raw draws text uri ad Hc Hu.
  destruct (kms_aead_spec w env reg rnd raw draws uri Hc Hu) as (res & E & H1 & H2 & H3).
  unfold LoadEncryptedKeyset. rewrite E. eexists. split; [reflexivity |]. split; [| split].
  - intros remote Hg. destruct (H1 remote Hg) as (a & -> & Ha). cbn [bind].
    unfold json_proto_parse_encrypted, read_keyset_handle_with_associated_data. split.
    + intros h. rewrite read_with_associated_data_ok. split.
      * intros (ek & pt & ks & G1 & G2 & G3 & G4 & G5 & ->). exists ek, pt. cbn [kh_keyset].
        split; [exact G1 |]. split; [exact G2 |]. split; [apply (stands_for_ok _ _ _ _ _ Ha); exact G3 | auto].
      * intros (ek & pt & G1 & G2 & G3 & G4 & G5). exists ek, pt, (kh_keyset h).
        split; [exact G1 |]. split; [exact G2 |]. split; [apply (stands_for_ok _ _ _ _ _ Ha); exact G3 |].
        split; [exact G4 |]. split; [exact G5 |]. destruct h; reflexivity.
    + intros T1 T2. destruct (read_with_associated_data _ _ ad) as [h | e] eqn:Er; [exact I |].
      apply (read_with_associated_data_err _ _ _ _ Er T1). exact (stands_for_total _ _ _ Ha T2).
  - intros e Hg. rewrite (H2 e Hg). reflexivity.
  - intros Hn. destruct (H3 Hn) as (e & -> & He). exists e. auto.
Qed.

Theorem document_loads : forall w env reg rt pb rnd raw draws t uri ad remote ct pt ks ks',
  configured w env Aead reg -> usable_uri uri -> kms_gives (pe_clients env) uri (Ok remote) ->
  encrypted_document rt t ct ks' -> ct <> [] -> aead_decrypt remote ct ad = Ok pt -> parse_keyset pt = Some ks ->
  valid_keyset ks ->
  LoadEncryptedKeyset reg rt pb rnd (raw :: draws) t uri ad = Some (Ok (mk_handle ks)).
Proof.
  intros w env reg rt pb rnd raw draws t uri ad remote ct pt ks ks' Hc Hu Hg (v & info & Ht & Hn & Hi & Hw & Hs) Hne Hd Hp Hv.
  destruct (load_encrypted_keyset_spec w env reg rt pb rnd raw draws t uri ad Hc Hu) as (res & E & H & _).
  rewrite E. f_equal. apply (proj1 (H remote Hg)). exists (mk_encrypted_keyset ct (Some info)), pt.
  cbn [ek_encrypted_keyset kh_keyset]. split; [| auto].
  eapply json_reader_reads_encrypted; [exact Ht | exact Hn | |].
  - eapply shows_encrypted_keyset_mono; [exact padded_any | exact Hs].
  - intros i E'. cbn [ek_keyset_info] in E'. apply some_inj in E'. subst i. eapply describes_wf; eassumption.
Qed.

Theorem stored_keyset_loads : forall w env reg w' env' reg' rt pb rnd rnd' raw draws rnd2 raw2 draws2 h uri ad remote remote' st st',
  configured w env Aead reg -> configured w' env' Aead reg' -> usable_uri uri -> python_digit_limit rt ->
  kms_gives (pe_clients env) uri (Ok remote) -> kms_gives (pe_clients env') uri (Ok remote') ->
  (forall pt ct, aead_encrypt remote rnd' pt ad = Ok ct -> ct <> [] /\ aead_decrypt remote' ct ad = Ok pt) ->
  valid_keyset (kh_keyset h) -> proto_size (serialize_keyset (kh_keyset h)) ->
  WriteEncryptedKeyset reg rt rnd rnd' (raw :: draws) h memory_stream uri ad st = Some (Ok tt, st') ->
  exists t, st' = st ++ t /\
    LoadEncryptedKeyset reg' rt pb rnd2 (raw2 :: draws2) t uri ad = Some (Ok h).
Proof.
  intros w env reg w' env' reg' rt pb rnd rnd' raw draws rnd2 raw2 draws2 h uri ad remote remote' st st'
    Hc Hc' Hu Hl Hg Hg' Hr Hv Hs H.
  destruct (write_encrypted_keyset_spec w env reg rt rnd rnd' raw draws h _ memory_stream uri ad st Hc Hu Hl)
    as (run & E & H1 & _). rewrite E in H. apply some_inj in H. subst run.
  destruct (H1 remote Hg) as [(t & ct & He & Hd & Er) | (_ & e & Er & _)]; [| discriminate].
  cbn in Er. injection Er as ->. exists t. split; [reflexivity |].
  destruct He as [He _]. destruct (Hr _ _ He) as [Hne Hdec]. destruct h as [ks]. cbn [kh_keyset] in *.
  pose proof Hd as (_ & _ & _ & _ & _ & Hw & _).
  eapply document_loads; eauto. apply keyset_round_trip; assumption.
Qed.

(** ** Cleartext keysets *)
Theorem cleartext_keyset_spec : forall rt pb h, python_digit_limit rt -> valid_keyset (kh_keyset h) ->
  wf_keyset (kh_keyset h) ->
  exists v t, json_text rt v t /\ no_repeated_names v /\ shows_keyset padded_base64 v (kh_keyset h) /\
    LoadKeyset rt pb t = Ok h /\
    forall St (io : out_stream N St) st, WriteKeyset rt h io st = os_write io t st.
Proof.
  intros rt pb [ks] Hl Hv Hw. cbn [kh_keyset] in *.
  destruct (json_writer_writes rt ks [] Hl Hw) as (v & t & E & Ht & Hn & Hs).
  exists v, t. split; [exact Ht |]. split; [exact Hn |]. split; [exact Hs |].
  assert (S : json_proto_serialize rt (mk_handle ks) SecretKeyAccessToken = Ok t).
  { unfold json_proto_serialize. destruct token_accepted as (_ & T2 & _). rewrite T2. cbn [bind kh_keyset].
    rewrite E. reflexivity. }
  split; [| intros; unfold WriteKeyset; rewrite S; reflexivity].
  destruct (json_token_round_trip rt pb (mk_handle ks) Hl Hv Hw) as (x & Ex & Hx). rewrite S in Ex.
  apply ok_inj in Ex. subst x. exact Hx.
Qed.

(** ** Using keysets *)
Theorem aead_functions_spec : forall w env reg h l, configured w env Aead reg ->
  cc_keyset ClsAead (cw_aead w) (kh_keyset h) l ->
  (forall rnd pt ad, aead_outcome (kh_keyset h) l Encrypt rnd pt ad (AeadEncrypt reg h rnd pt ad)) /\
  (forall rnd ct ad, aead_outcome (kh_keyset h) l Decrypt rnd ct ad (AeadDecrypt reg h ct ad)).
Proof.
  intros w env reg [ks] l Hc Hk. cbn [kh_keyset] in *.
  destruct (aead_over_cc_ok _ _ _ _ _ Hc Hk) as (a & Ea & L1 & L2 & L3).
  unfold AeadEncrypt, AeadDecrypt. rewrite Ea. cbn [bind call_encrypt call_decrypt aead_outcome]. split.
  - intros rnd pt ad. split; [intros; apply L2; assumption | intros H; apply L3; exact H].
  - intros _ ct ad. apply L1.
Qed.

Theorem aead_functions_round_trip : forall w env reg h l w' env' reg' h' l' k q k' q' rnd pt ad prefix c,
  configured w env Aead reg -> cc_keyset ClsAead (cw_aead w) (kh_keyset h) l ->
  configured w' env' Aead reg' -> cc_keyset ClsAead (cw_aead w') (kh_keyset h') l' ->
  is_primary (kh_keyset h) l k q -> has_prefix (k_output_prefix_type k) (k_key_id k) prefix ->
  In (k', q') l' -> has_prefix (k_output_prefix_type k') (k_key_id k') prefix ->
  ca_encrypt q rnd pt ad = StOk c -> c <> [] -> ca_decrypt q' c ad = StOk pt ->
  (forall k2 q2 body, In (k2, q2) l' -> k2 <> k' -> reaches k2 (prefix ++ c) body ->
     exists s, ca_decrypt q2 body ad = StErr s) ->
  AeadEncrypt reg h rnd pt ad = Ok (prefix ++ c) /\ AeadDecrypt reg' h' (prefix ++ c) ad = Ok pt.
Proof.
  intros w env reg h l w' env' reg' h' l' k q k' q' rnd pt ad prefix c Hc Hk Hc' Hk' Hp Hpf Hi Hpf' He Hne Hd Ho.
  destruct (aead_functions_spec w env reg h l Hc Hk) as [F _].
  destruct (aead_functions_spec w' env' reg' h' l' Hc' Hk') as [_ G]. split.
  - destruct (F rnd pt ad) as [F1 _]. exact (prefixed_ok _ _ _ _ _ He Hpf (F1 k q Hp)).
  - eapply (cc_single _ _ _ _ _ _ (fun _ q body => ca_decrypt q body ad) k' q' (prefix ++ c) c pt);
      [exact Hk' | exact Hi | apply (produced_reaches _ _ _ Hpf' Hne) | exact Hd | exact Ho |].
    exact (G rnd (prefix ++ c) ad).
Qed.

Theorem create_keyset_spec : forall w env reg m rnd raw draws, configured w env Aead reg ->
  cw_aead w (type_url "AesGcmKey") = Some m ->
  (forall d, cl_new_key_data m rnd aes128_gcm_format = StOk d -> wf_key_data d /\ proto_size (serialize_key_data d)) ->
  exists made, CreateAead128GcmKeyset reg rnd (raw :: draws) = Some made /\
    match cl_new_key_data m rnd aes128_gcm_format with
    | StOk d => made = Ok (mk_handle (one_key d (1 + raw mod 2147483647)))
    | StErr _ => exists e, made = Err e
    end.
Proof.
  intros w env reg m rnd raw draws Hc Hm Hd.
  exact (new_aes128_gcm_spec w env reg m rnd raw draws Hc Hm Hd).
Qed.

(** ** From creation to decryption in three processes *)
Theorem walkthrough_pipeline : forall w1 env1 reg1 m1 w2 env2 reg2 m2 q2 w3 env3 reg3 m3 q3 rt pb uri ad
  rnd raw draws d rnd1 rnd1' raw1 draws1 remote1 st rnd2 raw2 draws2 remote2 rnd3 raw3 draws3 remote3 pt pad rndE c ct,
  configured w1 env1 Aead reg1 -> configured w2 env2 Aead reg2 -> configured w3 env3 Aead reg3 ->
  usable_uri uri -> python_digit_limit rt ->
  cw_aead w1 (type_url "AesGcmKey") = Some m1 -> cl_new_key_data m1 rnd aes128_gcm_format = StOk d ->
  wf_key_data d -> kd_type_url d = type_url "AesGcmKey" ->
  let ks := one_key d (1 + raw mod 2147483647) in proto_size (serialize_keyset ks) -> proto_size (serialize_key_data d) ->
  kms_gives (pe_clients env1) uri (Ok remote1) -> kms_gives (pe_clients env2) uri (Ok remote2) ->
  kms_gives (pe_clients env3) uri (Ok remote3) ->
  aead_encrypt remote1 rnd1' (serialize_keyset ks) ad = Ok ct -> ct <> [] ->
  aead_decrypt remote1 ct ad = Ok (serialize_keyset ks) -> aead_decrypt remote2 ct ad = Ok (serialize_keyset ks) ->
  aead_decrypt remote3 ct ad = Ok (serialize_keyset ks) ->
  cw_aead w2 (type_url "AesGcmKey") = Some m2 -> cl_get_primitive m2 d = StOk q2 ->
  cw_aead w3 (type_url "AesGcmKey") = Some m3 -> cl_get_primitive m3 d = StOk q3 ->
  ca_encrypt q2 rndE pt pad = StOk c -> c <> [] -> ca_decrypt q3 c pad = StOk pt ->
  exists h t ct', CreateAead128GcmKeyset reg1 rnd (raw :: draws) = Some (Ok h) /\
    WriteEncryptedKeyset reg1 rt rnd1 rnd1' (raw1 :: draws1) h memory_stream uri ad st = Some (Ok tt, st ++ t) /\
    LoadEncryptedKeyset reg2 rt pb rnd2 (raw2 :: draws2) t uri ad = Some (Ok h) /\
    AeadEncrypt reg2 h rndE pt pad = Ok ct' /\
    LoadEncryptedKeyset reg3 rt pb rnd3 (raw3 :: draws3) t uri ad = Some (Ok h) /\
    AeadDecrypt reg3 h ct' pad = Ok pt.
Proof.
  intros w1 env1 reg1 m1 w2 env2 reg2 m2 q2 w3 env3 reg3 m3 q3 rt pb uri ad
    rnd raw draws d rnd1 rnd1' raw1 draws1 remote1 st rnd2 raw2 draws2 remote2 rnd3 raw3 draws3 remote3 pt pad rndE c ct
    C1 C2 C3 Hu Hl Hm1 Hd Hwd Htu ks Hs Hsd K1 K2 K3 He Hne D1 D2 D3 Hm2 Hq2 Hm3 Hq3 Hc Hcn Hdc.
  assert (Hw : wf_keyset ks) by (apply one_key_wf; [exact Hwd | apply drawn_id_range]).
  assert (Hv : valid_keyset ks) by apply one_key_valid.
  assert (Hpk : parse_keyset (serialize_keyset ks) = Some ks) by (apply keyset_round_trip; assumption).
  destruct (create_keyset_spec w1 env1 reg1 m1 rnd raw draws C1 Hm1) as (made & E1 & H1).
  { intros d' E. rewrite Hd in E. injection E as <-. auto. }
  rewrite Hd in H1. fold ks in H1. subst made.
  destruct (write_encrypted_keyset_spec w1 env1 reg1 rt rnd1 rnd1' raw1 draws1 (mk_handle ks) _ memory_stream uri ad st C1 Hu Hl)
    as (run & E2 & H2 & _).
  destruct (H2 remote1 K1) as [(t & ct' & [He' _] & Hdoc & Er) | (Hno & _)].
  2: { exfalso. apply (Hno ct). split; [exact He |]. eauto. }
  cbn [kh_keyset] in *. assert (ct' = ct) by congruence. subst ct'. cbn in Er. subst run.
  assert (P2 : cc_keyset ClsAead (cw_aead w2) ks [(mk_key (Some d) ENABLED (1 + raw mod 2147483647) TINK, q2)])
    by (eapply one_key_cc; eauto; apply drawn_id_range).
  assert (P3 : cc_keyset ClsAead (cw_aead w3) ks [(mk_key (Some d) ENABLED (1 + raw mod 2147483647) TINK, q3)])
    by (eapply one_key_cc; eauto; apply drawn_id_range).
  destruct (proj2 (has_prefix_exists TINK (1 + raw mod 2147483647))) as (prefix & Hpf);
    [right; split; [auto |]; apply drawn_id_range |].
  destruct (aead_functions_round_trip w2 env2 reg2 (mk_handle ks) _ w3 env3 reg3 (mk_handle ks) _
    _ q2 _ q3 rndE pt pad prefix c C2 P2 C3 P3 (one_key_primary _ _ _) Hpf (or_introl eq_refl) Hpf Hc Hcn Hdc) as [R1 R2].
  { intros k2 q' body [Ei | []] Hk2. injection Ei as <- <-. exfalso. apply Hk2. reflexivity. }
  exists (mk_handle ks), t, (prefix ++ c). split; [exact E1 |]. split; [exact E2 |].
  split; [eapply document_loads; eauto |]. split; [exact R1 |]. split; [eapply document_loads; eauto | exact R2].
Qed.
