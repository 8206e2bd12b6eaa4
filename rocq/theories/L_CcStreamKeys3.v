(** AES streaming as the user sees it: streams of a keyset handle, and the example. *)
From Coq Require Import Strings.Byte Strings.String List NArith ZArith Bool Lia.
From Verif Require Import M_Base L_Base M_Proto M_Wire M_ProtoMsg M_KeyFormats M_Prims M_StreamTypes
  M_PrimitiveSet M_Registry M_KeysetHandle M_JsonKeyset M_Templates M_Stream M_CcStream M_Buffered M_CcManagers M_Cli M_CliStream M_CcAes M_CcStreamKeys
  S_Keyset S_Registry S_Stream S_CcStream S_Buffered S_Config S_CcLaws S_Cli S_CliStream S_CcAes S_CcStreamKeys
  L_Keyset L_Wrappers2 L_CcStream5 L_Buffered4 L_Buffered5 L_CliStream2 L_CcAes4 L_CcStreamKeys L_CcStreamKeys2.
Import ListNotations.
Open Scope string_scope.
Open Scope list_scope.
Open Scope Z_scope.

Section World.
  Variables (n : nat) (lib : ssl) (random : coins -> Z -> bytes) (salt prefix : bytes) (w : cc_world) (env : py_env).
  Hypothesis HW : aes_world n lib random salt prefix w.

  Lemma made_in : forall l l' k sp, Forall2 (made n lib salt prefix) l l' -> In (k, sp) l ->
    exists q, In (k, q) l' /\ aes_streaming n lib sp salt prefix = StOk q.
  Proof using.
    intros l l' k sp F. induction F as [| x (k2 & q) l l' (E1 & E2) F IH]; intros Hi; [contradiction |].
    destruct Hi as [-> | Hi]; [exists q; cbn in E1, E2; subst k2; split; [left; reflexivity | exact E2] |].
    destruct (IH Hi) as (q' & I & J). exists q'. split; [right; exact I | exact J].
  Qed.
  Lemma made_in_r : forall l l' k q, Forall2 (made n lib salt prefix) l l' -> In (k, q) l' ->
    exists sp, In (k, sp) l /\ aes_streaming n lib sp salt prefix = StOk q.
  Proof using.
    intros l l' k q F. induction F as [| (k2 & sp) x l l' (E1 & E2) F IH]; intros Hi; [contradiction |].
    destruct Hi as [-> | Hi]; [exists sp; cbn in E1, E2; subst k2; split; [left; reflexivity | exact E2] |].
    destruct (IH Hi) as (sp' & I & J). exists sp'. split; [right; exact I | exact J].
  Qed.
  Lemma aes_usable : forall ks l k sp, aes_keyset ks l -> In (k, sp) l -> params_usable sp.
  Proof using. intros ks l k sp (_ & _ & F) Hi. rewrite Forall_forall in F. apply (F _ Hi). Qed.
  Lemma refuses_unopened : forall F sp ad C q, params_usable sp -> cannot_open lib ad C sp -> aes_streaming n lib sp salt prefix = StOk q ->
    cc_refuses F q ad C.
  Proof using.
    intros F sp ad C q U (L & N) E.
    destruct (aes_streaming_unknown_header F n lib sp ad [] salt prefix C U L) as (cc & E' & R).
    - split; constructor.
    - exact N.
    - intros s p Q [].
    - rewrite E in E'. injection E' as <-. exact R.
  Qed.

  Lemma sec_aes_handle : forall r ks l, configured w env StreamingAead r -> aes_keyset ks l ->
    exists Q, handle_primitive r (mk_handle ks) ClsStreamingAead = Ok Q.
  Proof using HW.
    intros r ks l HC HK. destruct (aes_cc_keyset _ _ _ _ _ _ _ _ HW HK) as (l' & K & _).
    destruct (streaming_keys _ _ _ _ _ HC K) as (Q & E & _). exists Q. exact E.
  Qed.

  Section Handle.
    Variables (r : registry) (ks : keyset) (l : list (key * stream_params)) (Q : prim) (ad : bytes).
    Hypothesis HC : configured w env StreamingAead r.
    Hypothesis HK : aes_keyset ks l.
    Hypothesis HQ : handle_primitive r (mk_handle ks) ClsStreamingAead = Ok Q.

    Lemma handle_keys : exists l', Forall2 (made n lib salt prefix) l l' /\ map fst l = enabled_keys ks /\
      dict_get pclass_eqb ClsStreamingAead (r_wrappers r) = Some streaming_aead_wrapper /\
      (forall k q, In (k, q) l' -> In k (enabled_keys ks) /\ key_provides r ClsRawStreamingAead k
         (PrimRawStreamingAead (streaming_aead_cc_to_py (pe_what env) (pe_in_buffer env) (pe_out_buffer env) (pe_patience env) q))).
    Proof using HW HC HK.
      destruct (aes_cc_keyset _ _ _ _ _ _ _ _ HW HK) as (l' & K & F). destruct (streaming_keys _ _ _ _ _ HC K) as (Q' & _ & Hw & He & Hp).
      exists l'. split; [exact F |]. split; [apply HK |]. split; [exact Hw |]. intros k q Hi. split; [apply He; exists q; exact Hi | apply Hp, Hi].
    Qed.

    Lemma sec_aes_stream_writes : forall k sp X, In (k, sp) l -> k_key_id k = ks_primary_key_id ks ->
      ssl_laws lib sp -> length salt = salt_size sp -> length prefix = 7%nat ->
      forall e W0 size m calls v W x v' C, 0 < size ->
      S_CcStream.writes X [] (new_encrypting_stream Q ad) (Ok e) W0 ->
      writer_history X size m e (bw_new e) W0 calls v W -> S_CcStream.writes X W (bw_close m e v) (x, v') C ->
      match x with
      | Ok _ => Forall succeeded calls /\ stream_ciphertext lib sp ad salt prefix (written calls) C /\
                (length (written calls) <= params_capacity sp)%nat
      | Err y => can_fail X (params_capacity sp) (written calls) /\ is_tink_error y = true
      end.
    Proof using HW HC HK HQ.
      intros k sp X Hi Hid L Ls Lp e W0 size m calls v W x v' C Hs H1 H2 H3. destruct handle_keys as (l' & F & _ & Hw & Hp).
      destruct (made_in _ _ _ _ F Hi) as (q & Hq & Eq). destruct (Hp _ _ Hq) as (Hen & Hpr).
      destruct (aes_streaming_encrypts (can_raise X) n lib sp ad salt prefix (aes_usable _ _ _ _ HK Hi) L Ls Lp) as (cc & Ecc & Henc).
      rewrite Eq in Ecc. injection Ecc as <-.
      pose proof (encrypting_stream_close r (mk_handle ks) Q k _ _ _ _ q _ _ ad X Hw HQ Hen Hid Hpr Henc e W0 size m calls v W x v' C Hs H1 H2 H3) as K.
      destruct x as [u | y]; exact K.
    Qed.

    Lemma others_turn_down : forall Y C l' (keep : key -> Prop), eof_is_clear (pe_what env) Y -> pe_in_buffer env <> [] ->
      Forall2 (made n lib salt prefix) l l' -> map fst l = enabled_keys ks ->
      (forall k q, In (k, q) l' -> In k (enabled_keys ks) /\ key_provides r ClsRawStreamingAead k
         (PrimRawStreamingAead (streaming_aead_cc_to_py (pe_what env) (pe_in_buffer env) (pe_out_buffer env) (pe_patience env) q))) ->
      (forall k sp, In (k, sp) l -> keep k -> cannot_open lib ad C sp) ->
      forall k p, In k (enabled_keys ks) -> keep k -> key_provides r ClsRawStreamingAead k (PrimRawStreamingAead p) -> turns_down Y p ad C.
    Proof using HK.
      intros Y C l' keep He Hb F E Hp Ho k p Hk Hkeep Hprov. rewrite <- E in Hk. apply in_map_iff in Hk. destruct Hk as ((k2 & sp) & Ek & Hi). cbn in Ek. subst k2.
      destruct (made_in _ _ _ _ F Hi) as (q & Hq & Eq). destruct (Hp _ _ Hq) as (_ & Hpr).
      rewrite (PrimRawStreamingAead_inj _ _ (key_provides_fun _ _ _ _ _ Hprov Hpr)). apply raw_turns_down; [exact He | exact Hb |].
      eapply refuses_unopened; [exact (aes_usable _ _ _ _ HK Hi) | exact (Ho _ _ Hi Hkeep) | exact Eq].
    Qed.

    Lemma sec_aes_stream_reads : forall k sp salt0 prefix0 P C Y, In (k, sp) l ->
      ssl_laws lib sp -> length salt0 = salt_size sp -> length prefix0 = 7%nat -> (length P <= params_capacity sp)%nat ->
      stream_ciphertext lib sp ad salt0 prefix0 P C ->
      (forall k' sp', In (k', sp') l -> k' <> k -> cannot_open lib ad C sp') ->
      eof_is_clear (pe_what env) Y -> pe_in_buffer env <> [] ->
      forall S (src : py_source S) fuel s b calls b', plays Y src C s 0 ->
      open_decrypting_stream src fuel Q s ad = Some (Ok b) ->
      reader_history (decrypting_call src fuel) b calls b' ->
      reads_as (raises Y) True P calls.
    Proof using HW HC HK HQ.
      intros k sp salt0 prefix0 P C Y Hi L Ls Lp LP HCt Ho He Hb S src fuel s b calls b' Hpl H1 H2.
      destruct handle_keys as (l' & F & E & Hw & Hp). destruct (made_in _ _ _ _ F Hi) as (q & Hq & Eq). destruct (Hp _ _ Hq) as (Hen & Hpr).
      destruct (aes_streaming_decrypts (raises Y) n lib sp ad salt0 prefix0 salt prefix P C (aes_usable _ _ _ _ HK Hi) L Ls Lp HCt LP) as (cc & Ecc & Hdec).
      rewrite Eq in Ecc. injection Ecc as <-.
      eapply (decrypting_stream_handle r (mk_handle ks) Q k _ _ _ _ q ad Y (raises Y) True C P Hw HQ Hen Hpr); eauto.
      - apply cc_decrypts_gives. exact Hdec.
      - intros k' p' K1 K2 K3. eapply (others_turn_down Y C l' (fun k' => k' <> k)); eauto.
    Qed.
    Lemma sec_aes_stream_tampered : forall k sp sent C Y, In (k, sp) l ->
      ssl_laws lib sp -> sent_streams (salt_size sp) sent -> no_forged_segment lib sp ad sent C ->
      (forall k' sp', In (k', sp') l -> k' <> k -> cannot_open lib ad C sp') ->
      eof_is_clear (pe_what env) Y -> pe_in_buffer env <> [] ->
      exists P whole,
        (P = [] /\ whole = false \/
         exists salt0 prefix0 R, In (salt0, prefix0, R) sent /\ has_header sp salt0 prefix0 C /\ (exists rest, R = P ++ rest) /\
           (whole = true -> P = R /\ exists D junk, stream_ciphertext lib sp ad salt0 prefix0 P D /\ C = D ++ junk /\
              (junk = [] \/ exists i, length D = i * segment_size sp)%nat)) /\
        forall S (src : py_source S) fuel s b calls b', plays Y src C s 0 ->
        open_decrypting_stream src fuel Q s ad = Some (Ok b) ->
        reader_history (decrypting_call src fuel) b calls b' ->
        reads_as (raises Y \/ whole = false) (whole = true) P calls.
    Proof using HW HC HK HQ.
      intros k sp sent C Y Hi L Hsent Hno Ho He Hb.
      destruct handle_keys as (l' & F & E & Hw & Hp). destruct (made_in _ _ _ _ F Hi) as (q & Hq & Eq). destruct (Hp _ _ Hq) as (Hen & Hpr).
      destruct (aes_streaming_tampered (raises Y) n lib sp ad sent salt prefix C (aes_usable _ _ _ _ HK Hi) L Hsent Hno) as (cc & P & whole & Ecc & Hg & HP).
      rewrite Eq in Ecc. injection Ecc as <-. exists P, whole. split.
      - assert (HO : stream_offset sp = 0%nat).
        { destruct HK as (_ & _ & FK). rewrite Forall_forall in FK. destruct (FK _ Hi) as (_ & _ & (_ & m & _ & _ & _ & (_ & _ & O & _)) & _). exact O. }
        destruct HP as [HP | (s0 & p0 & R & A & B & D & G)]; [left; exact HP | right].
        exists s0, p0, R. split; [exact A |]. split; [exact B |]. split; [exact D |]. rewrite HO in G. exact G.
      - intros S src fuel s b calls b' Hpl H1 H2.
        eapply (decrypting_stream_handle r (mk_handle ks) Q k _ _ _ _ q ad Y _ _ C P Hw HQ Hen Hpr); eauto.
        intros k' p' K1 K2 K3. eapply (others_turn_down Y C l' (fun k' => k' <> k)); eauto.
    Qed.
    Lemma sec_aes_stream_no_key : forall C Y, (forall k sp, In (k, sp) l -> cannot_open lib ad C sp) ->
      eof_is_clear (pe_what env) Y -> pe_in_buffer env <> [] ->
      forall S (src : py_source S) fuel s b calls b', plays Y src C s 0 ->
      open_decrypting_stream src fuel Q s ad = Some (Ok b) ->
      reader_history (decrypting_call src fuel) b calls b' ->
      reads_as True False [] calls.
    Proof using HW HC HK HQ.
      intros C Y Ho He Hb S src fuel s b calls b' Hpl H1 H2. destruct handle_keys as (l' & F & E & Hw & Hp).
      eapply (decrypting_stream_no_key r (mk_handle ks) Q ad Y C Hw HQ); eauto.
      intros k' p' K1 K3. eapply (others_turn_down Y C l' (fun _ => True)); eauto.
    Qed.
  End Handle.

  Section Program.
    Variables (pb : pb_rt) (o : os).
    Lemma aes_finds_finds : forall f fs ks l ad data, aes_finds env o f fs ks l ad data ->
      exists l', finds w env o f fs ks l' ad data /\ Forall2 (made n lib salt prefix) l l'.
    Proof using HW.
      intros f fs ks l ad data (A & B & C & D & E). destruct (aes_cc_keyset _ _ _ _ _ _ _ _ HW B) as (l' & K & F). exists l'.
      split; [| exact F]. split; [exact (aes_world_ready _ _ _ _ _ _ HW) |]. tauto.
    Qed.
    Lemma sec_aes_program_encrypts : forall m f fs ks l ad data k sp run,
      aes_finds env o f fs ks l ad data -> cf_input_path f <> cf_output_path f -> cf_mode f = Encrypt ->
      In (k, sp) l -> k_key_id k = ks_primary_key_id ks -> ssl_laws lib sp -> length salt = salt_size sp -> length prefix = 7%nat ->
      (length data <= params_capacity sp)%nat ->
      streaming_aead_cli w env pb o m f fs = Some run ->
      exists C, stream_ciphertext lib sp ad salt prefix data C /\ S_Cli.writes run (cf_output_path f) C fs.
    Proof using HW.
      intros m f fs ks l ad data k sp run Hf Hne Hm Hi Hid L Ls Lp LP H. destruct (aes_finds_finds _ _ _ _ _ _ Hf) as (l' & Hf' & F).
      destruct (made_in _ _ _ _ F Hi) as (q & Hq & Eq). pose proof (proj1 (proj2 Hf)) as HK.
      destruct (aes_streaming_encrypts (can_raise never) n lib sp ad salt prefix (aes_usable _ _ _ _ HK Hi) L Ls Lp) as (cc & Ecc & Henc).
      rewrite Eq in Ecc. injection Ecc as <-.
      destruct (streaming_encrypt_run _ _ pb _ m _ _ _ _ _ _ k q _ _ run Hf' Hne Hm (conj Hq Hid) Henc LP H) as (C & (HC & _) & K). exists C. auto.
    Qed.
    Lemma program_refuses : forall ad C l l' (keep : key -> Prop) ks, aes_keyset ks l -> Forall2 (made n lib salt prefix) l l' ->
      (forall k sp, In (k, sp) l -> keep k -> cannot_open lib ad C sp) ->
      forall k q, In (k, q) l' -> keep k -> cc_refuses (raises never) q ad C.
    Proof using.
      intros ad C l l' keep ks HK F Ho k q Hq Hk. destruct (made_in_r _ _ _ _ F Hq) as (sp & Hi & Eq).
      eapply refuses_unopened; [exact (aes_usable _ _ _ _ HK Hi) | exact (Ho _ _ Hi Hk) | exact Eq].
    Qed.
    Lemma sec_aes_program_decrypts : forall m f fs ks l ad C k sp salt0 prefix0 P run,
      aes_finds env o f fs ks l ad C -> reads_files env -> cf_input_path f <> cf_output_path f -> cf_mode f = Decrypt ->
      In (k, sp) l -> ssl_laws lib sp -> length salt0 = salt_size sp -> length prefix0 = 7%nat -> (length P <= params_capacity sp)%nat ->
      stream_ciphertext lib sp ad salt0 prefix0 P C ->
      (forall k' sp', In (k', sp') l -> k' <> k -> cannot_open lib ad C sp') ->
      streaming_aead_cli w env pb o m f fs = Some run -> S_Cli.writes run (cf_output_path f) P fs.
    Proof using HW.
      intros m f fs ks l ad C k sp salt0 prefix0 P run Hf Hr Hne Hm Hi L Ls Lp LP HCt Ho H. destruct (aes_finds_finds _ _ _ _ _ _ Hf) as (l' & Hf' & F).
      destruct (made_in _ _ _ _ F Hi) as (q & Hq & Eq). pose proof (proj1 (proj2 Hf)) as HK.
      destruct (aes_streaming_decrypts (raises never) n lib sp ad salt0 prefix0 salt prefix P C (aes_usable _ _ _ _ HK Hi) L Ls Lp HCt LP) as (cc & Ecc & Hdec).
      rewrite Eq in Ecc. injection Ecc as <-.
      exact (streaming_decrypt_run _ _ pb _ m _ _ _ _ _ _ k q P run Hf' Hr Hne Hm Hq Hdec (program_refuses ad C l l' (fun k' => k' <> k) ks HK F Ho) H).
    Qed.
    Lemma sec_aes_program_tampered : forall m f fs ks l ad C k sp sent run,
      aes_finds env o f fs ks l ad C -> reads_files env -> cf_input_path f <> cf_output_path f -> cf_mode f = Decrypt ->
      In (k, sp) l -> ssl_laws lib sp -> sent_streams (salt_size sp) sent -> no_forged_segment lib sp ad sent C ->
      (forall k' sp', In (k', sp') l -> k' <> k -> cannot_open lib ad C sp') ->
      streaming_aead_cli w env pb o m f fs = Some run ->
      (exists salt0 prefix0 R D junk, In (salt0, prefix0, R) sent /\ stream_ciphertext lib sp ad salt0 prefix0 R D /\ C = D ++ junk /\
         (junk = [] \/ exists i, length D = i * segment_size sp)%nat /\ S_Cli.writes run (cf_output_path f) R fs) \/
      (exists W, ends run 1 (cf_output_path f) W fs /\ (W = [] \/ exists salt0 prefix0 R, In (salt0, prefix0, R) sent /\ has_header sp salt0 prefix0 C /\ front W R)).
    Proof using HW.
      intros m f fs ks l ad C k sp sent run Hf Hr Hne Hm Hi L Hsent Hno Ho H. destruct (aes_finds_finds _ _ _ _ _ _ Hf) as (l' & Hf' & F).
      destruct (made_in _ _ _ _ F Hi) as (q & Hq & Eq). pose proof (proj1 (proj2 Hf)) as HK.
      destruct (aes_streaming_tampered (raises never) n lib sp ad sent salt prefix C (aes_usable _ _ _ _ HK Hi) L Hsent Hno) as (cc & P & whole & Ecc & Hg & HP).
      rewrite Eq in Ecc. injection Ecc as <-.
      destruct (proj1 (decrypt_run _ _ pb _ m _ _ _ _ _ _ _ _ Hf' (or_introl (conj Hne eq_refl)) Hr Hm H) k q _ _ P Hq Hg
        (program_refuses ad C l l' (fun k' => k' <> k) ks HK F Ho)) as (W & FW & K).
      assert (HO : stream_offset sp = 0%nat).
      { destruct HK as (_ & _ & FK). rewrite Forall_forall in FK. destruct (FK _ Hi) as (_ & _ & (_ & m' & _ & _ & _ & (_ & _ & O & _)) & _). exact O. }
      destruct K as [(-> & Hwh & K) | (_ & K)].
      - left. destruct HP as [(_ & HP) | (s0 & p0 & R & A & B & D & G)]; [congruence |]. destruct (G Hwh) as (-> & D' & junk & G1 & G2 & G3).
        exists s0, p0, R, D', junk. rewrite HO in G3. auto.
      - right. exists W. split; [exact K |]. destruct HP as [(-> & _) | (s0 & p0 & R & A & B & (rest & D) & _)].
        + left. destruct FW as (rest & FW). symmetry in FW. apply app_eq_nil in FW. tauto.
        + right. exists s0, p0, R. split; [exact A |]. split; [exact B |]. destruct FW as (rest' & ->). exists (rest' ++ rest). rewrite D, app_assoc. reflexivity.
    Qed.
    Lemma sec_aes_program_no_key : forall m f fs ks l ad C run,
      aes_finds env o f fs ks l ad C -> reads_files env -> cf_input_path f <> cf_output_path f -> cf_mode f = Decrypt ->
      l <> [] -> (forall k sp, In (k, sp) l -> cannot_open lib ad C sp) ->
      streaming_aead_cli w env pb o m f fs = Some run -> empties run (cf_output_path f) fs.
    Proof using HW.
      intros m f fs ks l ad C run Hf Hr Hne Hm Hl Ho H. destruct (aes_finds_finds _ _ _ _ _ _ Hf) as (l' & Hf' & F). pose proof (proj1 (proj2 Hf)) as HK.
      apply (streaming_decrypt_no_key _ _ pb _ m _ _ _ _ _ _ run Hf' Hr Hne Hm); [| | exact H].
      - intros ->. inversion F; subst. congruence.
      - intros k q Hq. exact (program_refuses ad C l l' (fun _ => True) ks HK F (fun k sp Hi _ => Ho k sp Hi) k q Hq I).
    Qed.
  End Program.
End World.

(** The same, with the hypotheses spelled out. *)
Theorem aes_handle : forall n lib random salt prefix w env, aes_world n lib random salt prefix w ->
  forall r ks l, configured w env StreamingAead r -> aes_keyset ks l ->
  exists Q, handle_primitive r (mk_handle ks) ClsStreamingAead = Ok Q.
Proof. intros until 1. intros. eapply sec_aes_handle; eassumption. Qed.
Theorem aes_stream_writes : forall n lib random salt prefix w env, aes_world n lib random salt prefix w ->
  forall r ks l Q ad, configured w env StreamingAead r -> aes_keyset ks l ->
  handle_primitive r (mk_handle ks) ClsStreamingAead = Ok Q ->
  forall k sp X, In (k, sp) l -> k_key_id k = ks_primary_key_id ks ->
  ssl_laws lib sp -> length salt = salt_size sp -> length prefix = 7%nat ->
  forall e W0 size m calls v W x v' C, 0 < size ->
  S_CcStream.writes X [] (new_encrypting_stream Q ad) (Ok e) W0 ->
  writer_history X size m e (bw_new e) W0 calls v W -> S_CcStream.writes X W (bw_close m e v) (x, v') C ->
  match x with
  | Ok _ => Forall succeeded calls /\ stream_ciphertext lib sp ad salt prefix (written calls) C /\
            (length (written calls) <= params_capacity sp)%nat
  | Err y => can_fail X (params_capacity sp) (written calls) /\ is_tink_error y = true
  end.
Proof. intros until 1. intros. eapply sec_aes_stream_writes; eassumption. Qed.
Theorem aes_stream_reads : forall n lib random salt prefix w env, aes_world n lib random salt prefix w ->
  forall r ks l Q ad, configured w env StreamingAead r -> aes_keyset ks l ->
  handle_primitive r (mk_handle ks) ClsStreamingAead = Ok Q ->
  forall k sp salt0 prefix0 P C Y, In (k, sp) l ->
  ssl_laws lib sp -> length salt0 = salt_size sp -> length prefix0 = 7%nat -> (length P <= params_capacity sp)%nat ->
  stream_ciphertext lib sp ad salt0 prefix0 P C ->
  (forall k' sp', In (k', sp') l -> k' <> k -> cannot_open lib ad C sp') ->
  eof_is_clear (pe_what env) Y -> pe_in_buffer env <> [] ->
  forall S (src : py_source S) fuel s b calls b', plays Y src C s 0 ->
  open_decrypting_stream src fuel Q s ad = Some (Ok b) ->
  reader_history (decrypting_call src fuel) b calls b' ->
  reads_as (raises Y) True P calls.
Proof. intros until 1. intros. eapply sec_aes_stream_reads; eassumption. Qed.
Theorem aes_stream_tampered : forall n lib random salt prefix w env, aes_world n lib random salt prefix w ->
  forall r ks l Q ad, configured w env StreamingAead r -> aes_keyset ks l ->
  handle_primitive r (mk_handle ks) ClsStreamingAead = Ok Q ->
  forall k sp sent C Y, In (k, sp) l ->
  ssl_laws lib sp -> sent_streams (salt_size sp) sent -> no_forged_segment lib sp ad sent C ->
  (forall k' sp', In (k', sp') l -> k' <> k -> cannot_open lib ad C sp') ->
  eof_is_clear (pe_what env) Y -> pe_in_buffer env <> [] ->
  exists P whole,
    (P = [] /\ whole = false \/
     exists salt0 prefix0 R, In (salt0, prefix0, R) sent /\ has_header sp salt0 prefix0 C /\ (exists rest, R = P ++ rest) /\
       (whole = true -> P = R /\ exists D junk, stream_ciphertext lib sp ad salt0 prefix0 P D /\ C = D ++ junk /\
          (junk = [] \/ exists i, length D = i * segment_size sp)%nat)) /\
    forall S (src : py_source S) fuel s b calls b', plays Y src C s 0 ->
    open_decrypting_stream src fuel Q s ad = Some (Ok b) ->
    reader_history (decrypting_call src fuel) b calls b' ->
    reads_as (raises Y \/ whole = false) (whole = true) P calls.
Proof. intros until 1. intros. eapply sec_aes_stream_tampered; eassumption. Qed.
Theorem aes_stream_no_key : forall n lib random salt prefix w env, aes_world n lib random salt prefix w ->
  forall r ks l Q ad, configured w env StreamingAead r -> aes_keyset ks l ->
  handle_primitive r (mk_handle ks) ClsStreamingAead = Ok Q ->
  forall C Y, (forall k sp, In (k, sp) l -> cannot_open lib ad C sp) ->
  eof_is_clear (pe_what env) Y -> pe_in_buffer env <> [] ->
  forall S (src : py_source S) fuel s b calls b', plays Y src C s 0 ->
  open_decrypting_stream src fuel Q s ad = Some (Ok b) ->
  reader_history (decrypting_call src fuel) b calls b' ->
  reads_as True False [] calls.
Proof. intros until 1. intros. eapply sec_aes_stream_no_key; eassumption. Qed.
Theorem aes_program_encrypts : forall n lib random salt prefix w env, aes_world n lib random salt prefix w ->
  forall pb o,
  forall m f fs ks l ad data k sp run,
  aes_finds env o f fs ks l ad data -> cf_input_path f <> cf_output_path f -> cf_mode f = Encrypt ->
  In (k, sp) l -> k_key_id k = ks_primary_key_id ks -> ssl_laws lib sp -> length salt = salt_size sp -> length prefix = 7%nat ->
  (length data <= params_capacity sp)%nat ->
  streaming_aead_cli w env pb o m f fs = Some run ->
  exists C, stream_ciphertext lib sp ad salt prefix data C /\ S_Cli.writes run (cf_output_path f) C fs.
Proof. intros until 1. intros. eapply sec_aes_program_encrypts; eassumption. Qed.
Theorem aes_program_decrypts : forall n lib random salt prefix w env, aes_world n lib random salt prefix w ->
  forall pb o,
  forall m f fs ks l ad C k sp salt0 prefix0 P run,
  aes_finds env o f fs ks l ad C -> reads_files env -> cf_input_path f <> cf_output_path f -> cf_mode f = Decrypt ->
  In (k, sp) l -> ssl_laws lib sp -> length salt0 = salt_size sp -> length prefix0 = 7%nat -> (length P <= params_capacity sp)%nat ->
  stream_ciphertext lib sp ad salt0 prefix0 P C ->
  (forall k' sp', In (k', sp') l -> k' <> k -> cannot_open lib ad C sp') ->
  streaming_aead_cli w env pb o m f fs = Some run -> S_Cli.writes run (cf_output_path f) P fs.
Proof. intros until 1. intros. eapply sec_aes_program_decrypts; eassumption. Qed.
Theorem aes_program_tampered : forall n lib random salt prefix w env, aes_world n lib random salt prefix w ->
  forall pb o,
  forall m f fs ks l ad C k sp sent run,
  aes_finds env o f fs ks l ad C -> reads_files env -> cf_input_path f <> cf_output_path f -> cf_mode f = Decrypt ->
  In (k, sp) l -> ssl_laws lib sp -> sent_streams (salt_size sp) sent -> no_forged_segment lib sp ad sent C ->
  (forall k' sp', In (k', sp') l -> k' <> k -> cannot_open lib ad C sp') ->
  streaming_aead_cli w env pb o m f fs = Some run ->
  (exists salt0 prefix0 R D junk, In (salt0, prefix0, R) sent /\ stream_ciphertext lib sp ad salt0 prefix0 R D /\ C = D ++ junk /\
     (junk = [] \/ exists i, length D = i * segment_size sp)%nat /\ S_Cli.writes run (cf_output_path f) R fs) \/
  (exists W, ends run 1 (cf_output_path f) W fs /\ (W = [] \/ exists salt0 prefix0 R, In (salt0, prefix0, R) sent /\ has_header sp salt0 prefix0 C /\ front W R)).
Proof. intros until 1. intros. eapply sec_aes_program_tampered; eassumption. Qed.
Theorem aes_program_no_key : forall n lib random salt prefix w env, aes_world n lib random salt prefix w ->
  forall pb o,
  forall m f fs ks l ad C run,
  aes_finds env o f fs ks l ad C -> reads_files env -> cf_input_path f <> cf_output_path f -> cf_mode f = Decrypt ->
  l <> [] -> (forall k sp, In (k, sp) l -> cannot_open lib ad C sp) ->
  streaming_aead_cli w env pb o m f fs = Some run -> empties run (cf_output_path f) fs.
Proof. intros until 1. intros. eapply sec_aes_program_no_key; eassumption. Qed.

(** ** Round trips. The two sides run apart, with their own registries and coins. *)
Theorem new_streaming_round_trip : forall n lib random salt prefix w env n' random' salt' prefix' w' env' r r' name t rnd raw draws ad,
  aes_world n lib random salt prefix w -> aes_world n' lib random' salt' prefix' w' -> random_law random ->
  (forall sp, params_usable sp -> ssl_laws lib sp) -> length prefix = 7%nat ->
  (forall sp, In (name, sp) template_params -> length salt = salt_size sp) ->
  configured w env StreamingAead r -> configured w' env' StreamingAead r' -> In (name, Ok t) streaming_templates ->
  exists h Q Q', generate_new r rnd (raw :: draws) t = Some (Ok h) /\
    handle_primitive r h ClsStreamingAead = Ok Q /\ handle_primitive r' h ClsStreamingAead = Ok Q' /\
    forall X Y e W0 size m calls v W u v' C, 0 < size ->
    S_CcStream.writes X [] (new_encrypting_stream Q ad) (Ok e) W0 ->
    writer_history X size m e (bw_new e) W0 calls v W -> S_CcStream.writes X W (bw_close m e v) (Ok u, v') C ->
    Forall succeeded calls /\
    (eof_is_clear (pe_what env') Y -> pe_in_buffer env' <> [] ->
     forall S (src : py_source S) fuel s b calls' b', plays Y src C s 0 ->
     open_decrypting_stream src fuel Q' s ad = Some (Ok b) ->
     reader_history (decrypting_call src fuel) b calls' b' ->
     reads_as (raises Y) True (written calls) calls').
Proof.
  intros n lib random salt prefix w env n' random' salt' prefix' w' env' r r' name t rnd raw draws ad HW HW' RL L Lp Ls HC HC' Ht.
  destruct (new_streaming_handle _ _ _ _ _ _ _ _ _ _ rnd raw draws HW RL HC Ht) as (sp & (ks) & k & HT & HG & HK & Hid). cbn [kh_keyset] in *.
  set (sp' := with_key sp (random rnd (Z.of_nat (length (key_material sp))))) in *.
  destruct (aes_handle _ _ _ _ _ _ _ HW _ _ _ HC HK) as (Q & HQ). destruct (aes_handle _ _ _ _ _ _ _ HW' _ _ _ HC' HK) as (Q' & HQ').
  assert (U : params_usable sp') by exact (aes_usable _ _ _ _ HK (or_introl eq_refl)).
  assert (Ls' : length salt = salt_size sp').
  { rewrite (Ls _ HT). unfold sp'. destruct sp; reflexivity. }
  exists (mk_handle ks), Q, Q'. split; [exact HG |]. split; [exact HQ |]. split; [exact HQ' |].
  intros X Y e W0 size m calls v W u v' C Hs H1 H2 H3.
  destruct (aes_stream_writes _ _ _ _ _ _ _ HW _ _ _ _ ad HC HK HQ k sp' X (or_introl eq_refl) Hid (L _ U) Ls' Lp _ _ _ _ _ _ _ _ _ _ Hs H1 H2 H3) as (K1 & K2 & K3).
  split; [exact K1 |]. intros He Hb S src fuel s b calls' b' Hp Ho Hh.
  eapply (aes_stream_reads _ _ _ _ _ _ _ HW' _ _ _ _ ad HC' HK HQ' k sp' salt prefix (written calls) C Y (or_introl eq_refl) (L _ U) Ls' Lp K3 K2); eauto.
  intros k' p' [E | []] Hne. injection E as E _. congruence.
Qed.

Theorem aes_program_round_trip : forall n lib random salt prefix w env n' random' salt' prefix' w' env' pb pb' o o' m m' f f' fs fs' ks ks' l l' ad data k k' sp run run',
  aes_world n lib random salt prefix w -> aes_world n' lib random' salt' prefix' w' ->
  aes_finds env o f fs ks l ad data -> cf_input_path f <> cf_output_path f -> cf_mode f = Encrypt ->
  In (k, sp) l -> k_key_id k = ks_primary_key_id ks -> ssl_laws lib sp -> length salt = salt_size sp -> length prefix = 7%nat ->
  (length data <= params_capacity sp)%nat -> streaming_aead_cli w env pb o m f fs = Some run ->
  forall C, content (snd run) (cf_output_path f) = Some C ->
  aes_finds env' o' f' fs' ks' l' ad C -> reads_files env' -> cf_input_path f' <> cf_output_path f' -> cf_mode f' = Decrypt ->
  In (k', sp) l' -> (forall k1 sp1, In (k1, sp1) l' -> k1 <> k' -> cannot_open lib ad C sp1) ->
  streaming_aead_cli w' env' pb' o' m' f' fs' = Some run' ->
  fst run = Ok 0 /\ S_Cli.writes run' (cf_output_path f') data fs'.
Proof.
  intros n lib random salt prefix w env n' random' salt' prefix' w' env' pb pb' o o' m m' f f' fs fs' ks ks' l l' ad data k k' sp run run'
    HW HW' Hf Hne Hm Hi Hid L Ls Lp LP H C Hout Hf' Hr Hne' Hm' Hi' Ho H'.
  destruct (aes_program_encrypts _ _ _ _ _ _ _ HW _ _ _ _ _ _ _ _ _ _ _ _ Hf Hne Hm Hi Hid L Ls Lp LP H) as (C' & HC & (K1 & K2 & K3)).
  split; [exact K1 |]. rewrite K2 in Hout. apply L_Base.some_inj in Hout || injection Hout as Hout. subst C'.
  exact (aes_program_decrypts _ _ _ _ _ _ _ HW' _ _ _ _ _ _ _ _ _ _ _ _ _ _ _ Hf' Hr Hne' Hm' Hi' L Ls Lp LP HC Ho H').
Qed.
Theorem aes_program_cut_off : forall n lib random salt prefix w env, aes_world n lib random salt prefix w ->
  forall pb o m f fs ks l ad C k sp sent salt0 prefix0 P cut run,
  aes_finds env o f fs ks l ad C -> reads_files env -> cf_input_path f <> cf_output_path f -> cf_mode f = Decrypt ->
  In (k, sp) l -> ssl_laws lib sp -> sent_streams (salt_size sp) sent -> no_forged_segment lib sp ad sent C ->
  In (salt0, prefix0, P) sent -> (length P <= params_capacity sp)%nat ->
  stream_ciphertext lib sp ad salt0 prefix0 P (C ++ cut) -> cut <> [] ->
  (forall k' sp', In (k', sp') l -> k' <> k -> cannot_open lib ad C sp') ->
  streaming_aead_cli w env pb o m f fs = Some run ->
  exists W, front W P /\ ends run 1 (cf_output_path f) W fs.
Proof.
  intros n lib random salt prefix w env HW pb o m f fs ks l ad C k sp sent salt0 prefix0 P cut run Hf Hr Hne Hm Hi L Hsent Hno Hin LP HCt Hcut Ho H.
  destruct (aes_finds_finds _ _ _ _ _ _ _ HW _ _ _ _ _ _ _ Hf) as (l' & Hf' & F).
  destruct (made_in _ _ _ _ _ _ _ _ F Hi) as (q & Hq & Eq). pose proof (proj1 (proj2 Hf)) as HK.
  destruct (aes_streaming_cut_off (raises never) n lib sp ad sent salt prefix salt0 prefix0 P C cut (aes_usable _ _ _ _ HK Hi) L Hsent Hno Hin LP HCt Hcut)
    as (cc & P' & rest & Ecc & Hg & EP).
  rewrite Eq in Ecc. injection Ecc as <-.
  destruct (proj1 (decrypt_run _ _ pb _ m _ _ _ _ _ _ _ _ Hf' (or_introl (conj Hne eq_refl)) Hr Hm H) k q _ _ P' Hq Hg
    (program_refuses _ _ _ _ ad C l l' (fun k' => k' <> k) ks HK F Ho)) as (W & (rest' & FW) & K).
  destruct K as [(_ & [] & _) | (_ & K)]. exists W. split; [| exact K]. exists (rest' ++ rest). rewrite EP, FW, app_assoc. reflexivity.
Qed.
