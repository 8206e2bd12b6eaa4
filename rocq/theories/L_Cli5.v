(** Proofs: example programs, round trips and generated keysets. *)
From Coq Require Import Strings.Byte Strings.String List NArith ZArith Bool Lia.
From Verif Require Import M_Base M_Utf8 M_Proto M_Wire M_Prims M_PrimitiveSet M_Registry M_KeysetHandle M_KeysetIO
  M_Wrappers M_Kms M_JwtTypes M_Json M_JsonKeyset M_RawJwt M_JwtValidator M_JwtWrappers M_Jwk M_KmsIntegrations
  M_CcStream M_CcManagers M_KeyFormats M_Templates M_Cli
  S_Keyset S_Wrappers S_Wire S_Base64 S_Json S_JsonKeyset S_Config S_CcLaws S_Cli
  L_Base L_Utf8 L_Wire L_Json3 L_Json4 L_JsonKeyset L_JsonKeyset2 L_JsonKeyset3 L_Jwt5 L_Keyset L_PrimitiveSet L_Wrappers L_Wrappers2 L_Handle
  L_Config L_Config2 L_Config4 L_Cli L_Cli2 L_Cli3 L_Cli4.
Import ListNotations.
Open Scope string_scope.
Open Scope list_scope.

(** ** Round trips *)
Lemma prefixed_ok : forall k s c p y, s = StOk c -> has_prefix (k_output_prefix_type k) (k_key_id k) p ->
  prefixed k s y -> y = Ok (p ++ c).
Proof.
  intros k s c p y -> Hp (p' & Hp' & H). cbn in H. rewrite (has_prefix_fun _ _ _ _ Hp Hp'). exact H.
Qed.

Theorem aead_files_round_trip : forall w env pb o rnd f fs ks l ad data k q c prefix,
  cc_ready w Aead -> cc_keyset ClsAead (cw_aead w) ks l -> is_primary ks l k q ->
  has_prefix (k_output_prefix_type k) (k_key_id k) prefix ->
  ca_encrypt q rnd data ad = StOk c -> c <> [] -> ca_decrypt q c ad = StOk data ->
  (forall k' q' body, In (k', q') l -> k' <> k -> reaches k' (prefix ++ c) body ->
     exists s, ca_decrypt q' body ad = StErr s) ->
  cf_mode f = Encrypt -> holds_keyset (pe_rt env) fs (cf_keyset_path f) ks -> flag_is (cf_associated_data f) ad ->
  content fs (cf_input_path f) = Some data -> may_write o (cf_output_path f) = true ->
  writes (aead_cli w env pb o rnd f fs) (cf_output_path f) (prefix ++ c) fs /\
  forall rnd' g fs', cf_mode g = Decrypt -> holds_keyset (pe_rt env) fs' (cf_keyset_path g) ks ->
    flag_is (cf_associated_data g) ad ->
    content fs' (cf_input_path g) = content (snd (aead_cli w env pb o rnd f fs)) (cf_output_path f) ->
    may_write o (cf_output_path g) = true ->
    writes (aead_cli w env pb o rnd' g fs') (cf_output_path g) data fs'.
Proof.
  intros w env pb o rnd f fs ks l ad data k q c prefix Hr Hk Hp Hpf He Hne Hd Ho Hm Hh Hf Hc Hw.
  destruct (aead_cli_spec w env pb o rnd f fs ks l ad data Hr Hh Hk Hf Hc Hw) as (y & Hy & Hs).
  unfold aead_outcome in Hy. rewrite Hm in Hy. destruct Hy as [Hy _].
  rewrite (prefixed_ok _ _ _ _ _ He Hpf (Hy k q Hp)) in Hs. split; [exact Hs |].
  intros rnd' g fs' Hm' Hh' Hf' Hc' Hw'. destruct Hs as (_ & Hct & _). rewrite Hct in Hc'.
  destruct (aead_cli_spec w env pb o rnd' g fs' ks l ad _ Hr Hh' Hk Hf' Hc' Hw') as (z & Hz & Hs').
  unfold aead_outcome in Hz. rewrite Hm' in Hz.
  rewrite (cc_single _ _ _ _ _ _ (fun _ q body => ca_decrypt q body ad) k q _ c data z Hk (proj1 Hp)
    (produced_reaches _ _ _ Hpf Hne) Hd Ho Hz) in Hs'. exact Hs'.
Qed.
Theorem daead_files_round_trip : forall w env pb o f fs ks l ad data k q c prefix,
  cc_ready w Daead -> cc_keyset ClsDaead (cw_daead w) ks l -> is_primary ks l k q ->
  has_prefix (k_output_prefix_type k) (k_key_id k) prefix ->
  cda_encrypt q data ad = StOk c -> c <> [] -> cda_decrypt q c ad = StOk data ->
  (forall k' q' body, In (k', q') l -> k' <> k -> reaches k' (prefix ++ c) body ->
     exists s, cda_decrypt q' body ad = StErr s) ->
  cf_mode f = Encrypt -> holds_keyset (pe_rt env) fs (cf_keyset_path f) ks -> flag_is (cf_associated_data f) ad ->
  content fs (cf_input_path f) = Some data -> may_write o (cf_output_path f) = true ->
  writes (deterministic_aead_cli w env pb o f fs) (cf_output_path f) (prefix ++ c) fs /\
  forall g fs', cf_mode g = Decrypt -> holds_keyset (pe_rt env) fs' (cf_keyset_path g) ks ->
    flag_is (cf_associated_data g) ad ->
    content fs' (cf_input_path g) = content (snd (deterministic_aead_cli w env pb o f fs)) (cf_output_path f) ->
    may_write o (cf_output_path g) = true ->
    writes (deterministic_aead_cli w env pb o g fs') (cf_output_path g) data fs'.
Proof.
  intros w env pb o f fs ks l ad data k q c prefix Hr Hk Hp Hpf He Hne Hd Ho Hm Hh Hf Hc Hw.
  destruct (daead_cli_spec w env pb o f fs ks l ad data Hr Hh Hk Hf Hc Hw) as (y & Hy & Hs).
  unfold daead_outcome in Hy. rewrite Hm in Hy. destruct Hy as [Hy _].
  rewrite (prefixed_ok _ _ _ _ _ He Hpf (Hy k q Hp)) in Hs. split; [exact Hs |].
  intros g fs' Hm' Hh' Hf' Hc' Hw'. destruct Hs as (_ & Hct & _). rewrite Hct in Hc'.
  destruct (daead_cli_spec w env pb o g fs' ks l ad _ Hr Hh' Hk Hf' Hc' Hw') as (z & Hz & Hs').
  unfold daead_outcome in Hz. rewrite Hm' in Hz.
  rewrite (cc_single _ _ _ _ _ _ (fun _ q body => cda_decrypt q body ad) k q _ c data z Hk (proj1 Hp)
    (produced_reaches _ _ _ Hpf Hne) Hd Ho Hz) in Hs'. exact Hs'.
Qed.
(** The receiver's keyset has a key with the id and prefix type of the sender's primary
    key. *)
Theorem hybrid_files_round_trip : forall w env pb o rnd f fs ks l ks' l' ci data k q k' q' c prefix,
  cc_ready w Hybrid ->
  cc_keyset ClsHybridEncrypt (cw_hybrid_encrypt w) ks l -> is_primary ks l k q ->
  cc_keyset ClsHybridDecrypt (cw_hybrid_decrypt w) ks' l' -> In (k', q') l' ->
  k_key_id k' = k_key_id k -> k_output_prefix_type k' = k_output_prefix_type k ->
  has_prefix (k_output_prefix_type k) (k_key_id k) prefix ->
  che_encrypt q rnd data ci = StOk c -> c <> [] -> chd_decrypt q' c ci = StOk data ->
  (forall k2 q2 body, In (k2, q2) l' -> k2 <> k' -> reaches k2 (prefix ++ c) body ->
     exists s, chd_decrypt q2 body ci = StErr s) ->
  cf_mode f = Encrypt -> holds_keyset (pe_rt env) fs (cf_keyset_path f) ks -> flag_is (cf_associated_data f) ci ->
  content fs (cf_input_path f) = Some data -> may_write o (cf_output_path f) = true ->
  writes (hybrid_cli w env pb o rnd f fs) (cf_output_path f) (prefix ++ c) fs /\
  forall rnd' g fs', cf_mode g = Decrypt -> holds_keyset (pe_rt env) fs' (cf_keyset_path g) ks' ->
    flag_is (cf_associated_data g) ci ->
    content fs' (cf_input_path g) = content (snd (hybrid_cli w env pb o rnd f fs)) (cf_output_path f) ->
    may_write o (cf_output_path g) = true ->
    writes (hybrid_cli w env pb o rnd' g fs') (cf_output_path g) data fs'.
Proof.
  intros w env pb o rnd f fs ks l ks' l' ci data k q k' q' c prefix Hr Hk Hp Hk' Hi' Eid Ept Hpf He Hne Hd Ho Hm Hh Hf Hc Hw.
  destruct (hybrid_cli_encrypt_spec w env pb o rnd f fs ks l ci data Hr Hm Hh Hk Hf Hc Hw) as (y & Hy & _ & Hs).
  rewrite (prefixed_ok _ _ _ _ _ He Hpf (Hy k q Hp)) in Hs. split; [exact Hs |].
  intros rnd' g fs' Hm' Hh' Hf' Hc' Hw'. destruct Hs as (_ & Hct & _). rewrite Hct in Hc'.
  destruct (hybrid_cli_decrypt_spec w env pb o rnd' g fs' ks' l' ci _ Hr Hm' Hh' Hk' Hf' Hc' Hw') as (z & Hz & Hs').
  assert (Hpf' : has_prefix (k_output_prefix_type k') (k_key_id k') prefix) by (rewrite Eid, Ept; exact Hpf).
  rewrite (cc_single _ _ _ _ _ _ (fun _ q body => chd_decrypt q body ci) k' q' _ c data z Hk' Hi'
    (produced_reaches _ _ _ Hpf' Hne) Hd Ho Hz) in Hs'. exact Hs'.
Qed.

Lemma digits_tag : forall tag x, hex_bytes tag x -> tag_text tag x.
Proof. intros tag x H. exists [], x, []. rewrite app_nil_r. repeat split; auto. Qed.

Theorem mac_files_round_trip : forall w env pb o f fs ks l data k q c prefix,
  cc_ready w Mac -> cc_keyset ClsMac (cw_mac w) ks l -> is_primary ks l k q ->
  has_prefix (k_output_prefix_type k) (k_key_id k) prefix ->
  cm_compute q (legacy_data k data) = StOk c -> c <> [] -> (5 < length (prefix ++ c))%nat ->
  cm_verify q c (legacy_data k data) = StOk tt ->
  tf_mode f = Produce -> holds_keyset (pe_rt env) fs (tf_keyset_path f) ks ->
  content fs (tf_data_path f) = Some data -> may_write o (tf_tag_path f) = true ->
  fst (mac_cli w env pb o f fs) = Ok 0%Z /\
  forall g fs', tf_mode g = Verify -> holds_keyset (pe_rt env) fs' (tf_keyset_path g) ks ->
    content fs' (tf_data_path g) = Some data ->
    content fs' (tf_tag_path g) = content (snd (mac_cli w env pb o f fs)) (tf_tag_path f) ->
    fst (mac_cli w env pb o g fs') = Ok 0%Z.
Proof.
  intros w env pb o f fs ks l data k q c prefix Hr Hk Hp Hpf He Hne Hlen Hv Hm Hh Hc Hw.
  destruct (mac_cli_compute_spec w env pb o f fs ks l data Hr Hm Hh Hk Hc Hw) as (y & Hy & _ & Hs).
  rewrite (prefixed_ok _ _ _ _ _ He Hpf (Hy k q Hp)) in Hs. destruct Hs as (x & Hx & _ & H0 & Hct & _).
  split; [exact H0 |]. intros g fs' Hm' Hh' Hd' Hc'. rewrite Hct in Hc'.
  apply (proj2 (proj2 (proj2 (mac_cli_verify_spec w env pb o g fs' ks l data x Hr Hm' Hh' Hk Hd' Hc')))).
  exists (prefix ++ c). split; [apply digits_tag; exact Hx |]. split; [exact Hlen |].
  exists k, q, c. split; [exact (proj1 Hp) |]. split; [apply produced_reaches; assumption | exact Hv].
Qed.
Theorem signature_files_round_trip : forall w env pb o rnd f fs ks l ks' l' data k q k' q' c prefix,
  cc_ready w Signature -> cc_keyset ClsSign (cw_sign w) ks l -> is_primary ks l k q ->
  cc_keyset ClsVerify (cw_verify w) ks' l' -> In (k', q') l' ->
  k_key_id k' = k_key_id k -> k_output_prefix_type k' = k_output_prefix_type k ->
  has_prefix (k_output_prefix_type k) (k_key_id k) prefix ->
  cs_sign q rnd (legacy_data k data) = StOk c -> c <> [] -> (5 < length (prefix ++ c))%nat ->
  cv_verify q' c (legacy_data k data) = StOk tt ->
  tf_mode f = Produce -> holds_keyset (pe_rt env) fs (tf_keyset_path f) ks ->
  content fs (tf_data_path f) = Some data -> may_write o (tf_tag_path f) = true ->
  fst (signature_cli w env pb o rnd f fs) = Ok 0%Z /\
  forall rnd' g fs', tf_mode g = Verify -> holds_keyset (pe_rt env) fs' (tf_keyset_path g) ks' ->
    content fs' (tf_data_path g) = Some data ->
    content fs' (tf_tag_path g) = content (snd (signature_cli w env pb o rnd f fs)) (tf_tag_path f) ->
    fst (signature_cli w env pb o rnd' g fs') = Ok 0%Z.
Proof.
  intros w env pb o rnd f fs ks l ks' l' data k q k' q' c prefix Hr Hk Hp Hk' Hi' Eid Ept Hpf He Hne Hlen Hv Hm Hh Hc Hw.
  destruct (signature_cli_sign_spec w env pb o rnd f fs ks l data Hr Hm Hh Hk Hc Hw) as (y & Hy & _ & Hs).
  rewrite (prefixed_ok _ _ _ _ _ He Hpf (Hy k q Hp)) in Hs. destruct Hs as (x & Hx & _ & H0 & Hct & _).
  split; [exact H0 |]. intros rnd' g fs' Hm' Hh' Hd' Hc'. rewrite Hct in Hc'.
  apply (proj2 (proj2 (proj2 (signature_cli_verify_spec w env pb o rnd' g fs' ks' l' data x Hr Hm' Hh' Hk' Hd' Hc')))).
  exists (prefix ++ c). split; [apply digits_tag; exact Hx |]. split; [exact Hlen |].
  exists k', q', c. split; [exact Hi' |]. split.
  - apply produced_reaches; [rewrite Eid, Ept; exact Hpf | exact Hne].
  - unfold legacy_data in *. rewrite Ept. exact Hv.
Qed.

(** ** Keyset files *)
Lemma write_json_ascii : forall rt v st t, good_json rt v -> write_json rt v st = (Ok tt, st ++ t) -> ascii t.
Proof.
  intros rt v st t [_ Hp] H. unfold write_json in H. destruct (dumps_indent rt 0 v) as [t' | e] eqn:E; [| discriminate].
  injection H as H. apply app_inv_head in H. subst t'. eapply dumps_indent_ascii; eassumption.
Qed.
Theorem written_keyset_holds : forall rt ks, python_digit_limit rt -> wf_keyset ks -> valid_keyset ks ->
  exists t x, json_proto_serialize rt (mk_handle ks) SecretKeyAccessToken = Ok t /\ utf8_encode t = Some x /\
    forall fs path, content fs path = Some x -> holds_keyset rt fs path ks.
Proof.
  intros rt ks Hl Hw Hv. destruct (json_writer_writes rt ks [] Hl Hw) as (v & t & E & Ht & Hn & Hs).
  assert (A : ascii t).
  { eapply write_json_ascii; [exact (good_keyset rt ks Hl Hw) | exact E]. }
  destruct (ascii_encodes t A) as (x & Hx). exists t, x. split; [| split; [exact Hx |]].
  - unfold json_proto_serialize. destruct token_accepted as (_ & T2 & _). rewrite T2. cbn [bind kh_keyset]. rewrite E. reflexivity.
  - intros fs path Hc. exists x, t, v. split; [exact Hc |]. split; [exact Hx |]. split; [exact Ht |]. split; [exact Hn |].
    split; [eapply shows_keyset_mono; [exact padded_any | exact Hs] | auto].
Qed.
Lemma encrypted_keyset_file_read : forall env pb fs path a ad ks, holds_encrypted_keyset (pe_rt env) fs path a ad ks ->
  exists t, read_text path fs = (Ok t, fs) /\ json_proto_parse_encrypted (pe_rt env) pb t a ad = Ok (mk_handle ks).
Proof.
  intros env pb fs path a ad ks (x & t & v & ek & pt & Hx & Ht & Hv & Hn & Hs & Hw & Hne & Hd & Hp & Hok).
  exists (universal_newlines t). split; [apply (read_text_ok _ x); assumption |].
  unfold json_proto_parse_encrypted, read_keyset_handle_with_associated_data. apply read_with_associated_data_ok.
  exists ek, pt, ks. split; [| auto 10].
  eapply json_reader_reads_encrypted; eauto. apply json_text_newlines. exact Hv.
Qed.
Theorem encrypted_cli_spec : forall w env pb o a keyset_ad rnd f fs ks l ad data, cc_ready w Aead ->
  holds_encrypted_keyset (pe_rt env) fs (cf_keyset_path f) a keyset_ad ks -> cc_keyset ClsAead (cw_aead w) ks l ->
  flag_is (cf_associated_data f) ad -> content fs (cf_input_path f) = Some data ->
  may_write o (cf_output_path f) = true ->
  exists y, aead_outcome ks l (cf_mode f) rnd data ad y /\
    stores (encrypted_keyset_crypt w env pb o (Ok a) keyset_ad rnd f fs) (cf_output_path f) y fs.
Proof.
  intros w env pb o ra keyset_ad rnd f fs ks l ad data Hr Hh Hk Hf Hd Ho.
  destruct (registered_ok w env CallAead Aead fs eq_refl ltac:(ready) I) as (r & Er & Hc).
  destruct (encrypted_keyset_file_read env pb fs _ ra keyset_ad ks Hh) as (t & Et & Ep).
  destruct (aead_over_cc_ok _ _ _ _ _ Hc Hk) as (a & Ea & L1 & L2 & L3).
  exists (match cf_mode f with Encrypt => aead_encrypt a rnd data ad | Decrypt => aead_decrypt a data ad end).
  split; [unfold aead_outcome; destruct (cf_mode f); [split; [intros; apply L2; assumption | intros H; apply L3; exact H] | apply L1] |].
  unfold encrypted_keyset_crypt. rewrite (flag_bytes_ok _ _ Hf).
  rewrite (next_ok _ _ _ _ ad fs fs eq_refl), (next_ok _ _ _ _ r fs fs Er). cbn [or_return_1].
  rewrite (next_ok _ _ _ _ t fs fs Et), Ep.
  cbn [or_return_1]. rewrite Ea. cbn [or_return_1]. rewrite (next_ok _ _ _ _ data fs fs (read_bytes_ok _ _ _ Hd)).
  cbn [call_encrypt call_decrypt].
  replace (match cf_mode f with Encrypt => aead_encrypt a rnd data ad | Decrypt => aead_decrypt a data ad end)
    with (match cf_mode f with Decrypt => aead_decrypt a data ad | Encrypt => aead_encrypt a rnd data ad end)
    by (destruct (cf_mode f); reflexivity).
  apply stores_ok. exact Ho.
Qed.

(** ** Generated keysets *)
Definition aes128_gcm_template : key_template :=
  mk_key_template (type_url "AesGcmKey") aes128_gcm_format TINK.
Lemma aes128_gcm_created : create_aes_gcm 16 TINK = Ok aes128_gcm_template.
Proof. vm_compute. reflexivity. Qed.
Lemma one_key_valid : forall d id, valid_keyset (one_key d id).
Proof. intros d id. apply (single_valid d id TINK). discriminate. Qed.
Lemma one_key_wf : forall d id, wf_key_data d -> uint32_range id -> wf_keyset (one_key d id).
Proof.
  intros d id Hd Hi. split; [exact Hi |]. intros k [<- | []]. split; [| split; [| split]].
  - intros d' E. apply some_inj in E. subst d'. exact Hd.
  - cbn. unfold int32_range, ENABLED. lia.
  - exact Hi.
  - cbn. unfold int32_range, TINK. lia.
Qed.
Lemma drawn_id_range : forall raw, uint32_range (1 + raw mod 2147483647)%N.
Proof. intro raw. unfold uint32_range. pose proof (N.mod_lt raw 2147483647 ltac:(discriminate)). lia. Qed.

Lemma new_aes128_gcm_spec : forall w env r m rnd raw draws, configured w env Aead r ->
  cw_aead w (type_url "AesGcmKey") = Some m ->
  (forall d, cl_new_key_data m rnd aes128_gcm_format = StOk d -> wf_key_data d /\ proto_size (serialize_key_data d)) ->
  exists made, new_aes128_gcm r rnd (raw :: draws) = Some made /\
    match cl_new_key_data m rnd aes128_gcm_format with
    | StOk d => made = Ok (mk_handle (one_key d (1 + raw mod 2147483647)))
    | StErr _ => exists e, made = Err e
    end.
Proof.
  intros w env r m rnd raw draws Hc Hm Hd.
  assert (A : answers (registry_new_key_data r rnd aes128_gcm_template) (cl_new_key_data m rnd aes128_gcm_format)).
  { eapply (configured_new_key w env Aead r "AesGcmKey" ClsAead); eauto.
    - cbn. tauto.
    - cbn [cc_functions]. rewrite Hm. reflexivity.
    - split; [| cbn; unfold int32_range, TINK; lia].
      assert (B : forallb (fun c => N.ltb c 55296) (kt_type_url aes128_gcm_template) = true) by (vm_compute; reflexivity).
      rewrite forallb_forall in B. intros c Hi. left. apply N.ltb_lt. exact (B c Hi).
    - vm_compute. reflexivity. }
  unfold new_aes128_gcm. rewrite aes128_gcm_created. unfold generate_new.
  destruct (cl_new_key_data m rnd aes128_gcm_format) as [d | st]; cbn [answers] in A.
  - rewrite A.
    assert (Hid : generate_unused_key_id (raw :: draws) (mk_keyset 0 []) = Some (1 + raw mod 2147483647)%N)
      by reflexivity.
    rewrite Hid. eexists. split; [reflexivity |]. cbn [kt_output_prefix_type aes128_gcm_template].
    apply create_ok. split; [apply one_key_valid | reflexivity].
  - destruct A as (e & -> & _). eexists. split; [reflexivity |]. exists e. reflexivity.
Qed.

Lemma setup_done : forall w env c p, sets_up c p -> (forall p', sets_up c p' -> cc_ready w p') -> unrelated c ->
  exists r, perform (setup_action w env 0 c) empty_registry = (r, Ok tt) /\ configured w env p r.
Proof.
  intros w env c p Hs Hr Hu. destruct (registered_ok w env c p [] Hs Hr Hu) as (r & E & Hc). exists r.
  unfold registered_by in E. destruct (perform (setup_action w env 0 c) empty_registry) as [r' [[] | e]].
  - injection E as ->. auto.
  - discriminate.
Qed.

Lemma err_fails : forall A e (k : A -> io Z) fs, fails (or_return_1 (Err e) k fs) fs.
Proof. intros A e k fs. unfold or_return_1, ret, attempt. destruct (is_tink_error e); split; reflexivity || apply same_refl. Qed.

Theorem cleartext_generate_spec : forall w env o rnd raw draws path m, cc_ready w Aead ->
  python_digit_limit (pe_rt env) -> cw_aead w (type_url "AesGcmKey") = Some m ->
  (forall d, cl_new_key_data m rnd aes128_gcm_format = StOk d -> wf_key_data d /\ proto_size (serialize_key_data d)) ->
  may_write o path = true ->
  exists run, cleartext_keyset_generate w env o rnd (raw :: draws) path = Some run /\
    forall fs, match cl_new_key_data m rnd aes128_gcm_format with
    | StOk d => (exists x, writes (run fs) path x fs) /\
                holds_keyset (pe_rt env) (snd (run fs)) path (one_key d (1 + raw mod 2147483647))
    | StErr _ => fails (run fs) fs
    end.
Proof.
  intros w env o rnd raw draws path m Hr Hl Hm Hd Ho.
  destruct (setup_done w env CallAead Aead eq_refl ltac:(ready) I) as (r & E & Hc).
  destruct (new_aes128_gcm_spec w env r m rnd raw draws Hc Hm Hd) as (made & En & Hn).
  unfold cleartext_keyset_generate. rewrite E, En. eexists. split; [reflexivity |]. intro fs.
  destruct (cl_new_key_data m rnd aes128_gcm_format) as [d | s].
  - subst made. destruct (Hd d eq_refl) as [Hw _].
    destruct (written_keyset_holds (pe_rt env) (one_key d (1 + raw mod 2147483647)) Hl
      (one_key_wf _ _ Hw (drawn_id_range raw)) (one_key_valid _ _)) as (t & x & Et & Ex & Hx).
    cbn [or_return_1]. rewrite Et. unfold write_keyset, next, truncate, or_return_1, put_text, put_bytes, ret.
    rewrite Ho, Ex. split.
    + exists x. split; [reflexivity | apply changed_store2].
    + apply Hx. apply changed_store2.
  - destruct Hn as (e & ->). apply err_fails.
Qed.

Lemma written_encrypted_holds : forall rt ks a rnd ad, python_digit_limit rt -> valid_keyset ks ->
  (forall pt ct, aead_encrypt a rnd pt ad = Ok ct -> ct <> []) ->
  (exists t x, json_proto_serialize_encrypted rt (mk_handle ks) a rnd ad = Ok t /\ utf8_encode t = Some x /\
     (exists ct pt, aead_encrypt a rnd (serialize_keyset ks) ad = Ok ct /\ aead_decrypt a ct ad = Ok pt /\
        parse_keyset pt = Some ks) /\
     forall fs path, content fs path = Some x -> holds_encrypted_keyset rt fs path a ad ks) \/
  ((forall ct pt, aead_encrypt a rnd (serialize_keyset ks) ad = Ok ct -> aead_decrypt a ct ad = Ok pt ->
      parse_keyset pt <> Some ks) /\
   exists e, json_proto_serialize_encrypted rt (mk_handle ks) a rnd ad = Err e).
Proof.
  intros rt ks a rnd ad Hl Hv Hne. unfold json_proto_serialize_encrypted, text_value.
  destruct (write_encrypted_spec _ (mk_handle ks) (json_keyset_writer rt) a rnd ad [])
    as [(ct & pt & info & H1 & H2 & H3 & H4 & H5) | (Hno & e & He & _)]; [left | right].
  - cbn [kh_keyset] in *.
    assert (Hw : wf_encrypted_keyset (mk_encrypted_keyset ct (Some info))).
    { intros i Hi. cbn [ek_keyset_info] in Hi. apply some_inj in Hi. subst i.
      eapply describes_wf; [| exact H4]. eapply parse_keyset_wf. exact H3. }
    destruct (json_writer_writes_encrypted rt _ [] Hl Hw) as (v & t & E & Ht & Hn & Hs).
    assert (A : ascii t).
    { eapply write_json_ascii; [exact (good_encrypted_keyset rt _ Hl Hw) | exact E]. }
    destruct (ascii_encodes t A) as (x & Hx). exists t, x. rewrite H5, E. split; [reflexivity |]. split; [exact Hx |].
    split; [eauto |]. intros fs path Hc. exists x, t, v, (mk_encrypted_keyset ct (Some info)), pt.
    split; [exact Hc |]. split; [exact Hx |]. split; [exact Ht |]. split; [exact Hn |].
    split; [eapply shows_encrypted_keyset_mono; [exact padded_any | exact Hs] |]. split; [exact Hw |].
    cbn [ek_encrypted_keyset]. split; [eapply Hne; exact H1 | auto].
  - split; [exact Hno |]. rewrite He. exists e. reflexivity.
Qed.
Theorem encrypted_generate_spec : forall w env o a keyset_ad rnd rnd' raw draws path m, cc_ready w Aead ->
  python_digit_limit (pe_rt env) -> cw_aead w (type_url "AesGcmKey") = Some m ->
  (forall d, cl_new_key_data m rnd aes128_gcm_format = StOk d -> wf_key_data d /\ proto_size (serialize_key_data d)) ->
  (forall pt ct, aead_encrypt a rnd' pt keyset_ad = Ok ct -> ct <> []) ->
  may_write o path = true ->
  exists run, encrypted_keyset_generate w env o (Ok a) keyset_ad rnd rnd' (raw :: draws) path = Some run /\
    forall fs, match cl_new_key_data m rnd aes128_gcm_format with
    | StOk d =>
        let ks := one_key d (1 + raw mod 2147483647) in
        ((exists ct pt, aead_encrypt a rnd' (serialize_keyset ks) keyset_ad = Ok ct /\
            aead_decrypt a ct keyset_ad = Ok pt /\ parse_keyset pt = Some ks) /\
         (exists x, writes (run fs) path x fs) /\
         holds_encrypted_keyset (pe_rt env) (snd (run fs)) path a keyset_ad ks) \/
        ((forall ct pt, aead_encrypt a rnd' (serialize_keyset ks) keyset_ad = Ok ct ->
            aead_decrypt a ct keyset_ad = Ok pt -> parse_keyset pt <> Some ks) /\
         empties (run fs) path fs)
    | StErr _ => fails (run fs) fs
    end.
Proof.
  intros w env o a keyset_ad rnd rnd' raw draws path m Hr Hl Hm Hd Hne Ho.
  destruct (setup_done w env CallAead Aead eq_refl ltac:(ready) I) as (r & E & Hc).
  destruct (new_aes128_gcm_spec w env r m rnd raw draws Hc Hm Hd) as (made & En & Hn).
  unfold encrypted_keyset_generate. rewrite E, En. eexists. split; [reflexivity |]. intro fs.
  destruct (cl_new_key_data m rnd aes128_gcm_format) as [d | s]; [| destruct Hn as (e & ->); apply err_fails].
  subst made. cbv zeta. cbn [or_return_1].
  destruct (written_encrypted_holds (pe_rt env) (one_key d (1 + raw mod 2147483647)) a rnd' keyset_ad Hl (one_key_valid _ _) Hne)
    as [(t & x & Et & Ex & Hp & Hx) | (Hno & e & Ee)]; [left | right].
  - split; [exact Hp |]. rewrite Et. unfold write_keyset, next, truncate, or_return_1, put_text, put_bytes, ret.
    rewrite Ho, Ex. split.
    + exists x. split; [reflexivity | apply changed_store2].
    + apply Hx. apply changed_store2.
  - split; [exact Hno |]. rewrite Ee. unfold write_keyset, next, truncate, or_return_1, ret, attempt. rewrite Ho.
    destruct (is_tink_error e); (split; [reflexivity | apply changed_store]).
Qed.

(** ** From generation to decryption *)
Lemma one_key_cc : forall w m d id q, cw_aead w (type_url "AesGcmKey") = Some m ->
  kd_type_url d = type_url "AesGcmKey" -> wf_key_data d -> proto_size (serialize_key_data d) ->
  uint32_range id -> cl_get_primitive m d = StOk q ->
  cc_keyset ClsAead (cw_aead w) (one_key d id) [(mk_key (Some d) ENABLED id TINK, q)].
Proof.
  intros w m d id q Hm Hu Hw Hs Hid Hq. split; [apply one_key_valid |]. split.
  - split; [reflexivity |]. constructor; [| constructor].
    change (fst (mk_key (Some d) ENABLED id TINK, q)) with (mk_key (Some d) ENABLED id TINK).
    change (k_key_data (mk_key (Some d) ENABLED id TINK)) with d. split.
    + split; [exact Hw |]. split; [exact Hs |]. eexists Aead, "AesGcmKey", _. split; [intros [H | [H | []]]; discriminate |].
      split; [cbn; tauto | exact Hu].
    + exists m. rewrite Hu. auto.
  - constructor; [| constructor]. cbn. apply has_prefix_exists. right. auto.
Qed.
Lemma one_key_primary : forall d id (q : cc_aead),
  is_primary (one_key d id) [(mk_key (Some d) ENABLED id TINK, q)] (mk_key (Some d) ENABLED id TINK) q.
Proof. intros d id q. split; [left; reflexivity | reflexivity]. Qed.

Theorem cleartext_files_round_trip : forall w env pb o rnd f fs ks l data k q c prefix,
  let ad := blit "envelope_example" in
  cc_ready w Aead -> cc_keyset ClsAead (cw_aead w) ks l -> is_primary ks l k q ->
  has_prefix (k_output_prefix_type k) (k_key_id k) prefix ->
  ca_encrypt q rnd data ad = StOk c -> c <> [] -> ca_decrypt q c ad = StOk data ->
  (forall k' q' body, In (k', q') l -> k' <> k -> reaches k' (prefix ++ c) body ->
     exists s, ca_decrypt q' body ad = StErr s) ->
  cf_mode f = Encrypt -> holds_keyset (pe_rt env) fs (cf_keyset_path f) ks ->
  content fs (cf_input_path f) = Some data -> may_write o (cf_output_path f) = true ->
  writes (cleartext_keyset_crypt w env pb o rnd f fs) (cf_output_path f) (prefix ++ c) fs /\
  forall rnd' g fs', cf_mode g = Decrypt -> holds_keyset (pe_rt env) fs' (cf_keyset_path g) ks ->
    content fs' (cf_input_path g) = content (snd (cleartext_keyset_crypt w env pb o rnd f fs)) (cf_output_path f) ->
    may_write o (cf_output_path g) = true ->
    writes (cleartext_keyset_crypt w env pb o rnd' g fs') (cf_output_path g) data fs'.
Proof.
  cbv zeta. intros w env pb o rnd f fs ks l data k q c prefix Hr Hk Hp Hpf He Hne Hd Ho Hm Hh Hc Hw.
  destruct (cleartext_cli_spec w env pb o rnd f fs ks l data Hr Hh Hk Hc Hw) as (y & Hy & Hs).
  unfold aead_outcome in Hy. rewrite Hm in Hy. destruct Hy as [Hy _].
  rewrite (prefixed_ok _ _ _ _ _ He Hpf (Hy k q Hp)) in Hs. split; [exact Hs |].
  intros rnd' g fs' Hm' Hh' Hc' Hw'. destruct Hs as (_ & Hct & _). rewrite Hct in Hc'.
  destruct (cleartext_cli_spec w env pb o rnd' g fs' ks l _ Hr Hh' Hk Hc' Hw') as (z & Hz & Hs').
  unfold aead_outcome in Hz. rewrite Hm' in Hz.
  rewrite (cc_single _ _ _ _ _ _ (fun _ q body => ca_decrypt q body (blit "envelope_example")) k q _ c data z Hk (proj1 Hp)
    (produced_reaches _ _ _ Hpf Hne) Hd Ho Hz) in Hs'. exact Hs'.
Qed.
Theorem encrypted_files_round_trip : forall w env pb o a keyset_ad rnd f fs ks l ad data k q c prefix,
  cc_ready w Aead -> cc_keyset ClsAead (cw_aead w) ks l -> is_primary ks l k q ->
  has_prefix (k_output_prefix_type k) (k_key_id k) prefix ->
  ca_encrypt q rnd data ad = StOk c -> c <> [] -> ca_decrypt q c ad = StOk data ->
  (forall k' q' body, In (k', q') l -> k' <> k -> reaches k' (prefix ++ c) body ->
     exists s, ca_decrypt q' body ad = StErr s) ->
  cf_mode f = Encrypt -> holds_encrypted_keyset (pe_rt env) fs (cf_keyset_path f) a keyset_ad ks ->
  flag_is (cf_associated_data f) ad ->
  content fs (cf_input_path f) = Some data -> may_write o (cf_output_path f) = true ->
  writes (encrypted_keyset_crypt w env pb o (Ok a) keyset_ad rnd f fs) (cf_output_path f) (prefix ++ c) fs /\
  forall rnd' g fs', cf_mode g = Decrypt ->
    holds_encrypted_keyset (pe_rt env) fs' (cf_keyset_path g) a keyset_ad ks ->
    flag_is (cf_associated_data g) ad ->
    content fs' (cf_input_path g) =
      content (snd (encrypted_keyset_crypt w env pb o (Ok a) keyset_ad rnd f fs)) (cf_output_path f) ->
    may_write o (cf_output_path g) = true ->
    writes (encrypted_keyset_crypt w env pb o (Ok a) keyset_ad rnd' g fs') (cf_output_path g) data fs'.
Proof.
  intros w env pb o a keyset_ad rnd f fs ks l ad data k q c prefix Hr Hk Hp Hpf He Hne Hd Ho Hm Hh Hf Hc Hw.
  destruct (encrypted_cli_spec w env pb o a keyset_ad rnd f fs ks l ad data Hr Hh Hk Hf Hc Hw) as (y & Hy & Hs).
  unfold aead_outcome in Hy. rewrite Hm in Hy. destruct Hy as [Hy _].
  rewrite (prefixed_ok _ _ _ _ _ He Hpf (Hy k q Hp)) in Hs. split; [exact Hs |].
  intros rnd' g fs' Hm' Hh' Hf' Hc' Hw'. destruct Hs as (_ & Hct & _). rewrite Hct in Hc'.
  destruct (encrypted_cli_spec w env pb o a keyset_ad rnd' g fs' ks l ad _ Hr Hh' Hk Hf' Hc' Hw') as (z & Hz & Hs').
  unfold aead_outcome in Hz. rewrite Hm' in Hz.
  rewrite (cc_single _ _ _ _ _ _ (fun _ q body => ca_decrypt q body ad) k q _ c data z Hk (proj1 Hp)
    (produced_reaches _ _ _ Hpf Hne) Hd Ho Hz) in Hs'. exact Hs'.
Qed.

Theorem cleartext_pipeline : forall w env pb o rnd0 raw draws path m d q,
  let ad := blit "envelope_example" in
  cc_ready w Aead -> python_digit_limit (pe_rt env) -> cw_aead w (type_url "AesGcmKey") = Some m ->
  cl_new_key_data m rnd0 aes128_gcm_format = StOk d ->
  kd_type_url d = type_url "AesGcmKey" -> wf_key_data d -> proto_size (serialize_key_data d) ->
  cl_get_primitive m d = StOk q ->
  (forall rnd data c, ca_encrypt q rnd data ad = StOk c -> c <> [] /\ ca_decrypt q c ad = StOk data) ->
  may_write o path = true ->
  exists generate, cleartext_keyset_generate w env o rnd0 (raw :: draws) path = Some generate /\
  forall fs0, fst (generate fs0) = Ok 0%Z /\
  forall rnd f fs data c, cf_mode f = Encrypt ->
    content fs (cf_keyset_path f) = content (snd (generate fs0)) path ->
    content fs (cf_input_path f) = Some data -> may_write o (cf_output_path f) = true ->
    ca_encrypt q rnd data ad = StOk c ->
    fst (cleartext_keyset_crypt w env pb o rnd f fs) = Ok 0%Z /\
    forall rnd' g fs', cf_mode g = Decrypt ->
      content fs' (cf_keyset_path g) = content (snd (generate fs0)) path ->
      content fs' (cf_input_path g) = content (snd (cleartext_keyset_crypt w env pb o rnd f fs)) (cf_output_path f) ->
      may_write o (cf_output_path g) = true ->
      writes (cleartext_keyset_crypt w env pb o rnd' g fs') (cf_output_path g) data fs'.
Proof.
  cbv zeta. intros w env pb o rnd0 raw draws path m d q Hr Hl Hm Hn Hu Hw Hs Hq Hrt Ho.
  destruct (cleartext_generate_spec w env o rnd0 raw draws path m Hr Hl Hm) as (run & E & H); auto.
  { intros d' E. rewrite Hn in E. injection E as <-. auto. }
  rewrite Hn in H. exists run. split; [exact E |]. intro fs0. destruct (H fs0) as [(x & Hx0 & _) Hh]. split; [exact Hx0 |].
  assert (T : forall fs path', content fs path' = content (snd (run fs0)) path ->
    holds_keyset (pe_rt env) fs path' (one_key d (1 + raw mod 2147483647))).
  { intros fs path' Hc. destruct Hh as (y & t & v & Hy & Hrest). exists y, t, v. rewrite Hc. auto. }
  intros rnd f fs data c Hm' Hc Hi Ho' He. destruct (Hrt _ _ _ He) as [Hne Hd].
  pose proof (one_key_cc w m d _ q Hm Hu Hw Hs (drawn_id_range raw) Hq) as Hcc.
  assert (exists prefix, has_prefix TINK (1 + raw mod 2147483647) prefix) as (prefix & Hpf).
  { apply has_prefix_exists. right. split; [auto | apply drawn_id_range]. }
  destruct (cleartext_files_round_trip w env pb o rnd f fs _ _ data _ q c prefix Hr Hcc (one_key_primary _ _ _) Hpf He Hne Hd)
    as [W R]; auto.
  { intros k' q' body Hin Hk. exfalso. apply Hk. destruct Hin as [E' | []]. congruence. }
  split; [apply W |]. intros rnd' g fs' Hg Hc' Hi' Hw'. apply R; auto.
Qed.
Theorem encrypted_pipeline : forall w env pb o a keyset_ad rnd0 rnd1 raw draws path m d q ct pt,
  let ks := one_key d (1 + raw mod 2147483647) in
  cc_ready w Aead -> python_digit_limit (pe_rt env) -> cw_aead w (type_url "AesGcmKey") = Some m ->
  cl_new_key_data m rnd0 aes128_gcm_format = StOk d ->
  kd_type_url d = type_url "AesGcmKey" -> wf_key_data d -> proto_size (serialize_key_data d) ->
  cl_get_primitive m d = StOk q ->
  (forall rnd data ad c, ca_encrypt q rnd data ad = StOk c -> c <> [] /\ ca_decrypt q c ad = StOk data) ->
  (forall pt ct, aead_encrypt a rnd1 pt keyset_ad = Ok ct -> ct <> []) ->
  aead_encrypt a rnd1 (serialize_keyset ks) keyset_ad = Ok ct ->
  aead_decrypt a ct keyset_ad = Ok pt -> parse_keyset pt = Some ks ->
  may_write o path = true ->
  exists generate, encrypted_keyset_generate w env o (Ok a) keyset_ad rnd0 rnd1 (raw :: draws) path = Some generate /\
  forall fs0, fst (generate fs0) = Ok 0%Z /\
  forall rnd f fs ad data c, cf_mode f = Encrypt ->
    content fs (cf_keyset_path f) = content (snd (generate fs0)) path -> flag_is (cf_associated_data f) ad ->
    content fs (cf_input_path f) = Some data -> may_write o (cf_output_path f) = true ->
    ca_encrypt q rnd data ad = StOk c ->
    fst (encrypted_keyset_crypt w env pb o (Ok a) keyset_ad rnd f fs) = Ok 0%Z /\
    forall rnd' g fs', cf_mode g = Decrypt ->
      content fs' (cf_keyset_path g) = content (snd (generate fs0)) path -> flag_is (cf_associated_data g) ad ->
      content fs' (cf_input_path g) =
        content (snd (encrypted_keyset_crypt w env pb o (Ok a) keyset_ad rnd f fs)) (cf_output_path f) ->
      may_write o (cf_output_path g) = true ->
      writes (encrypted_keyset_crypt w env pb o (Ok a) keyset_ad rnd' g fs') (cf_output_path g) data fs'.
Proof.
  cbv zeta. intros w env pb o a keyset_ad rnd0 rnd1 raw draws path m d q ct pt Hr Hl Hm Hn Hu Hw Hs Hq Hrt Hne0 H1 H2 H3 Ho.
  destruct (encrypted_generate_spec w env o a keyset_ad rnd0 rnd1 raw draws path m Hr Hl Hm) as (run & E & H); auto.
  { intros d' E. rewrite Hn in E. injection E as <-. auto. }
  rewrite Hn in H. exists run. split; [exact E |]. intro fs0.
  destruct (H fs0) as [(_ & (x & Hx0 & _) & Hh) | (Hno & _)]; [| exfalso; exact (Hno _ _ H1 H2 H3)]. split; [exact Hx0 |].
  assert (T : forall fs path', content fs path' = content (snd (run fs0)) path ->
    holds_encrypted_keyset (pe_rt env) fs path' a keyset_ad (one_key d (1 + raw mod 2147483647))).
  { intros fs path' Hc. destruct Hh as (y & t & v & ek & pt' & Hy & Hrest). exists y, t, v, ek, pt'. rewrite Hc. auto. }
  intros rnd f fs ad data c Hm' Hc Hf Hi Ho' He. destruct (Hrt _ _ _ _ He) as [Hne Hd].
  pose proof (one_key_cc w m d _ q Hm Hu Hw Hs (drawn_id_range raw) Hq) as Hcc.
  assert (exists prefix, has_prefix TINK (1 + raw mod 2147483647) prefix) as (prefix & Hpf).
  { apply has_prefix_exists. right. split; [auto | apply drawn_id_range]. }
  destruct (encrypted_files_round_trip w env pb o a keyset_ad rnd f fs _ _ ad data _ q c prefix Hr Hcc (one_key_primary _ _ _) Hpf He Hne Hd)
    as [W R]; auto.
  { intros k' q' body Hin Hk. exfalso. apply Hk. destruct Hin as [E' | []]. congruence. }
  split; [apply W |]. intros rnd' g fs' Hg Hc' Hf' Hi' Hw'. apply R; auto.
Qed.
