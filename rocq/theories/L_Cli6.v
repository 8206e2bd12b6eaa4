(** Proofs: example programs that use a remote key, and what goes wrong when an output
    file is opened too early. *)
From Coq Require Import Strings.Byte Strings.String List NArith ZArith Bool Lia.
From Verif Require Import M_Base M_Utf8 M_Proto M_Wire M_Prims M_PrimitiveSet M_Registry M_KeysetHandle M_KeysetIO
  M_Wrappers M_Kms M_JwtTypes M_Json M_JsonKeyset M_RawJwt M_JwtValidator M_JwtWrappers M_Jwk M_KmsIntegrations
  M_CcStream M_CcManagers M_KeyFormats M_Templates M_Cli
  S_Keyset S_Wrappers S_Wire S_Base64 S_Json S_JsonKeyset S_Kms S_Config S_CcLaws S_Cli
  L_Base L_Utf8 L_Wire L_KmsIntegrations L_Keyset L_PrimitiveSet L_Wrappers L_Wrappers2 L_Handle L_Kms
  L_Config L_Config2 L_Config4 L_Cli L_Cli2 L_Cli3 L_Cli4 L_Cli5.
Import ListNotations.
Open Scope string_scope.
Open Scope list_scope.

(** ** Envelope encryption *)
Definition aes256_gcm_template : key_template :=
  mk_key_template (type_url "AesGcmKey") aes256_gcm_format TINK.
Lemma aes256_gcm_created : create_aes_gcm 32 TINK = Ok aes256_gcm_template.
Proof. vm_compute. reflexivity. Qed.

Lemma new_aes256_gcm : forall w env r m rnd d, configured w env Aead r ->
  cw_aead w (type_url "AesGcmKey") = Some m -> makes_data_keys m ->
  registry_new_key_data r rnd aes256_gcm_template = Ok d <-> cl_new_key_data m rnd aes256_gcm_format = StOk d.
Proof.
  intros w env r m rnd d Hc Hm Hk. destruct (Hk rnd) as (d' & E & Hu & Hmt & Hw & Hs & _).
  assert (A : answers (registry_new_key_data r rnd aes256_gcm_template) (cl_new_key_data m rnd aes256_gcm_format)).
  { eapply (configured_new_key w env Aead r "AesGcmKey" ClsAead); eauto.
    - cbn. tauto.
    - cbn [cc_functions]. rewrite Hm. reflexivity.
    - split; [| cbn; unfold int32_range, TINK; lia].
      assert (B : forallb (fun c => N.ltb c 55296) (kt_type_url aes256_gcm_template) = true) by (vm_compute; reflexivity).
      rewrite forallb_forall in B. intros c Hi. left. apply N.ltb_lt. exact (B c Hi).
    - vm_compute. reflexivity.
    - cbn [kt_value aes256_gcm_template]. intros x Hx. rewrite E in Hx. injection Hx as <-. auto. }
  rewrite E in *. cbn [answers] in A. rewrite A. split; congruence.
Qed.
Lemma envelope_made : forall w env r m r0 a, configured w env Aead r ->
  cw_aead w (type_url "AesGcmKey") = Some m -> makes_data_keys m ->
  aes256_gcm_envelope r r0 (Ok a) = new_kms_envelope_aead r r0 aes256_gcm_template a /\
  exists e, new_kms_envelope_aead r r0 aes256_gcm_template a = Ok e /\
    (kms_round_trip a -> forall rnd pt ad ct, aead_encrypt e rnd pt ad = Ok ct -> aead_decrypt e ct ad = Ok pt).
Proof.
  intros w env r m r0 a Hc Hm Hk. split.
  { unfold aes256_gcm_envelope. rewrite aes256_gcm_created. reflexivity. }
  assert (exists e, new_kms_envelope_aead r r0 aes256_gcm_template a = Ok e) as (e & He).
  { apply envelope_constructor. split; [left; vm_compute; reflexivity |].
    destruct (Hk r0) as (d & E & _). exists d. apply new_key_data_generates.
    apply (proj2 (new_aes256_gcm w env r m r0 d Hc Hm Hk)). exact E. }
  exists e. split; [exact He |]. intro Hrt. refine (envelope_round_trip r r0 _ a e He Hrt _).
  intros r' d Hg. apply new_key_data_generates in Hg. apply (new_aes256_gcm w env r m r' d Hc Hm Hk) in Hg.
  destruct (Hk r') as (d' & E & Hu & Hmt & Hw & Hs & Hq). rewrite E in Hg. injection Hg as <-.
  split; [exact Hu |]. split; [exact Hmt |]. intros p Hp rnd x ad c Hx.
  apply registry_primitive_provides in Hp.
  assert (A : primitive_from_cc w env ClsAead d' (registry_primitive r d' ClsAead)).
  { eapply (configured_primitive w env Aead r "AesGcmKey" ClsAead); eauto.
    - intros [H | [H | []]]; discriminate.
    - cbn. tauto. }
  rewrite Hp in A. cbn [primitive_from_cc] in A. rewrite Hu in A. destruct A as (m' & Em & A).
  rewrite Hm in Em. injection Em as <-. unfold answers_with in A.
  destruct (cl_get_primitive m d') as [q | s] eqn:Eq; [| destruct A as (? & ? & _); discriminate].
  destruct A as (y & Ey & (b & -> & H1 & H2)). apply ok_inj in Ey. subst p. cbn [call_encrypt call_decrypt] in *.
  specialize (H1 rnd x ad). specialize (H2 c ad). destruct (ca_encrypt q rnd x ad) as [c' | s] eqn:Ec; cbn [answers] in H1.
  - rewrite H1 in Hx. apply ok_inj in Hx. subst c'. rewrite (Hq q eq_refl _ _ _ _ Ec) in H2. exact H2.
  - destruct H1 as (? & ? & _). congruence.
Qed.
Theorem envelope_files_round_trip : forall w env o a m r0 rnd f fs ad data,
  cc_ready w Aead -> cw_aead w (type_url "AesGcmKey") = Some m -> makes_data_keys m -> kms_round_trip a ->
  cf_mode f = Encrypt -> flag_is (cf_associated_data f) ad -> content fs (cf_input_path f) = Some data ->
  may_write o (cf_output_path f) = true ->
  exit_status (fst (envelope_cli w env o (Ok a) r0 rnd f fs)) = 0%Z ->
  forall r0' rnd' g fs', cf_mode g = Decrypt -> flag_is (cf_associated_data g) ad ->
    content fs' (cf_input_path g) = content (snd (envelope_cli w env o (Ok a) r0 rnd f fs)) (cf_output_path f) ->
    may_write o (cf_output_path g) = true ->
    writes (envelope_cli w env o (Ok a) r0' rnd' g fs') (cf_output_path g) data fs'.
Proof.
  intros w env o a m r0 rnd f fs ad data Hr Hm Hk Hrt Hmode Hf Hd Ho.
  destruct (registered_ok w env CallAead Aead fs eq_refl ltac:(ready) I) as (r & Er & Hc).
  destruct (envelope_made w env r m r0 a Hc Hm Hk) as (Ee & e & He & Hert).
  unfold envelope_cli at 1. rewrite (flag_bytes_ok _ _ Hf).
  rewrite (next_ok _ _ _ _ ad fs fs eq_refl), (next_ok _ _ _ _ r fs fs Er), Ee, He. cbn [or_return_1].
  rewrite (next_ok _ _ _ _ data fs fs (read_bytes_ok _ _ _ Hd)), Hmode.
  intro H0. assert (exists ct, aead_encrypt e rnd data ad = Ok ct) as (ct & Ect).
  { destruct (aead_encrypt e rnd data ad) as [ct | x] eqn:E; [eauto |]. unfold next, attempt in H0. discriminate. }
  intros r0' rnd' g fs' Hg Hf' Hi Ho'.
  assert (W : content (snd (envelope_cli w env o (Ok a) r0 rnd f fs)) (cf_output_path f) = Some ct).
  { unfold envelope_cli. rewrite (flag_bytes_ok _ _ Hf).
    rewrite (next_ok _ _ _ _ ad fs fs eq_refl), (next_ok _ _ _ _ r fs fs Er), Ee, He. cbn [or_return_1].
    rewrite (next_ok _ _ _ _ data fs fs (read_bytes_ok _ _ _ Hd)), Hmode, Ect.
    pose proof (stores_ok o (cf_output_path f) (Ok ct) fs Ho) as S. destruct S as (_ & S & _). exact S. }
  rewrite W in Hi.
  destruct (registered_ok w env CallAead Aead fs' eq_refl ltac:(ready) I) as (r' & Er' & Hc').
  assert (r' = r).
  { unfold registered_by in Er, Er'. destruct (perform (setup_action w env 0 CallAead) empty_registry) as [z [zz | zz]].
    - injection Er as <-. injection Er' as <-. reflexivity.
    - discriminate. }
  subst r'. destruct (envelope_made w env r m r0' a Hc Hm Hk) as (Ee' & e' & He' & Hert').
  assert (e' = e) by (apply new_envelope_fields in He, He'; congruence). subst e'.
  unfold envelope_cli. rewrite (flag_bytes_ok _ _ Hf').
  rewrite (next_ok _ _ _ _ ad fs' fs' eq_refl), (next_ok _ _ _ _ r fs' fs' Er'), Ee', He'. cbn [or_return_1].
  rewrite (next_ok _ _ _ _ ct fs' fs' (read_bytes_ok _ _ _ Hi)), Hg, (Hert Hrt _ _ _ _ Ect).
  exact (stores_ok o (cf_output_path g) (Ok data) fs' Ho').
Qed.

(** ** Google Cloud Storage *)
Lemma split_once_spec : forall x a b, split_once 47 x = Some (a, b) <-> x = a ++ ulit "/" ++ b /\ ~ In 47%N a.
Proof.
  induction x as [| c x IH]; intros a b; cbn [split_once].
  - split; [discriminate |]. intros [H _]. destruct a; discriminate.
  - destruct (N.eqb c 47) eqn:E.
    + apply N.eqb_eq in E. subst c. split.
      * intro H. injection H as <- <-. split; [reflexivity | intros []].
      * intros [H Hn]. destruct a as [| d a].
        -- cbn in H. injection H as ->. reflexivity.
        -- cbn in H. injection H as <- _. exfalso. apply Hn. left. reflexivity.
    + assert (c <> 47%N) by (intro; subst; discriminate). destruct (split_once 47 x) as [[a' b'] |] eqn:Es.
      * specialize (IH a' b'). apply proj1 in IH. destruct (IH eq_refl) as [-> Hn]. split.
        -- intro Hx. injection Hx as <- <-. split; [reflexivity |]. intros [Hx | Hx]; auto.
        -- intros [Hx Hn']. destruct a as [| d a].
           { cbn in Hx. injection Hx as Hx _. congruence. }
           cbn [app] in Hx. injection Hx as <- Hx.
           assert (U : forall (u v u' v' : pystr), u ++ ulit "/" ++ v = u' ++ ulit "/" ++ v' -> ~ In 47%N u -> ~ In 47%N u' -> u = u' /\ v = v').
           { induction u as [| p u IHu]; intros v u' v' Hq H1 H2; destruct u' as [| p' u'].
             - cbn in Hq. injection Hq as ->. auto.
             - cbn in Hq. injection Hq as <- _. exfalso. apply H2. left. reflexivity.
             - cbn in Hq. injection Hq as -> _. exfalso. apply H1. left. reflexivity.
             - cbn [app] in Hq. injection Hq as <- Hq. destruct (IHu v u' v' Hq) as [-> ->]; auto.
               + intro. apply H1. right. assumption.
               + intro. apply H2. right. assumption. }
           destruct (U _ _ _ _ Hx Hn) as [-> ->]; [intro; apply Hn'; right; assumption | reflexivity].
      * split; [discriminate |]. intros [Hx Hn]. destruct a as [| d a].
        { cbn in Hx. injection Hx as Hx _. congruence. }
        cbn [app] in Hx. injection Hx as <- Hx. assert (T : None = Some (a, b)).
        { apply IH. split; [exact Hx |]. intro. apply Hn. right. assumption. }
        discriminate.
Qed.
Theorem blob_path_spec : forall path b n, get_bucket_and_object path = Ok (b, n) <-> blob_path path b n.
Proof.
  intros path b n. unfold get_bucket_and_object, blob_path.
  destruct (strip_prefix (ulit "gs://") path) as [rest |] eqn:E.
  - apply strip_prefix_spec in E. subst path. split.
    + destruct (split_once 47 rest) as [[b' n'] |] eqn:Es; [| discriminate]. intro H. apply ok_inj in H.
      injection H as -> ->. apply split_once_spec in Es. destruct Es as [-> Hn]. auto.
    + intros [H Hn]. apply app_inv_head in H. assert (T : split_once 47 rest = Some (b, n)) by (apply split_once_spec; auto).
      rewrite T. reflexivity.
  - split; [discriminate |]. intros [-> _].
    assert (T : strip_prefix (ulit "gs://") (ulit "gs://" ++ (b ++ ulit "/" ++ n)) = Some (b ++ ulit "/" ++ n)).
    { apply strip_prefix_spec. reflexivity. }
    congruence.
Qed.
Lemma blob_eqb_spec : forall a b, blob_eqb a b = true <-> a = b.
Proof.
  intros [a1 a2] [b1 b2]. unfold blob_eqb. cbn. rewrite andb_true_iff, !str_eqb_spec. split; [intros [-> ->]; reflexivity |].
  intro H. injection H as -> ->. auto.
Qed.

(** [b] and [n] name no blob that a path can name: exit status 1, nothing changed. *)
Theorem gcs_bad_path : forall w env o remote storage r0 rnd mode local path bs fs,
  (forall b n, ~ blob_path path b n) ->
  let '(x, fs', bs') := gcs_envelope_cli w env o remote storage r0 rnd mode local path bs fs in
  exit_status x = 1%Z /\ fs' = fs /\ bs' = bs.
Proof.
  intros w env o remote storage r0 rnd mode local path bs fs Hno. unfold gcs_envelope_cli.
  destruct (perform (setup_action w env 0 CallAead) empty_registry) as [reg [u | e]]; [| auto].
  destruct (aes256_gcm_envelope reg r0 remote) as [ea | e]; [| destruct (is_tink_error e); auto].
  destruct storage as [u' | e]; [| auto].
  destruct (get_bucket_and_object path) as [[b n] | e] eqn:E; [| auto].
  exfalso. apply (Hno b n). apply blob_path_spec. exact E.
Qed.
(** The local file and the blob: what each mode can change. *)
Theorem gcs_effects : forall w env o remote storage r0 rnd mode local path b n bs fs, blob_path path b n ->
  let '(x, fs', bs') := gcs_envelope_cli w env o remote storage r0 rnd mode local path bs fs in
  match mode with
  | Encrypt => fs' = fs /\ ((exit_status x = 1%Z /\ bs' = bs) \/
                            (x = Ok 0%Z /\ exists ct, uploaded b n ct bs bs'))
  | Decrypt => bs' = bs /\ (fails (x, fs') fs \/ (exists y, writes (x, fs') local y fs) \/ empties (x, fs') local fs)
  end.
Proof.
  intros w env o remote storage r0 rnd mode local path b n bs fs Hp. apply blob_path_spec in Hp. unfold gcs_envelope_cli.
  destruct (perform (setup_action w env 0 CallAead) empty_registry) as [reg [u | e]].
  2: { destruct mode; split; auto; left; split; auto; apply same_refl. }
  destruct (aes256_gcm_envelope reg r0 remote) as [ea | e].
  2: { destruct (is_tink_error e), mode; split; auto; left; split; auto; apply same_refl. }
  destruct storage as [u' | e].
  2: { destruct mode; split; auto; left; split; auto; apply same_refl. }
  rewrite Hp. destruct (utf8_encode path) as [ad |].
  2: { destruct mode; split; auto; left; split; auto; apply same_refl. }
  destruct mode.
  - unfold next, read_bytes, attempt. destruct (content fs local) as [data |]; [| split; auto].
    destruct (aead_encrypt ea rnd data ad) as [ct | e]; [| split; auto]. split; [reflexivity |]. right. split; [reflexivity |].
    exists ct. unfold uploaded, blob. split.
    + apply dict_get_set_same. apply blob_eqb_spec.
    + intros b' n' Hne. apply dict_get_set_other; [apply blob_eqb_spec | exact Hne].
  - destruct (dict_get blob_eqb (b, n) bs) as [ct |].
    2: { split; [reflexivity |]. left. split; [reflexivity | apply same_refl]. }
    unfold next, truncate, attempt, put_bytes, returned_none, ret.
    destruct (may_write o local).
    2: { split; [reflexivity |]. left. split; [reflexivity | apply same_refl]. }
    destruct (aead_decrypt ea ct ad) as [y | e]; (split; [reflexivity |]); right.
    + left. exists y. split; [reflexivity | apply changed_store2].
    + right. split; [reflexivity | apply changed_store].
Qed.
Theorem gcs_round_trip : forall w env o a m r0 rnd local path b n bs fs data,
  cc_ready w Aead -> cw_aead w (type_url "AesGcmKey") = Some m -> makes_data_keys m -> kms_round_trip a ->
  blob_path path b n -> content fs local = Some data ->
  exit_status (fst (fst (gcs_envelope_cli w env o (Ok a) (Ok tt) r0 rnd Encrypt local path bs fs))) = 0%Z ->
  forall r0' rnd' local' bs' fs',
    blob bs' b n = blob (snd (gcs_envelope_cli w env o (Ok a) (Ok tt) r0 rnd Encrypt local path bs fs)) b n ->
    may_write o local' = true ->
    writes (fst (gcs_envelope_cli w env o (Ok a) (Ok tt) r0' rnd' Decrypt local' path bs' fs')) local' data fs'.
Proof.
  intros w env o a m r0 rnd local path b n bs fs data Hr Hm Hk Hrt Hp Hd.
  destruct (setup_done w env CallAead Aead eq_refl ltac:(ready) I) as (r & Er & Hc).
  destruct (envelope_made w env r m r0 a Hc Hm Hk) as (Ee & e & He & Hert).
  apply blob_path_spec in Hp. unfold gcs_envelope_cli. rewrite Er, Ee, He, Hp.
  destruct (utf8_encode path) as [ad |]; [| discriminate].
  rewrite (next_ok _ _ _ _ data fs fs (read_bytes_ok _ _ _ Hd)). unfold attempt at 1.
  destruct (aead_encrypt e rnd data ad) as [ct | x] eqn:Ect; [| discriminate].
  intros _ r0' rnd' local' bs' fs' Hb Ho.
  destruct (envelope_made w env r m r0' a Hc Hm Hk) as (Ee' & e' & He' & Hert').
  assert (e' = e) by (apply new_envelope_fields in He, He'; congruence). subst e'.
  rewrite Ee', He'. unfold blob, attempt in Hb. cbn [snd] in Hb.
  rewrite dict_get_set_same in Hb by apply blob_eqb_spec. rewrite Hb.
  unfold next, truncate, attempt, put_bytes, returned_none, ret. rewrite Ho, (Hert Hrt _ _ _ _ Ect). cbn [fst].
  split; [reflexivity | apply changed_store2].
Qed.
