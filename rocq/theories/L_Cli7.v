(** Proofs: the JWT example programs. *)
From Coq Require Import Strings.Byte Strings.String List NArith ZArith Bool Lia.
From Verif Require Import M_Base M_Utf8 M_Proto M_Wire M_Prims M_PrimitiveSet M_Registry M_KeysetHandle M_KeysetIO
  M_Wrappers M_JwtTypes M_Json M_JsonKeyset M_RawJwt M_JwtValidator M_JwtFormat M_JwtPrims M_JwtWrappers M_JwtKeys M_Jwk
  M_CcStream M_CcManagers M_Cli
  S_Keyset S_PrimitiveSet S_Wrappers S_Wire S_Base64 S_Json S_JsonKeyset S_Registry S_Config S_CcLaws S_Jwt S_JwtKeys S_Jwk S_Cli S_CliJwt
  L_Base L_Utf8 L_Wire L_PrimitiveSet L_Json3 L_Json4 L_JsonText L_JsonKeyset L_JsonKeyset3 L_Keyset L_Wrappers L_Registry L_Config L_Config2 L_Config3
  S_Handle L_Handle L_Jwt L_Jwt4 L_Jwt5 L_Jwt6 L_Jwt7 L_JsonKeyset2 L_Jwk L_Jwk2 L_Jwk3 L_Jwk4 L_Jwk6 L_Jwk7 L_JwkVerify L_Cli L_Cli2 L_Cli3 L_Cli5.
Import ListNotations.
Open Scope nat_scope.
Open Scope string_scope.
Open Scope list_scope.

(** ** The registry of the JWT signature programs *)
Lemma good_step_signed : forall w env r op r', inv w env r -> good w env op -> registry_apply r op = Ok r' ->
  (forall u v, manager_of r u = Some v -> signature u <> None) ->
  forall u v, manager_of r' u = Some v -> signature u <> None.
Proof.
  intros w env r op r' [I1 I2] Hg E K. destruct op as [km a | x]; cbn [registry_apply good] in *.
  - destruct Hg as [-> Hb]. destruct (built_signature _ _ _ _ Hb) as (_ & Hs & Hsig).
    destruct (register_key_manager_spec r km true) as [Hok _].
    destruct Hok as (r1 & Hr & Hm & Ho & Hw).
    { split; [exact Hs |]. intros km0 b0 Hold.
      destruct (I1 _ _ _ Hold) as [-> Hb0]; [congruence |].
      destruct (built_signature _ _ _ _ Hb0) as (_ & _ & Hsig0). rewrite Hsig in Hsig0.
      injection Hsig0 as -> ->. repeat split; auto. }
    rewrite Hr in E. apply ok_inj in E. subst r1. intros u v Hv.
    destruct (list_eq_dec N.eq_dec u (km_key_type km)) as [-> | Hne]; [congruence |].
    rewrite Ho in Hv by exact Hne. exact (K _ _ Hv).
  - destruct (table_wrapper_ok _ _ Hg) as (_ & p & Hp & Hc).
    destruct (register_primitive_wrapper_spec r x) as [Hok _].
    destruct Hok as (r1 & Hr & Hx & Ho & Hm).
    { split; [intros w0 H0; rewrite (I2 _ _ _ H0 Hg); reflexivity | eauto]. }
    rewrite Hr in E. apply ok_inj in E. subst r1. intros u v Hv. rewrite Hm in Hv. exact (K _ _ Hv).
Qed.
Lemma good_ops_signed : forall w env ops, Forall (good w env) ops -> forall r r', inv w env r ->
  (forall u v, manager_of r u = Some v -> signature u <> None) ->
  perform (ops_action ops) r = (r', Ok tt) ->
  inv w env r' /\ forall u v, manager_of r' u = Some v -> signature u <> None.
Proof.
  induction ops as [| op ops IH]; intros Hg r r' Hi K E.
  - injection E as <-. auto.
  - apply Forall_cons_iff in Hg. destruct Hg as [H1 H2].
    destruct (good_step _ _ _ _ Hi H1) as (r1 & E1 & Hi1 & _).
    unfold ops_action in *. cbn [map] in E. rewrite perform_cons in E. cbn [perform] in E. rewrite E1 in E.
    apply (IH H2 _ _ Hi1 (good_step_signed _ _ _ _ _ Hi H1 E1 K) E).
Qed.

(** The C++ managers below the JWT key managers. *)
Definition signers_of (w : cc_world) (t : string) : cc_manager signer :=
  match cw_sign w (type_url t) with
  | Some m => cc_key_manager bind_signer m
  | None => mk_cc_manager [] (fun _ => Err KeyError) (fun _ _ => Err KeyError) (fun _ => Err KeyError)
  end.
Definition verifiers_of (w : cc_world) (t : string) : cc_manager verifier :=
  match cw_verify w (type_url t) with
  | Some m => cc_key_manager bind_verifier m
  | None => mk_cc_manager [] (fun _ => Err KeyError) (fun _ _ => Err KeyError) (fun _ => Err KeyError)
  end.

Lemma jwt_setup : forall w env fs, cc_ready w JwtSignature ->
  exists r, registered_by w env CallJwtSignature fs = (Ok r, fs) /\ configured w env JwtSignature r /\
    wrapper_of r ClsJwtSign = Some jwt_sign_wrapper /\ wrapper_of r ClsJwtVerify = Some jwt_verify_wrapper /\
    jwt_sign_registry (pe_rt env) (signers_of w) r /\ jwt_verify_registry (pe_rt env) (verifiers_of w) r.
Proof.
  intros w env fs Hr.
  destruct (registered_ok w env CallJwtSignature JwtSignature fs eq_refl ltac:(ready) I) as (r & E & Hc).
  exists r. split; [exact E |]. split; [exact Hc |].
  split; [apply (configured_wrapper _ _ _ _ _ _ Hc); [cbn; auto | reflexivity] |].
  split; [apply (configured_wrapper _ _ _ _ _ _ Hc); [cbn; auto | reflexivity] |].
  unfold registered_by in E.
  destruct (perform (setup_action w env 0 CallJwtSignature) empty_registry) as [r0 [[] | e]] eqn:Ep; [| discriminate].
  injection E as ->. cbn [setup_action] in Ep.
  destruct (package_performs w env 0 JwtSignature Hr) as (ops & D & G & _ & _).
  rewrite (does_perform _ _ D) in Ep.
  destruct (good_ops_signed _ _ _ G _ _ (inv_empty w env) ltac:(intros u v Hv; discriminate) Ep) as ([I1 _] & K).
  split; intros u km b Hm Hcl.
  - destruct (I1 _ _ _ Hm (K _ _ Hm)) as (_ & Hb). destruct (built_signature _ _ _ _ Hb) as (_ & _ & Hs).
    destruct (built_jwt _ _ _ _ Hb) as (_ & B & _).
    assert (H31 : option_map fst (signature u) = Some 31%N).
    { destruct Hb; cbn in Hcl; try discriminate; rewrite Hs; reflexivity. }
    destruct (B H31) as (n & name & akid & m & Hin & -> & El & ->).
    unfold jwt_sign_names in Hin.
    destruct Hin as [H | [H | [H | []]]]; injection H as <- <-.
    + exists n, "ES", "JwtEcdsaPrivateKey", ecdsa_private_alg_kid. unfold signers_of. rewrite El. cbn; auto.
    + exists n, "RS", "JwtRsaSsaPkcs1PrivateKey", pkcs1_private_alg_kid. unfold signers_of. rewrite El. cbn; auto.
    + exists n, "PS", "JwtRsaSsaPssPrivateKey", pss_private_alg_kid. unfold signers_of. rewrite El. cbn; auto.
  - destruct (I1 _ _ _ Hm (K _ _ Hm)) as (_ & Hb). destruct (built_signature _ _ _ _ Hb) as (_ & _ & Hs).
    destruct (built_jwt _ _ _ _ Hb) as (_ & _ & B).
    assert (H32 : option_map fst (signature u) = Some 32%N).
    { destruct Hb; cbn in Hcl; try discriminate; rewrite Hs; reflexivity. }
    destruct (B H32) as (n & name & akid & m & Hin & -> & El & ->).
    unfold jwt_verify_names in Hin.
    destruct Hin as [H | [H | [H | []]]]; injection H as <- <-.
    + exists n, "ES", "JwtEcdsaPublicKey", ecdsa_public_alg_kid. unfold verifiers_of. rewrite El. cbn; auto.
    + exists n, "RS", "JwtRsaSsaPkcs1PublicKey", pkcs1_public_alg_kid. unfold verifiers_of. rewrite El. cbn; auto.
    + exists n, "PS", "JwtRsaSsaPssPublicKey", pss_public_alg_kid. unfold verifiers_of. rewrite El. cbn; auto.
Qed.

(** ** Keys *)
Lemma sign_key_of : forall w k alg ck q, cc_jwt_sign_key w k alg ck q ->
  jwt_sign_key (signers_of w) k alg ck (bind_signer q).
Proof.
  intros w k alg ck q (Hw & Hs & f & t & msg & m & Hf & Hu & Hp & Ha & -> & Hl & Hq).
  exists f, t, msg. split; [exact Hf |]. split; [exact Hu |]. split; [exact Hp |]. split; [exact Ha |]. split; [reflexivity |].
  unfold signers_of. rewrite Hl. cbn [cc_primitive cc_key_manager]. unfold parse_or_empty.
  rewrite (key_data_round_trip _ Hw Hs), Hq. reflexivity.
Qed.
Lemma verify_key_of : forall w k alg ck q, cc_jwt_verify_key w k alg ck q ->
  jwt_verify_key (verifiers_of w) k alg ck (bind_verifier q).
Proof.
  intros w k alg ck q (Hw & Hs & f & t & msg & m & Hf & Hu & Hp & Ha & -> & Hl & Hq).
  exists f, t, msg. split; [exact Hf |]. split; [exact Hu |]. split; [exact Hp |]. split; [exact Ha |]. split; [reflexivity |].
  unfold verifiers_of. rewrite Hl. cbn [cc_primitive cc_key_manager]. unfold parse_or_empty.
  rewrite (key_data_round_trip _ Hw Hs), Hq. reflexivity.
Qed.
Lemma key_of_verify : forall w k alg ck g, wf_key_data (k_key_data k) -> proto_size (serialize_key_data (k_key_data k)) ->
  jwt_verify_key (verifiers_of w) k alg ck g -> exists q, cc_jwt_verify_key w k alg ck q /\ g = bind_verifier q.
Proof.
  intros w k alg ck g Hw Hs (f & t & msg & Hf & Hu & Hp & Ha & -> & Hg). unfold verifiers_of in Hg.
  destruct (cw_verify w (type_url t)) as [m |] eqn:El; [| discriminate].
  cbn [cc_primitive cc_key_manager] in Hg. unfold parse_or_empty in Hg. rewrite (key_data_round_trip _ Hw Hs) in Hg.
  destruct (cl_get_primitive m (k_key_data k)) as [q | s] eqn:Eq; [| destruct s; discriminate].
  cbn in Hg. apply ok_inj in Hg. exists q. split; [| symmetry; exact Hg].
  split; [exact Hw |]. split; [exact Hs |]. exists f, t, msg, m. auto 10.
Qed.
Lemma cc_verify_fun : forall w k alg ck q alg' ck' q', cc_jwt_verify_key w k alg ck q -> cc_jwt_verify_key w k alg' ck' q' ->
  alg' = alg /\ ck' = ck /\ q' = q.
Proof.
  intros w k alg ck q alg' ck' q' (_ & _ & f & t & m & c & Hf & Hu & Hm & Ha & -> & Hl & Hg)
    (_ & _ & f' & t' & m' & c' & Hf' & Hu' & Hm' & Ha' & -> & Hl' & Hg').
  rewrite Hu in Hu'. destruct (family_of_url _ _ _ _ Hf Hf' Hu') as (<- & <-).
  rewrite Hm in Hm'. apply some_inj in Hm'. subst m'. rewrite Hl in Hl'. apply some_inj in Hl'. subst c'.
  rewrite Hg in Hg'. injection Hg' as <-. pose proof (names_algorithm_fun _ _ _ _ Ha' Ha). auto.
Qed.

Lemma provides_sign : forall w env r k alg ck q, configured w env JwtSignature r -> cc_jwt_sign_key w k alg ck q ->
  key_provides r ClsJwtSignInternal k (PrimJwtSignInternal (jwt_public_key_sign (pe_rt env) alg ck (bind_signer q))).
Proof.
  intros w env r k alg ck q Hc (Hw & Hs & f & t & msg & m & Hf & Hu & Hp & Ha & -> & Hl & Hq).
  destruct (proj2 (configured_jwt w env r) Hc) as (C & _).
  assert (X : exists akid, In (f, t, akid) private_families /\
    In (t, akid) [("JwtEcdsaPrivateKey", ecdsa_private_alg_kid); ("JwtRsaSsaPkcs1PrivateKey", pkcs1_private_alg_kid);
         ("JwtRsaSsaPssPrivateKey", pss_private_alg_kid)]).
  { destruct Hf as [H | [H | [H | []]]]; injection H as <- <-; eexists; (split; [| cbn; eauto]); cbn; eauto. }
  destruct X as (akid & Hfam & Hin). destruct (C _ _ Hin) as (n & m' & El & Em).
  rewrite Hl in El. apply some_inj in El. subst m'.
  unfold manager_of in Em. rewrite <- Hu in Em.
  eexists _, _. split; [exact Em |]. split; [reflexivity |].
  apply (jwt_sign_manager_spec _ _ _ _ _ _ _ _ Hfam). exists msg, alg, (bind_signer q).
  split; [exact Hu |]. split; [exact Hp |]. split; [exact Ha |]. split; [| reflexivity].
  cbn [cc_primitive cc_key_manager]. unfold parse_or_empty. rewrite (key_data_round_trip _ Hw Hs), Hq. reflexivity.
Qed.
Lemma provides_verify : forall w env r k alg ck q, configured w env JwtSignature r -> cc_jwt_verify_key w k alg ck q ->
  key_provides r ClsJwtVerifyInternal k (PrimJwtVerifyInternal (jwt_public_key_verify (pe_rt env) alg ck (bind_verifier q))).
Proof.
  intros w env r k alg ck q Hc (Hw & Hs & f & t & msg & m & Hf & Hu & Hp & Ha & -> & Hl & Hq).
  destruct (proj2 (configured_jwt w env r) Hc) as (_ & C).
  assert (X : exists akid, In (f, t, akid) public_families /\
    In (t, akid) [("JwtEcdsaPublicKey", ecdsa_public_alg_kid); ("JwtRsaSsaPkcs1PublicKey", pkcs1_public_alg_kid);
         ("JwtRsaSsaPssPublicKey", pss_public_alg_kid)]).
  { destruct Hf as [H | [H | [H | []]]]; injection H as <- <-; eexists; (split; [| cbn; eauto]); cbn; eauto. }
  destruct X as (akid & Hfam & Hin). destruct (C _ _ Hin) as (n & m' & El & Em).
  rewrite Hl in El. apply some_inj in El. subst m'.
  unfold manager_of in Em. rewrite <- Hu in Em.
  eexists _, _. split; [exact Em |]. split; [reflexivity |].
  apply (jwt_verify_manager_spec _ _ _ _ _ _ _ _ Hfam). exists msg, alg, (bind_verifier q).
  split; [exact Hu |]. split; [exact Hp |]. split; [exact Ha |]. split; [| reflexivity].
  cbn [cc_primitive cc_key_manager]. unfold parse_or_empty. rewrite (key_data_round_trip _ Hw Hs), Hq. reflexivity.
Qed.

Lemma list_of_keys : forall P (R : key -> P -> Prop) l, (forall k, In k l -> exists p, R k p) ->
  exists lp, map fst lp = l /\ Forall (fun kp => R (fst kp) (snd kp)) lp.
Proof.
  intros P R l. induction l as [| k l IH]; intros H.
  - exists []. auto.
  - destruct (H k (or_introl eq_refl)) as (p & Hp). destruct IH as (lp & <- & F); [intros; apply H; right; assumption |].
    exists ((k, p) :: lp). auto.
Qed.
Lemma jwt_handle_ok : forall P (inj : P -> prim) r ks c (x : wrapper) (mk : pset -> prim),
  wrapper_of r c = Some x -> (forall p, class_of (inj p) = w_input_primitive_class x) ->
  (forall ps, w_wrap x ps = (_ <- validate_jwt_primitive_set ps ;; Ok (mk ps))) ->
  valid_keyset ks -> wf_keyset ks ->
  (forall k, In k (enabled_keys ks) -> raw_or_tink k /\
     exists p, key_provides r (w_input_primitive_class x) k (inj p)) ->
  exists ps, handle_primitive r (mk_handle ks) c = Ok (mk ps).
Proof.
  intros P inj r ks c x mk Hx Hcl Hwr Hv Hw Hk.
  destruct (list_of_keys P (fun k p => key_provides r (w_input_primitive_class x) k (inj p)) (enabled_keys ks)) as (l & El & F).
  { intros k H. apply Hk. exact H. }
  exists (pset_for (w_input_primitive_class x) (ks_primary_key_id ks) (map (lift inj) l)).
  apply (handle_primitive_ok _ _ _ _ _ Hx). cbn [kh_keyset]. split; [exact Hv |].
  exists (map (lift inj) l). rewrite map_fst_lift. split; [exact El |]. split.
  - rewrite Forall_forall in *. intros kp Hi. apply in_map_iff in Hi. destruct Hi as (kp' & <- & Hi).
    split; [apply (F _ Hi) |]. split; [apply Hcl |]. cbn [lift fst].
    assert (Hke : In (fst kp') (enabled_keys ks)) by (rewrite <- El; apply in_map; exact Hi).
    destruct (Hk _ Hke) as (Hrt & _). apply has_prefix_exists.
    apply filter_In in Hke. destruct Hke as (Hke & _). destruct (proj2 Hw _ Hke) as (_ & _ & Hid & _).
    unfold uint32_range in Hid. destruct Hrt as [-> | ->]; auto.
  - rewrite Hwr, (proj2 (validate_jwt_ok _ _ _ _ _)); [reflexivity |].
    rewrite Forall_forall. intros kp Hi. apply Hk. rewrite <- El. apply in_map. exact Hi.
Qed.

Lemma jwt_sign_handle_ok : forall w env r ks, configured w env JwtSignature r -> valid_keyset ks -> wf_keyset ks ->
  jwt_sign_keyset w ks -> exists s, handle_primitive r (mk_handle ks) ClsJwtSign = Ok (PrimJwtSign s).
Proof.
  intros w env r ks Hc Hv Hw Hk.
  destruct (jwt_handle_ok _ PrimJwtSignInternal r ks ClsJwtSign jwt_sign_wrapper
    (fun ps => PrimJwtSign (mk_jwt_sign (wrapped_jwt_sign ps)))) as (ps & E); auto.
  - apply (configured_wrapper _ _ _ _ _ _ Hc); [cbn; auto | reflexivity].
  - intros k Hi. destruct (Hk k Hi) as (Hr & alg & ck & q & Hq). split; [exact Hr |].
    eexists. apply (provides_sign _ _ _ _ _ _ _ Hc Hq).
  - eauto.
Qed.
Lemma jwt_verify_handle_ok : forall w env r ks, configured w env JwtSignature r -> valid_keyset ks -> wf_keyset ks ->
  jwt_verify_keyset w ks -> exists v, handle_primitive r (mk_handle ks) ClsJwtVerify = Ok (PrimJwtVerify v).
Proof.
  intros w env r ks Hc Hv Hw Hk.
  destruct (jwt_handle_ok _ PrimJwtVerifyInternal r ks ClsJwtVerify jwt_verify_wrapper
    (fun ps => PrimJwtVerify (mk_jwt_verify (wrapped_jwt_verify ps)))) as (ps & E); auto.
  - apply (configured_wrapper _ _ _ _ _ _ Hc); [cbn; auto | reflexivity].
  - intros k Hi. destruct (Hk k Hi) as (Hr & alg & ck & q & Hq). split; [exact Hr |].
    eexists. apply (provides_verify _ _ _ _ _ _ _ Hc Hq).
  - eauto.
Qed.

(** ** Imported keysets *)
Lemma jwk_import_wf : forall rt draws text h, small_text text ->
  to_public_keyset_handle rt draws text = Some (Ok h) ->
  wf_keyset (kh_keyset h) /\ proto_size (serialize_keyset (kh_keyset h)) /\ valid_keyset (kh_keyset h).
Proof.
  intros rt draws text h Hs H. unfold to_public_keyset_handle in H.
  destruct (jwk_set_keys rt text) as [vs | e] eqn:Ek; [| discriminate].
  apply jwk_set_keys_ok in Ek. destruct Ek as (doc & v0 & v & Ht & Hm & Hr & Hi).
  destruct (import_keys draws vs (mk_keyset 0 [])) as [[ks | e] |] eqn:Ei; try discriminate.
  apply some_inj in H.
  assert (D : (exists l, v = JList l) \/ forall l, v <> JList l).
  { destruct v; try (right; intros; discriminate). left. eauto. }
  destruct D as [(l & ->) | D].
  2: { exfalso. destruct (py_iter_not_keys _ _ _ D Hi _ _ Ei) as [E | (e & E)]; [| discriminate].
       apply ok_inj in E. subst ks. exact (empty_keyset_refused _ H). }
  cbn in Hi. apply ok_inj in Hi. subst vs. apply resolves_to_list in Hr. destruct Hr as (items & -> & Hr).
  apply (import_keys_inv _ _ Hr) in Ei. destruct Ei as (new & E1 & E2 & E3 & E4 & E5).
  cbn [ks_key ks_primary_key_id app map] in *. specialize (E3 (NoDup_nil _)).
  destruct ks as [pid keys]. cbn [ks_key ks_primary_key_id] in *. subst keys.
  assert (Hp : (pid < 2 ^ 32)%N).
  { rewrite E5. clear -E4. assert (0 < 2 ^ 32)%N by lia. destruct new as [| k new] using rev_ind; [exact H |].
    rewrite map_app. cbn [map]. rewrite last_app_one. apply Forall_app in E4. destruct E4 as [_ E4].
    inversion E4; subst. lia. }
  pose proof (jwk_keys_wf _ _ _ E2 E4 Hp) as Hw.
  pose proof (keyset_len pid _ _ E2) as Hlen. pose proof (member_list_size _ _ _ _ _ Ht Hm) as Hsz.
  assert (Hps : proto_size (serialize_keyset (mk_keyset pid new))).
  { unfold proto_size, small_text in *. change (2 ^ 23)%N with 8388608%N in Hs. change (2 ^ 31)%N with 2147483648%N. lia. }
  apply proto_parse_without_secret_spec in H. destruct H as (Hne & ks' & Hp' & _ & Hv & ->).
  rewrite (keyset_round_trip _ Hw Hps) in Hp'. apply some_inj in Hp'. subst ks'. cbn [kh_keyset]. auto.
Qed.
Lemma key_in_keyset_size : forall ks k d, In k (ks_key ks) -> k_key_data_opt k = Some d ->
  proto_size (serialize_keyset ks) -> proto_size (serialize_key_data d).
Proof.
  intros ks k d Hi Hd Hs. assert (Hk : proto_size (serialize_key k)).
  { apply (size_part 2 _ (fields_of_keyset ks)); [| exact Hs]. unfold fields_of_keyset. apply in_or_app. right.
    apply in_map_iff. exists k. auto. }
  apply (size_part 1 _ (fields_of_key k)); [| exact Hk]. unfold fields_of_key. rewrite Hd. apply in_or_app. left. left. reflexivity.
Qed.

(** ** Signing *)
Lemma within_int : forall v z, within v (JInt z) -> v = JInt z.
Proof. intros v z H. remember (JInt z) as w. destruct H; [auto | discriminate ..]. Qed.
Lemma within_one : forall v x, within v (JList [JStr x]) -> v = JList [JStr x] \/ v = JStr x.
Proof.
  intros v x H. remember (JList [JStr x]) as w eqn:E. destruct H as [| l i Hi H | l k i Hi H]; [auto | | discriminate].
  injection E as ->. destruct Hi as [<- | []]. apply within_str in H. auto.
Qed.
Lemma ordinary_int : forall rt z, python_digit_limit rt -> (Z.abs z < 10 ^ 640)%Z -> ordinary rt (JInt z).
Proof.
  intros rt z Hl Hz. split; [split |split].
  - intros f Hf. apply within_int in Hf. discriminate.
  - intros l Hf. apply within_int in Hf. discriminate.
  - intros y [Hy | (l & w & Hy & _)]; apply within_int in Hy; discriminate.
  - intros y Hy. apply within_int in Hy. injection Hy as ->. destruct Hl as [-> | Hl]; [auto |]. right.
    eapply Z.lt_le_trans; [exact Hz |]. apply Z.pow_le_mono_r; lia.
Qed.
Lemma ordinary_one : forall rt x, valid_unicode x -> ordinary rt (JList [JStr x]).
Proof.
  intros rt x H. split; [split |split].
  - intros f Hf. apply within_one in Hf. destruct Hf; discriminate.
  - intros l Hf. apply within_one in Hf. destruct Hf; discriminate.
  - intros y [Hy | (l & w & Hy & _)]; apply within_one in Hy; destruct Hy as [Hy | Hy]; try discriminate.
    injection Hy as ->. exact H.
  - intros y Hy. apply within_one in Hy. destruct Hy; discriminate.
Qed.

Definition sign_args (audience : pystr) (expiration : Z) : raw_jwt_args :=
  mk_raw_jwt_args None None None None (Some (JList [JStr audience])) None
    (Some (mk_datetime true expiration)) false None None [].

Lemma sign_claims : forall rt audience t, float_codec rt -> python_digit_limit rt -> valid_unicode audience ->
  (0 <= t <= max_timestamp * 1000000)%Z ->
  exists r, new_raw_jwt rt (sign_args audience t) = Ok r /\ signed_claims audience t r /\ well_typed r /\ ordinary_jwt rt r.
Proof.
  intros rt audience t Hc Hl Ha Ht.
  assert (Hd : distinct_names (sign_args audience t)) by constructor.
  assert (Ho : ordinary_claims rt (sign_args audience t)) by (intros n v []).
  destruct (new_raw_jwt_accepts rt (sign_args audience t) Hc Hd Ho) as (r & Er).
  { split; [discriminate |]. split; [left; reflexivity |]. split; [intros v [E | [E | []]]; discriminate |].
    split; [intros v E; discriminate |]. split.
    { intros v [E | [E | []]]; [discriminate |]. injection E as <-. right. exists [JStr audience].
      split; [reflexivity |]. split; [discriminate |]. constructor; [exists audience; reflexivity | constructor]. }
    split; [| intros n v []]. intros u [E | [E | [E | []]]]; try discriminate. injection E as <-. split; [reflexivity | exact Ht]. }
  exists r. split; [exact Er |].
  destruct (new_raw_jwt_claims rt _ r Hc Hd Ho Er) as (Hty & Hwt & Hcl & Htm).
  assert (Hrep : representable t).
  { unfold representable, max_timestamp in *. lia. }
  destruct (Htm "exp" (or_introl eq_refl)) as (_ & Hexp). destruct (Hexp Hrep) as (s & Hs & Hv).
  pose proof (Htm "nbf" (or_intror (or_introl eq_refl))) as Hnbf. pose proof (Htm "iat" (or_intror (or_intror (or_introl eq_refl)))) as Hiat.
  cbn [asked_time sign_args] in Hnbf, Hiat. change (lacks r "nbf") in Hnbf. change (lacks r "iat") in Hiat.
  cbn [dt_us] in Hs.
  assert (S : forall n v, In (n, v) (rj_payload r) <->
      (n = ulit "aud" /\ v = JList [JStr audience]) \/ (n = ulit "exp" /\ v = JInt s)).
  { intros n v. destruct (in_dec (list_eq_dec N.eq_dec) n (map ulit ["exp"; "nbf"; "iat"])) as [Hn | Hn].
    - destruct Hn as [<- | [<- | [<- | []]]]; split; intros H.
      + right. split; [reflexivity |]. exact (nodup_fst_fun _ _ _ _ _ _ (proj1 Hwt) H Hv).
      + destruct H as [(H & _) | (_ & ->)]; [vm_compute in H; discriminate | exact Hv].
      + destruct (Hnbf _ H).
      + destruct H as [(H & _) | (H & _)]; vm_compute in H; discriminate.
      + destruct (Hiat _ H).
      + destruct H as [(H & _) | (H & _)]; vm_compute in H; discriminate.
    - rewrite (Hcl n v Hn). split.
      + intros H. inversion H as [v' E _ | v' E _ | v' E | v' E | v' E | n' v' E]; subst; try discriminate; [| destruct E].
        injection E as <-. auto.
      + intros [(-> & ->) | (-> & _)]; [apply Ask_auds; reflexivity |]. exfalso. apply Hn. left. reflexivity. }
  split; [split; [exact Hty |]; exists s; split; [exact Hs | exact S] |]. split; [exact Hwt |]. split.
  - apply ordinary_dict; [exact (proj1 Hwt) |]. intros n v Hi. apply S in Hi.
    assert (U : forall x, In x ["aud"; "exp"] -> valid_unicode (ulit x)).
    { intros x Hx. cbn in Hx. destruct Hx as [<- | [<- | []]]; repeat (constructor; [vm_compute; split; [discriminate | intros [K1 K2]; auto] |]); constructor. }
    destruct Hi as [(-> & ->) | (-> & ->)].
    + split; [apply U; cbn; auto | apply ordinary_one; exact Ha].
    + split; [apply U; cbn; auto | apply ordinary_int; [exact Hl |]].
      destruct Hs as (Hs & _). destruct (Hs (proj1 Ht)) as (Hb & _).
      assert (0 <= t / 1000000 <= max_timestamp)%Z.
      { split; [apply Z.div_pos; lia | apply Z.div_le_upper_bound; lia]. }
      unfold max_timestamp in *. eapply Z.lt_le_trans with (m := (10 ^ 12)%Z); [| apply Z.pow_le_mono_r; lia].
      change (10 ^ 12)%Z with 1000000000000%Z. lia.
  - intros v E. rewrite Hty in E. discriminate.
Qed.

Lemma token_plain : forall token signed header payload tag, compact_parts token signed header payload tag ->
  ascii token /\ ~ In 13%N token /\ ~ In 10%N token.
Proof.
  intros token signed header payload tag (eh & ep & es & xh & xp & -> & _ & S1 & S2 & S3 & _).
  assert (A : forallb (fun c => (45 <=? Byte.to_N c) && (Byte.to_N c <? 128))%N (x2e :: url_alphabet) = true) by (vm_compute; reflexivity).
  rewrite forallb_forall in A.
  assert (K : forall x s, segment x s -> forall c, In c s -> In c (x2e :: url_alphabet)).
  { intros x s (digits & fill & Hd & -> & _) c Hc. apply in_map_iff in Hc. destruct Hc as (d & <- & Hin).
    right. apply nth_In. rewrite Forall_forall in Hd. specialize (Hd _ Hin).
    change (length url_alphabet) with 64. lia. }
  assert (T : forall c, In c (map Byte.to_N (eh ++ [x2e] ++ ep ++ [x2e] ++ es)) -> (45 <= c < 128)%N).
  { intros c Hc. apply in_map_iff in Hc. destruct Hc as (b & <- & Hb).
    assert (Hin : In b (x2e :: url_alphabet)).
    { rewrite !in_app_iff in Hb. destruct Hb as [Hb | [[<- | []] | [Hb | [[<- | []] | Hb]]]]; eauto; left; reflexivity. }
    apply A in Hin. apply andb_true_iff in Hin. destruct Hin as (H1 & H2). apply N.leb_le in H1. apply N.ltb_lt in H2. lia. }
  split; [apply Forall_forall; intros c Hc; apply T in Hc; lia |].
  split; intros Hc; apply T in Hc; lia.
Qed.

Theorem jwt_sign_cli_spec : forall w env pb o rnd now path audience out fs ks k alg ck q kid,
  cc_ready w JwtSignature -> float_codec (pe_rt env) -> python_digit_limit (pe_rt env) ->
  holds_keyset (pe_rt env) fs path ks -> jwt_sign_keyset w ks ->
  In k (enabled_keys ks) -> k_key_id k = ks_primary_key_id ks -> cc_jwt_sign_key w k alg ck q ->
  kid_of k kid -> ck = None \/ kid = None ->
  valid_unicode audience -> (0 <= now + 100000000 <= max_timestamp * 1000000)%Z -> may_write o out = true ->
  exists r signed header payload h,
    signed_claims audience (now + 100000000) r /\
    document (pe_rt env) (JDict h) header /\
    header_of alg (match ck with Some c => Some c | None => kid end) None h /\
    document (pe_rt env) (JDict (rj_payload r)) payload /\
    match cs_sign q rnd signed with
    | StOk tag => exists token, compact_parts token signed header payload tag /\
        writes_text (jwt_sign_cli w env pb o rnd now path audience out fs) out token fs
    | StErr _ => fails (jwt_sign_cli w env pb o rnd now path audience out fs) fs
    end.
Proof.
  intros w env pb o rnd now path audience out fs ks k alg ck q kid Hr Hc Hl Hh Hk Hi Hp Hq Hkid Hck Ha Ht Ho.
  destruct (jwt_setup w env fs Hr) as (r & Er & Hcf & W1 & _ & R1 & _).
  destruct (keyset_file_read w env pb fs _ ks Hh) as (t & Et & Ep).
  destruct Hh as (_ & _ & _ & _ & _ & _ & _ & _ & Hwf & Hv).
  destruct (jwt_sign_handle_ok w env r ks Hcf Hv Hwf Hk) as (s & Es).
  destruct (sign_claims (pe_rt env) audience (now + 100000000) Hc Hl Ha Ht) as (raw & Eraw & Hcl & Hwt & Hord).
  destruct (jwt_sign_handle_spec _ _ _ W1 Es) as (_ & l & Hm). specialize (Hm rnd raw). destruct Hm as (Hkw & _ & Hm & _).
  destruct (keys_with_in _ _ _ _ _ _ Hkw) as (Hin & Hen). destruct (Hen _ Hi) as (p & Hpl).
  destruct (Hm k p (conj Hpl Hp)) as (kid' & Hkid' & E).
  rewrite (kid_of_fun _ _ _ Hkid' Hkid) in E. clear kid' Hkid' Hm.
  pose proof (sign_key_of _ _ _ _ _ Hq) as Hsk.
  rewrite (sign_prim_of _ _ _ _ _ _ _ _ R1 Hsk (proj2 (Hin _ _ Hpl))) in E. cbn [jsi_sign jwt_public_key_sign] in E.
  destruct (encode_eq (pe_rt env) alg ck (sign (bind_signer q) rnd) raw kid Hc (sign_key_alg _ _ _ _ _ Hsk) Hord)
    as (signed & header & payload & h & H1 & H2 & H3 & H4 & H5); [| exact Hck |].
  { destruct Hq as (_ & _ & f & ty & message & m & _ & _ & Hmsg & _ & -> & _). apply parse_private_kid_valid in Hmsg.
    destruct (kid_of_valid _ _ Hkid) as (Vk & _).
    intros x [Hx | Hx]; [apply Hmsg; exact Hx | apply Vk; exact Hx]. }
  exists raw, signed, header, payload, h. split; [exact Hcl |]. split; [exact H3 |].
  rewrite (proj1 Hcl) in H4. split; [exact H4 |]. split; [exact H5 |].
  rewrite H2 in E. cbn [sign bind_signer] in E.
  unfold jwt_sign_cli. fold (sign_args audience).
  assert (Esh : shift now 100000000 = Ok (now + 100000000)%Z).
  { unfold shift. replace (datetime_in_range (now + 100000000)) with true; [reflexivity |].
    symmetry. unfold datetime_in_range, MIN_DATETIME_US, MAX_DATETIME_US. unfold max_timestamp in Ht. apply andb_true_iff. split; apply Z.leb_le; lia. }
  rewrite (next_ok _ _ _ _ r fs fs Er), (next_ok _ _ _ _ t fs fs Et), Ep. cbn [or_return_1]. rewrite Es. cbn [or_return_1].
  rewrite Esh. rewrite (next_ok _ _ _ _ (now + 100000000)%Z fs fs eq_refl).
  change (mk_raw_jwt_args None None None None (Some (JList [JStr audience])) None
         (Some (mk_datetime true (now + 100000000))) false None None []) with (sign_args audience (now + 100000000)).
  rewrite Eraw, (next_ok _ _ _ _ raw fs fs eq_refl). rewrite E.
  destruct (cs_sign q rnd signed) as [tag | st].
  - cbn [throw_not_ok use_tink_errors bind]. set (token := create_signed_compact signed tag).
    exists token. split; [apply H1 |].
    destruct (token_plain _ _ _ _ _ (H1 tag)) as (Hascii & _). destruct (ascii_encodes _ Hascii) as (x & Ex).
    exists x. split; [exact Ex |]. rewrite (next_ok _ _ _ _ token fs fs eq_refl).
    unfold put_text. fold token in Ex. rewrite Ex. rewrite write_run by exact Ho. split; [reflexivity | apply changed_store2].
  - destruct st; cbn; (split; [reflexivity | apply same_refl]).
Qed.

(** ** Publishing *)
Lemma kid_exists : forall k, raw_or_tink k -> (k_key_id k < 2 ^ 32)%N -> exists kid, kid_of k kid.
Proof.
  intros k Hr Hid. destruct (get_kid (Z.of_N (k_key_id k)) (k_output_prefix_type k)) as [kid | e] eqn:E.
  - exists kid. apply get_kid_ok. exact E.
  - exfalso. unfold get_kid in E. change (2 ^ 32)%N with 4294967296%N in Hid.
    destruct Hr as [Hr | Hr]; rewrite Hr in E; [discriminate |].
    destruct ((Z.of_N (k_key_id k) <? 0)%Z || (4294967296 <? Z.of_N (k_key_id k))%Z) eqn:B; [lia |].
    unfold pack_be32 in E. rewrite N2Z.id in E. rewrite (proj2 (N.ltb_lt _ _) Hid) in E. discriminate.
Qed.
Lemma exportable : forall w k alg ck q, cc_jwt_verify_key w k alg ck q -> raw_or_tink k -> (k_key_id k < 2 ^ 32)%N ->
  kd_key_material_type (k_key_data k) = ASYMMETRIC_PUBLIC -> exists doc m kid, exported_jwk k m kid doc.
Proof.
  intros w k alg ck q (_ & _ & f & t & msg & c & Hf & Hu & Hm & Ha & -> & _) Hr Hid Hmt.
  destruct (kid_exists k Hr Hid) as (tk & Htk).
  assert (X : exists kty first second private crv, In (f, kty, t, first, second, private) jwk_families /\
    (f = "ES" /\ (exists c, In (alg, c) jwk_curves /\ crv = [(ulit "crv", JStr c)]) \/ f <> "ES" /\ crv = [])).
  { destruct Hf as [H | [H | [H | []]]]; injection H as <- <-.
    - assert (C : exists c, In (alg, c) jwk_curves).
      { destruct Ha as [(_ & ->) | [(_ & ->) | (_ & ->)]]; eexists; cbn; eauto. }
      destruct C as (cv & Hcv). exists "EC", "x", "y", ["d"], [(ulit "crv", JStr cv)].
      split; [cbn; auto |]. left. split; [reflexivity |]. exists cv. auto.
    - exists "RSA", "n", "e", ["p"; "q"; "dp"; "dq"; "d"; "qi"], [].
      split; [cbn; auto |]. right. split; [discriminate | reflexivity].
    - exists "RSA", "n", "e", ["p"; "q"; "dp"; "dq"; "d"; "qi"], [].
      split; [cbn; auto |]. right. split; [discriminate | reflexivity]. }
  destruct X as (kty & first & second & private & crv & Hfam & Hcrv).
  eexists _, msg, _. split; [exact Hmt |]. split; [exact Hm |]. split; [exists tk; split; [exact Htk | reflexivity] |].
  exists f, kty, t, first, second, private, alg, (jwk_base64_encode (jpk_3 msg)), (jwk_base64_encode (jpk_4 msg)).
  split; [exact Hfam |]. split; [exact Hu |]. split; [exact Ha |].
  split; [apply encode_iff; reflexivity |]. split; [apply encode_iff; reflexivity |].
  exists crv. split; [exact Hcrv | reflexivity].
Qed.
Lemma forall2_exists : forall A B (R : A -> B -> Prop) l, (forall a, In a l -> exists b, R a b) -> exists l', Forall2 R l l'.
Proof.
  intros A B R l. induction l as [| a l IH]; intros H; [exists []; constructor |].
  destruct (H a (or_introl eq_refl)) as (b & Hb). destruct IH as (l' & Hl); [intros; apply H; right; assumption |].
  exists (b :: l'). constructor; assumption.
Qed.

Lemma jwk_text_graphic : forall rt h text, float_codec rt -> wf_keyset (kh_keyset h) ->
  proto_size (serialize_keyset (kh_keyset h)) -> from_public_keyset_handle rt h = Ok text -> graphic text.
Proof.
  intros rt h text Hc Hw Hsz H. unfold from_public_keyset_handle in H.
  apply bind_ok in H. destruct H as (x & Hx & H). apply bind_ok in H. destruct H as (ks & Hk & H).
  apply bind_ok in H. destruct H as (docs & Hd & H). apply convert_keys_iff in Hd.
  apply (dumps_graphic rt [44%N] [58%N] Hc) in H; [exact H | repeat constructor; lia | repeat constructor; lia |].
  assert (G : good_json rt (JDict [(ulit "keys", JList docs)])).
  { eapply set_good; [| exact Hd]. intros k d (m & kid & Hj). eapply exported_good; exact Hj. }
  destruct G as (_ & Hf & _ & Hs). split.
  - intros f Hw'. destruct (Hf f Hw').
  - intros y Hy. apply valid_unicode_code_points. apply Hs. exact Hy.
Qed.
Lemma graphic_plain : forall t, graphic t -> ascii t /\ universal_newlines t = t.
Proof.
  intros t H. split; [eapply Forall_impl; [| exact H]; cbn; intros; lia |].
  apply newlines_id. eapply Forall_impl; [| exact H]. cbn. intros; lia.
Qed.

Lemma jwk_cli_run : forall w env pb o pub out fs ks, cc_ready w JwtSignature -> float_codec (pe_rt env) ->
  holds_keyset (pe_rt env) fs pub ks -> proto_size (serialize_keyset ks) -> may_write o out = true ->
  (exists text, from_public_keyset_handle (pe_rt env) (mk_handle ks) = Ok text /\ graphic text /\ jwk_set_text (pe_rt env) ks text /\
     writes_text (jwt_generate_public_jwk_set w env pb o pub out fs) out text fs) \/
  ((has_secret ks \/ ~ exists text, jwk_set_text (pe_rt env) ks text) /\
   fails (jwt_generate_public_jwk_set w env pb o pub out fs) fs).
Proof.
  intros w env pb o pub out fs ks Hr Hc (x & t & v & Hx & Ht & Hv & Hn & Hs & Hw & Hok) Hsz Ho.
  destruct (jwt_setup w env fs Hr) as (r & Er & _).
  pose proof (read_text_ok pub x t fs Hx Ht) as Et.
  assert (Hrd : kr_read (json_keyset_reader (pe_rt env) pb (universal_newlines t)) = Ok ks).
  { eapply json_reader_reads; eauto. apply json_text_newlines. exact Hv. }
  unfold jwt_generate_public_jwk_set.
  rewrite (next_ok _ _ _ _ r fs fs Er), (next_ok _ _ _ _ _ fs fs Et).
  destruct (json_proto_parse_without_secret (pe_rt env) pb (universal_newlines t)) as [h | e] eqn:Ep.
  - apply json_parse_without_secret_spec in Ep. destruct Ep as (ks' & Ek & Hnsec & _ & ->).
    rewrite Hrd in Ek. apply ok_inj in Ek. subst ks'. cbn [or_return_1].
    destruct (jwk_export_spec (pe_rt env) (mk_handle ks) Hc Hw Hsz) as (X1 & X2 & _).
    destruct (from_public_keyset_handle (pe_rt env) (mk_handle ks)) as [text | e] eqn:Ex.
    + left. exists text. split; [reflexivity |].
      pose proof (jwk_text_graphic (pe_rt env) (mk_handle ks) text Hc Hw Hsz Ex) as Hg. split; [exact Hg |].
      destruct (X1 _ eq_refl) as (_ & docs & Hj & Hd). split; [exists docs; auto |].
      destruct (ascii_encodes _ (proj1 (graphic_plain _ Hg))) as (y & Ey). exists y. split; [exact Ey |].
      rewrite (next_ok _ _ _ _ text fs fs eq_refl). unfold put_text. rewrite Ey, write_run by exact Ho.
      split; [reflexivity | apply changed_store2].
    + right. split; [| split; [reflexivity | apply same_refl]]. right. intros (text & docs & _ & Hd).
      destruct (X2 Hnsec docs Hd) as (text' & E). discriminate.
  - right. split; [| apply err_fails]. left.
    destruct (assert_no_secret_cases ks) as [(_ & Hns) | (e' & _ & _ & Hsec)]; [| exact Hsec].
    exfalso. assert (E : json_proto_parse_without_secret (pe_rt env) pb (universal_newlines t) = Ok (mk_handle ks)).
    { apply json_parse_without_secret_spec. eauto. }
    rewrite E in Ep. discriminate.
Qed.
Theorem jwk_cli_spec : forall w env pb o pub out fs ks, cc_ready w JwtSignature -> float_codec (pe_rt env) ->
  holds_keyset (pe_rt env) fs pub ks -> proto_size (serialize_keyset ks) -> may_write o out = true ->
  (exists text, ~ has_secret ks /\ jwk_set_text (pe_rt env) ks text /\
     writes_text (jwt_generate_public_jwk_set w env pb o pub out fs) out text fs) \/
  ((has_secret ks \/ ~ exists text, jwk_set_text (pe_rt env) ks text) /\
   fails (jwt_generate_public_jwk_set w env pb o pub out fs) fs).
Proof.
  intros w env pb o pub out fs ks Hr Hc Hh Hsz Ho.
  destruct (jwk_cli_run w env pb o pub out fs ks Hr Hc Hh Hsz Ho) as [(text & E & _ & H1 & H2) | H]; [left | right; exact H].
  exists text. split; [| auto]. destruct Hh as (_ & _ & _ & _ & _ & _ & _ & _ & Hw & _).
  apply (proj1 (jwk_export_spec (pe_rt env) (mk_handle ks) Hc Hw Hsz) text E).
Qed.
Theorem jwk_cli_publishes : forall w env pb o pub out fs ks, cc_ready w JwtSignature -> float_codec (pe_rt env) ->
  holds_keyset (pe_rt env) fs pub ks -> proto_size (serialize_keyset ks) -> may_write o out = true ->
  jwt_verify_keyset w ks -> publishable ks ->
  exists text, jwk_set_text (pe_rt env) ks text /\
    writes_text (jwt_generate_public_jwk_set w env pb o pub out fs) out text fs.
Proof.
  intros w env pb o pub out fs ks Hr Hc Hh Hsz Ho Hk (Hns & Hmt).
  destruct (jwk_cli_run w env pb o pub out fs ks Hr Hc Hh Hsz Ho) as [(text & E & _ & H1 & H2) | (H & _)]; [eauto |].
  exfalso. destruct H as [H | H]; [contradiction |]. apply H.
  destruct Hh as (_ & _ & _ & _ & _ & _ & _ & _ & Hw & _).
  destruct (forall2_exists _ _ (fun k doc => exists m kid, exported_jwk k m kid doc) (enabled_keys ks)) as (docs & Hd).
  { intros k Hi. destruct (Hk k Hi) as (Hrt & alg & ck & q & Hq).
    assert (Hid : (k_key_id k < 2 ^ 32)%N).
    { apply filter_In in Hi. destruct Hi as (Hi & _). apply (proj2 Hw _ Hi). }
    exact (exportable _ _ _ _ _ Hq Hrt Hid (Hmt k Hi)). }
  destruct (proj1 (proj2 (jwk_export_spec (pe_rt env) (mk_handle ks) Hc Hw Hsz)) Hns docs Hd) as (text & Ex).
  destruct (proj1 (jwk_export_spec (pe_rt env) (mk_handle ks) Hc Hw Hsz) text Ex) as (_ & docs' & Hj & Hd').
  exists text, docs'. auto.
Qed.

(** ** Verifying *)
Lemma bind_verifier_ok : forall q tag data, verify (bind_verifier q) tag data = Ok tt <-> cv_verify q tag data = StOk tt.
Proof.
  intros q tag data. cbn. destruct (cv_verify q tag data) as [[] | []]; cbn; split; congruence.
Qed.
Lemma of_status_ok : forall A (s : st_or A) a, of_status s = Ok a <-> s = StOk a.
Proof. intros A [x | e] a; cbn; split; congruence. Qed.
Lemma accepted_same : forall rt alg tk ck f g clock v token r, (forall tag data, f tag data = Ok tt -> g tag data = Ok tt) ->
  S_Jwt.token_accepted rt alg tk ck f clock v token r -> S_Jwt.token_accepted rt alg tk ck g clock v token r.
Proof.
  intros rt alg tk ck f g clock v token r H (signed & header & payload & tag & h & H1 & H2 & H3).
  exists signed, header, payload, tag, h. split; [exact H1 |]. split; [apply H; exact H2 | exact H3].
Qed.
Lemma accepted_plain : forall rt alg tk ck f clock v token r, S_Jwt.token_accepted rt alg tk ck f clock v token r ->
  ~ In 13%N token /\ ~ In 10%N token.
Proof.
  intros rt alg tk ck f clock v token r (signed & header & payload & tag & h & H1 & _).
  destruct (token_plain _ _ _ _ _ H1) as (_ & H). exact H.
Qed.
Lemma newlines_no_lf : forall t, ~ In 10%N (universal_newlines t) -> universal_newlines t = t.
Proof.
  intros t H. apply newlines_id. induction t as [| c t IH]; [constructor |].
  cbn [universal_newlines] in H. destruct (N.eqb c 13) eqn:E; [destruct H; left; reflexivity |].
  constructor; [apply N.eqb_neq; exact E |]. apply IH. intros Hi. apply H. right. exact Hi.
Qed.
Lemma no_cr_id : forall t, ~ In 13%N t -> universal_newlines t = t.
Proof.
  intros t H. apply newlines_id. apply Forall_forall. intros c Hc ->. contradiction.
Qed.
Lemma ascii_length : forall t x, ascii t -> utf8_encode t = Some x -> length x = length t.
Proof.
  intros t x H. revert x. induction H as [| c t Hc H IH]; intros x E; cbn [utf8_encode] in E; [injection E as <-; reflexivity |].
  destruct (utf8_encode_char c) as [y |] eqn:Ec; [| discriminate]. destruct (utf8_encode t) as [z |]; [| discriminate].
  injection E as <-. rewrite app_length, (IH z eq_refl). cbn [length]. f_equal.
  unfold utf8_encode_char in Ec. destruct (negb (is_scalar c)); [discriminate |].
  cbn in Hc. destruct (N.ltb_spec c 128) as [L | L]; [| lia]. injection Ec as <-. reflexivity.
Qed.

Theorem jwt_verify_cli_spec : forall w env pb o pub out fs0 ks draws clock jwk audience token fs x run,
  cc_ready w JwtSignature -> float_codec (pe_rt env) -> float_times_ok (pe_rt env) -> representable clock ->
  holds_keyset (pe_rt env) fs0 pub ks -> proto_size (serialize_keyset ks) -> may_write o out = true ->
  jwt_verify_keyset w ks -> jwk_verifies_the_same w ks ->
  fst (jwt_generate_public_jwk_set w env pb o pub out fs0) = Ok 0%Z ->
  copied (jwt_generate_public_jwk_set w env pb o pub out fs0) out fs jwk ->
  content fs jwk = Some x -> (N.of_nat (length x) < 2 ^ 23)%N ->
  jwt_verify_cli w env draws clock jwk audience token fs = Some run ->
  same_files fs (snd run) /\
  (fst run = Ok 0%Z <-> exists t, holds_text fs token t /\ published_key_accepts (pe_rt env) w ks clock audience t).
Proof.
  intros w env pb o pub out fs0 ks draws clock jwk audience token fs x run Hr Hc Hft Hclk Hh Hsz Ho Hk Hsame H0 Hcp Hx Hxs Hrun.
  split; [exact (proj1 (jwt_verify_only_reads _ _ _ _ _ _ _ _ _ Hrun)) |].
  destruct (jwk_cli_run w env pb o pub out fs0 ks Hr Hc Hh Hsz Ho) as [(text & Ex & Hg & _ & (x' & Ex' & _ & Hch & _)) | (_ & Hf & _)].
  2:{ rewrite H0 in Hf. discriminate. }
  unfold copied in Hcp. rewrite Hch, Hx in Hcp. apply some_inj in Hcp. subst x'.
  destruct (graphic_plain _ Hg) as (Hasc & Hnl).
  assert (Hst : small_text text) by (unfold small_text; rewrite <- (ascii_length _ _ Hasc Ex'); exact Hxs).
  destruct Hh as (_ & _ & _ & _ & _ & _ & _ & _ & Hw & Hok).
  destruct (jwt_setup w env fs Hr) as (r & Er & Hcf & _ & Hwr & _ & Hreg).
  pose proof (read_text_ok jwk x text fs Hx Ex') as Et. rewrite Hnl in Et.
  unfold jwt_verify_cli in Hrun.
  rewrite (next_ok _ _ _ _ r fs fs Er), (next_ok _ _ _ _ text fs fs Et) in Hrun. cbn [ret] in Hrun.
  destruct (to_public_keyset_handle (pe_rt env) draws text) as [[h' | e] |] eqn:Ei; [| | discriminate]; apply some_inj in Hrun; subst run.
  2:{ split.
      - intros E. unfold or_return_1 in E. destruct (is_tink_error e); cbn in E; discriminate.
      - intros (t & _ & k & alg & ck & q & tk & rj & Hin & _).
        assert (Hsome : exists k, In k (ks_key (kh_keyset (mk_handle ks))) /\ k_status k = ENABLED).
        { exists k. apply filter_In in Hin. destruct Hin as (Hin & Hen). split; [exact Hin | apply Z.eqb_eq; exact Hen]. }
        destruct (jwk_round_trip (pe_rt env) (mk_handle ks) text Hc Hw Hsz Ex Hst Hsome) as (R & _).
        destruct (R _ _ Ei) as (h' & E & _). discriminate. }
  destruct (jwt_verify_handle_ok w env r ks Hcf Hok Hw Hk) as (vf & Evf).
  destruct (jwk_import_wf _ _ _ _ Hst Ei) as (Hw' & Hsz' & Hok').
  destruct h' as [ks']. cbn [kh_keyset] in *.
  assert (Hkd : forall k, In k (enabled_keys ks') ->
    wf_key_data (k_key_data k) /\ proto_size (serialize_key_data (k_key_data k))).
  { intros k Hin. apply filter_In in Hin. destruct Hin as (Hin & Hen). apply Z.eqb_eq in Hen. destruct Hok' as (_ & Hu & _).
    assert (Hus : usable_key k) by (apply Hu; [exact Hin | rewrite Hen; discriminate]).
    destruct Hus as ((d & Ed) & _). unfold k_key_data. rewrite Ed.
    split; [apply (proj2 Hw' k Hin); exact Ed |]. eapply key_in_keyset_size; eauto. }
  assert (Hall : Forall2 imported_as (enabled_keys ks) (ks_key ks')).
  { destruct (enabled_keys ks) as [| k0 l0] eqn:E0.
    - destruct (jwk_round_trip_none (pe_rt env) (mk_handle ks) text draws Hc Hw Hsz Ex) as (e & E & _); [| congruence].
      intros (k & Hin & Hen). assert (Hi : In k (enabled_keys ks)) by (apply filter_In; split; [exact Hin | apply Z.eqb_eq; exact Hen]).
      rewrite E0 in Hi. destruct Hi.
    - assert (Hsome : exists k, In k (ks_key (kh_keyset (mk_handle ks))) /\ k_status k = ENABLED).
      { exists k0. assert (Hin : In k0 (enabled_keys ks)) by (rewrite E0; left; reflexivity).
        apply filter_In in Hin. destruct Hin as (Hin & Hen). split; [exact Hin | apply Z.eqb_eq; exact Hen]. }
      destruct (jwk_round_trip (pe_rt env) (mk_handle ks) text Hc Hw Hsz Ex Hst Hsome) as (R & _).
      destruct (R _ _ Ei) as (h' & E & A & _). apply ok_inj in E. subst h'.
      change (Forall2 imported_as (enabled_keys ks) (ks_key ks')) in A. rewrite E0 in A. exact A. }
  assert (Hk' : jwt_verify_keyset w ks').
  { intros k' Hin'. destruct (Hkd k' Hin') as (Hwd & Hsd). pose proof Hin' as Hin.
    apply filter_In in Hin. destruct Hin as (Hin & _). destruct (Forall2_in_r _ _ _ _ _ _ Hall Hin) as (k & Hik & Himp).
    destruct (Hk k Hik) as (_ & alg & ck & q & Hq).
    destruct (Hsame k k' alg ck q Hik Himp Hwd Hsd Hq) as (ck' & q' & Hq' & _). split; [| eauto].
    destruct Himp as (m & kid & type & _ & _ & _ & (_ & Hraw & _)). left. exact Hraw. }
  destruct (jwt_verify_handle_ok w env r ks' Hcf Hok' Hw' Hk') as (vf' & Evf').
  assert (Hiff : forall tok rj, jv_verify vf' clock tok (expects audience) = Ok (mk_verified_jwt rj) <->
    exists k alg ck cc tink_kid, In k (enabled_keys ks) /\ jwt_verify_key (verifiers_of w) k alg ck cc /\ kid_of k tink_kid /\
      S_Jwt.token_accepted (pe_rt env) alg None (match tink_kid with Some t => Some t | None => ck end) (verify cc) clock (expects audience) tok rj).
  { intros tok rj.
    refine (jwk_verifier_iff (pe_rt env) (verifiers_of w) r (mk_handle ks) vf text draws (mk_handle ks') vf' Hwr Hreg Hc Hw Hsz Ex Hst
      Ei Evf Evf' _ _ clock tok (expects audience) rj Hft _ _).
    - intros k alg ck cc tag signed Hin Hv. cbn [kh_keyset] in Hin. destruct (Hkd k Hin) as (Hwd & Hsd).
      destruct (key_of_verify _ _ _ _ _ Hwd Hsd Hv) as (q & _ & ->). cbn.
      destruct (cv_verify q tag signed) as [[] | []]; cbn; auto.
    - intros k k' alg ck ck' cc cc' Hin Hin' Himp Hv Hv' tag signed. cbn [kh_keyset] in Hin, Hin'.
      destruct (Hkd k' Hin') as (Hwd & Hsd). destruct (Hk k Hin) as (_ & alg0 & ck0 & q0 & Hq0).
      assert (Hv0 := Hq0). destruct Hv0 as (Hwk & Hsk & _).
      destruct (key_of_verify _ _ _ _ _ Hwk Hsk Hv) as (q & Hq & ->).
      destruct (key_of_verify _ _ _ _ _ Hwd Hsd Hv') as (q' & Hq' & ->).
      destruct (Hsame k k' alg ck q Hin Himp Hwd Hsd Hq) as (ck1 & q1 & Hq1 & S).
      destruct (cc_verify_fun _ _ _ _ _ _ _ _ Hq1 Hq') as (_ & _ & ->).
      rewrite !bind_verifier_ok. apply S.
    - cbn. rewrite Z.sub_0_r. exact Hclk.
    - cbn. rewrite Z.add_0_r. exact Hclk. }
  cbn [or_return_1]. rewrite Evf'. cbn [or_return_1].
  assert (Hpub : forall tok rj, jv_verify vf' clock tok (expects audience) = Ok (mk_verified_jwt rj) ->
    published_key_accepts (pe_rt env) w ks clock audience tok /\ ~ In 10%N tok /\ exists u, expiration (pe_rt env) rj = Ok u).
  { intros tok rj E. apply Hiff in E. destruct E as (k & alg & ck & cc & tk & Hin & Hv & Htk & Hacc).
    destruct (Hk k Hin) as (_ & alg0 & ck0 & q0 & (Hwk & Hsk & _)).
    destruct (key_of_verify _ _ _ _ _ Hwk Hsk Hv) as (q & Hq & ->).
    split; [| split].
    - exists k, alg, ck, q, tk, rj. split; [exact Hin |]. split; [exact Hq |]. split; [exact Htk |].
      eapply accepted_same; [| exact Hacc]. intros tag data Ev. apply bind_verifier_ok in Ev. apply of_status_ok. exact Ev.
    - exact (proj2 (accepted_plain _ _ _ _ _ _ _ _ _ Hacc)).
    - destruct Hacc as (signed & header & payload & tag & hd & _ & _ & _ & _ & _ & _ & Hwt & Hex & _).
      destruct Hex as [(_ & Hex) | (v & us & Hv1 & Hv2 & _)]; [discriminate |].
      exists (mk_datetime true us). destruct (accessors_spec (pe_rt env) rj Hwt) as (_ & A & _).
      destruct (A "exp" has_expiration expiration (or_introl eq_refl)) as (_ & _ & A3 & _).
      apply (A3 Hft). exists v, us. auto. }
  unfold holds_text. destruct (content fs token) as [y |] eqn:Ey.
  2:{ split.
      - intros E. unfold next, read_text, read_bytes in E. unfold next in E. rewrite Ey in E. cbn in E. discriminate.
      - intros (t & (y & E & _) & _). discriminate. }
  destruct (utf8_decode y) as [t |] eqn:Ed.
  2:{ split.
      - intros E. unfold next, read_text, read_bytes in E. unfold next in E. rewrite Ey, Ed in E. cbn in E. discriminate.
      - intros (t & (y' & E & Et') & _). injection E as <-. apply utf8_decode_encode in Et'. congruence. }
  pose proof (utf8_encode_decode _ _ Ed) as Ee.
  rewrite (next_ok _ _ _ _ _ fs fs (read_text_ok token y t fs Ey Ee)).
  assert (En : new_validator None None (Some audience) false false false false false None None = Ok (expects audience)).
  { unfold new_validator. cbn [nonempty andb]. rewrite andb_false_r. reflexivity. }
  rewrite (next_ok _ _ _ _ (expects audience) fs fs) by (unfold attempt; rewrite En; reflexivity).
  split.
  - intros E. destruct (jv_verify vf' clock (universal_newlines t) (expects audience)) as [[rj] | e] eqn:Ev.
    + destruct (Hpub _ _ Ev) as (Hp & Hlf & _). rewrite (newlines_no_lf _ Hlf) in Hp. exists t. split; [exists y; auto | exact Hp].
    + cbn [bind or_return_1] in E. destruct (is_tink_error e); discriminate.
  - intros (t' & (y' & Ey' & Et') & Hp). injection Ey' as <-. apply utf8_decode_encode in Et'.
    rewrite Ed in Et'. apply some_inj in Et'. subst t'.
    destruct Hp as (k & alg & ck & q & tk & rj & Hin & Hq & Htk & Hacc).
    rewrite (no_cr_id _ (proj1 (accepted_plain _ _ _ _ _ _ _ _ _ Hacc))).
    assert (Ev : jv_verify vf' clock t (expects audience) = Ok (mk_verified_jwt rj)).
    { apply Hiff. exists k, alg, ck, (bind_verifier q), tk. split; [exact Hin |]. split; [apply verify_key_of; exact Hq |].
      split; [exact Htk |]. eapply accepted_same; [| exact Hacc]. intros tag data H. apply of_status_ok in H.
      apply bind_verifier_ok. exact H. }
    rewrite Ev. destruct (Hpub _ _ Ev) as (_ & _ & u & Eu). cbn [bind vj_raw_jwt]. rewrite Eu. reflexivity.
Qed.

(** ** Signing, publishing, verifying *)
Lemma signed_well_typed : forall audience t r, (0 <= t <= max_timestamp * 1000000)%Z -> NoDup (map fst (rj_payload r)) ->
  signed_claims audience t r -> well_typed r.
Proof.
  intros audience t r Ht Hn (_ & s & Hs & Hm). split; [exact Hn |].
  split; [| split].
  - intros n v Hi Hv. exfalso. apply Hm in Hv.
    destruct Hi as [<- | [<- | [<- | []]]]; destruct Hv as [(E & _) | (E & _)]; discriminate.
  - intros n v Hi Hv. apply Hm in Hv. destruct Hv as [(E & ->) | (E & ->)].
    + exfalso. destruct Hi as [<- | [<- | [<- | []]]]; discriminate.
    + cbn. destruct Hs as (Hs & _). destruct (Hs ltac:(lia)) as (S1 & _ & S3). unfold max_timestamp in *.
      pose proof (Z.div_pos t 1000000 ltac:(lia) ltac:(lia)). split; [lia |].
      destruct (Z.le_gt_cases (t mod 1000000) 999984) as [L | L].
      * rewrite (S3 L). apply Z.div_le_upper_bound; lia.
      * assert (t / 1000000 < 253402300799)%Z; [| lia]. apply Z.div_lt_upper_bound; [lia |].
        destruct (Z.eq_dec t (253402300799 * 1000000)) as [-> | N]; [| lia].
        rewrite Z.mod_mul in L by lia. lia.
  - intros v Hv. apply Hm in Hv. destruct Hv as [(_ & ->) | (E & _)]; [| discriminate].
    right. eexists. split; [reflexivity |]. split; [discriminate |]. repeat constructor. eexists. reflexivity.
Qed.
Lemma signed_accepts : forall rt audience t r clock, (0 <= t)%Z -> (clock < t / 1000000 * 1000000)%Z ->
  signed_claims audience t r -> accepts rt clock (expects audience) r.
Proof.
  intros rt audience t r clock Ht Hclk (Hth & s & (Hs & _) & Hm). destruct (Hs Ht) as (S1 & _).
  split; [right; exists (JInt s), (s * 1000000)%Z; split; [apply Hm; right; auto |]; split; [reflexivity | cbn; lia] |].
  split; [left; intros v Hv; apply Hm in Hv; destruct Hv as [(E & _) | (E & _)]; discriminate |].
  split; [intros E; discriminate |]. split; [left; exact Hth |].
  split.
  - exists None. split; [| left; reflexivity]. intros v. split; [| discriminate].
    intros Hv. apply Hm in Hv. destruct Hv as [(E & _) | (E & _)]; discriminate.
  - right. eexists. split; [apply Hm; left; auto | left; reflexivity].
Qed.

Theorem jwt_sign_then_verify : forall w env pb o rnd now priv audience out1 fs1 ks1 k1 alg ck q1 kid pub out2 fs2 ks2 k2 q2
    draws clock jwk token fs x run,
  cc_ready w JwtSignature -> float_codec (pe_rt env) -> python_digit_limit (pe_rt env) -> float_times_ok (pe_rt env) ->
  (* the signing run *)
  holds_keyset (pe_rt env) fs1 priv ks1 -> jwt_sign_keyset w ks1 ->
  In k1 (enabled_keys ks1) -> k_key_id k1 = ks_primary_key_id ks1 -> cc_jwt_sign_key w k1 alg ck q1 ->
  kid_of k1 kid -> ck = None \/ kid = None ->
  valid_unicode audience -> (0 <= now + 100000000 <= max_timestamp * 1000000)%Z -> may_write o out1 = true ->
  fst (jwt_sign_cli w env pb o rnd now priv audience out1 fs1) = Ok 0%Z ->
  (* the publishing run *)
  holds_keyset (pe_rt env) fs2 pub ks2 -> proto_size (serialize_keyset ks2) -> may_write o out2 = true ->
  jwt_verify_keyset w ks2 -> jwk_verifies_the_same w ks2 ->
  fst (jwt_generate_public_jwk_set w env pb o pub out2 fs2) = Ok 0%Z ->
  (* the public key of the signing key is in the published keyset *)
  In k2 (enabled_keys ks2) -> cc_jwt_verify_key w k2 alg ck q2 -> kid_of k2 kid ->
  (forall rnd data tag, cs_sign q1 rnd data = StOk tag -> cv_verify q2 tag data = StOk tt) ->
  (* the verifying run, with the two files, before the expiration *)
  copied (jwt_sign_cli w env pb o rnd now priv audience out1 fs1) out1 fs token ->
  copied (jwt_generate_public_jwk_set w env pb o pub out2 fs2) out2 fs jwk ->
  content fs jwk = Some x -> (N.of_nat (length x) < 2 ^ 23)%N ->
  representable clock -> (clock < (now + 100000000) / 1000000 * 1000000)%Z ->
  jwt_verify_cli w env draws clock jwk audience token fs = Some run -> fst run = Ok 0%Z.
Proof.
  intros w env pb o rnd now priv audience out1 fs1 ks1 k1 alg ck q1 kid pub out2 fs2 ks2 k2 q2 draws clock jwk token fs x run
    Hr Hc Hl Hft Hh1 Hk1 Hi1 Hp1 Hq1 Hkid Hex Ha Hnow Ho1 E1 Hh2 Hsz Ho2 Hk2 Hsame E2 Hi2 Hq2 Hkid2 Hcor C1 C2 Hx Hxs Hclk Hexp Hrun.
  destruct (jwt_verify_cli_spec w env pb o pub out2 fs2 ks2 draws clock jwk audience token fs x run
    Hr Hc Hft Hclk Hh2 Hsz Ho2 Hk2 Hsame E2 C2 Hx Hxs Hrun) as (_ & V). apply V. clear V Hrun.
  destruct (jwt_sign_cli_spec w env pb o rnd now priv audience out1 fs1 ks1 k1 alg ck q1 kid
    Hr Hc Hl Hh1 Hk1 Hi1 Hp1 Hq1 Hkid Hex Ha Hnow Ho1) as (r & signed & header & payload & h & Hsc & Hdh & Hho & Hdp & S).
  destruct (cs_sign q1 rnd signed) as [tag | e] eqn:Es.
  2:{ destruct S as (S & _). rewrite E1 in S. discriminate. }
  destruct S as (t & Hcp & (y & Ey & _ & Hcy & _)).
  exists t. split.
  { exists y. unfold copied in C1. rewrite C1. auto. }
  exists k2, alg, ck, q2, kid, r. split; [exact Hi2 |]. split; [exact Hq2 |]. split; [exact Hkid2 |].
  exists signed, header, payload, tag, h. split; [exact Hcp |].
  split; [rewrite (Hcor _ _ _ Es); reflexivity |]. split; [exact Hdh |].
  split.
  { apply (header_of_ok alg (match kid with Some c => Some c | None => ck end) None None h);
      [| right; reflexivity | discriminate |].
    - destruct Hq2 as (_ & _ & f & ty & m & c & Hf & _ & _ & Hal & _).
      destruct Hf as [H | [H | [H | []]]]; injection H as <- <-;
        destruct Hal as [(_ & ->) | [(_ & ->) | (_ & ->)]]; vm_compute; auto 20.
    - destruct Hex as [-> | ->]; [destruct kid; exact Hho | destruct ck; exact Hho]. }
  split.
  { right. destruct Hsc as (Hth & _). split; [exact Hth |]. intros v Hv. apply Hho in Hv.
    destruct Hv as [(E & _) | [(E & _) | (_ & E & _)]]; discriminate. }
  split; [exact Hdp |]. pose proof (document_nodup _ _ _ Hdp) as Hnd.
  split; [eapply signed_well_typed; eauto |]. eapply signed_accepts; eauto. lia.
Qed.

(** The ids of the imported keys are drawn anew; for some draws the program ends. *)
Theorem jwt_verify_cli_ends : forall w env pb o pub out fs0 ks clock jwk audience token fs x ids,
  cc_ready w JwtSignature -> float_codec (pe_rt env) ->
  holds_keyset (pe_rt env) fs0 pub ks -> proto_size (serialize_keyset ks) -> may_write o out = true ->
  fst (jwt_generate_public_jwk_set w env pb o pub out fs0) = Ok 0%Z ->
  copied (jwt_generate_public_jwk_set w env pb o pub out fs0) out fs jwk ->
  content fs jwk = Some x -> (N.of_nat (length x) < 2 ^ 23)%N ->
  enabled_keys ks <> [] -> length ids = length (enabled_keys ks) -> NoDup ids ->
  Forall (fun id => (1 <= id <= 2147483647)%N) ids ->
  exists draws run, jwt_verify_cli w env draws clock jwk audience token fs = Some run.
Proof.
  intros w env pb o pub out fs0 ks clock jwk audience token fs x ids Hr Hc Hh Hsz Ho H0 Hcp Hx Hxs Hne Hlen Hnd Hids.
  destruct (jwk_cli_run w env pb o pub out fs0 ks Hr Hc Hh Hsz Ho) as [(text & Ex & Hg & _ & (x' & Ex' & _ & Hch & _)) | (_ & Hf & _)].
  2:{ rewrite H0 in Hf. discriminate. }
  unfold copied in Hcp. rewrite Hch, Hx in Hcp. apply some_inj in Hcp. subst x'.
  destruct (graphic_plain _ Hg) as (Hasc & Hnl).
  assert (Hst : small_text text) by (unfold small_text; rewrite <- (ascii_length _ _ Hasc Ex'); exact Hxs).
  destruct Hh as (_ & _ & _ & _ & _ & _ & _ & _ & Hw & Hok).
  assert (Hsome : exists k, In k (ks_key (kh_keyset (mk_handle ks))) /\ k_status k = ENABLED).
  { destruct (enabled_keys ks) as [| k l] eqn:E; [contradiction |]. exists k.
    assert (Hin : In k (enabled_keys ks)) by (rewrite E; left; reflexivity).
    apply filter_In in Hin. destruct Hin as (Hin & Hen). split; [exact Hin | apply Z.eqb_eq; exact Hen]. }
  destruct (jwk_round_trip (pe_rt env) (mk_handle ks) text Hc Hw Hsz Ex Hst Hsome) as (_ & R).
  destruct (R ids Hlen Hnd Hids) as (draws & h' & Ei & _). exists draws.
  destruct (jwt_setup w env fs Hr) as (r & Er & _).
  pose proof (read_text_ok jwk x text fs Hx Ex') as Et. rewrite Hnl in Et.
  unfold jwt_verify_cli. rewrite (next_ok _ _ _ _ r fs fs Er), (next_ok _ _ _ _ text fs fs Et). cbn [ret]. rewrite Ei.
  eexists. reflexivity.
Qed.
