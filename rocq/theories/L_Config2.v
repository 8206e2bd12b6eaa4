(** Proofs about the managers the register functions register, and about keyset handles
    that use them. *)
From Coq Require Import Strings.Byte Strings.String List NArith ZArith Bool Lia.
From Verif Require Import M_Base M_Proto M_Wire M_Prims M_PrimitiveSet M_Registry M_KeysetHandle M_Wrappers M_Kms
  M_Json M_JwtWrappers M_JwtKeys M_StreamTypes M_CcStream M_Stream M_CcManagers
  S_Keyset S_Wrappers S_Registry S_Wire S_Config L_Base L_Registry L_Wire L_PrimitiveSet L_Keyset L_Wrappers L_Wrappers2 L_Wrappers3
  L_Handle L_Config.
Import ListNotations.
Open Scope string_scope.
Open Scope list_scope.

Lemma key_types_signature : forall p name c b, In (name, c, b) (key_types p) ->
  In (type_url name) (type_urls p) /\ signature (type_url name) = Some (pytype_of c b, c).
Proof.
  intros p name c b H. split; [exact (proj1 (table_signature p name c b (or_introl H))) |].
  assert (T : forallb (fun x => match signature (type_url (fst (fst x))) with
    | Some (t, c') => (pclass_eqb c' (snd (fst x)) && N.eqb t (pytype_of (snd (fst x)) (snd x)))%bool | None => false end)
    (key_types p) = true) by (destruct p; vm_compute; reflexivity).
  rewrite forallb_forall in T. specialize (T _ H). cbn [fst snd] in T.
  destruct (signature (type_url name)) as [[t c'] |]; [| discriminate].
  apply andb_true_iff in T. destruct T as [H1 H2]. apply pclass_eqb_eq in H1. apply N.eqb_eq in H2.
  subst. reflexivity.
Qed.

Lemma configured_manager : forall w env p r u, configured w env p r -> In u (type_urls p) ->
  exists km, manager_of r u = Some (km, true) /\ built w env u km.
Proof.
  intros w env p r u (l & xs & c & (E & R & U) & Hc & Hs) Hu.
  destruct (setup_run_spec _ _ _ _ _ _ _ (inv_empty w env) E R U) as ([I1 I2] & (A1 & A2 & A3 & A4 & A5 & A6) & HF).
  assert (Hm : manager_of r u <> None) by (apply A3; exists c; split; [exact Hc | exists p; auto]).
  destruct (manager_of r u) as [[km b] |] eqn:Em; [| congruence].
  destruct (I1 _ _ _ Em (signature_in _ _ Hu)) as [-> Hb]. eauto.
Qed.
Lemma reached_manager : forall w env l r xs u km b, reached w env l r xs -> signature u <> None ->
  manager_of r u = Some (km, b) -> b = true /\ built w env u km.
Proof.
  intros w env l r xs u km b (E & R & U) Hs Hm.
  destruct (setup_run_spec _ _ _ _ _ _ _ (inv_empty w env) E R U) as ([I1 I2] & _). eauto.
Qed.
Lemma configured_wrapper : forall w env p r c x, configured w env p r -> In c (map fst (primitives p)) ->
  table_wrapper c = Some x -> wrapper_of r c = Some x.
Proof.
  intros w env p r c x (l & xs & c0 & (E & R & U) & Hc & Hs) Hu Hx.
  destruct (setup_run_spec _ _ _ _ _ _ _ (inv_empty w env) E R U) as ([I1 I2] & (A1 & A2 & A3 & A4 & A5 & A6) & HF).
  assert (Hm : wrapper_of r c <> None) by (apply A4; exists c0; split; [exact Hc | exists p; auto]).
  destruct (wrapper_of r c) as [y |] eqn:Ey; [| congruence]. rewrite (I2 _ _ _ Ey Hx). reflexivity.
Qed.

(** ** Answers *)
Lemma use_tink_answers : forall A (s : st_or A), answers (use_tink_errors (throw_not_ok s)) s.
Proof.
  intros A [a | [| m |]]; cbn; [reflexivity | | |]; eexists; (split; [reflexivity | reflexivity]).
Qed.
Lemma use_tink_answers_map : forall A B (f : A -> B) (s : st_or A),
  match s with
  | StOk a => use_tink_errors (x <- throw_not_ok s ;; Ok (f x)) = Ok (f a)
  | StErr _ => raises_tink (use_tink_errors (x <- throw_not_ok s ;; Ok (f x)))
  end.
Proof.
  intros A B f [a | [| m |]]; cbn; [reflexivity | | |]; eexists; (split; [reflexivity | reflexivity]).
Qed.

Lemma cc_new_key_answers : forall P Q (bound : P -> Q) m rnd t,
  cl_key_type m = kt_type_url t -> wf_key_template t -> proto_size (serialize_key_template t) ->
  (forall d, cl_new_key_data m rnd (kt_value t) = StOk d -> wf_key_data d /\ proto_size (serialize_key_data d)) ->
  answers (cc_new_key (cc_key_manager bound m) rnd t) (cl_new_key_data m rnd (kt_value t)).
Proof.
  intros P Q bound m rnd t Hk Hw Hs Hd. unfold cc_new_key. cbn [cc_new_key_data cc_key_manager].
  unfold parse_or_empty. rewrite (key_template_round_trip t Hw Hs). rewrite Hk, str_eqb_refl. cbn [negb].
  destruct (cl_new_key_data m rnd (kt_value t)) as [d | [| s |]] eqn:Ed; cbn.
  - destruct (Hd d eq_refl) as [H1 H2]. unfold key_data_from_string. rewrite (key_data_round_trip d H1 H2). reflexivity.
  - eexists. split; reflexivity.
  - eexists. split; reflexivity.
  - eexists. split; reflexivity.
Qed.
Lemma cc_new_key_wrong_type : forall P Q (bound : P -> Q) m rnd t,
  cl_key_type m <> kt_type_url t -> wf_key_template t -> proto_size (serialize_key_template t) ->
  raises_tink (cc_new_key (cc_key_manager bound m) rnd t).
Proof.
  intros P Q bound m rnd t Hk Hw Hs. unfold cc_new_key. cbn [cc_new_key_data cc_key_manager].
  unfold parse_or_empty. rewrite (key_template_round_trip t Hw Hs).
  destruct (str_eqb (cl_key_type m) (kt_type_url t)) eqn:E; [apply str_eqb_spec in E; contradiction |].
  eexists. split; reflexivity.
Qed.
Lemma cc_public_key_answers : forall P Q (bound : P -> Q) m f d,
  cl_public_key_data m = Some f -> wf_key_data d -> proto_size (serialize_key_data d) ->
  (forall d', f (kd_value d) = StOk d' -> wf_key_data d' /\ proto_size (serialize_key_data d')) ->
  answers (cc_public_key (cc_key_manager bound m) d) (f (kd_value d)).
Proof.
  intros P Q bound m f d Hf Hw Hs Hd. unfold cc_public_key. cbn [cc_public_key_data cc_key_manager].
  rewrite Hf. unfold parse_or_empty. rewrite (key_data_round_trip d Hw Hs).
  destruct (f (kd_value d)) as [d' | [| s |]] eqn:Ed; cbn.
  - destruct (Hd d' eq_refl) as [H1 H2]. unfold key_data_from_string. rewrite (key_data_round_trip d' H1 H2). reflexivity.
  - eexists. split; reflexivity.
  - eexists. split; reflexivity.
  - eexists. split; reflexivity.
Qed.
Lemma cc_primitive_answers : forall P Q (bound : P -> Q) m (wrap : Q -> prim) (pres : P -> prim -> Prop) d,
  wf_key_data d -> proto_size (serialize_key_data d) ->
  (forall q, pres q (wrap (bound q))) ->
  answers_with pres
    (use_tink_errors (p <- cc_primitive (cc_key_manager bound m) (serialize_key_data d) ;; Ok (wrap p)))
    (cl_get_primitive m d).
Proof.
  intros P Q bound m wrap pres d Hw Hs Hp. cbn [cc_primitive cc_key_manager].
  unfold parse_or_empty. rewrite (key_data_round_trip d Hw Hs).
  destruct (cl_get_primitive m d) as [q | [| s |]]; cbn.
  - eexists. split; [reflexivity | apply Hp].
  - eexists. split; reflexivity.
  - eexists. split; reflexivity.
  - eexists. split; reflexivity.
Qed.

Lemma bound_prf_presents : forall q, presents_prf q (PrimPrf (prf_cc_to_py (bind_prf q))).
Proof.
  intros q. eexists. split; [reflexivity |]. intros x n Hn.
  cbn [prf_compute prf_cc_to_py bind_prf].
  replace ((Z.of_N n <? 0) || (18446744073709551616 <=? Z.of_N n))%Z with false.
  - rewrite N2Z.id. apply use_tink_answers.
  - symmetry. apply orb_false_iff. split; [apply Z.ltb_ge; lia |].
    apply Z.leb_gt. change (2 ^ 64)%N with 18446744073709551616%N in Hn. lia.
Qed.

Ltac presents := intros q; eexists; split; [reflexivity | repeat split; intros; apply use_tink_answers].

Lemma built_primitive : forall w env u km, built w env u km -> forall c b d,
  signature u = Some (pytype_of c b, c) -> kd_type_url d = u -> wf_key_data d -> proto_size (serialize_key_data d) ->
  km_primitive_class km = c /\ primitive_from_cc w env c d (km_primitive km d).
Proof.
  intros w env u km H c b d Hsig Hu Hw Hs.
  destruct (built_signature _ _ _ _ H) as (_ & _ & Hsig'). rewrite Hsig in Hsig'. injection Hsig' as Ht Hc.
  split; [auto |]. subst c.
  destruct H; cbn [km_primitive_class km_primitive km_pytype key_manager_cc_to_py private_key_manager_cc_to_py
    kms_aead_key_manager kms_envelope_aead_key_manager jwt_hmac_manager jwt_sign_manager jwt_verify_manager] in *;
    try exact I; unfold primitive_from_cc; rewrite Hu;
    try (eexists; split; [eassumption | apply cc_primitive_answers; [exact Hw | exact Hs |]]).
  - presents.
  - presents.
  - presents.
  - presents.
  - presents.
  - apply bound_prf_presents.
  - presents.
  - presents.
  - intros q. reflexivity.
  - destruct b; discriminate Ht.
  - destruct b; discriminate Ht.
Qed.

Lemma built_functions : forall w env u km, built w env u km -> forall c b v create public,
  signature u = Some (pytype_of c b, c) -> cc_functions w c u = Some (v, create, public) ->
  exists P Q (bound : P -> Q) m, cl_key_type m = u /\ cl_new_key_data m = create /\ cl_public_key_data m = public /\
    km_new_key_data km = cc_new_key (cc_key_manager bound m) /\
    km_public_key_data km = (if private_pytype (km_pytype km) then Some (cc_public_key (cc_key_manager bound m)) else None).
Proof.
  intros w env u km H c b v create public Hsig Hf.
  destruct (built_signature _ _ _ _ H) as (_ & _ & Hsig'). rewrite Hsig in Hsig'. injection Hsig' as Ht Hc. subst c.
  destruct H; cbn [km_primitive_class km_pytype cc_functions key_manager_cc_to_py private_key_manager_cc_to_py
    kms_aead_key_manager kms_envelope_aead_key_manager jwt_hmac_manager jwt_sign_manager jwt_verify_manager
    km_new_key_data km_public_key_data] in *;
    try (destruct b; discriminate Ht);
    match goal with E : _ = Some ?m |- _ => rewrite E in Hf; cbn [manager_functions] in Hf;
      apply some_inj in Hf; injection Hf as <- <- <-; eexists _, _, _, m; repeat split; assumption end.
Qed.

Theorem configured_primitive : forall w env p r name c b d,
  configured w env p r -> ~ In p [JwtMac; JwtSignature] -> In (name, c, b) (key_types p) ->
  kd_type_url d = type_url name -> wf_key_data d -> proto_size (serialize_key_data d) ->
  primitive_from_cc w env c d (registry_primitive r d c).
Proof.
  intros w env p r name c b d Hc _ Hin Hu Hw Hs.
  destruct (key_types_signature _ _ _ _ Hin) as [Hi Hsig].
  destruct (configured_manager _ _ _ _ _ Hc Hi) as (km & Hm & Hb).
  destruct (built_primitive _ _ _ _ Hb c b d Hsig Hu Hw Hs) as [Hk Hp].
  destruct (registry_primitive_spec r d c) as [H _]. rewrite Hu in H. rewrite (H _ _ Hm Hk). exact Hp.
Qed.

Theorem configured_new_key : forall w env p r name c b u create public rnd t,
  configured w env p r -> In (name, c, b) (key_types p) ->
  cc_functions w c (type_url name) = Some (u, create, public) ->
  kt_type_url t = type_url name -> wf_key_template t -> proto_size (serialize_key_template t) ->
  (forall d, create rnd (kt_value t) = StOk d -> wf_key_data d /\ proto_size (serialize_key_data d)) ->
  answers (registry_new_key_data r rnd t) (create rnd (kt_value t)).
Proof.
  intros w env p r name c b u create public rnd t Hc Hin Hf Hu Hw Hs Hd.
  destruct (key_types_signature _ _ _ _ Hin) as [Hi Hsig].
  destruct (configured_manager _ _ _ _ _ Hc Hi) as (km & Hm & Hb).
  destruct (built_functions _ _ _ _ Hb c b _ _ _ Hsig Hf) as (P & Q & bound & m & Hk & <- & _ & Hn & _).
  destruct (registry_new_key_data_spec r rnd t) as [H _]. rewrite Hu in H. rewrite (H _ Hm), Hn.
  apply cc_new_key_answers; congruence || assumption.
Qed.

Theorem configured_public_key : forall w env p r name c u create public d,
  configured w env p r -> In (name, c, true) (key_types p) ->
  cc_functions w c (type_url name) = Some (u, create, Some public) ->
  kd_type_url d = type_url name -> kd_key_material_type d = ASYMMETRIC_PRIVATE ->
  wf_key_data d -> proto_size (serialize_key_data d) ->
  (forall d', public (kd_value d) = StOk d' -> wf_key_data d' /\ proto_size (serialize_key_data d')) ->
  answers (registry_public_key_data r d) (public (kd_value d)).
Proof.
  intros w env p r name c u create public d Hc Hin Hf Hu Hmt Hw Hs Hd.
  destruct (key_types_signature _ _ _ _ Hin) as [Hi Hsig].
  destruct (configured_manager _ _ _ _ _ Hc Hi) as (km & Hm & Hb).
  destruct (built_functions _ _ _ _ Hb c true _ _ _ Hsig Hf) as (P & Q & bound & m & Hk & _ & Hpub & _ & Hp).
  destruct (built_signature _ _ _ _ Hb) as (_ & _ & Hsig'). rewrite Hsig in Hsig'. injection Hsig' as Ht Hcl.
  rewrite <- Ht in Hp.
  destruct (table_signature p name c true (or_introl Hin)) as (_ & t & Ht' & Hpr).
  rewrite Hsig in Ht'. injection Ht' as <-. rewrite Hpr in Hp.
  destruct (registry_public_key_data_spec r d) as (_ & _ & _ & H). rewrite Hu in H. rewrite (H _ _ _ Hmt Hm Hp).
  apply cc_public_key_answers; assumption.
Qed.
