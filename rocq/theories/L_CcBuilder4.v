(** Proofs: hybrid encryption for keysets that are managed with a KeysetBuilder. *)
From Coq Require Import Strings.Byte Strings.String List NArith ZArith Bool Lia.
From Verif Require Import M_Base M_Utf8 M_Proto M_Wire M_ProtoMsg M_KeyFormats M_Prims M_PrimitiveSet M_Registry M_KeysetHandle M_KeysetIO M_KeysetBuilder M_Wrappers M_StreamTypes M_CcStream M_CcManagers
  M_Templates M_Cli M_CcAes M_CcStreamKeys M_CcModes M_CcSymmetric M_CcSymKeys M_CcEcies M_CcEciesKeys M_CcHpke S_Keyset S_Handle S_Wrappers S_Wire S_Config S_KeysetBuilder S_Cli S_CcLaws S_CcAes S_CcStreamKeys S_CcModes S_CcSymmetric
  S_CcSymKeys S_CcSymHandles S_CcEcies S_CcEciesKeys S_CcEciesHandles S_CcHpke S_CcHpkeHandles S_CcHybrid S_CcPublish S_CcBuilder L_Base L_Wire L_Keyset L_Handle L_Config L_Config2 L_Config3 L_Config4 L_KeysetBuilder
  L_CcSymHandles L_CcSymHandles3 L_CcSymHandles4 L_PrimitiveSet L_CcEciesKeys L_CcEciesKeys2 L_CcEciesHandles L_CcEciesHandles2 L_CcEciesHandles3 L_CcHpke L_CcHpke2 L_CcHpkeHandles L_CcHpkeHandles2 L_CcHybrid L_CcBuilder L_CcBuilder2.
From Verif Require L_CcPublish L_CcBuilder3.
Import ListNotations.
Open Scope string_scope.
Open Scope list_scope.
Open Scope nat_scope.

Definition hybrid_value (ec : ec_crypto) (lib : crypto) (random : coins -> Z -> bytes) (hc : hpke_crypto) (d : key_data) (q : any_private) : Prop :=
  is_any_private d q /\ good_any_private ec q /\ match q with EciesPrivate _ => True | HpkePrivate k => suite_stated (hpub_suite (hprv_public k)) end /\
  forall k, k_key_data k = d -> any_public_fits ec lib random hc k q.
Definition hybrid_data (ec : ec_crypto) (lib : crypto) (random : coins -> Z -> bytes) (hc : hpke_crypto) (d : key_data) : Prop :=
  kd_key_material_type d = ASYMMETRIC_PRIVATE /\ wf_key_data d /\ proto_size (serialize_key_data d) /\ exists q, hybrid_value ec lib random hc d q.
Lemma hybrid_makes_keys : forall ec lib random hc w env r, ecies_world ec lib random w -> hpke_world ec hc w -> ec_laws ec lib -> configured w env Hybrid r ->
  makes_keys (hybrid_data ec lib random hc) hybrid_templates r.
Proof.
  intros ec lib random hc w env r HE HH EL HC name t rnd Hin.
  assert (EU : kt_type_url t = type_url "EciesAeadHkdfPrivateKey" \/ kt_type_url t = type_url "HpkePrivateKey").
  { pose proof Hin as I. rewrite <- (firstn_skipn 4 hybrid_templates) in I. apply in_app_or in I. destruct I as [I | I].
    - destruct (Forall2_in_l _ _ _ _ _ _ (proj1 ecies_templates) I) as ((n & p) & J & (_ & t' & E' & A & _)). cbn [fst snd] in *. injection E' as <-. left. exact (proj1 A).
    - pose proof (proj2 ecies_templates) as G. rewrite Forall_forall in G. destruct (G _ I) as (t' & E & E'). cbn [snd] in E. injection E as <-. right. exact E'. }
  destruct EU as [EU | EU].
  - destruct (ecies_template_found name t Hin EU) as (I4 & p & IT & A & PR & EP). pose proof A as A'. rewrite EU in A'. destruct (ecies_new_key ec lib random rnd _ _ EL A') as (d & ND & U & MT & HK).
    destruct (ecies_template_sizes ec lib random name t rnd d I4 ND) as ((W1 & W2 & W3 & W4 & W5 & _) & PF). destruct (HK W4) as (s & X & Y & K & FK & KP).
    exists d. split; [| split; [exact MT |]; split; [exact W3 |]; split; [exact W5 |]; exists (EciesPrivate (mk_ecies_private (mk_ecies_public p X Y) s)); split; [exact K |]; split; [split; [exact PR | exact KP] |]; split; [exact I | exact PF]].
    assert (CF : cc_functions w ClsHybridDecrypt (type_url "EciesAeadHkdfPrivateKey") =
      Some (cl_key_type (ecies_private_key_manager ec lib random), cl_new_key_data (ecies_private_key_manager ec lib random), cl_public_key_data (ecies_private_key_manager ec lib random)))
      by (cbn [cc_functions]; rewrite (proj1 HE); reflexivity).
    pose proof (configured_new_key w env Hybrid r "EciesAeadHkdfPrivateKey" ClsHybridDecrypt true _ _ _ rnd t HC ltac:(cbn; tauto) CF EU W1 W2) as Q. rewrite ND in Q. apply Q.
    intros d' E. injection E as <-. split; assumption.
  - destruct (hpke_template_found name t Hin EU) as (I4 & p & a & tink & IT & A & WK & EP). pose proof A as A'. rewrite EU in A'. destruct (hpke_new_key ec lib hc rnd _ _ EL A' (works_made p a WK)) as (d & ND & U & MT & HK).
    destruct (hpke_template_sizes ec lib hc name t rnd d EL I4 ND) as ((W1 & W2 & W3 & W4 & W5 & _) & PF). destruct (HK W4) as (s & X & K & FK). pose proof (fresh_pair_hpke ec lib p rnd s X a EL WK FK) as KP.
    exists d. split; [| split; [exact MT |]; split; [exact W3 |]; split; [exact W5 |]; exists (HpkePrivate (mk_hpke_private (mk_hpke_public p X) s)); split; [exact K |]; split; [split; [exists a; exact WK | exact KP] |];
      split; [exact (made_stated p (works_made p a WK)) | exact PF]].
    assert (CF : cc_functions w ClsHybridDecrypt (type_url "HpkePrivateKey") =
      Some (cl_key_type (hpke_private_key_manager ec hc), cl_new_key_data (hpke_private_key_manager ec hc), cl_public_key_data (hpke_private_key_manager ec hc)))
      by (cbn [cc_functions]; rewrite (proj1 HH); reflexivity).
    pose proof (configured_new_key w env Hybrid r "HpkePrivateKey" ClsHybridDecrypt true _ _ _ rnd t HC ltac:(cbn; tauto) CF EU W1 W2) as Q. rewrite ND in Q. apply Q.
    intros d' E. injection E as <-. split; assumption.
Qed.
Lemma hybrid_not_public : forall ec lib random hc, not_public (hybrid_data ec lib random hc).
Proof. intros ec lib random hc d (M & W & _). split; [exact W | rewrite M; discriminate]. Qed.
Lemma built_hybrid : forall ec lib random hc g ks, built (hybrid_data ec lib random hc) ks -> primary_on ks -> (forall k, In k (ks_key ks) -> hybrid_value ec lib random hc (k_key_data k) (g (k_key_data k))) ->
  all_any_private ks (L_CcBuilder3.all_values g ks) /\ hybrid_keyset is_any_private (good_any_private ec) ks (enabled_of (L_CcBuilder3.all_values g ks)).
Proof.
  intros ec lib random hc g ks B PO G. split.
  - split; [apply L_CcBuilder3.all_values_fst |]. rewrite Forall_forall. intros (k & q) I. apply L_CcBuilder3.all_values_in in I. destruct I as (I & ->). cbn [fst snd].
    destruct (L_CcBuilder3.built_data _ _ _ B I) as (M & W & S & _). destruct (G k I) as (K & _ & ST & _). do 4 (split; [assumption |]). exact ST.
  - split; [apply (built_valid _ _ (hybrid_not_public _ _ _ _) B), PO |]. split; [exact (L_CcBuilder3.enabled_values _ g ks) |]. rewrite Forall_forall. intros (k & q) I. apply filter_In in I. destruct I as (I & _).
    apply L_CcBuilder3.all_values_in in I. destruct I as (I & ->). cbn [fst snd]. destruct (L_CcBuilder3.built_data _ _ _ B I) as (M & W & S & _). destruct (G k I) as (K & GP & _).
    do 4 (split; [assumption |]). exact (proj2 (proj2 (proj2 (L_CcBuilder3.built_prefix _ _ _ B I)))).
Qed.
Lemma hybrid_small : forall ec q P, good_any_private ec q -> (N.of_nat (length P) < 2 ^ 31)%N -> any_admits (any_public_of q) P.
Proof.
  intros ec q P G L. change (2 ^ 31)%N with 2147483648%N in L. destruct q as [q | q]; cbn [any_public_of any_admits]; [| unfold hpke_admits; lia].
  destruct G as ((_ & _ & _ & _ & DK & _) & _). unfold dem_admits.
  assert (Z0 : (N.of_nat (length (@nil byte)) < 2 ^ 61)%N) by reflexivity. assert (Z1 : (N.of_nat (length P) <= 2 ^ 36 - 32)%N) by (change (2 ^ 36 - 32)%N with 68719476704%N; lia).
  destruct (ep_dem (pub_params (prv_public q))); try discriminate DK; cbn [admits]; try exact I; split; assumption.
Qed.
Theorem cc_builder_hybrid : forall ec lib random hc w env r, ecies_world ec lib random w -> hpke_world ec hc w -> ec_laws ec lib -> crypto_laws lib -> random_law random -> hpke_laws ec hc -> configured w env Hybrid r ->
  forall ops1 rs1 ks1 ops2 rs2 ks2, Forall (adds_predefined hybrid_templates) (ops1 ++ ops2) -> builder_run r ops1 new_keyset_builder = Some (rs1, ks1) -> builder_run r ops2 ks1 = Some (rs2, ks2) ->
  Forall2 proper_result (ops1 ++ ops2) (rs1 ++ rs2) /\
  (primary_on ks1 -> primary_on ks2 -> proto_size (serialize_keyset ks1) ->
   exists x ph e d, builder_public_keyset r ks1 = Ok x /\ (proto_size x -> proto_parse_without_secret x = Ok ph) /\ distributable ph /\ kept_secret (mk_handle ks1) /\
     handle_primitive r ph ClsHybridEncrypt = Ok (PrimHybridEncrypt e) /\ handle_primitive r (mk_handle ks2) ClsHybridDecrypt = Ok (PrimHybridDecrypt d) /\
     forall rnd P info, ((N.of_nat (length P) < 2 ^ 31)%N -> exists C, he_encrypt e rnd P info = Ok C) /\
       forall C, he_encrypt e rnd P info = Ok C ->
         (stays_on (ks_primary_key_id ks1) ops2 -> hd_decrypt d C info = Ok P) /\
         (goes_off (ks_primary_key_id ks1) ops2 -> forall info', raises_tink (hd_decrypt d C info'))).
Proof.
  intros ec lib random hc w env r HE HH EL CL RL HL HC ops1 rs1 ks1 ops2 rs2 ks2 AP R1 R2. pose proof (hybrid_makes_keys ec lib random hc w env r HE HH EL HC) as MK. apply Forall_app in AP. destruct AP as (AP1 & AP2).
  destruct (built_run _ _ _ _ _ _ _ MK AP1 R1 (built_new _)) as (B1 & PR1). destruct (built_run _ _ _ _ _ _ _ MK AP2 R2 B1) as (B2 & PR2). split; [apply Forall2_app; assumption |]. intros PO1 PO2 Sz.
  destruct (L_CcBuilder3.two_all_values any_private (HpkePrivate (mk_hpke_private (mk_hpke_public (mk_hpke_suite 0 0 0) []) [])) (hybrid_value ec lib random hc) (hybrid_data ec lib random hc) ks1 ks2 ltac:(intros d (_ & _ & _ & X); exact X) B1 B2) as (g & G).
  destruct (built_hybrid _ _ _ _ g _ B1 PO1 (fun k I => G k (or_introl I))) as (AL & KS1). destruct (built_hybrid _ _ _ _ g _ B2 PO2 (fun k I => G k (or_intror I))) as (_ & KS2).
  pose proof (hybrid_not_public ec lib random hc) as NP. pose proof (proj2 (built_valid _ _ NP B1) PO1) as V. pose proof (built_wf _ _ NP B1) as Wf.
  destruct (any_public_handle ec lib random hc w env r ks1 _ HE HH EL HC V AL) as (ph & l' & EP & PI & EM & F2 & PU & KP).
  { intros k I. destruct (L_CcBuilder3.built_prefix _ _ _ B1 I) as (_ & X & Y & _). auto. }
  { intros k q I. apply L_CcBuilder3.all_values_in in I. destruct I as (I & ->). destruct (G k (or_introl I)) as (_ & _ & _ & PF). apply PF. reflexivity. }
  specialize (KP KS1).
  destruct (L_CcPublish.public_half_fits _ _ any_public_half ks1 _ (kh_keyset ph) l' Wf (proj1 AL) PI EM F2 PU) as (Wf' & NS).
  { intros x y (S & ID & T & U & _). split; [exact S |]. split; [exact ID |]. split; [exact T |]. destruct (any_public_of (snd x)); destruct U as (U & _); rewrite U; [apply url_text | apply hpke_url_text]. }
  destruct ph as [pks]. cbn [kh_keyset] in *.
  destruct (any_encrypt_handle ec lib random hc w env r pks _ HE HH EL CL RL HL HC KP) as (e & HA & EW). destruct (any_decrypt_handle ec lib random hc w env r ks2 _ HE HH EL CL HL HC KS2) as (d & HD & DW).
  pose proof (L_CcPublish.public_distributable (mk_handle pks) (proj1 KP) Wf' NS) as DI. pose proof (proj2 (proto_serialize_without_secret_spec (mk_handle pks)) NS) as ES. cbn [kh_keyset] in ES.
  exists (serialize_keyset pks), (mk_handle pks), e, d. split; [| split; [| split; [exact DI |]; split; [| split; [exact HA |]; split; [exact HD |]]]].
  - unfold builder_public_keyset. rewrite (proj1 (proj1 (built_handle _ _ NP B1 Sz) PO1)). cbn [bind]. rewrite EP. cbn [bind]. exact ES.
  - intros Sx. destruct (proj1 DI Sx) as (x & E1 & E2). rewrite ES in E1. apply ok_inj in E1. subst x. exact E2.
  - apply L_CcPublish.secret_kept. apply (L_CcPublish.private_has_secret _ ks1 _ V (proj1 AL)). eapply Forall_impl; [| exact (proj2 AL)]. intros x (_ & _ & M & _). exact M.
  - intros rnd P info. destruct PO1 as (k & I & S & E). set (q := g (k_key_data k)). destruct (G k (or_introl I)) as (_ & GQ & _). fold q in GQ.
    assert (IL : In (k, q) (L_CcBuilder3.all_values g ks1)) by (apply L_CcBuilder3.all_values_in; auto).
    destruct (Forall2_in_l _ _ _ _ _ _ F2 IL) as ((k3 & q3) & I3 & (S3 & ID3 & T3 & _ & Q3)). cbn [fst snd] in *. subst q3.
    assert (PR : is_primary pks (enabled_of l') k3 (any_public_of q)). { split; [apply filter_In; split; [exact I3 | cbn [fst]; rewrite S3, S; reflexivity] | rewrite ID3, PI; exact E]. }
    destruct (proj1 EW _ _ PR rnd P info (any_pair_not_low _ _ _ rnd EL GQ)) as (E1 & E2 & _). split; [intros L; apply E2; [exact (hybrid_small ec q P GQ L) | exists q; auto] |].
    intros C EC. rewrite <- E. split.
    + intros SO. pose proof (stays _ _ _ _ _ _ _ B1 I S R2 SO) as I2.
      assert (IL2 : In (k, q) (enabled_of (L_CcBuilder3.all_values g ks2))) by (apply filter_In; cbn [fst]; rewrite S; split; [apply L_CcBuilder3.all_values_in; auto | reflexivity]).
      destruct (any_carries_over ec lib random hc pks _ e ks2 _ d k3 k q rnd P info EL CL HL EW PR KS2 DW IL2 (eq_sym ID3) (eq_sym T3)) as (_ & H). apply (H C EC).
      right. split; [exact (proj1 (L_CcBuilder3.built_prefix _ _ _ B1 I)) |]. intros k' q' I'. apply filter_In in I'. destruct I' as (I' & _). apply L_CcBuilder3.all_values_in in I'. destruct I' as (I' & ->).
      split; [exact (proj1 (L_CcBuilder3.built_prefix _ _ _ B2 I')) |]. intros EI. rewrite (same_id _ _ _ _ B2 I' I2 EI). reflexivity.
    + intros GO info'. apply E1 in EC. destruct EC as (c & ST & _). destruct DW as (D1 & _ & TD).
      destruct (hd_decrypt d C info') as [P' | x] eqn:D; [| exists x; split; [reflexivity |]; specialize (TD C info'); rewrite D in TD; exact TD].
      exfalso. apply D1 in D. destruct D as (k' & q' & c' & I' & ST' & _). apply filter_In in I'. destruct I' as (I' & S'). cbn [fst] in S'. apply Z.eqb_eq in S'. apply L_CcBuilder3.all_values_in in I'. destruct I' as (I' & _).
      apply (goes _ _ _ _ _ _ _ _ MK AP2 B1 I S R2 GO k' I' S'). rewrite <- ID3. symmetry.
      refine (proj1 (stamped_id k3 k' C c c' _ (proj1 (L_CcBuilder3.built_prefix _ _ _ B2 I')) ST ST')). rewrite T3. exact (proj1 (L_CcBuilder3.built_prefix _ _ _ B1 I)).
Qed.
