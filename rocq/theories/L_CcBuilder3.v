(** Proofs: signatures of keysets that are managed with a KeysetBuilder. *)
From Coq Require Import Strings.Byte Strings.String List NArith ZArith Bool Lia.
From Verif Require Import M_Base M_Utf8 M_Proto M_Wire M_ProtoMsg M_KeyFormats M_Prims M_PrimitiveSet M_Registry M_KeysetHandle M_KeysetIO M_KeysetBuilder M_Wrappers M_StreamTypes M_CcStream M_CcManagers
  M_Templates M_CcAes M_CcStreamKeys M_CcModes M_CcSymmetric M_CcSymKeys M_CcEcies M_CcEciesKeys M_CcSignatures S_Keyset S_Handle S_Wrappers S_Wire S_Config S_KeysetBuilder S_CcLaws S_CcAes S_CcStreamKeys S_CcModes S_CcSymmetric
  S_CcSymKeys S_CcSymHandles S_CcEcies S_CcEciesKeys S_CcSignatures S_CcSigHandles S_CcPublish S_CcBuilder S_CcBuilder2 L_Base L_Wire L_Keyset L_Handle L_Config L_Config2 L_Config3 L_Config4 L_KeysetBuilder L_CcSymHandles L_CcSymHandles3 L_CcSymHandles4
  L_PrimitiveSet L_CcEciesHandles2 L_CcSigKeys L_CcSigKeys2 L_CcSigNew L_CcSigNew2 L_CcSigHandles L_CcSigHandles2 L_CcSigHandles3 L_CcSigHandles4 L_CcPublish L_CcBuilder L_CcBuilder2.
Import ListNotations.
Open Scope string_scope.
Open Scope list_scope.
Open Scope nat_scope.

(** ** Values of keys *)
Lemma choose_values : forall A (a0 : A) (Q : key_data -> A -> Prop) ds, Forall (fun d => exists q, Q d q) ds -> exists g : key_data -> A, Forall (fun d => Q d (g d)) ds.
Proof.
  intros A a0 Q ds H. induction H as [| d ds (q & QS) H (g & IH)]; [exists (fun _ => a0); constructor |].
  exists (fun x => if key_data_dec x d then q else g x). constructor; [destruct (key_data_dec d d); [exact QS | contradiction] |].
  rewrite Forall_forall in *. intros x Hx. destruct (key_data_dec x d) as [-> | _]; [exact QS | exact (IH x Hx)].
Qed.
Definition all_values {A} (g : key_data -> A) (ks : keyset) : list (key * A) := map (fun k => (k, g (k_key_data k))) (ks_key ks).
Lemma all_values_in : forall A (g : key_data -> A) ks k q, In (k, q) (all_values g ks) <-> In k (ks_key ks) /\ q = g (k_key_data k).
Proof.
  intros A g ks k q. unfold all_values. rewrite in_map_iff. split; [intros (k' & E & I); injection E as <- <-; auto | intros (I & ->); exists k; auto].
Qed.
Lemma all_values_fst : forall A (g : key_data -> A) ks, map fst (all_values g ks) = ks_key ks.
Proof. intros A g ks. unfold all_values. rewrite map_map. apply map_id. Qed.
Lemma enabled_values : forall A (g : key_data -> A) ks, map fst (enabled_ones (all_values g ks)) = enabled_keys ks.
Proof.
  intros A g ks. unfold enabled_ones, all_values, enabled_keys. induction (ks_key ks) as [| k l IH]; [reflexivity |]. cbn [map filter fst]. unfold S_Keyset.is_enabled at 1.
  destruct (k_status k =? ENABLED)%Z; cbn [map fst]; rewrite IH; reflexivity.
Qed.
Lemma two_all_values : forall A (a0 : A) (Q : key_data -> A -> Prop) (P : key_data -> Prop) ks ks', (forall d, P d -> exists q, Q d q) -> built P ks -> built P ks' ->
  exists g : key_data -> A, forall k, In k (ks_key ks) \/ In k (ks_key ks') -> Q (k_key_data k) (g (k_key_data k)).
Proof.
  intros A a0 Q P ks ks' HP (F & _) (F' & _). destruct (choose_values A a0 Q (map k_key_data (ks_key ks ++ ks_key ks'))) as (g & G).
  - rewrite Forall_forall. intros d Hd. apply in_map_iff in Hd. destruct Hd as (k & <- & IK). apply in_app_iff in IK. rewrite Forall_forall in F, F'.
    assert (OK : key_ok P k) by (destruct IK; auto). destruct OK as (_ & _ & _ & d & E & X). destruct (HP d X) as (q & Y). exists q. unfold k_key_data. rewrite E. exact Y.
  - exists g. rewrite Forall_forall in G. intros k IK. apply G, in_map, in_app_iff. exact IK.
Qed.
Lemma built_prefix : forall P ks k, built P ks -> In k (ks_key ks) -> k_output_prefix_type k <> RAW /\ k_output_prefix_type k <> UNKNOWN_PREFIX /\ k_status k <> UNKNOWN_STATUS /\
  exists p, has_prefix (k_output_prefix_type k) (k_key_id k) p.
Proof.
  intros P ks k (F & _) I. rewrite Forall_forall in F. destruct (F k I) as (S & T & ID & _). rewrite T. split; [discriminate |]. split; [discriminate |]. split; [destruct S as [-> | ->]; discriminate |].
  apply has_prefix_exists. right. split; [left; reflexivity |]. change (2 ^ 32)%N with 4294967296%N. lia.
Qed.
(** A key that is not deleted is the same key later, but for its status. *)
Lemma kept_same : forall P templates reg ops ks rs ks' k k', makes_keys P templates reg -> Forall (adds_predefined templates) ops -> built P ks -> In k (ks_key ks) -> builder_run reg ops ks = Some (rs, ks') ->
  kept (k_key_id k) ops -> In k' (ks_key ks') -> k_key_id k' = k_key_id k -> k_key_data k' = k_key_data k /\ k_output_prefix_type k' = k_output_prefix_type k.
Proof.
  intros P templates reg ops ks rs ks' k k' MK AP B IK H ND I' EI. destruct (in_split _ _ IK) as (b & a & E).
  assert (W : first_with (Z.of_N (k_key_id k)) ks b k a).
  { split; [exact E |]. split; [reflexivity |]. rewrite Forall_forall. intros x Ix HI. unfold has_id in HI. apply N2Z.inj in HI.
    destruct B as (_ & NDi & _). rewrite E, map_app in NDi. cbn [map] in NDi. apply NoDup_remove_2 in NDi. apply NDi, in_app_iff. left. rewrite <- HI. apply in_map. exact Ix. }
  destruct (builder_key_persists _ _ _ _ _ _ _ _ _ H W ND) as (b' & a' & EQ & _). destruct (built_run _ _ _ _ _ _ _ MK AP H B) as (B' & _).
  set (k2 := with_status (status_after (Z.of_N (k_key_id k)) ops (k_status k)) k) in *.
  assert (X : In k2 (ks_key ks')) by (rewrite EQ; apply in_app_iff; right; left; reflexivity).
  rewrite (same_id _ _ k' k2 B' I' X EI). split; reflexivity.
Qed.

(** ** Signature keys *)
Definition sig_value (ec : ec_crypto) (sg : sig_crypto) (d : key_data) (q : sig_private) : Prop := is_sig_private d q /\ valid_private q /\ good_private ec sg q /\ matching ec sg q.
Definition sig_data (ec : ec_crypto) (sg : sig_crypto) (self_test : coins) (d : key_data) : Prop :=
  kd_key_material_type d = ASYMMETRIC_PRIVATE /\ wf_key_data d /\ proto_size (serialize_key_data d) /\ (forall k, k_key_data k = d -> sig_public_fits ec sg self_test k) /\
  exists q, sig_value ec sg d q.
Lemma sig_makes_keys : forall ec lib sg self_test w env r, sig_world ec sg self_test w -> ec_laws ec lib -> sig_laws ec sg -> rsa_sizes sg -> configured w env Signature r ->
  makes_keys (sig_data ec sg self_test) signature_templates r.
Proof.
  intros ec lib sg self_test w env r HW EL SL RS HC name t rnd Hin.
  destruct (Forall2_in_l _ _ _ _ _ _ sig_templates Hin) as ((n & f) & IT & (EN & t' & E' & A & OK & SZ & FS & EP)). cbn [fst snd] in *. subst n. injection E' as <-.
  pose proof sig_template_wf as WF. rewrite Forall_forall in WF. destruct (WF _ Hin t eq_refl) as (W1 & W2). clear WF.
  pose proof (proj1 A) as EU. pose proof A as A'. rewrite EU in A'. destruct (sig_new_key ec lib sg self_test rnd _ f EL SL A' OK SZ) as (d & ND & U & MT & HK).
  destruct (new_sig_sizes ec lib sg self_test rnd _ f d EL SL RS A' OK SZ ND) as (W4 & W5 & W3 & PF). destruct (HK W4) as (q & KD & K & FK).
  destruct (fresh_sig_good ec lib sg f rnd q EL SL OK FK) as (VP & MA & GQ). apply (proj2 GQ) in FS. clear GQ.
  exists d. split; [| split; [exact MT |]; split; [exact W3 |]; split; [exact W5 |]; split; [exact PF |]; exists q; split; [exact K |]; split; [exact VP |]; split; assumption].
  assert (CF : cc_functions w ClsSign (type_url (kind_name (format_kind f) ++ "PrivateKey")) =
      Some (cl_key_type (sign_manager ec sg self_test (format_kind f)), cl_new_key_data (sign_manager ec sg self_test (format_kind f)), cl_public_key_data (sign_manager ec sg self_test (format_kind f))))
      by (cbn [cc_functions]; rewrite (proj1 (HW (format_kind f))); reflexivity).
  pose proof (configured_new_key w env Signature r _ ClsSign true _ _ _ rnd t HC (sign_types (format_kind f)) CF EU W1 W2) as Q. rewrite ND in Q. apply Q.
  intros d' E. injection E as <-. split; assumption.
Qed.
Lemma sig_not_public : forall ec sg self_test, not_public (sig_data ec sg self_test).
Proof. intros ec sg self_test d (M & W & _). split; [exact W | rewrite M; discriminate]. Qed.
Lemma built_data : forall P ks k, built P ks -> In k (ks_key ks) -> P (k_key_data k).
Proof. intros P ks k (F & _) I. rewrite Forall_forall in F. destruct (F k I) as (_ & _ & _ & d & E & X). unfold k_key_data. rewrite E. exact X. Qed.
Lemma built_sig : forall ec sg self_test g ks, built (sig_data ec sg self_test) ks -> primary_on ks -> (forall k, In k (ks_key ks) -> sig_value ec sg (k_key_data k) (g (k_key_data k))) ->
  all_sig_private ks (all_values g ks) /\ sig_keyset is_sig_private (good_private ec sg) ks (enabled_ones (all_values g ks)).
Proof.
  intros ec sg self_test g ks B PO G. split.
  - split; [apply all_values_fst |]. rewrite Forall_forall. intros (k & q) I. apply all_values_in in I. destruct I as (I & ->). cbn [fst snd].
    destruct (built_data _ _ _ B I) as (M & W & S & _). destruct (G k I) as (K & V & _). auto.
  - split; [apply (built_valid _ _ (sig_not_public _ _ _) B), PO |]. split; [apply enabled_values |]. rewrite Forall_forall. intros (k & q) I. apply filter_In in I. destruct I as (I & _).
    apply all_values_in in I. destruct I as (I & ->). cbn [fst snd]. destruct (built_data _ _ _ B I) as (M & W & S & _). destruct (G k I) as (K & _ & GP & _).
    do 4 (split; [assumption |]). exact (proj2 (proj2 (proj2 (built_prefix _ _ _ B I)))).
Qed.
Theorem cc_builder_signatures : forall ec lib sg self_test w env r, sig_world ec sg self_test w -> ec_laws ec lib -> sig_laws ec sg -> rsa_sizes sg -> configured w env Signature r ->
  forall ops1 rs1 ks1 ops2 rs2 ks2, Forall (adds_predefined signature_templates) (ops1 ++ ops2) -> builder_run r ops1 new_keyset_builder = Some (rs1, ks1) -> builder_run r ops2 ks1 = Some (rs2, ks2) ->
  Forall2 proper_result (ops1 ++ ops2) (rs1 ++ rs2) /\
  (primary_on ks1 -> primary_on ks2 -> proto_size (serialize_keyset ks1) ->
   exists x ph v s, builder_public_keyset r ks1 = Ok x /\ (proto_size x -> proto_parse_without_secret x = Ok ph) /\ distributable ph /\ kept_secret (mk_handle ks1) /\
     handle_primitive r ph ClsVerify = Ok (PrimVerify v) /\ handle_primitive r (mk_handle ks2) ClsSign = Ok (PrimSign s) /\
     forall rnd data, exists y, sign s rnd data = Ok y /\
       (key_on (ks_primary_key_id ks2) ks1 -> kept (ks_primary_key_id ks2) ops2 -> verify v y data = Ok tt) /\
       (~ key_on (ks_primary_key_id ks2) ks1 -> forall data', raises_tink (verify v y data'))).
Proof.
  intros ec lib sg self_test w env r HW EL SL RS HC ops1 rs1 ks1 ops2 rs2 ks2 AP R1 R2. pose proof (sig_makes_keys ec lib sg self_test w env r HW EL SL RS HC) as MK. apply Forall_app in AP. destruct AP as (AP1 & AP2).
  destruct (built_run _ _ _ _ _ _ _ MK AP1 R1 (built_new _)) as (B1 & PR1). destruct (built_run _ _ _ _ _ _ _ MK AP2 R2 B1) as (B2 & PR2). split; [apply Forall2_app; assumption |]. intros PO1 PO2 Sz.
  destruct (two_all_values _ (Ed25519Private [] []) (sig_value ec sg) (sig_data ec sg self_test) _ _ ltac:(intros d (_ & _ & _ & _ & X); exact X) B1 B2) as (g & G).
  destruct (built_sig _ _ _ g _ B1 PO1 (fun k I => G k (or_introl I))) as (AL & KS1). destruct (built_sig _ _ _ g _ B2 PO2 (fun k I => G k (or_intror I))) as (_ & KS2).
  pose proof (sig_not_public ec sg self_test) as NP. pose proof (proj2 (built_valid _ _ NP B1) PO1) as V. pose proof (built_wf _ _ NP B1) as Wf.
  destruct (sig_public_handle ec sg self_test w env r ks1 _ HW HC V AL) as (ph & l' & EP & PI & EM & F2 & PU & KP).
  { intros k I. destruct (built_prefix _ _ _ B1 I) as (_ & X & Y & _). auto. }
  { intros k I. destruct (built_data _ _ _ B1 I) as (_ & _ & _ & PF & _). apply PF. reflexivity. }
  specialize (KP KS1).
  destruct (public_half_fits _ _ sig_public_half ks1 _ (kh_keyset ph) l' Wf (proj1 AL) PI EM F2 PU) as (Wf' & NS). { intros x y (S & I & T & (U & _) & _). split; [exact S |]. split; [exact I |]. split; [exact T |]. rewrite U. apply sig_url_text. }
  destruct ph as [pks]. cbn [kh_keyset] in *.
  destruct (verify_handle_works ec sg self_test w env r pks _ HW SL RS HC KP) as (v & HV & VW). destruct (sign_handle_works ec sg self_test w env r ks2 _ HW SL HC KS2) as (s & HS & SW).
  pose proof (public_distributable (mk_handle pks) (proj1 KP) Wf' NS) as DI. pose proof (proj2 (proto_serialize_without_secret_spec (mk_handle pks)) NS) as ES. cbn [kh_keyset] in ES.
  exists (serialize_keyset pks), (mk_handle pks), v, s. split; [| split; [| split; [exact DI |]; split; [| split; [exact HV |]; split; [exact HS |]]]].
  - unfold builder_public_keyset. rewrite (proj1 (proj1 (built_handle _ _ NP B1 Sz) PO1)). cbn [bind]. rewrite EP. cbn [bind]. exact ES.
  - intros Sx. destruct (proj1 DI Sx) as (x & E1 & E2). rewrite ES in E1. apply ok_inj in E1. subst x. exact E2.
  - apply secret_kept. apply (private_has_secret _ ks1 _ V (proj1 AL)). eapply Forall_impl; [| exact (proj2 AL)]. intros x (_ & _ & M & _). exact M.
  - intros rnd data. destruct PO2 as (k2 & I2 & S2 & E2).
    assert (PR : is_primary ks2 (enabled_ones (all_values g ks2)) k2 (g (k_key_data k2))).
    { split; [| exact E2]. apply filter_In. cbn [fst]. split; [apply all_values_in; auto | apply Z.eqb_eq; exact S2]. }
    destruct (proj1 (proj1 SW _ _ PR rnd data)) as (y & EY). exists y. split; [exact EY |]. rewrite <- E2. split.
    + intros (k & I & S & E) KE. destruct (kept_same _ _ _ _ _ _ _ k k2 MK AP2 B1 I R2 ltac:(rewrite E; exact KE) I2 (eq_sym E)) as (ED & ET).
      assert (IL : In (k, g (k_key_data k)) (all_values g ks1)) by (apply all_values_in; auto).
      destruct (Forall2_in_l _ _ _ _ _ _ F2 IL) as ((k3 & q3) & I3 & (S3 & ID3 & T3 & _ & Q3)). cbn [fst snd] in *. subst q3.
      assert (I3' : In (k3, public_of (g (k_key_data k2))) (enabled_ones l')) by (rewrite ED; apply filter_In; split; [exact I3 | cbn [fst]; rewrite S3, S; reflexivity]).
      destruct (G k2 (or_intror I2)) as (_ & _ & _ & MA).
      exact (signature_carries_over ec sg ks2 _ s _ v k2 k3 _ rnd data y SL KS2 SW PR MA VW I3' (eq_trans ID3 E) (eq_trans T3 (eq_sym ET)) EY).
    + intros NK data'. apply (proj2 (proj1 SW _ _ PR rnd data)) in EY. destruct EY as (c & ST & _). destruct VW as (V1 & TV).
      destruct (verify v y data') as [[] | e] eqn:D; [| exists e; split; [reflexivity |]; specialize (TV y data'); rewrite D in TV; exact TV].
      exfalso. apply NK. apply V1 in D. destruct D as (k3 & q3 & c' & I3 & ST3 & _). apply filter_In in I3. destruct I3 as (I3 & S3). cbn [fst] in S3. apply Z.eqb_eq in S3.
      destruct (Forall2_in_r _ _ _ _ _ _ F2 I3) as ((k & q) & I & (S & ID & T & _)). cbn [fst snd] in *. apply all_values_in in I. destruct I as (I & _).
      exists k. split; [exact I |]. split; [rewrite <- S; exact S3 |]. rewrite <- ID. symmetry. refine (proj1 (stamped_id k2 k3 y c c' (proj1 (built_prefix _ _ _ B2 I2)) _ ST ST3)). rewrite T. exact (proj1 (built_prefix _ _ _ B1 I)).
Qed.
