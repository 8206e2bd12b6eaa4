(** Proofs: tokens of JWT keysets that are managed with a KeysetBuilder. *)
From Coq Require Import Strings.Byte Strings.String List NArith ZArith Bool Lia.
From Verif Require Import M_Base M_Utf8 M_Base64 M_Proto M_Wire M_ProtoMsg M_KeyFormats M_JwtTypes M_Prims M_PrimitiveSet M_Registry M_KeysetHandle M_KeysetIO M_KeysetBuilder M_Wrappers M_Json M_RawJwt M_JwtPrims M_JwtFormat M_JwtWrappers M_JwtKeys
  M_StreamTypes M_CcStream M_CcManagers M_Templates M_CcAes M_CcStreamKeys M_CcModes M_CcSymmetric M_CcSymKeys M_CcEcies M_CcEciesKeys M_CcSignatures M_CcJwt
  S_Keyset S_Handle S_Wrappers S_Registry S_Json S_Jwt S_JwtKeys S_Wire S_Config S_KeysetBuilder S_CcLaws S_CcAes S_CcStreamKeys S_CcModes S_CcSymmetric S_CcSymKeys S_CcSymHandles S_CcEcies S_CcEciesKeys S_CcSignatures S_CcSigHandles S_CcJwt S_CcJwtHandles
  S_CcPublish S_CcBuilder S_CcBuilder2 S_CcBuilder3
  L_Base L_CcSymHandles L_Registry L_Wire L_PrimitiveSet L_Keyset L_Jwt L_Jwt2 L_Jwt5 L_Jwt6 L_Jwt7 L_Handle L_Config L_Config2 L_Config3 L_Config4 L_KeysetBuilder
  L_CcSymKeys2 L_CcSymHandles3 L_CcEciesHandles2 L_CcSigHandles3 L_CcJwt L_CcJwt2 L_CcJwtParse L_CcJwtHandles L_CcJwtHandles2 L_CcJwtHandles3 L_CcJwtHandles4 L_CcPublish L_CcBuilder L_CcBuilder2 L_CcBuilder3.
Import ListNotations.
Open Scope string_scope.
Open Scope list_scope.
Open Scope nat_scope.

(** The kid of the header says which key is meant. *)
Lemma token_kid : forall rt alg kid ck tagged r token alg' kid' ck' tagged' clock v r',
  token_for rt alg (Some kid) ck tagged r token -> token_valid rt alg' (Some kid') ck' tagged' clock v token r' -> kid' = kid.
Proof.
  intros rt alg kid ck tagged r token alg' kid' ck' tagged' clock v r' (s & h & p & t & m & CP & _ & DH & HO & _) (s' & h' & p' & t' & m' & CP' & _ & DH' & HK & _).
  destruct (compact_parts_fun _ _ _ _ _ _ _ _ _ CP CP') as (_ & <- & _ & _). apply document_iff in DH, DH'. rewrite DH in DH'. apply ok_inj in DH'. injection DH' as <-.
  destruct HK as (_ & _ & _ & HK & _). specialize (HK kid' eq_refl). apply HO in HK. destruct HK as [(E & _) | [(_ & k & E & _ & E') | (E & _)]]; [vm_compute in E; discriminate E | | vm_compute in E; discriminate E].
  injection E as <-. injection E' as ->. reflexivity.
Qed.
Lemma built_kid : forall P ks k, built P ks -> In k (ks_key ks) -> exists kid, kid_of k (Some kid).
Proof.
  intros P ks k (F & _) I. rewrite Forall_forall in F. destruct (F k I) as (_ & T & ID & _). destruct (kid_exists k (or_intror T)) as (kid & K); [change (2 ^ 32)%N with 4294967296%N; lia |].
  destruct kid as [kid |]; [exists kid; exact K |]. destruct K as [(R & _) | (_ & b3 & b2 & b1 & b0 & s & _ & _ & E)]; [rewrite T in R; discriminate R | discriminate E].
Qed.
(** Tokens of one key are not accepted for keys with other ids. *)
Lemma tokens_stay_away : forall K K2 rt (alg : K -> pystr) (alg2 : K2 -> pystr) custom custom2 (tagged : K -> bytes -> bytes -> Prop) (tagged2 : K2 -> bytes -> bytes -> Prop) l2 verify k kid q r token P ks2,
  accepts_tokens rt alg2 custom2 tagged2 l2 verify -> kid_of k (Some kid) -> token_for rt (alg q) (Some kid) (custom q) (tagged q) r token -> built P ks2 ->
  (forall k2 q2, In (k2, q2) l2 -> exists k3, In k3 (ks_key ks2) /\ k_key_id k2 = k_key_id k3 /\ k_output_prefix_type k2 = k_output_prefix_type k3 /\ k_key_id k3 <> k_key_id k) ->
  forall clock v, representable (current_time v clock - jv_clock_skew v)%Z -> representable (current_time v clock + jv_clock_skew v)%Z -> forall x, verify clock token v <> Ok x.
Proof.
  intros K K2 rt alg alg2 custom custom2 tagged tagged2 l2 verify k kid q r token P ks2 (AC & _) KI TF B2 NO clock v R1 R2 (x) E. apply (AC clock v token x R1 R2) in E.
  destruct E as (k2 & q2 & kid2 & I2 & KI2 & TV). destruct (NO k2 q2 I2) as (k3 & I3 & EI & ET & NE). destruct (built_kid _ _ _ B2 I3) as (kid3 & KI3).
  pose proof (kid_of_fun _ _ _ KI2 (same_kid _ _ _ EI ET KI3)) as ->. pose proof (token_kid _ _ _ _ _ _ _ _ _ _ _ _ _ _ TF TV) as ->.
  exact (NE (kid_of_inj _ _ _ KI3 KI)).
Qed.

Lemma mac_templates_are : jwt_mac_templates = filter asks_for_mac jwt_templates.
Proof. reflexivity. Qed.
Lemma signature_templates_are : jwt_signature_templates = filter (fun x => negb (asks_for_mac x)) jwt_templates.
Proof. reflexivity. Qed.

(** ** MACs *)
Definition jwt_mac_value (d : key_data) (q : jwt_hmac_secret) : Prop := is_jwt_hmac d q /\ jwt_hmac_ok q /\ hs_kid q = None.
Definition jwt_mac_data (d : key_data) : Prop := kd_key_material_type d = SYMMETRIC /\ wf_key_data d /\ proto_size (serialize_key_data d) /\ exists q, jwt_mac_value d q.
Lemma jwt_mac_makes_keys : forall lib random ec sg self_test w env r, jwt_world lib random ec sg self_test w -> random_law random -> configured w env JwtMac r -> makes_keys jwt_mac_data jwt_mac_templates r.
Proof.
  intros lib random ec sg self_test w env r HW RL HC name t rnd Hin. rewrite mac_templates_are in Hin. apply filter_In in Hin. destruct Hin as (Hin & HU). cbn [asks_for_mac snd] in HU. apply str_eqb_spec in HU.
  destruct (jwt_template_kind name t Hin) as (W1 & W2 & y & IT & A & EP). destruct y as [h size | f].
  2: { exfalso. destruct A as ((U & _) & _). rewrite HU in U. apply type_url_inj in U. destruct (jwt_format_family f); discriminate U. }
  destruct A as (_ & A & LS & SZ). destruct (jwt_cc_new_mac_made lib random rnd _ h size A LS) as (d & ND & U).
  destruct (new_jwt_mac_sizes lib random rnd _ h size d RL A SZ ND) as (P1 & P2 & P3).
  destruct (jwt_cc_new_mac_key lib random rnd _ d RL ND P1) as (h' & size' & A' & _ & MT & IK & OK).
  exists d. split; [| split; [exact MT |]; split; [exact P3 |]; split; [exact P2 |]; eexists; split; [exact IK |]; split; [exact OK | reflexivity]].
  assert (CF : cc_functions w ClsJwtMacInternal (type_url "JwtHmacKey") = Some (cl_key_type (jwt_mac_manager lib random), cl_new_key_data (jwt_mac_manager lib random), cl_public_key_data (jwt_mac_manager lib random)))
    by (cbn [cc_functions]; rewrite (proj1 HW); reflexivity).
  pose proof (configured_new_key w env JwtMac r _ ClsJwtMacInternal false _ _ _ rnd t HC (or_introl eq_refl) CF HU W1 W2) as Q. rewrite ND in Q. apply Q. intros d' E. injection E as <-. split; assumption.
Qed.
Lemma jwt_mac_not_public : not_public jwt_mac_data.
Proof. intros d (M & W & _). split; [exact W | rewrite M; discriminate]. Qed.
Lemma built_jwt_mac : forall g ks, built jwt_mac_data ks -> primary_on ks -> (forall k, In k (ks_key ks) -> jwt_mac_value (k_key_data k) (g (k_key_data k))) ->
  jwt_keyset is_jwt_hmac jwt_hmac_ok ks (enabled_ones (all_values g ks)).
Proof.
  intros g ks B PO G. split; [apply (built_valid _ _ jwt_mac_not_public B), PO |]. split; [apply enabled_values |]. rewrite Forall_forall. intros (k & q) I. apply filter_In in I. destruct I as (I & _).
  apply all_values_in in I. destruct I as (I & ->). cbn [fst snd]. destruct (built_data _ _ _ B I) as (M & W & S & _). destruct (G k I) as (K & GP & _).
  do 4 (split; [assumption |]). destruct (built_kid _ _ _ B I) as (kid & KI). exists (Some kid). exact KI.
Qed.
Theorem cc_builder_jwt_mac : forall lib random ec sg self_test w env r, jwt_world lib random ec sg self_test w -> hmac_size_law lib -> random_law random -> float_codec (pe_rt env) -> float_times_ok (pe_rt env) ->
  configured w env JwtMac r ->
  forall ops1 rs1 ks1 ops2 rs2 ks2, Forall (adds_predefined jwt_mac_templates) (ops1 ++ ops2) -> builder_run r ops1 new_keyset_builder = Some (rs1, ks1) -> builder_run r ops2 ks1 = Some (rs2, ks2) ->
  Forall2 proper_result (ops1 ++ ops2) (rs1 ++ rs2) /\
  (primary_on ks1 -> primary_on ks2 ->
   exists a1 a2, handle_primitive r (mk_handle ks1) ClsJwtMac = Ok (PrimJwtMac a1) /\ handle_primitive r (mk_handle ks2) ClsJwtMac = Ok (PrimJwtMac a2) /\
     forall j, ordinary_jwt (pe_rt env) j -> well_typed j -> exists token, jm_compute a1 j = Ok token /\
       forall clock v, representable (current_time v clock - jv_clock_skew v)%Z -> representable (current_time v clock + jv_clock_skew v)%Z ->
         (stays_on (ks_primary_key_id ks1) ops2 -> forall j', same_but_empty_type j j' -> accepts (pe_rt env) clock v j' -> jm_verify a2 clock token v = Ok (mk_verified_jwt j')) /\
         (goes_off (ks_primary_key_id ks1) ops2 -> forall x, jm_verify a2 clock token v <> Ok x)).
Proof.
  intros lib random ec sg self_test w env r HW HL RL Hc Hf HC ops1 rs1 ks1 ops2 rs2 ks2 AP R1 R2. pose proof (jwt_mac_makes_keys lib random ec sg self_test w env r HW RL HC) as MK. apply Forall_app in AP. destruct AP as (AP1 & AP2).
  destruct (built_run _ _ _ _ _ _ _ MK AP1 R1 (built_new _)) as (B1 & PR1). destruct (built_run _ _ _ _ _ _ _ MK AP2 R2 B1) as (B2 & PR2). split; [apply Forall2_app; assumption |]. intros PO1 PO2.
  destruct (two_all_values _ (mk_jwt_hmac_secret M_CcAes.SHA256 [] None) jwt_mac_value jwt_mac_data ks1 ks2 ltac:(intros d (_ & _ & _ & X); exact X) B1 B2) as (g & G).
  pose proof (built_jwt_mac g _ B1 PO1 (fun k I => G k (or_introl I))) as KS1. pose proof (built_jwt_mac g _ B2 PO2 (fun k I => G k (or_intror I))) as KS2.
  destruct (jwt_mac_handle_works lib random ec sg self_test w env r ks1 _ HW HL Hc Hf HC KS1) as (a1 & H1 & W1). destruct (jwt_mac_handle_works lib random ec sg self_test w env r ks2 _ HW HL Hc Hf HC KS2) as (a2 & H2 & W2).
  exists a1, a2. split; [exact H1 |]. split; [exact H2 |]. intros j OJ WT. destruct PO1 as (k & I & S & E). set (q := g (k_key_data k)). destruct (G k (or_introl I)) as (_ & _ & NK). fold q in NK.
  assert (IP : is_primary ks1 (enabled_ones (all_values g ks1)) k q). { split; [| exact E]. apply filter_In. cbn [fst]. split; [apply all_values_in; auto | apply Z.eqb_eq; exact S]. }
  destruct (built_kid _ _ _ B1 I) as (kid & KI). destruct (proj1 (proj1 (proj1 W1) k q _ j IP KI) (or_introl NK) OJ) as (token & ET & TF). exists token. split; [exact ET |]. intros clock v Q1 Q2. rewrite <- E. split.
  - intros SO j' SE AC. pose proof (stays _ _ _ _ _ _ _ B1 I S R2 SO) as I2.
    assert (IL2 : In (k, q) (enabled_ones (all_values g ks2))) by (apply filter_In; cbn [fst]; rewrite S; split; [apply all_values_in; auto | reflexivity]).
    exact (jwt_mac_carries_over _ _ _ _ _ _ _ _ _ _ _ _ _ _ _ _ KS1 W1 W2 IP IL2 eq_refl eq_refl OJ WT SE AC Q1 Q2 ET).
  - intros GO. refine (tokens_stay_away _ _ _ hs_alg hs_alg hs_kid hs_kid (fun q signed tag => tag = evp_hmac lib (hs_hash q) (hs_value q) signed) _ _ _ k kid q j token _ ks2 (proj2 W2) KI TF B2 _ clock v Q1 Q2).
    intros k2 q2 J. apply filter_In in J. destruct J as (J & S2). cbn [fst] in S2. apply Z.eqb_eq in S2. apply all_values_in in J. destruct J as (J & _).
    exists k2. split; [exact J |]. split; [reflexivity |]. split; [reflexivity |]. exact (goes _ _ _ _ _ _ _ _ MK AP2 B1 I S R2 GO k2 J S2).
Qed.

(** ** Signatures *)
Definition jwt_sig_value (ec : ec_crypto) (sg : sig_crypto) (d : key_data) (q : jwt_private) : Prop :=
  is_jwt_private d q /\ valid_private (private_scheme q) /\ good_private ec sg (private_scheme q) /\ matching ec sg (private_scheme q) /\ jwt_kid (jwt_public_of q) = None.
Definition jwt_sig_data (ec : ec_crypto) (sg : sig_crypto) (self_test : coins) (d : key_data) : Prop :=
  kd_key_material_type d = ASYMMETRIC_PRIVATE /\ wf_key_data d /\ proto_size (serialize_key_data d) /\ (forall k, k_key_data k = d -> jwt_public_fits ec sg self_test k) /\
  exists q, jwt_sig_value ec sg d q.
Lemma jwt_sig_makes_keys : forall lib random ec sg self_test w env r, jwt_world lib random ec sg self_test w -> ec_laws ec lib -> sig_laws ec sg -> rsa_sizes sg -> configured w env JwtSignature r ->
  makes_keys (jwt_sig_data ec sg self_test) jwt_signature_templates r.
Proof.
  intros lib random ec sg self_test w env r HW EL SL RS HC name t rnd Hin. rewrite signature_templates_are in Hin. apply filter_In in Hin. destruct Hin as (Hin & HU). cbn [asks_for_mac snd] in HU. apply negb_true_iff in HU.
  destruct (jwt_template_kind name t Hin) as (W1 & W2 & y & IT & A & EP). destruct y as [h size | f]; [exfalso; rewrite (proj1 A), str_eqb_refl in HU; discriminate HU |]. destruct A as (A & OK & SZ).
  pose proof (proj1 A) as EU. pose proof A as A'. rewrite EU in A'. destruct (jwt_cc_new_key ec lib sg self_test rnd _ f EL SL A' OK SZ) as (d & ND & U & MT & HK).
  destruct (new_jwt_sizes ec lib sg self_test rnd _ f d EL SL RS A' OK SZ ND) as (W4 & W5 & W3 & PF). destruct (HK W4) as (q & K & FK & GQ & MA). clear HK.
  assert (VP : valid_private (private_scheme q)) by (apply jwt_valid_private; rewrite scheme_of_public; apply GQ).
  exists d. split; [| split; [exact MT |]; split; [exact W3 |]; split; [exact W5 |]; split; [exact PF |]; exists q; split; [exact K |]; split; [exact VP |]; split; [exact GQ |]; split; [exact MA | exact (proj1 (proj2 FK))]].
  assert (CF : cc_functions w ClsJwtSignInternal (type_url (family_name (jwt_format_family f) ++ "PrivateKey")) =
      Some (cl_key_type (jwt_sign_cc_manager ec sg self_test (jwt_format_family f)), cl_new_key_data (jwt_sign_cc_manager ec sg self_test (jwt_format_family f)), cl_public_key_data (jwt_sign_cc_manager ec sg self_test (jwt_format_family f))))
      by (cbn [cc_functions]; rewrite (proj1 (proj2 HW (jwt_format_family f))); reflexivity).
  pose proof (configured_new_key w env JwtSignature r _ ClsJwtSignInternal true _ _ _ rnd t HC (jwt_signer_types (jwt_format_family f)) CF EU W1 W2) as Q. rewrite ND in Q. apply Q.
  intros d' E. injection E as <-. split; assumption.
Qed.
Lemma jwt_sig_not_public : forall ec sg self_test, not_public (jwt_sig_data ec sg self_test).
Proof. intros ec sg self_test d (M & W & _). split; [exact W | rewrite M; discriminate]. Qed.
Lemma built_jwt_sig : forall ec sg self_test g ks, built (jwt_sig_data ec sg self_test) ks -> primary_on ks -> (forall k, In k (ks_key ks) -> jwt_sig_value ec sg (k_key_data k) (g (k_key_data k))) ->
  all_jwt_private ks (all_values g ks) /\ jwt_keyset is_jwt_private (fun q => good_private ec sg (private_scheme q)) ks (enabled_ones (all_values g ks)).
Proof.
  intros ec sg self_test g ks B PO G. split.
  - split; [apply all_values_fst |]. rewrite Forall_forall. intros (k & q) I. apply all_values_in in I. destruct I as (I & ->). cbn [fst snd].
    destruct (built_data _ _ _ B I) as (M & W & S & _). destruct (G k I) as (K & V & _). auto.
  - split; [apply (built_valid _ _ (jwt_sig_not_public _ _ _) B), PO |]. split; [apply enabled_values |]. rewrite Forall_forall. intros (k & q) I. apply filter_In in I. destruct I as (I & _).
    apply all_values_in in I. destruct I as (I & ->). cbn [fst snd]. destruct (built_data _ _ _ B I) as (M & W & S & _). destruct (G k I) as (K & _ & GP & _).
    do 4 (split; [assumption |]). destruct (built_kid _ _ _ B I) as (kid & KI). exists (Some kid). exact KI.
Qed.
Theorem cc_builder_jwt_signatures : forall lib random ec sg self_test w env r, jwt_world lib random ec sg self_test w -> ec_laws ec lib -> sig_laws ec sg -> rsa_sizes sg -> float_codec (pe_rt env) -> float_times_ok (pe_rt env) ->
  configured w env JwtSignature r ->
  forall ops1 rs1 ks1 ops2 rs2 ks2, Forall (adds_predefined jwt_signature_templates) (ops1 ++ ops2) -> builder_run r ops1 new_keyset_builder = Some (rs1, ks1) -> builder_run r ops2 ks1 = Some (rs2, ks2) ->
  Forall2 proper_result (ops1 ++ ops2) (rs1 ++ rs2) /\
  (primary_on ks1 -> primary_on ks2 -> proto_size (serialize_keyset ks1) ->
   exists x ph vf s, builder_public_keyset r ks1 = Ok x /\ (proto_size x -> proto_parse_without_secret x = Ok ph) /\ distributable ph /\ kept_secret (mk_handle ks1) /\
     handle_primitive r ph ClsJwtVerify = Ok (PrimJwtVerify vf) /\ handle_primitive r (mk_handle ks2) ClsJwtSign = Ok (PrimJwtSign s) /\
     forall rnd j, ordinary_jwt (pe_rt env) j -> well_typed j -> exists token, js_sign s rnd j = Ok token /\
       forall clock v, representable (current_time v clock - jv_clock_skew v)%Z -> representable (current_time v clock + jv_clock_skew v)%Z ->
         (key_on (ks_primary_key_id ks2) ks1 -> kept (ks_primary_key_id ks2) ops2 -> forall j', same_but_empty_type j j' -> accepts (pe_rt env) clock v j' -> jv_verify vf clock token v = Ok (mk_verified_jwt j')) /\
         (~ key_on (ks_primary_key_id ks2) ks1 -> forall x, jv_verify vf clock token v <> Ok x)).
Proof.
  intros lib random ec sg self_test w env r HW EL SL RS Hc Hf HC ops1 rs1 ks1 ops2 rs2 ks2 AP R1 R2. pose proof (jwt_sig_makes_keys lib random ec sg self_test w env r HW EL SL RS HC) as MK. apply Forall_app in AP. destruct AP as (AP1 & AP2).
  destruct (built_run _ _ _ _ _ _ _ MK AP1 R1 (built_new _)) as (B1 & PR1). destruct (built_run _ _ _ _ _ _ _ MK AP2 R2 B1) as (B2 & PR2). split; [apply Forall2_app; assumption |]. intros PO1 PO2 Sz.
  destruct (two_all_values _ (EsPrivate M_CcAes.SHA256 [] [] [] None) (jwt_sig_value ec sg) (jwt_sig_data ec sg self_test) ks1 ks2 ltac:(intros d (_ & _ & _ & _ & X); exact X) B1 B2) as (g & G).
  destruct (built_jwt_sig _ _ _ g _ B1 PO1 (fun k I => G k (or_introl I))) as (AL & KS1). destruct (built_jwt_sig _ _ _ g _ B2 PO2 (fun k I => G k (or_intror I))) as (_ & KS2).
  pose proof (jwt_sig_not_public ec sg self_test) as NP. pose proof (proj2 (built_valid _ _ NP B1) PO1) as V. pose proof (built_wf _ _ NP B1) as Wf.
  destruct (jwt_public_handle lib random ec sg self_test w env r ks1 _ HW HC V AL) as (ph & l' & EP & PI & EM & F2 & PU & KP).
  { intros k I. destruct (built_prefix _ _ _ B1 I) as (_ & X & Y & _). auto. }
  { intros k I. destruct (built_data _ _ _ B1 I) as (_ & _ & _ & PF & _). apply PF. reflexivity. }
  specialize (KP KS1).
  destruct (public_half_fits _ _ jwt_public_half ks1 _ (kh_keyset ph) l' Wf (proj1 AL) PI EM F2 PU) as (Wf' & NS).
  { intros x y (S & ID & T & (U & _) & _). split; [exact S |]. split; [exact ID |]. split; [exact T |]. rewrite U. exact (proj1 (jwt_url_text _)). }
  destruct ph as [pks]. cbn [kh_keyset] in *.
  destruct (jwt_verify_handle_works lib random ec sg self_test w env r pks _ HW SL Hf HC KP) as (vf & HV & VW). destruct (jwt_sign_handle_works lib random ec sg self_test w env r ks2 _ HW SL Hc HC KS2) as (s & HS & SW).
  pose proof (public_distributable (mk_handle pks) (proj1 KP) Wf' NS) as DI. pose proof (proj2 (proto_serialize_without_secret_spec (mk_handle pks)) NS) as ES. cbn [kh_keyset] in ES.
  exists (serialize_keyset pks), (mk_handle pks), vf, s. split; [| split; [| split; [exact DI |]; split; [| split; [exact HV |]; split; [exact HS |]]]].
  - unfold builder_public_keyset. rewrite (proj1 (proj1 (built_handle _ _ NP B1 Sz) PO1)). cbn [bind]. rewrite EP. cbn [bind]. exact ES.
  - intros Sx. destruct (proj1 DI Sx) as (x & E1 & E2). rewrite ES in E1. apply ok_inj in E1. subst x. exact E2.
  - apply secret_kept. apply (private_has_secret _ ks1 _ V (proj1 AL)). eapply Forall_impl; [| exact (proj2 AL)]. intros x (_ & _ & M & _). exact M.
  - intros rnd j OJ WT. destruct PO2 as (k2 & I2 & S2 & E2). set (q := g (k_key_data k2)). destruct (G k2 (or_intror I2)) as (_ & _ & _ & MA & NK). fold q in MA, NK.
    assert (PR : is_primary ks2 (enabled_ones (all_values g ks2)) k2 q).
    { split; [| exact E2]. apply filter_In. cbn [fst]. split; [apply all_values_in; auto | apply Z.eqb_eq; exact S2]. }
    destruct (built_kid _ _ _ B2 I2) as (kid & KI). destruct (proj1 (proj1 (SW rnd) k2 q _ j PR KI) (or_introl NK) OJ) as (token & ET & TF). exists token. split; [exact ET |]. intros clock v Q1 Q2. rewrite <- E2. split.
    + intros (k & I & S & E) KE j' SE AC. destruct (kept_same _ _ _ _ _ _ _ k k2 MK AP2 B1 I R2 ltac:(rewrite E; exact KE) I2 (eq_sym E)) as (ED & EQ).
      assert (IL : In (k, g (k_key_data k)) (all_values g ks1)) by (apply all_values_in; auto).
      destruct (Forall2_in_l _ _ _ _ _ _ F2 IL) as ((k3 & q3) & I3 & (S3 & ID3 & T3 & _ & Q3)). cbn [fst snd] in *. subst q3.
      assert (I3' : In (k3, jwt_public_of q) (enabled_ones l')) by (unfold q; rewrite ED; apply filter_In; split; [exact I3 | cbn [fst]; rewrite S3, S; reflexivity]).
      exact (jwt_signature_carries_over _ _ _ _ _ _ _ _ _ _ _ _ _ _ _ _ _ SL KS2 SW PR MA VW I3' (eq_trans ID3 E) (eq_trans T3 (eq_sym EQ)) OJ WT SE AC Q1 Q2 ET).
    + intros NO. refine (tokens_stay_away _ _ _ (fun q => jwt_alg (jwt_public_of q)) jwt_alg (fun q => jwt_kid (jwt_public_of q)) jwt_kid (fun q signed tag => signature_of sg (private_scheme q) rnd signed tag) _ _ _ k2 kid q j token _ ks1 VW KI TF B1 _ clock v Q1 Q2).
      intros k3 q3 I3. apply filter_In in I3. destruct I3 as (I3 & S3). cbn [fst] in S3. apply Z.eqb_eq in S3.
      destruct (Forall2_in_r _ _ _ _ _ _ F2 I3) as ((k & q0) & I & (S & ID & T & _)). cbn [fst snd] in *. apply all_values_in in I. destruct I as (I & _).
      exists k. split; [exact I |]. split; [exact ID |]. split; [exact T |]. intros EQ. apply NO. exists k. split; [exact I |]. split; [rewrite <- S; exact S3 | exact EQ].
Qed.
