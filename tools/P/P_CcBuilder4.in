(** C106: JWT keysets that are managed with a KeysetBuilder, over the C++ keys: tokens before and
    after every history, and published public keysets. *)
From Coq Require Import Strings.Byte Strings.String List NArith ZArith Bool Lia.
From Verif Require Import M_Base M_Utf8 M_Proto M_Wire M_ProtoMsg M_KeyFormats M_JwtTypes M_Prims M_PrimitiveSet M_Registry M_KeysetHandle M_KeysetIO M_KeysetBuilder M_Wrappers M_Json M_RawJwt M_JwtValidator M_JwtPrims
  M_StreamTypes M_CcStream M_CcManagers M_Templates M_CcAes M_CcStreamKeys M_CcModes M_CcSymmetric M_CcSymKeys M_CcEcies M_CcEciesKeys M_CcSignatures M_CcJwt
  S_Keyset S_Handle S_Wrappers S_Registry S_Json S_Jwt S_JwtKeys S_Wire S_Config S_KeysetBuilder S_CcLaws S_CcAes S_CcStreamKeys S_CcModes S_CcSymmetric S_CcSymKeys S_CcSymHandles S_CcEcies S_CcEciesKeys S_CcSignatures S_CcSigHandles S_CcJwt S_CcJwtHandles
  S_CcPublish S_CcBuilder S_CcBuilder2 S_CcBuilder3 L_Base L_Keyset L_PrimitiveSet L_Jwt3 L_Jwt8 L_CcBuilder5
  X_Toy L_Toy X_Rt X_Jwt X_Config X_CliStream X_CcSymmetric X_CcSymKeys X_CcEcies X_CcSignatures P_CcJwtHandles.
Import ListNotations.
Open Scope string_scope.
Open Scope list_scope.
Open Scope nat_scope.

@thm C106_mac cc_builder_jwt_mac
@thm C106_signatures cc_builder_jwt_signatures

(** The hypotheses are met by the small library. *)
Definition jwt_template (n : nat) : key_template := match nth_error jwt_templates n with Some (_, Ok t) => t | _ => mk_key_template [] [] 0 end.
Definition jwt_after (ops : list builder_op) (ks : keyset) : keyset := match builder_run jwt_toy_registry ops ks with Some (_, ks') => ks' | None => ks end.
Definition jwt_runs (ops : list builder_op) (ks : keyset) : bool := match builder_run jwt_toy_registry ops ks with Some _ => true | None => false end.
Lemma jwt_run_after : forall ops ks, jwt_runs ops ks = true -> exists rs, builder_run jwt_toy_registry ops ks = Some (rs, jwt_after ops ks).
Proof. intros ops ks H. unfold jwt_runs in H. unfold jwt_after. destruct (builder_run jwt_toy_registry ops ks) as [(rs & ks') |]; [exists rs; reflexivity | discriminate]. Qed.
Definition key_onb (id : N) (ks : keyset) : bool := existsb (fun k => (k_status k =? ENABLED)%Z && (k_key_id k =? id)%N)%bool (ks_key ks).
Lemma key_on_iff : forall id ks, key_onb id ks = true <-> key_on id ks.
Proof.
  intros id ks. unfold key_onb. rewrite existsb_exists. split.
  - intros (k & I & H). apply andb_true_iff in H. destruct H as (S & E). exists k. split; [exact I |]. split; [apply Z.eqb_eq; exact S | apply N.eqb_eq; exact E].
  - intros (k & I & S & E). exists k. split; [exact I |]. apply andb_true_iff. split; [apply Z.eqb_eq; exact S | apply N.eqb_eq; exact E].
Qed.

(** MACs: two keys, the first one primary; then the second one becomes primary, and the first
    one is kept, or disabled. *)
Definition first_macs : list builder_op := [AddNewKey 5%N [6%N] (jwt_template 0); AddNewKey 6%N [6%N; 99%N] (jwt_template 2); SetPrimaryKey 7; DisableKey 3].
Definition mac_rotation : list builder_op := [SetPrimaryKey 100; DisableKey 7; EnableKey 7].
Definition mac_retirement : list builder_op := [SetPrimaryKey 100; DisableKey 7].
Definition macs : keyset := jwt_after first_macs new_keyset_builder.
Example C106_mac_runs_met :
  (jwt_runs first_macs new_keyset_builder && jwt_runs mac_rotation macs && jwt_runs mac_retirement macs && (ks_primary_key_id macs =? 7)%N && key_onb (ks_primary_key_id macs) macs &&
   key_onb (ks_primary_key_id (jwt_after mac_rotation macs)) (jwt_after mac_rotation macs) && key_onb (ks_primary_key_id (jwt_after mac_retirement macs)) (jwt_after mac_retirement macs))%bool = true.
Proof. vm_compute. reflexivity. Qed.
Example C106_mac_templates_met : Forall (adds_predefined jwt_mac_templates) (first_macs ++ mac_rotation) /\ Forall (adds_predefined jwt_mac_templates) (first_macs ++ mac_retirement).
Proof.
  rewrite mac_templates_are. split; repeat apply Forall_cons; try apply Forall_nil; try exact I; (split; [reflexivity |]); eexists; apply filter_In; (split; [eapply nth_error_In |]);
    [instantiate (2 := 0); reflexivity | reflexivity | instantiate (2 := 2); reflexivity | reflexivity | instantiate (2 := 0); reflexivity | reflexivity | instantiate (2 := 2); reflexivity | reflexivity].
Qed.
Example C106_mac_used : exists a1 a2 a3, handle_primitive jwt_toy_registry (mk_handle macs) ClsJwtMac = Ok (PrimJwtMac a1) /\
  handle_primitive jwt_toy_registry (mk_handle (jwt_after mac_rotation macs)) ClsJwtMac = Ok (PrimJwtMac a2) /\ handle_primitive jwt_toy_registry (mk_handle (jwt_after mac_retirement macs)) ClsJwtMac = Ok (PrimJwtMac a3) /\
  exists token, jm_compute a1 toy_jwt = Ok token /\
  forall clock v, representable (current_time v clock - jv_clock_skew v)%Z -> representable (current_time v clock + jv_clock_skew v)%Z ->
    (accepts (pe_rt stream_env) clock v toy_jwt -> jm_verify a2 clock token v = Ok (mk_verified_jwt toy_jwt)) /\ forall x, jm_verify a3 clock token v <> Ok x.
Proof.
  pose proof C106_mac_runs_met as M. apply andb_true_iff in M. destruct M as (M & P3). apply andb_true_iff in M. destruct M as (M & P2). apply andb_true_iff in M. destruct M as (M & P1).
  apply andb_true_iff in M. destruct M as (M & E1). apply andb_true_iff in M. destruct M as (M & R3). apply andb_true_iff in M. destruct M as (R1 & R2).
  apply N.eqb_eq in E1. apply key_on_iff in P1, P2, P3. destruct (jwt_run_after _ _ R1) as (rs1 & H1). destruct (jwt_run_after _ _ R2) as (rs2 & H2). destruct (jwt_run_after _ _ R3) as (rs3 & H3).
  destruct C94_world_met as (HW & HL & RL & _ & _ & _ & FC & FT & HC & _).
  destruct (cc_builder_jwt_mac _ _ _ _ _ _ _ _ HW HL RL FC FT HC _ _ _ _ _ _ (proj1 C106_mac_templates_met) H1 H2) as (_ & Y2). destruct (Y2 P1 P2) as (a1 & a2 & X1 & X2 & U2).
  destruct (cc_builder_jwt_mac _ _ _ _ _ _ _ _ HW HL RL FC FT HC _ _ _ _ _ _ (proj2 C106_mac_templates_met) H1 H3) as (_ & Y3). destruct (Y3 P1 P3) as (b1 & a3 & Z1 & X3 & U3).
  exists a1, a2, a3. split; [exact X1 |]. split; [exact X2 |]. split; [exact X3 |].
  destruct (U2 toy_jwt toy_ordinary toy_well_typed) as (token & T & V). destruct (U3 toy_jwt toy_ordinary toy_well_typed) as (token' & T' & V').
  assert (EB : b1 = a1) by (rewrite X1 in Z1; injection Z1 as ->; reflexivity). rewrite EB in T'. rewrite T in T'. injection T' as <-.
  exists token. split; [exact T |]. intros clock v Q1 Q2. destruct (V clock v Q1 Q2) as (V1 & _). destruct (V' clock v Q1 Q2) as (_ & V2). fold macs in V1, V2. rewrite E1 in V1, V2. split.
  - intros AC. apply V1; [split; [repeat apply Forall_cons; try apply Forall_nil; discriminate | reflexivity] | exact toy_same | exact AC].
  - apply V2. left. split; [repeat apply Forall_cons; try apply Forall_nil; discriminate | reflexivity].
Qed.

(** Signatures: two keys are published; then the other one of them is made primary, or a key that
    was not published. *)
Definition before_publishing : list builder_op := [AddNewKey 5%N [6%N] (jwt_template 8); SetPrimaryKey 7; AddNewKey 6%N [6%N; 99%N] (jwt_template 6); EnableKey 3].
Definition promotion : list builder_op := [DisableKey 100; EnableKey 100; SetPrimaryKey 100; DeleteKey 7].
Definition too_early : list builder_op := [AddNewKey 12%N [6%N; 199%N] (jwt_template 8); SetPrimaryKey 200].
Definition published : keyset := jwt_after before_publishing new_keyset_builder.
Example C106_signature_runs_met :
  (jwt_runs before_publishing new_keyset_builder && jwt_runs promotion published && jwt_runs too_early published &&
   key_onb (ks_primary_key_id published) published && key_onb 100%N (jwt_after promotion published) && key_onb 200%N (jwt_after too_early published) &&
   (ks_primary_key_id (jwt_after promotion published) =? 100)%N && (ks_primary_key_id (jwt_after too_early published) =? 200)%N &&
   key_onb 100%N published && negb (key_onb 200%N published) && (N.of_nat (length (serialize_keyset published)) <? 2 ^ 31)%N)%bool = true.
Proof. vm_compute. reflexivity. Qed.
Example C106_signature_templates_met : Forall (adds_predefined jwt_signature_templates) (before_publishing ++ promotion) /\ Forall (adds_predefined jwt_signature_templates) (before_publishing ++ too_early).
Proof.
  rewrite signature_templates_are. split; repeat apply Forall_cons; try apply Forall_nil; try exact I; (split; [reflexivity |]); eexists; apply filter_In; (split; [eapply nth_error_In |]);
    [instantiate (2 := 8); reflexivity | reflexivity | instantiate (2 := 6); reflexivity | reflexivity | instantiate (2 := 8); reflexivity | reflexivity | instantiate (2 := 6); reflexivity | reflexivity | instantiate (2 := 8); reflexivity | reflexivity].
Qed.
Example C106_signature_used : exists x ph vf s, builder_public_keyset jwt_toy_registry published = Ok x /\ distributable ph /\ handle_primitive jwt_toy_registry ph ClsJwtVerify = Ok (PrimJwtVerify vf) /\
  handle_primitive jwt_toy_registry (mk_handle (jwt_after promotion published)) ClsJwtSign = Ok (PrimJwtSign s) /\
  forall rnd, exists token, js_sign s rnd toy_jwt = Ok token /\
  forall clock v, representable (current_time v clock - jv_clock_skew v)%Z -> representable (current_time v clock + jv_clock_skew v)%Z ->
    accepts (pe_rt stream_env) clock v toy_jwt -> jv_verify vf clock token v = Ok (mk_verified_jwt toy_jwt).
Proof.
  pose proof C106_signature_runs_met as M. apply andb_true_iff in M. destruct M as (M & Sz). apply andb_true_iff in M. destruct M as (M & _). apply andb_true_iff in M. destruct M as (M & O2).
  apply andb_true_iff in M. destruct M as (M & _). apply andb_true_iff in M. destruct M as (M & E2). apply andb_true_iff in M. destruct M as (M & _). apply andb_true_iff in M. destruct M as (M & P2).
  apply andb_true_iff in M. destruct M as (M & P1). apply andb_true_iff in M. destruct M as (M & _). apply andb_true_iff in M. destruct M as (R1 & R2).
  apply N.eqb_eq in E2. apply N.ltb_lt in Sz. apply key_on_iff in P1, P2, O2. destruct (jwt_run_after _ _ R1) as (rs1 & H1). destruct (jwt_run_after _ _ R2) as (rs2 & H2).
  destruct C94_world_met as (HW & _ & _ & EL & SL & RS & FC & FT & _ & HC).
  destruct (cc_builder_jwt_signatures _ _ _ _ _ _ _ _ HW EL SL RS FC FT HC _ _ _ _ _ _ (proj1 C106_signature_templates_met) H1 H2) as (_ & Y).
  destruct (Y P1 ltac:(unfold primary_on; rewrite E2; exact P2) Sz) as (x & ph & vf & s & X1 & _ & X3 & _ & X4 & X5 & X6).
  exists x, ph, vf, s. do 4 (split; [assumption |]). intros rnd. destruct (X6 rnd toy_jwt toy_ordinary toy_well_typed) as (token & T & V). exists token. split; [exact T |]. intros clock v Q1 Q2 AC.
  destruct (V clock v Q1 Q2) as (V1 & _). apply V1; [rewrite E2; exact O2 | | exact toy_same | exact AC]. rewrite E2. repeat apply Forall_cons; try apply Forall_nil; discriminate.
Qed.
Example C106_signature_used_too_early : exists x ph vf s, builder_public_keyset jwt_toy_registry published = Ok x /\ distributable ph /\ handle_primitive jwt_toy_registry ph ClsJwtVerify = Ok (PrimJwtVerify vf) /\
  handle_primitive jwt_toy_registry (mk_handle (jwt_after too_early published)) ClsJwtSign = Ok (PrimJwtSign s) /\
  forall rnd, exists token, js_sign s rnd toy_jwt = Ok token /\
  forall clock v, representable (current_time v clock - jv_clock_skew v)%Z -> representable (current_time v clock + jv_clock_skew v)%Z -> forall y, jv_verify vf clock token v <> Ok y.
Proof.
  pose proof C106_signature_runs_met as M. apply andb_true_iff in M. destruct M as (M & Sz). apply andb_true_iff in M. destruct M as (M & O3). apply andb_true_iff in M. destruct M as (M & _).
  apply andb_true_iff in M. destruct M as (M & E3). apply andb_true_iff in M. destruct M as (M & _). apply andb_true_iff in M. destruct M as (M & P3). apply andb_true_iff in M. destruct M as (M & _).
  apply andb_true_iff in M. destruct M as (M & P1). apply andb_true_iff in M. destruct M as (M & R3). apply andb_true_iff in M. destruct M as (R1 & _).
  apply N.eqb_eq in E3. apply N.ltb_lt in Sz. apply negb_true_iff in O3. apply key_on_iff in P1, P3. destruct (jwt_run_after _ _ R1) as (rs1 & H1). destruct (jwt_run_after _ _ R3) as (rs3 & H3).
  destruct C94_world_met as (HW & _ & _ & EL & SL & RS & FC & FT & _ & HC).
  destruct (cc_builder_jwt_signatures _ _ _ _ _ _ _ _ HW EL SL RS FC FT HC _ _ _ _ _ _ (proj2 C106_signature_templates_met) H1 H3) as (_ & Y).
  destruct (Y P1 ltac:(unfold primary_on; rewrite E3; exact P3) Sz) as (x & ph & vf & s & X1 & _ & X3 & _ & X4 & X5 & X6).
  exists x, ph, vf, s. do 4 (split; [assumption |]). intros rnd. destruct (X6 rnd toy_jwt toy_ordinary toy_well_typed) as (token & T & V). exists token. split; [exact T |]. intros clock v Q1 Q2.
  destruct (V clock v Q1 Q2) as (_ & V2). apply V2. rewrite E3. intros K. apply key_on_iff in K. unfold published in O3. rewrite K in O3. discriminate O3.
Qed.
(** A validator and a clock that meet the remaining hypotheses of the examples. *)
Example C106_validator_met : accepts (pe_rt stream_env) 0 toy_validator toy_jwt /\
  representable (current_time toy_validator 0 - jv_clock_skew toy_validator)%Z /\ representable (current_time toy_validator 0 + jv_clock_skew toy_validator)%Z.
Proof.
  split; [apply validate_sound; [exact toy_well_typed | vm_compute; reflexivity] |]. unfold representable. cbn. lia.
Qed.
