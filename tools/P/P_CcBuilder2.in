(** C104: keysets of signature keys that are managed with a KeysetBuilder, over the C++ keys:
    published public keysets, and the signatures of later private keysets. *)
From Coq Require Import Strings.Byte Strings.String List NArith ZArith Bool Lia.
From Verif Require Import M_Base M_Utf8 M_Proto M_Wire M_ProtoMsg M_KeyFormats M_Prims M_PrimitiveSet M_Registry M_KeysetHandle M_KeysetIO M_KeysetBuilder M_Wrappers M_StreamTypes M_CcStream M_CcManagers
  M_Templates M_CcAes M_CcStreamKeys M_CcModes M_CcSymmetric M_CcSymKeys M_CcEcies M_CcEciesKeys M_CcSignatures S_Keyset S_Handle S_Wrappers S_Wire S_Config S_KeysetBuilder S_CcLaws S_CcAes S_CcStreamKeys S_CcModes S_CcSymmetric
  S_CcSymKeys S_CcSymHandles S_CcEcies S_CcEciesKeys S_CcSignatures S_CcSigHandles S_CcPublish S_CcBuilder S_CcBuilder2 L_Base L_Keyset L_PrimitiveSet L_CcBuilder3
  X_Toy L_Toy X_Rt X_Config X_CliStream X_CcSymmetric X_CcSymKeys X_CcEcies X_CcSignatures P_JsonKeyset P_CcSigHandles.
Import ListNotations.
Open Scope string_scope.
Open Scope list_scope.
Open Scope nat_scope.

@thm C104_signatures cc_builder_signatures

(** The hypotheses are met by the small library: an Ed25519 key is made primary, an ECDSA key is
    added, and the public keyset is published. Then the ECDSA key is switched off and on, and
    made primary ... *)
Definition sig_template (n : nat) : key_template := match nth_error signature_templates n with Some (_, Ok t) => t | _ => mk_key_template [] [] 0 end.
Definition before_publishing : list builder_op := [AddNewKey 9%N [6%N] (sig_template 10); SetPrimaryKey 7; AddNewKey 11%N [6%N; 99%N] (sig_template 0); EnableKey 3].
Definition promotion : list builder_op := [DisableKey 100; EnableKey 100; SetPrimaryKey 100; DeleteKey 7].
(** ... or a key is added and made primary that was not published. *)
Definition too_early : list builder_op := [AddNewKey 12%N [6%N; 199%N] (sig_template 10); SetPrimaryKey 200].
Definition sig_after (ops : list builder_op) (ks : keyset) : keyset := match builder_run signature_registry ops ks with Some (_, ks') => ks' | None => ks end.
Definition sig_runs (ops : list builder_op) (ks : keyset) : bool := match builder_run signature_registry ops ks with Some _ => true | None => false end.
Lemma sig_run_after : forall ops ks, sig_runs ops ks = true -> exists rs, builder_run signature_registry ops ks = Some (rs, sig_after ops ks).
Proof. intros ops ks H. unfold sig_runs in H. unfold sig_after. destruct (builder_run signature_registry ops ks) as [(rs & ks') |]; [exists rs; reflexivity | discriminate]. Qed.
Definition key_onb (id : N) (ks : keyset) : bool := existsb (fun k => (k_status k =? ENABLED)%Z && (k_key_id k =? id)%N)%bool (ks_key ks).
Lemma key_on_iff : forall id ks, key_onb id ks = true <-> key_on id ks.
Proof.
  intros id ks. unfold key_onb. rewrite existsb_exists. split.
  - intros (k & I & H). apply andb_true_iff in H. destruct H as (S & E). exists k. split; [exact I |]. split; [apply Z.eqb_eq; exact S | apply N.eqb_eq; exact E].
  - intros (k & I & S & E). exists k. split; [exact I |]. apply andb_true_iff. split; [apply Z.eqb_eq; exact S | apply N.eqb_eq; exact E].
Qed.
Definition published : keyset := sig_after before_publishing new_keyset_builder.
Example C104_runs_met :
  (sig_runs before_publishing new_keyset_builder && sig_runs promotion published && sig_runs too_early published &&
   key_onb (ks_primary_key_id published) published && key_onb 100%N (sig_after promotion published) && key_onb 200%N (sig_after too_early published) &&
   (ks_primary_key_id (sig_after promotion published) =? 100)%N && (ks_primary_key_id (sig_after too_early published) =? 200)%N &&
   key_onb 100%N published && negb (key_onb 200%N published) && (N.of_nat (length (serialize_keyset published)) <? 2 ^ 31)%N)%bool = true.
Proof. vm_compute. reflexivity. Qed.
Example C104_templates_met : Forall (adds_predefined signature_templates) (before_publishing ++ promotion) /\ Forall (adds_predefined signature_templates) (before_publishing ++ too_early).
Proof.
  split; repeat apply Forall_cons; try apply Forall_nil; try exact I; (split; [reflexivity |]); eexists; eapply nth_error_In;
    [instantiate (2 := 10) | instantiate (2 := 0) | instantiate (2 := 10) | instantiate (2 := 0) | instantiate (2 := 10)]; reflexivity.
Qed.
Example C104_used : exists x ph v s, builder_public_keyset signature_registry published = Ok x /\ distributable ph /\ handle_primitive signature_registry ph ClsVerify = Ok (PrimVerify v) /\
  handle_primitive signature_registry (mk_handle (sig_after promotion published)) ClsSign = Ok (PrimSign s) /\
  forall rnd data, exists y, sign s rnd data = Ok y /\ verify v y data = Ok tt.
Proof.
  pose proof C104_runs_met as M. rewrite !andb_true_iff in M. destruct M as ((((((((((R1 & R2) & _) & P1) & P2) & _) & E2) & _) & O2) & _) & Sz).
  apply N.eqb_eq in E2. apply N.ltb_lt in Sz. apply key_on_iff in P1, P2, O2. destruct (sig_run_after _ _ R1) as (rs1 & H1). destruct (sig_run_after _ _ R2) as (rs2 & H2).
  destruct (cc_builder_signatures _ _ _ _ _ _ _ toy_sig_world toy_ec_laws toy_sig_laws toy_rsa_sizes signature_configured _ _ _ _ _ _ (proj1 C104_templates_met) H1 H2) as (_ & Y).
  destruct (Y P1 ltac:(unfold primary_on; rewrite E2; exact P2) Sz) as (x & ph & v & s & X1 & _ & X3 & _ & X4 & X5 & X6).
  exists x, ph, v, s. do 4 (split; [assumption |]). intros rnd data. destruct (X6 rnd data) as (y & S & V & _). exists y. split; [exact S |]. apply V; [rewrite E2; exact O2 |].
  rewrite E2. repeat apply Forall_cons; try apply Forall_nil; discriminate.
Qed.
Example C104_used_too_early : exists x ph v s, builder_public_keyset signature_registry published = Ok x /\ distributable ph /\ handle_primitive signature_registry ph ClsVerify = Ok (PrimVerify v) /\
  handle_primitive signature_registry (mk_handle (sig_after too_early published)) ClsSign = Ok (PrimSign s) /\
  forall rnd data, exists y, sign s rnd data = Ok y /\ raises_tink (verify v y data).
Proof.
  pose proof C104_runs_met as M. rewrite !andb_true_iff in M. destruct M as ((((((((((R1 & _) & R3) & P1) & _) & P3) & _) & E3) & _) & O3) & Sz).
  apply N.eqb_eq in E3. apply N.ltb_lt in Sz. apply negb_true_iff in O3. apply key_on_iff in P1, P3. destruct (sig_run_after _ _ R1) as (rs1 & H1). destruct (sig_run_after _ _ R3) as (rs3 & H3).
  destruct (cc_builder_signatures _ _ _ _ _ _ _ toy_sig_world toy_ec_laws toy_sig_laws toy_rsa_sizes signature_configured _ _ _ _ _ _ (proj2 C104_templates_met) H1 H3) as (_ & Y).
  destruct (Y P1 ltac:(unfold primary_on; rewrite E3; exact P3) Sz) as (x & ph & v & s & X1 & _ & X3 & _ & X4 & X5 & X6).
  exists x, ph, v, s. do 4 (split; [assumption |]). intros rnd data. destruct (X6 rnd data) as (y & S & _ & V). exists y. split; [exact S |]. apply V. rewrite E3. intros K. apply key_on_iff in K. unfold published in O3. rewrite K in O3. discriminate O3.
Qed.
