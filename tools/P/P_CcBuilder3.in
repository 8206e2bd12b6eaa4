(** C105: keysets of hybrid encryption keys that are managed with a KeysetBuilder, over the C++
    keys: published public keysets, and decryption with later private keysets. *)
From Coq Require Import Strings.Byte Strings.String List NArith ZArith Bool Lia.
From Verif Require Import M_Base M_Utf8 M_Proto M_Wire M_ProtoMsg M_KeyFormats M_Prims M_PrimitiveSet M_Registry M_KeysetHandle M_KeysetIO M_KeysetBuilder M_Wrappers M_StreamTypes M_CcStream M_CcManagers
  M_Templates M_Cli M_CcAes M_CcStreamKeys M_CcModes M_CcSymmetric M_CcSymKeys M_CcEcies M_CcEciesKeys M_CcHpke S_Keyset S_Handle S_Wrappers S_Wire S_Config S_KeysetBuilder S_Cli S_CcLaws S_CcAes S_CcStreamKeys S_CcModes S_CcSymmetric
  S_CcSymKeys S_CcSymHandles S_CcEcies S_CcEciesKeys S_CcEciesHandles S_CcHpke S_CcHpkeHandles S_CcHybrid S_CcPublish S_CcBuilder L_Base L_Keyset L_PrimitiveSet L_CcBuilder4
  X_Toy L_Toy X_Rt X_Config X_CliStream X_CcSymmetric X_CcSymKeys X_CcEcies X_CcHpke P_CcHybrid.
Import ListNotations.
Open Scope string_scope.
Open Scope list_scope.
Open Scope nat_scope.

@thm C105_hybrid cc_builder_hybrid

(** The hypotheses are met by the small library: an ECIES key and an HPKE key are added, the
    HPKE key is made primary, and the public keyset is published. Then the ECIES key becomes
    primary, and the HPKE key is switched off and on ... *)
Definition hybrid_template (n : nat) : key_template := match nth_error hybrid_templates n with Some (_, Ok t) => t | _ => mk_key_template [] [] 0 end.
Definition before_publishing : list builder_op := [AddNewKey 5%N [6%N] (hybrid_template 0); AddNewKey 6%N [6%N; 99%N] (hybrid_template 4); SetPrimaryKey 100; EnableKey 3].
Definition rotation : list builder_op := [SetPrimaryKey 7; DisableKey 100; EnableKey 100; DisableKey 55].
(** ... or the HPKE key is deleted. *)
Definition retirement : list builder_op := [SetPrimaryKey 7; DeleteKey 100].
Definition hybrid_after (ops : list builder_op) (ks : keyset) : keyset := match builder_run hybrid_registry ops ks with Some (_, ks') => ks' | None => ks end.
Definition hybrid_runs (ops : list builder_op) (ks : keyset) : bool := match builder_run hybrid_registry ops ks with Some _ => true | None => false end.
Lemma hybrid_run_after : forall ops ks, hybrid_runs ops ks = true -> exists rs, builder_run hybrid_registry ops ks = Some (rs, hybrid_after ops ks).
Proof. intros ops ks H. unfold hybrid_runs in H. unfold hybrid_after. destruct (builder_run hybrid_registry ops ks) as [(rs & ks') |]; [exists rs; reflexivity | discriminate]. Qed.
Definition primary_onb (ks : keyset) : bool := existsb (fun k => (k_status k =? ENABLED)%Z && (k_key_id k =? ks_primary_key_id ks)%N)%bool (ks_key ks).
Lemma primary_on_if : forall ks, primary_onb ks = true -> primary_on ks.
Proof.
  intros ks H. apply existsb_exists in H. destruct H as (k & I & H). apply andb_true_iff in H. destruct H as (S & E). exists k. split; [exact I |]. split; [apply Z.eqb_eq; exact S | apply N.eqb_eq; exact E].
Qed.
Definition published : keyset := hybrid_after before_publishing new_keyset_builder.
Example C105_runs_met :
  (hybrid_runs before_publishing new_keyset_builder && hybrid_runs rotation published && hybrid_runs retirement published &&
   primary_onb published && primary_onb (hybrid_after rotation published) && primary_onb (hybrid_after retirement published) &&
   (ks_primary_key_id published =? 100)%N && (N.of_nat (length (serialize_keyset published)) <? 2 ^ 31)%N)%bool = true.
Proof. vm_compute. reflexivity. Qed.
Example C105_templates_met : Forall (adds_predefined hybrid_templates) (before_publishing ++ rotation) /\ Forall (adds_predefined hybrid_templates) (before_publishing ++ retirement).
Proof.
  split; repeat apply Forall_cons; try apply Forall_nil; try exact I; (split; [reflexivity |]); eexists; eapply nth_error_In;
    [instantiate (2 := 0) | instantiate (2 := 4) | instantiate (2 := 0) | instantiate (2 := 4)]; reflexivity.
Qed.
Example C105_used : exists x ph e d, builder_public_keyset hybrid_registry published = Ok x /\ distributable ph /\ handle_primitive hybrid_registry ph ClsHybridEncrypt = Ok (PrimHybridEncrypt e) /\
  handle_primitive hybrid_registry (mk_handle (hybrid_after rotation published)) ClsHybridDecrypt = Ok (PrimHybridDecrypt d) /\
  forall rnd info, exists C, he_encrypt e rnd (blit "hello") info = Ok C /\ hd_decrypt d C info = Ok (blit "hello").
Proof.
  pose proof C105_runs_met as M. rewrite !andb_true_iff in M. destruct M as (((((((R1 & R2) & _) & P1) & P2) & _) & E1) & Sz).
  apply N.eqb_eq in E1. apply N.ltb_lt in Sz. apply primary_on_if in P1, P2. destruct (hybrid_run_after _ _ R1) as (rs1 & H1). destruct (hybrid_run_after _ _ R2) as (rs2 & H2).
  destruct C97_hypotheses_met as (_ & EL & CL & RL & HL & HC & _).
  destruct (cc_builder_hybrid _ _ _ _ _ _ _ (proj1 toy_library) (proj1 (proj2 toy_library)) EL CL RL HL HC _ _ _ _ _ _ (proj1 C105_templates_met) H1 H2) as (_ & Y).
  destruct (Y P1 P2 Sz) as (x & ph & e & d & X1 & _ & X3 & _ & X4 & X5 & X6). exists x, ph, e, d. do 4 (split; [assumption |]). intros rnd info.
  destruct (X6 rnd (blit "hello") info) as (Z1 & Z2). destruct Z1 as (C & EC); [reflexivity |]. exists C. split; [exact EC |]. apply (Z2 C EC). fold published. rewrite E1.
  split; [repeat apply Forall_cons; try apply Forall_nil; discriminate | reflexivity].
Qed.
Example C105_used_retired : exists x ph e d, builder_public_keyset hybrid_registry published = Ok x /\ distributable ph /\ handle_primitive hybrid_registry ph ClsHybridEncrypt = Ok (PrimHybridEncrypt e) /\
  handle_primitive hybrid_registry (mk_handle (hybrid_after retirement published)) ClsHybridDecrypt = Ok (PrimHybridDecrypt d) /\
  forall rnd info, exists C, he_encrypt e rnd (blit "hello") info = Ok C /\ raises_tink (hd_decrypt d C info).
Proof.
  pose proof C105_runs_met as M. rewrite !andb_true_iff in M. destruct M as (((((((R1 & _) & R3) & P1) & _) & P3) & E1) & Sz).
  apply N.eqb_eq in E1. apply N.ltb_lt in Sz. apply primary_on_if in P1, P3. destruct (hybrid_run_after _ _ R1) as (rs1 & H1). destruct (hybrid_run_after _ _ R3) as (rs3 & H3).
  destruct C97_hypotheses_met as (_ & EL & CL & RL & HL & HC & _).
  destruct (cc_builder_hybrid _ _ _ _ _ _ _ (proj1 toy_library) (proj1 (proj2 toy_library)) EL CL RL HL HC _ _ _ _ _ _ (proj2 C105_templates_met) H1 H3) as (_ & Y).
  destruct (Y P1 P3 Sz) as (x & ph & e & d & X1 & _ & X3 & _ & X4 & X5 & X6). exists x, ph, e, d. do 4 (split; [assumption |]). intros rnd info.
  destruct (X6 rnd (blit "hello") info) as (Z1 & Z2). destruct Z1 as (C & EC); [reflexivity |]. exists C. split; [exact EC |]. apply (Z2 C EC). fold published. rewrite E1.
  right. exists [SetPrimaryKey 7], []. split; [reflexivity | constructor].
Qed.
