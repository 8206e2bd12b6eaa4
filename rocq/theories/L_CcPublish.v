(** Proofs: the distribution of public keysets as files without secrets; signatures. *)
From Coq Require Import Strings.Byte Strings.String List NArith ZArith Bool Lia.
From Verif Require Import M_Base M_Utf8 M_Proto M_Wire M_ProtoMsg M_KeyFormats M_Prims M_PrimitiveSet M_Registry M_KeysetHandle M_KeysetIO M_Json M_JsonKeyset M_Wrappers M_StreamTypes M_CcStream M_CcManagers
  M_Templates M_CcAes M_CcStreamKeys M_CcModes M_CcSymmetric M_CcSymKeys M_CcEcies M_CcEciesKeys M_CcSignatures S_Keyset S_Handle S_Wrappers S_Json S_JsonKeyset S_Wire S_Config S_CcLaws S_CcAes S_CcStreamKeys S_CcModes S_CcSymmetric
  S_CcSymKeys S_CcSymHandles S_CcEcies S_CcEciesKeys S_CcSignatures S_CcSigHandles S_CcPublish L_Base L_Wire L_Keyset L_Handle L_JsonKeyset3
  L_CcEciesHandles2 L_CcSigHandles L_CcSigHandles2.
Import ListNotations.
Open Scope string_scope.
Open Scope list_scope.
Open Scope nat_scope.

Theorem public_distributable : forall h, valid_keyset (kh_keyset h) -> wf_keyset (kh_keyset h) -> ~ has_secret (kh_keyset h) -> distributable h.
Proof.
  intros h V Wf NS. split; [exact (no_secret_binary_round_trip h V Wf NS) |]. intros rt Hl.
  destruct (proj2 (json_serialize_without_secret_spec rt h Hl) NS Wf) as (v & t & E & _). exists t. split; [exact E |]. intros pb.
  destruct (no_secret_json_round_trip rt pb h Hl V Wf NS) as (t' & E' & R). rewrite E in E'. apply ok_inj in E'. subst t'. exact R.
Qed.
Theorem secret_kept : forall h, has_secret (kh_keyset h) -> kept_secret h.
Proof.
  intros h HS. split; [exact (proj1 (proto_serialize_without_secret_spec h) HS) |]. split; [| split].
  - intros x E. apply proto_parse_without_secret_spec in E. destruct E as (_ & ks & _ & NS & _ & ->). exact (NS HS).
  - intros rt Hl. exact (proj1 (json_serialize_without_secret_spec rt h Hl) HS).
  - intros rt pb t E. apply json_parse_without_secret_spec in E. destruct E as (ks & _ & NS & _ & ->). exact (NS HS).
Qed.
Lemma private_has_secret : forall A ks (l : list (key * A)), valid_keyset ks -> map fst l = ks_key ks -> Forall (fun x => kd_key_material_type (k_key_data (fst x)) = ASYMMETRIC_PRIVATE) l -> has_secret ks.
Proof.
  intros A ks l ((k & I & _) & _) EM F. exists k. split; [exact I |]. rewrite <- EM in I. apply in_map_iff in I. destruct I as (x & <- & I). rewrite Forall_forall in F. rewrite (F x I). vm_compute. auto.
Qed.
Lemma public_half_fits : forall A B (R : key * A -> key * B -> Prop) ks l ph l', wf_keyset ks -> map fst l = ks_key ks -> ks_primary_key_id ph = ks_primary_key_id ks -> map fst l' = ks_key ph -> Forall2 R l l' ->
  Forall (fun y => kd_key_material_type (k_key_data (fst y)) = ASYMMETRIC_PUBLIC) l' ->
  (forall x y, R x y -> k_status (fst y) = k_status (fst x) /\ k_key_id (fst y) = k_key_id (fst x) /\ k_output_prefix_type (fst y) = k_output_prefix_type (fst x) /\ valid_text (kd_type_url (k_key_data (fst y)))) ->
  wf_keyset ph /\ ~ has_secret ph.
Proof.
  intros A B R ks l ph l' (W0 & WK) EM PI EM' F2 PU HR. rewrite Forall_forall in PU.
  assert (P : forall k, In k (ks_key ph) -> kd_key_material_type (k_key_data k) = ASYMMETRIC_PUBLIC) by (intros k I; rewrite <- EM' in I; apply in_map_iff in I; destruct I as (y & <- & I); exact (PU y I)).
  split; [split; [rewrite PI; exact W0 |] |].
  - intros k I. pose proof (P k I) as MT. rewrite <- EM' in I. apply in_map_iff in I. destruct I as (y & E & I). subst k.
    destruct (Forall2_in_r _ _ _ _ _ _ F2 I) as (x & I0 & HXY). destruct (HR _ _ HXY) as (S & ID & PT & U). assert (IK : In (fst x) (ks_key ks)) by (rewrite <- EM; exact (in_map fst _ _ I0)).
    destruct (WK _ IK) as (_ & H2 & H3 & H4). split; [| rewrite S, ID, PT; auto]. intros d Ed. unfold k_key_data in U, MT. rewrite Ed in U, MT.
    split; [exact U | rewrite MT; vm_compute; split; congruence].
  - intros (k & I & S). rewrite (P k I) in S. vm_compute in S. intuition discriminate.
Qed.

(** ** Signatures: the public keyset is distributed; later the private keyset may be rotated. *)
Theorem cc_verifier_distributed : forall ec sg self_test w env r ks l, sig_world ec sg self_test w -> sig_laws ec sg -> rsa_sizes sg -> configured w env Signature r ->
  valid_keyset ks -> wf_keyset ks -> all_sig_private ks l -> (forall k, In k (ks_key ks) -> k_output_prefix_type k <> UNKNOWN_PREFIX /\ k_status k <> UNKNOWN_STATUS) ->
  (forall k, In k (ks_key ks) -> sig_public_fits ec sg self_test k) -> sig_keyset is_sig_private (good_private ec sg) ks (enabled_ones l) ->
  exists ph a, public_keyset_handle r (mk_handle ks) = Ok ph /\ kept_secret (mk_handle ks) /\ distributable ph /\ handle_primitive r ph ClsVerify = Ok (PrimVerify a) /\
    forall ks2 l2 k k2 q, sig_keyset is_sig_private (good_private ec sg) ks2 l2 -> is_primary ks2 l2 k2 q -> matching ec sg q ->
    In (k, q) (enabled_ones l) -> k_key_id k = k_key_id k2 -> k_output_prefix_type k = k_output_prefix_type k2 ->
    exists s, handle_primitive r (mk_handle ks2) ClsSign = Ok (PrimSign s) /\ forall rnd data, exists x, sign s rnd data = Ok x /\ verify a x data = Ok tt.
Proof.
  intros ec sg self_test w env r ks l HW SL RZ HC V Wf AL KN PF KS. destruct (sig_public_handle ec sg self_test w env r ks l HW HC V AL KN PF) as (ph & l' & EP & PI & EM & F2 & PU & KP). specialize (KP KS).
  destruct (public_half_fits _ _ sig_public_half ks l (kh_keyset ph) l' Wf (proj1 AL) PI EM F2 PU) as (Wf' & NS). { intros x y (S & I & T & (U & _) & _). split; [exact S |]. split; [exact I |]. split; [exact T |]. rewrite U. apply sig_url_text. }
  destruct ph as [pks]. cbn [kh_keyset] in *.
  destruct (verify_handle_works ec sg self_test w env r pks _ HW SL RZ HC KP) as (a & HA & VW). exists (mk_handle pks), a. split; [exact EP |]. split; [| split; [| split; [exact HA |]]].
  - apply secret_kept. apply (private_has_secret _ ks l V (proj1 AL)). eapply Forall_impl; [| exact (proj2 AL)]. intros x (_ & _ & M & _). exact M.
  - exact (public_distributable (mk_handle pks) (proj1 KP) Wf' NS).
  - intros ks2 l2 k k2 q KS2 PR MA I EI ET. destruct (sign_handle_works ec sg self_test w env r ks2 l2 HW SL HC KS2) as (s & HS & SW). exists s. split; [exact HS |]. intros rnd data.
    destruct (proj1 (proj1 SW k2 q PR rnd data)) as (x & EX). exists x. split; [exact EX |].
    apply filter_In in I. destruct I as (I & EN). destruct (Forall2_in_l _ _ _ _ _ _ F2 I) as ((k3 & q3) & I3 & (S3 & ID3 & T3 & _ & Q3)). cbn [fst snd] in *. subst q3.
    assert (I3' : In (k3, public_of q) (enabled_ones l')) by (apply filter_In; split; [exact I3 | cbn [fst]; rewrite S3; exact EN]).
    exact (signature_carries_over ec sg ks2 l2 s _ a k2 k3 q rnd data x SL KS2 SW PR MA VW I3' (eq_trans ID3 EI) (eq_trans T3 ET) EX).
Qed.
