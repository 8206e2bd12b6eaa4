(** Proofs: the distribution of public keysets as files without secrets; hybrid encryption. *)
From Coq Require Import Strings.Byte Strings.String List NArith ZArith Bool Lia.
From Verif Require Import M_Base M_Utf8 M_Proto M_Wire M_ProtoMsg M_KeyFormats M_Prims M_PrimitiveSet M_Registry M_KeysetHandle M_KeysetIO M_Json M_JsonKeyset M_Wrappers M_StreamTypes M_CcStream M_CcManagers
  M_Templates M_Cli M_CcAes M_CcStreamKeys M_CcModes M_CcSymmetric M_CcSymKeys M_CcEcies M_CcEciesKeys M_CcHpke S_Keyset S_Handle S_Wrappers S_Json S_JsonKeyset S_Wire S_Config S_Cli S_CcLaws S_CcAes S_CcStreamKeys S_CcModes S_CcSymmetric
  S_CcSymKeys S_CcSymHandles S_CcEcies S_CcEciesKeys S_CcEciesHandles S_CcHpke S_CcHpkeHandles S_CcHybrid S_CcPublish L_Base L_Keyset L_Handle
  L_CcEciesHandles L_CcEciesHandles2 L_CcEciesHandles3 L_CcHpke L_CcHpke2 L_CcHpkeHandles L_CcHybrid.
From Verif Require L_CcPublish.
Import ListNotations.
Open Scope string_scope.
Open Scope list_scope.
Open Scope nat_scope.

(** The public keyset is distributed; later the private keyset may be rotated. *)
Theorem cc_encrypter_distributed : forall ec lib random hc w env r ks l k q, ecies_world ec lib random w -> hpke_world ec hc w -> ec_laws ec lib -> crypto_laws lib -> random_law random -> hpke_laws ec hc -> configured w env Hybrid r ->
  valid_keyset ks -> wf_keyset ks -> all_any_private ks l -> (forall k, In k (ks_key ks) -> k_output_prefix_type k <> UNKNOWN_PREFIX /\ k_status k <> UNKNOWN_STATUS) ->
  (forall k q, In (k, q) l -> any_public_fits ec lib random hc k q) -> hybrid_keyset is_any_private (good_any_private ec) ks (enabled_of l) -> is_primary ks (enabled_of l) k q ->
  exists ph e, public_keyset_handle r (mk_handle ks) = Ok ph /\ kept_secret (mk_handle ks) /\ distributable ph /\ handle_primitive r ph ClsHybridEncrypt = Ok (PrimHybridEncrypt e) /\
    forall ks2 l2 k2, hybrid_keyset is_any_private (good_any_private ec) ks2 l2 -> In (k2, q) l2 -> k_key_id k2 = k_key_id k -> k_output_prefix_type k2 = k_output_prefix_type k -> any_told_apart k2 q l2 ->
    exists d, handle_primitive r (mk_handle ks2) ClsHybridDecrypt = Ok (PrimHybridDecrypt d) /\
      forall rnd P info, (any_admits (any_public_of q) P -> exists C, he_encrypt e rnd P info = Ok C) /\ forall C, he_encrypt e rnd P info = Ok C -> hd_decrypt d C info = Ok P.
Proof.
  intros ec lib random hc w env r ks l k q HE HH EL CL RL HL HC V Wf AL KN PF KS (I & PID).
  destruct (any_public_handle ec lib random hc w env r ks l HE HH EL HC V AL KN PF) as (ph & l' & EP & PI & EM & F2 & PU & KP). specialize (KP KS).
  destruct (L_CcPublish.public_half_fits _ _ any_public_half ks l (kh_keyset ph) l' Wf (proj1 AL) PI EM F2 PU) as (Wf' & NS).
  { intros x y (S & ID & T & U & _). split; [exact S |]. split; [exact ID |]. split; [exact T |]. destruct (any_public_of (snd x)); destruct U as (U & _); rewrite U; [apply url_text | apply hpke_url_text]. }
  destruct ph as [pks]. cbn [kh_keyset] in *.
  destruct (any_encrypt_handle ec lib random hc w env r pks _ HE HH EL CL RL HL HC KP) as (e & HA & EW). exists (mk_handle pks), e. split; [exact EP |]. split; [| split; [| split; [exact HA |]]].
  - apply L_CcPublish.secret_kept. apply (L_CcPublish.private_has_secret _ ks l V (proj1 AL)). eapply Forall_impl; [| exact (proj2 AL)]. intros x (_ & _ & M & _). exact M.
  - exact (L_CcPublish.public_distributable (mk_handle pks) (proj1 KP) Wf' NS).
  - intros ks2 l2 k2 KS2 I2 EI ET TA. destruct (any_decrypt_handle ec lib random hc w env r ks2 l2 HE HH EL CL HL HC KS2) as (d & HD & DW). exists d. split; [exact HD |]. intros rnd P info.
    apply filter_In in I. destruct I as (I & EN). destruct (Forall2_in_l _ _ _ _ _ _ F2 I) as ((k3 & q3) & I3 & (S3 & ID3 & T3 & _ & Q3)). cbn [fst snd] in *. subst q3.
    assert (PR : is_primary pks (enabled_of l') k3 (any_public_of q)). { split; [apply filter_In; split; [exact I3 | cbn [fst]; rewrite S3; exact EN] | rewrite ID3, PI; exact PID]. }
    destruct (any_carries_over ec lib random hc pks _ e ks2 l2 d k3 k2 q rnd P info EL CL HL EW PR KS2 DW I2 (eq_trans EI (eq_sym ID3)) (eq_trans ET (eq_sym T3))) as (H1 & H2).
    split; [exact H1 |]. intros C EC. exact (proj2 (proj2 (H2 C EC)) TA).
Qed.
