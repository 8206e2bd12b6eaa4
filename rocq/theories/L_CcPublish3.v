(** Proofs: the distribution of public keysets as files without secrets; JWT. *)
From Coq Require Import Strings.Byte Strings.String List NArith ZArith Bool Lia.
From Verif Require Import M_Base M_Utf8 M_Proto M_Wire M_ProtoMsg M_KeyFormats M_JwtTypes M_Prims M_PrimitiveSet M_Registry M_KeysetHandle M_KeysetIO M_Wrappers M_Json M_JsonKeyset M_RawJwt M_JwtValidator M_JwtPrims M_JwtFormat M_JwtWrappers
  M_StreamTypes M_CcStream M_CcManagers M_Templates M_CcAes M_CcStreamKeys M_CcModes M_CcSymmetric M_CcSymKeys M_CcEcies M_CcEciesKeys M_CcSignatures M_CcJwt
  S_Keyset S_Handle S_Wrappers S_Registry S_Json S_JsonKeyset S_Jwt S_JwtKeys S_Wire S_Config S_CcLaws S_CcAes S_CcStreamKeys S_CcModes S_CcSymmetric S_CcSymKeys S_CcSymHandles S_CcEcies S_CcEciesKeys S_CcSignatures S_CcSigHandles S_CcJwt S_CcJwtHandles S_CcJwtPrograms S_CcPublish
  L_Base L_Keyset L_Handle L_CcEciesHandles2 L_CcSignatures L_CcJwt L_CcJwt2 L_CcJwtHandles L_CcJwtHandles2 L_CcPublish.
Import ListNotations.
Open Scope string_scope.
Open Scope list_scope.
Open Scope nat_scope.

Theorem cc_jwt_verifier_distributed : forall lib random ec sg self_test w env r ks l, jwt_world lib random ec sg self_test w -> sig_laws ec sg -> float_codec (pe_rt env) -> float_times_ok (pe_rt env) ->
  configured w env JwtSignature r -> valid_keyset ks -> wf_keyset ks -> all_jwt_private ks l ->
  (forall k, In k (ks_key ks) -> k_output_prefix_type k <> UNKNOWN_PREFIX /\ k_status k <> UNKNOWN_STATUS) -> (forall k, In k (ks_key ks) -> jwt_public_fits ec sg self_test k) ->
  jwt_private_keyset ec sg ks (enabled_ones l) ->
  exists ph a, public_keyset_handle r (mk_handle ks) = Ok ph /\ kept_secret (mk_handle ks) /\ distributable ph /\ handle_primitive r ph ClsJwtVerify = Ok (PrimJwtVerify a) /\
    forall ks2 l2 k k2 q, jwt_private_keyset ec sg ks2 l2 -> is_primary ks2 l2 k2 q -> matching ec sg (private_scheme q) -> (k_output_prefix_type k2 = TINK -> jwt_kid (jwt_public_of q) = None) ->
    In (k, q) (enabled_ones l) -> k_key_id k = k_key_id k2 -> k_output_prefix_type k = k_output_prefix_type k2 ->
    exists s, handle_primitive r (mk_handle ks2) ClsJwtSign = Ok (PrimJwtSign s) /\
      forall rnd j, ordinary_jwt (pe_rt env) j -> well_typed j ->
      exists token, js_sign s rnd j = Ok token /\
        forall clock v j', same_but_empty_type j j' -> accepts (pe_rt env) clock v j' ->
          representable (current_time v clock - jv_clock_skew v)%Z -> representable (current_time v clock + jv_clock_skew v)%Z ->
          jv_verify a clock token v = Ok (mk_verified_jwt j').
Proof.
  intros lib random ec sg self_test w env r ks l HW SL Hc Hf HC V Wf AL KN PF KS. destruct (jwt_public_handle _ _ _ _ _ _ env r ks l HW HC V AL KN PF) as (ph & l' & EP & PI & EM & F2 & PU & KP). specialize (KP KS).
  destruct (public_half_fits _ _ jwt_public_half ks l (kh_keyset ph) l' Wf (proj1 AL) PI EM F2 PU) as (Wf' & NS). { intros x y (S & I & T & (U & _) & _). split; [exact S |]. split; [exact I |]. split; [exact T |]. rewrite U. apply jwt_url_text. }
  destruct ph as [pks]. cbn [kh_keyset] in *.
  destruct (jwt_verify_handle_works _ _ _ _ _ _ env r pks _ HW SL Hf HC KP) as (a & HA & VW). exists (mk_handle pks), a. split; [exact EP |]. split; [| split; [| split; [exact HA |]]].
  - apply secret_kept. apply (private_has_secret _ ks l V (proj1 AL)). eapply Forall_impl; [| exact (proj2 AL)]. intros x (_ & _ & M & _). exact M.
  - exact (public_distributable (mk_handle pks) (proj1 KP) Wf' NS).
  - intros ks2 l2 k k2 q KS2 IP MA CK I EI ET. destruct (jwt_sign_handle_works _ _ _ _ _ _ env r ks2 _ HW SL Hc HC KS2) as (s & HS & SW). exists s. split; [exact HS |]. intros rnd j OJ WT.
    destruct (jwt_key_in _ _ _ _ _ _ _ KS2 (proj1 IP)) as (_ & _ & kid & KI).
    assert (CD : jwt_kid (jwt_public_of q) = None \/ kid = None) by (destruct KI as [(_ & ->) | (T & _)]; [right; reflexivity | left; exact (CK T)]).
    destruct (proj1 (proj1 (SW rnd) k2 q kid j IP KI) CD OJ) as (token & ETk & _). exists token. split; [exact ETk |]. intros clock v j' SE AC R1 R2.
    apply filter_In in I. destruct I as (I & EN). destruct (Forall2_in_l _ _ _ _ _ _ F2 I) as ((k3 & q3) & I3 & (S3 & ID3 & T3 & _ & Q3)). cbn [fst snd] in *. subst q3.
    assert (I3' : In (k3, jwt_public_of q) (enabled_ones l')) by (apply filter_In; split; [exact I3 | cbn [fst]; rewrite S3; exact EN]).
    exact (jwt_signature_carries_over (pe_rt env) ec sg ks2 l2 s _ a k2 k3 q rnd j j' token clock v SL KS2 SW IP MA VW I3' (eq_trans ID3 EI) (eq_trans T3 ET) OJ WT SE AC R1 R2 ETk).
Qed.
