(** Proofs: new handles for the predefined signature templates. *)
From Coq Require Import Strings.Byte Strings.String List NArith ZArith Bool Lia.
From Verif Require Import M_Base M_Utf8 M_Proto M_Wire M_ProtoMsg M_KeyFormats M_Prims M_PrimitiveSet M_Registry M_KeysetHandle M_Wrappers M_StreamTypes M_CcStream M_CcManagers
  M_Templates M_CcAes M_CcStreamKeys M_CcModes M_CcSymmetric M_CcSymKeys M_CcEcies M_CcEciesKeys M_CcSignatures S_Keyset S_Handle S_Wrappers S_Wire S_Config S_CcLaws S_CcAes S_CcStreamKeys S_CcModes S_CcSymmetric
  S_CcSymKeys S_CcSymHandles S_CcEcies S_CcEciesKeys S_CcSignatures S_CcSigHandles L_Base L_Registry L_Wire L_PrimitiveSet L_Keyset L_Wrappers L_Wrappers2 L_Wrappers3 L_Handle L_Config L_Config2 L_Config3 L_Config4 L_Cli3
  L_CcStreamKeys L_CcModes L_CcSymKeys L_CcSymKeys2 L_CcSymHandles L_CcSymHandles2 L_CcSymHandles3 L_CcSymHandles4 L_CcEciesHandles L_CcSigDer L_CcSignatures L_CcSigKeys L_CcSigKeys2 L_CcEciesHandles2 L_CcEcies L_CcEcies2 L_CcEcies3 L_CcEciesKeys L_CcEciesKeys2 L_CcSigNew L_CcSigNew2 S_ProtoMsg L_ProtoMsg L_CcSigHandles L_CcSigHandles2 L_CcSigHandles3.
Import ListNotations.
Open Scope string_scope.
Open Scope list_scope.
Open Scope nat_scope.

Lemma sig_template_wf : Forall (fun x => forall t, snd x = Ok t -> wf_key_template t /\ proto_size (serialize_key_template t)) signature_templates.
Proof.
  unfold signature_templates. repeat apply Forall_cons; try apply Forall_nil.
  all: intros t E; vm_compute in E; injection E as <-; (split; [split; [apply low_text | apply low_int]; vm_compute; reflexivity |]); apply low_size; vm_compute; reflexivity.
Qed.
Theorem new_sig_handle_works : forall ec lib sg self_test w env r name t rnd raw draws, sig_world ec sg self_test w -> ec_laws ec lib -> sig_laws ec sg -> rsa_sizes sg ->
  configured w env Signature r -> In (name, Ok t) signature_templates ->
  exists h k q ph k' s v, generate_new r rnd (raw :: draws) t = Some (Ok h) /\ new_sig_handle ec sg rnd name h k q /\
    public_keyset_handle r h = Ok ph /\ sig_keyset is_sig_public (good_public ec) (kh_keyset ph) [(k', public_of q)] /\
    ks_primary_key_id (kh_keyset ph) = k_key_id k /\ k_key_id k' = k_key_id k /\ k_output_prefix_type k' = k_output_prefix_type k /\
    handle_primitive r h ClsSign = Ok (PrimSign s) /\ handle_primitive r ph ClsVerify = Ok (PrimVerify v) /\
    forall rnd' data, exists x, sign s rnd' data = Ok x /\ verify v x data = Ok tt.
Proof.
  intros ec lib sg self_test w env r name t rnd raw draws HW EL SL RS HC Hin.
  destruct (Forall2_in_l _ _ _ _ _ _ sig_templates Hin) as ((n & f) & IT & (EN & t' & E' & A & OK & SZ & FS & EP)). cbn [fst snd] in *. subst n. injection E' as <-.
  pose proof sig_template_wf as WF. rewrite Forall_forall in WF. destruct (WF _ Hin t eq_refl) as (W1 & W2). clear WF.
  pose proof (proj1 A) as EU. pose proof A as A'. rewrite EU in A'. destruct (sig_new_key ec lib sg self_test rnd _ f EL SL A' OK SZ) as (d & ND & U & MT & HK).
  destruct (new_sig_sizes ec lib sg self_test rnd _ f d EL SL RS A' OK SZ ND) as (W4 & W5 & W3 & PF). destruct (HK W4) as (q & KD & K & FK).
  destruct (fresh_sig_good ec lib sg f rnd q EL SL OK FK) as (VP & MA & GQ). apply (proj2 GQ) in FS. clear GQ.
  assert (HR : registry_new_key_data r rnd t = Ok d).
  { assert (CF : cc_functions w ClsSign (type_url (kind_name (format_kind f) ++ "PrivateKey")) =
      Some (cl_key_type (sign_manager ec sg self_test (format_kind f)), cl_new_key_data (sign_manager ec sg self_test (format_kind f)), cl_public_key_data (sign_manager ec sg self_test (format_kind f))))
      by (cbn [cc_functions]; rewrite (proj1 (HW (format_kind f))); reflexivity).
    pose proof (configured_new_key w env Signature r _ ClsSign true _ _ _ rnd t HC (sign_types (format_kind f)) CF EU W1 W2) as Q. rewrite ND in Q. apply Q.
    intros d' E. injection E as <-. split; assumption. }
  set (id := (1 + raw mod 2147483647)%N). assert (LI : (id < 2 ^ 32)%N).
  { unfold id. pose proof (N.mod_lt raw 2147483647 ltac:(discriminate)). change (2 ^ 32)%N with 4294967296%N. lia. }
  set (p := if String.eqb name "ECDSA_P256_RAW" then RAW else TINK) in *.
  assert (PT : p = RAW \/ p = TINK) by (unfold p; destruct (String.eqb name "ECDSA_P256_RAW"); auto).
  set (k := mk_key (Some d) ENABLED id p). set (ks := mk_keyset id [k]).
  assert (V : valid_keyset ks) by (apply L_Handle.single_valid; first [discriminate | destruct PT as [Q | Q]; cbn [k_output_prefix_type]; rewrite Q; discriminate]).
  destruct (proj2 (has_prefix_exists p id)) as (pre & HP); [destruct PT; [left | right; split; [left |]]; assumption |].
  assert (KS : sig_keyset is_sig_private (good_private ec sg) ks [(k, q)]).
  { split; [exact V |]. split; [reflexivity |]. constructor; [| constructor]. cbn [fst snd k k_key_data k_key_data_opt k_output_prefix_type k_key_id]. split; [exact W3 |]. split; [exact W5 |].
    split; [exact K |]. split; [exact FS |]. exists pre. exact HP. }
  assert (AL : all_sig_private ks [(k, q)]).
  { split; [reflexivity |]. constructor; [| constructor]. cbn [fst snd k k_key_data k_key_data_opt]. split; [exact W3 |]. split; [exact W5 |]. split; [exact MT |]. split; [exact K | exact VP]. }
  destruct (sig_public_handle ec sg self_test w env r ks [(k, q)] HW HC V AL) as (ph & l' & PH & PI & EM & F2 & _ & PK).
  { intros k0 [<- | []]. cbn [k k_output_prefix_type k_status]. split; [destruct PT as [-> | ->]; discriminate | discriminate]. }
  { intros k0 [<- | []]. apply PF. reflexivity. }
  specialize (PK KS). inversion F2 as [| x y a b H0 F3 E1 E2]. inversion F3. subst a b x l'. destruct y as (k' & q'). destruct H0 as (S1 & S2 & S3 & S4 & S5). cbn [fst snd] in *. subst q'.
  unfold enabled_ones in PK. cbn [filter fst] in PK. rewrite S1 in PK. cbn [k k_status] in PK. change (Z.eqb ENABLED ENABLED) with true in PK. cbv iota in PK.
  destruct ph as [pks]. cbn [kh_keyset] in *.
  destruct (sign_handle_works ec sg self_test w env r ks _ HW SL HC KS) as (s & HS & WS).
  destruct (verify_handle_works ec sg self_test w env r pks _ HW SL RS HC PK) as (v & HV & WV).
  exists (mk_handle ks), k, q, (mk_handle pks), k', s, v. split; [| split; [| do 7 (split; [assumption |])]].
  - unfold generate_new. rewrite HR. cbn [generate_unused_key_id ks_key map mem_N existsb negb]. f_equal. rewrite EP. apply create_ok. split; [exact V | reflexivity].
  - split; [exists f; split; [exact IT | exact FK] |]. split; [exact KS |]. split; [exact AL |]. split; [exact MA |]. repeat split.
  - intros rnd' data. assert (IP : is_primary ks [(k, q)] k q) by (split; [left; reflexivity | reflexivity]).
    destruct (proj1 (proj1 WS _ _ IP rnd' data)) as (x & EX). exists x. split; [exact EX |].
    exact (signature_carries_over ec sg ks _ s _ v k k' q rnd' data x SL KS WS IP MA WV (or_introl eq_refl) S2 S3 EX).
Qed.
