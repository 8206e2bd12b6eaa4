(** Proofs: new handles for the predefined ECIES templates. *)
From Coq Require Import Strings.Byte Strings.String List NArith ZArith Bool Lia.
From Verif Require Import M_Base M_Utf8 M_Proto M_Wire M_ProtoMsg M_KeyFormats M_Prims M_PrimitiveSet M_Registry M_KeysetHandle M_Wrappers M_StreamTypes M_CcStream M_CcManagers
  M_Templates M_CcAes M_CcStreamKeys M_CcModes M_CcSymmetric M_CcSymKeys M_CcEcies M_CcEciesKeys S_Keyset S_Handle S_Wrappers S_Wire S_Config S_CcLaws S_CcAes S_CcStreamKeys S_CcModes S_CcSymmetric
  S_CcSymKeys S_CcSymHandles S_CcEcies S_CcEciesKeys S_CcEciesHandles L_Base L_Registry L_Wire L_PrimitiveSet L_Keyset L_Wrappers L_Wrappers2 L_Wrappers3 L_Handle L_Config L_Config2 L_Config3 L_Config4 L_Cli3
  L_CcStreamKeys L_CcSymKeys L_CcSymKeys2 L_CcSymHandles L_CcSymHandles2 L_CcSymHandles3 L_CcSymHandles4 L_CcEcies L_CcEcies2 L_CcEcies3 L_CcEcies4 L_CcEcies5 L_CcEciesKeys L_CcEciesKeys2
  L_CcEciesHandles L_CcEciesHandles2.
Import ListNotations.
Open Scope string_scope.
Open Scope list_scope.
Open Scope nat_scope.

Lemma short : forall x, (N.of_nat (length x) <? 1024)%N = true -> proto_size x.
Proof. intros x H. apply N.ltb_lt in H. unfold proto_size. change (2 ^ 31)%N with 2147483648%N. lia. Qed.
Lemma store_le_length : forall k n, length (store_le k n) = k.
Proof. induction k as [| k IH]; intros n; [reflexivity |]. cbn [store_le length]. rewrite IH. reflexivity. Qed.
Lemma ecies_template_sizes : forall ec lib random name t rnd d, In (name, Ok t) (firstn 4 hybrid_templates) ->
  cl_new_key_data (ecies_private_key_manager ec lib random) rnd (kt_value t) = StOk d ->
  sizes_fit t d /\ forall k, k_key_data k = d -> public_fits ec lib random k.
Proof.
  intros ec lib random name t rnd d Hin ND. unfold hybrid_templates in Hin. cbn [firstn In] in Hin. unfold sizes_fit.
  repeat (destruct Hin as [Hin | Hin]; [vm_compute in Hin; injection Hin as _ <-; cbn [kt_type_url kt_value kt_output_prefix_type] in * |]); [.. | contradiction].
  all: cbn [ecies_private_key_manager cl_new_key_data] in ND;
    match type of ND with context [parse_message ?f ?x] => let y := eval vm_compute in (parse_message f x) in change (parse_message f x) with y in ND end; cbv beta iota in ND;
    match type of ND with context [validate_ecies_key_format ?m] => let y := eval vm_compute in (validate_ecies_key_format m) in change (validate_ecies_key_format m) with y in ND end; cbv beta iota in ND;
    unfold create_ecies_key in ND;
    match type of ND with context [params_curve ?f ?p ?m] => let y := eval vm_compute in (params_curve f p m) in change (params_curve f p m) with y in ND end;
    match type of ND with context [message_or_empty ?s ?m] => let y := eval vm_compute in (message_or_empty s m) in change (message_or_empty s m) with y in ND end;
    unfold new_ec_key in ND; cbn [ec_group bind_st] in ND; destruct (ec_generate_key ec P256 rnd) as (s & (X & Y)); cbn [fst snd] in ND;
    unfold bn2binpad in ND.
  all: repeat match type of ND with context [if ?b then _ else _] => destruct b; cbn [bind_st] in ND; try discriminate ND end.
  all: apply st_ok_inj in ND; subst d; assert (L : forall n, length (rev (store_le 32 n)) = 32) by (intros n; rewrite rev_length; apply store_le_length);
    generalize (L s), (L X), (L Y); clear L; generalize (rev (store_le 32 s)), (rev (store_le 32 X)), (rev (store_le 32 Y)); clear s X Y; intros s X Y L1 L2 L3;
    explode s L1; explode X L2; explode Y L3.
  all: (split; [(split; [split; [apply low_text | apply low_int]; vm_compute; reflexivity |]); (split; [apply low_size; vm_compute; reflexivity |]);
    (split; [split; [apply low_text | apply low_int]; vm_compute; reflexivity |]); (split; [apply low_size; vm_compute; reflexivity |]);
    (split; [apply low_size; vm_compute; reflexivity |]); vm_compute; reflexivity |]).
  all: intros k EK get d' G E; injection G as <-; rewrite EK in E; vm_compute in E; injection E as <-; split; apply low_size; vm_compute; reflexivity.
Qed.
Lemma ecies_template_found : forall name t, In (name, Ok t) hybrid_templates -> kt_type_url t = type_url "EciesAeadHkdfPrivateKey" ->
  In (name, Ok t) (firstn 4 hybrid_templates) /\
  exists p, In (name, p) ecies_template_keys /\ asks_for_ecies (kt_type_url t) (kt_value t) p /\ proper p /\ kt_output_prefix_type t = TINK.
Proof.
  intros name t I U. destruct ecies_templates as (F & G). rewrite <- (firstn_skipn 4 hybrid_templates) in I. apply in_app_or in I. destruct I as [I | I].
  - split; [exact I |]. destruct (Forall2_in_l _ _ _ _ _ _ F I) as ((n & p) & J & (E & t' & E' & H)). cbn [fst snd] in *. subst n. injection E' as <-. exists p. split; [exact J | exact H].
  - rewrite Forall_forall in G. destruct (G _ I) as (t' & E & E'). cbn [snd] in E. injection E as <-. rewrite U in E'. apply type_url_inj in E'. discriminate E'.
Qed.
Theorem new_ecies_handle_works : forall ec lib random w env r name t rnd raw draws, ecies_world ec lib random w -> ec_laws ec lib -> crypto_laws lib -> random_law random ->
  configured w env Hybrid r -> In (name, Ok t) hybrid_templates -> kt_type_url t = type_url "EciesAeadHkdfPrivateKey" ->
  exists h k q ph k' enc dec, generate_new r rnd (raw :: draws) t = Some (Ok h) /\ new_ecies_handle ec rnd name h k q /\
    public_keyset_handle r h = Ok ph /\ hybrid_keyset is_public (good_public ec) (kh_keyset ph) [(k', prv_public q)] /\
    ks_primary_key_id (kh_keyset ph) = k_key_id k /\ k_key_id k' = k_key_id k /\ k_output_prefix_type k' = TINK /\
    handle_primitive r ph ClsHybridEncrypt = Ok (PrimHybridEncrypt enc) /\ handle_primitive r h ClsHybridDecrypt = Ok (PrimHybridDecrypt dec) /\
    forall rnd' P info, dem_admits (ep_dem (pub_params (prv_public q))) P -> exists C, he_encrypt enc rnd' P info = Ok C /\ hd_decrypt dec C info = Ok P.
Proof.
  intros ec lib random w env r name t rnd raw draws EW EL CL RL HC Hin EU. destruct (ecies_template_found name t Hin EU) as (I4 & p & IT & A & PR & EP).
  pose proof A as A'. rewrite EU in A'. destruct (ecies_new_key ec lib random rnd _ _ EL A') as (d & ND & U & MT & HK).
  destruct (ecies_template_sizes ec lib random name t rnd d I4 ND) as ((W1 & W2 & W3 & W4 & W5 & _) & PF). destruct (HK W4) as (s & X & Y & K & FK & KP).
  assert (HR : registry_new_key_data r rnd t = Ok d).
  { assert (CF : cc_functions w ClsHybridDecrypt (type_url "EciesAeadHkdfPrivateKey") =
      Some (cl_key_type (ecies_private_key_manager ec lib random), cl_new_key_data (ecies_private_key_manager ec lib random), cl_public_key_data (ecies_private_key_manager ec lib random)))
      by (cbn [cc_functions]; rewrite (proj1 EW); reflexivity).
    pose proof (configured_new_key w env Hybrid r "EciesAeadHkdfPrivateKey" ClsHybridDecrypt true _ _ _ rnd t HC ltac:(cbn; tauto) CF EU W1 W2) as Q. rewrite ND in Q. apply Q.
    intros d' E. injection E as <-. split; assumption. }
  set (id := (1 + raw mod 2147483647)%N). assert (LI : (id < 2 ^ 32)%N).
  { unfold id. pose proof (N.mod_lt raw 2147483647 ltac:(discriminate)). change (2 ^ 32)%N with 4294967296%N. lia. }
  set (k := mk_key (Some d) ENABLED id TINK). set (ks := mk_keyset id [k]). set (q := mk_ecies_private (mk_ecies_public p X Y) s).
  assert (V : valid_keyset ks) by (apply L_Handle.single_valid; discriminate).
  destruct (proj2 (has_prefix_exists TINK id)) as (pre & HP); [right; split; [left; reflexivity | exact LI] |].
  assert (KS : hybrid_keyset is_private (good_private ec) ks [(k, q)]).
  { split; [exact V |]. split; [reflexivity |]. constructor; [| constructor]. cbn [fst snd k k_key_data k_key_data_opt k_output_prefix_type k_key_id]. split; [exact W3 |]. split; [exact W5 |].
    split; [exact K |]. split; [split; [exact PR | exact KP] |]. exists pre. exact HP. }
  assert (AL : all_private ks [(k, q)]).
  { split; [reflexivity |]. constructor; [| constructor]. cbn [fst snd k k_key_data k_key_data_opt]. split; [exact W3 |]. split; [exact W5 |]. split; [exact MT | exact K]. }
  destruct (ecies_public_handle ec lib random w env r ks [(k, q)] EW EL HC V AL) as (ph & l' & PH & PI & EM & F2 & _ & PK).
  { intros k0 [<- | []]. split; discriminate. }
  { intros k0 [<- | []]. apply PF. reflexivity. }
  specialize (PK KS). inversion F2 as [| x y a b H0 F3 E1 E2]. inversion F3. subst. destruct y as (k' & q'). destruct H0 as (S1 & S2 & S3 & S4 & S5). cbn [fst snd] in *. subst q'.
  unfold enabled_of in PK. cbn [filter fst] in PK. rewrite S1 in PK. cbn [k k_status] in PK. change (Z.eqb ENABLED ENABLED) with true in PK. cbv iota in PK.
  destruct ph as [pks]. cbn [kh_keyset] in *.
  destruct (hybrid_encrypt_handle_works ec lib random w env r pks _ EW EL CL RL HC PK) as (enc & HE & WE).
  destruct (hybrid_decrypt_handle_works ec lib random w env r ks _ EW EL CL HC KS) as (dec & HD & WD).
  exists (mk_handle ks), k, q, (mk_handle pks), k', enc, dec. split; [| split; [| do 7 (split; [assumption |])]].
  - unfold generate_new. rewrite HR. cbn [generate_unused_key_id ks_key map mem_N existsb negb]. f_equal. rewrite EP. apply create_ok. split; [exact V | reflexivity].
  - split; [exact IT |]. split; [exact FK |]. split; [exact KS |]. split; [exact AL |]. repeat split.
  - intros rnd' P info AD. assert (IP : is_primary pks [(k', prv_public q)] k' (prv_public q)) by (split; [left; reflexivity | rewrite S2, PI; reflexivity]).
    assert (GQ : good_private ec q) by (split; [exact PR | exact KP]).
    destruct (proj1 WE _ _ IP rnd' P info (pair_not_low _ _ _ rnd' EL GQ)) as (_ & Z & _). destruct (Z AD) as (C & EC). exists C. split; [exact EC |].
    apply (hybrid_carries_over ec lib random pks _ enc ks _ dec k' k q rnd' P info C EL CL WE IP KS WD (or_introl eq_refl) (eq_sym S2) (eq_sym S3) EC).
    split; [discriminate |]. intros k0 q0 [E | []]. injection E as <- <-. split; [discriminate | reflexivity].
Qed.
