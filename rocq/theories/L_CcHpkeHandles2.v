(** Proofs: new handles for the predefined HPKE templates. *)
From Coq Require Import Strings.Byte Strings.String List NArith ZArith Bool Lia.
From Verif Require Import M_Base M_Utf8 M_Proto M_Wire M_ProtoMsg M_KeyFormats M_Prims M_PrimitiveSet M_Registry M_KeysetHandle M_Wrappers M_StreamTypes M_CcStream M_CcManagers
  M_Templates M_CcAes M_CcStreamKeys M_CcModes M_CcSymmetric M_CcSymKeys M_CcEcies M_CcEciesKeys M_CcHpke S_Keyset S_Handle S_Wrappers S_Wire S_Config S_CcLaws S_CcAes S_CcStreamKeys S_CcModes S_CcSymmetric
  S_CcSymKeys S_CcSymHandles S_CcEcies S_CcEciesKeys S_CcEciesHandles S_CcHpke S_CcHpkeHandles L_Base L_Registry L_Wire L_PrimitiveSet L_Keyset L_Wrappers L_Wrappers2 L_Wrappers3 L_Handle L_Config L_Config2 L_Config3 L_Config4 L_Cli3
  L_CcStreamKeys L_CcSymKeys L_CcSymKeys2 L_CcSymHandles L_CcSymHandles2 L_CcSymHandles3 L_CcSymHandles4 L_CcEcies L_CcEcies2 L_CcEcies3 L_CcEcies4 L_CcEcies5 L_CcEciesKeys L_CcEciesKeys2
  L_CcEciesHandles L_CcEciesHandles2 L_CcEciesHandles3 L_CcHpke L_CcHpke2 L_CcHpkeHandles.
Import ListNotations.
Open Scope string_scope.
Open Scope list_scope.
Open Scope nat_scope.

Lemma hpke_template_sizes : forall ec lib hc name t rnd d, ec_laws ec lib -> In (name, Ok t) (skipn 4 hybrid_templates) ->
  cl_new_key_data (hpke_private_key_manager ec hc) rnd (kt_value t) = StOk d ->
  sizes_fit t d /\ forall k, k_key_data k = d -> hpke_public_fits ec hc k.
Proof.
  intros ec lib hc name t rnd d EL Hin ND. unfold hybrid_templates in Hin. cbn [skipn In] in Hin. unfold sizes_fit.
  assert (L1 := law_x25519_generate _ _ EL rnd). assert (L2 := law_x25519_public _ _ EL _ L1).
  repeat (destruct Hin as [Hin | Hin]; [vm_compute in Hin; injection Hin as _ <-; cbn [kt_type_url kt_value kt_output_prefix_type] in * |]); [.. | contradiction].
  all: cbn [hpke_private_key_manager cl_new_key_data] in ND;
    match type of ND with context [parse_message ?f ?x] => let y := eval vm_compute in (parse_message f x) in change (parse_message f x) with y in ND end; cbv beta iota in ND;
    match type of ND with context [hpke_validate_format ?m] => let y := eval vm_compute in (hpke_validate_format m) in change (hpke_validate_format m) with y in ND end; cbv beta iota in ND;
    unfold hpke_create_key in ND;
    match type of ND with context [num_at ?f ?m ?p] => let y := eval vm_compute in (num_at f m p) in change (num_at f m p) with y in ND end;
    match type of ND with context [message_or_empty ?s ?m] => let y := eval vm_compute in (message_or_empty s m) in change (message_or_empty s m) with y in ND end;
    cbn [hpke_generate_key bind_st M_CcSignatures.checked] in ND; apply st_ok_inj in ND; subst d.
  all: generalize dependent (x25519_public ec (x25519_generate ec rnd)); generalize dependent (x25519_generate ec rnd); intros s L1 p L2; explode s L1; explode p L2.
  all: (split; [(split; [split; [apply low_text | apply low_int]; vm_compute; reflexivity |]); (split; [apply low_size; vm_compute; reflexivity |]);
    (split; [split; [apply low_text | apply low_int]; vm_compute; reflexivity |]); (split; [apply low_size; vm_compute; reflexivity |]);
    (split; [apply low_size; vm_compute; reflexivity |]); vm_compute; reflexivity |]).
  all: intros k EK get d' G E; injection G as <-; rewrite EK in E; vm_compute in E; injection E as <-; split; apply low_size; vm_compute; reflexivity.
Qed.
Lemma hpke_template_found : forall name t, In (name, Ok t) hybrid_templates -> kt_type_url t = type_url "HpkePrivateKey" ->
  In (name, Ok t) (skipn 4 hybrid_templates) /\
  exists p a (tink : bool), In (name, p, tink) hpke_templates /\ asks_for_hpke (kt_type_url t) (kt_value t) p /\ suite_works p a /\ kt_output_prefix_type t = if tink then TINK else RAW.
Proof.
  intros name t I U. rewrite <- (firstn_skipn 4 hybrid_templates) in I. apply in_app_or in I. destruct I as [I | I].
  - exfalso. destruct (Forall2_in_l _ _ _ _ _ _ (proj1 ecies_templates) I) as ((n & p) & J & (_ & t' & E' & A & _)). cbn [fst snd] in *. injection E' as <-. destruct A as (A & _). rewrite U in A. apply type_url_inj in A. discriminate A.
  - split; [exact I |]. destruct (Forall2_in_l _ _ _ _ _ _ hpke_templates_ask I) as (((n & p) & b) & J & (E & t' & a & E' & A & W & P)). cbn [fst snd] in *. subst n. injection E' as <-. exists p, a, b. auto.
Qed.
Theorem new_hpke_handle_works : forall ec lib hc w env r name t rnd raw draws, hpke_world ec hc w -> ec_laws ec lib -> hpke_laws ec hc ->
  configured w env Hybrid r -> In (name, Ok t) hybrid_templates -> kt_type_url t = type_url "HpkePrivateKey" ->
  exists h k q ph k' enc dec, generate_new r rnd (raw :: draws) t = Some (Ok h) /\ new_hpke_handle ec rnd name h k q /\
    public_keyset_handle r h = Ok ph /\ hybrid_keyset is_hpke_public good_hpke_public (kh_keyset ph) [(k', hprv_public q)] /\
    ks_primary_key_id (kh_keyset ph) = k_key_id k /\ k_key_id k' = k_key_id k /\ k_output_prefix_type k' = k_output_prefix_type k /\
    handle_primitive r ph ClsHybridEncrypt = Ok (PrimHybridEncrypt enc) /\ handle_primitive r h ClsHybridDecrypt = Ok (PrimHybridDecrypt dec) /\
    forall rnd' P info, hpke_admits P -> exists C, he_encrypt enc rnd' P info = Ok C /\ hd_decrypt dec C info = Ok P.
Proof.
  intros ec lib hc w env r name t rnd raw draws EW EL HL HC Hin EU. destruct (hpke_template_found name t Hin EU) as (I4 & p & a & tink & IT & A & WK & EP).
  pose proof A as A'. rewrite EU in A'. destruct (hpke_new_key ec lib hc rnd _ _ EL A' (works_made p a WK)) as (d & ND & U & MT & HK).
  destruct (hpke_template_sizes ec lib hc name t rnd d EL I4 ND) as ((W1 & W2 & W3 & W4 & W5 & _) & PF). destruct (HK W4) as (s & X & K & FK).
  pose proof (fresh_pair_hpke ec lib p rnd s X a EL WK FK) as KP.
  assert (FS : s = x25519_generate ec rnd) by (destruct FK as [(_ & E & _) | (c & HCV & _)]; [exact E |]; destruct WK as (WK & _); rewrite WK in HCV; destruct HCV as [E | [E | [E | []]]]; discriminate E).
  assert (HR : registry_new_key_data r rnd t = Ok d).
  { assert (CF : cc_functions w ClsHybridDecrypt (type_url "HpkePrivateKey") =
      Some (cl_key_type (hpke_private_key_manager ec hc), cl_new_key_data (hpke_private_key_manager ec hc), cl_public_key_data (hpke_private_key_manager ec hc)))
      by (cbn [cc_functions]; rewrite (proj1 EW); reflexivity).
    pose proof (configured_new_key w env Hybrid r "HpkePrivateKey" ClsHybridDecrypt true _ _ _ rnd t HC ltac:(cbn; tauto) CF EU W1 W2) as Q. rewrite ND in Q. apply Q.
    intros d' E. injection E as <-. split; assumption. }
  set (id := (1 + raw mod 2147483647)%N). assert (LI : (id < 2 ^ 32)%N).
  { unfold id. pose proof (N.mod_lt raw 2147483647 ltac:(discriminate)). change (2 ^ 32)%N with 4294967296%N. lia. }
  set (pt := if tink then TINK else RAW). assert (NU : pt <> UNKNOWN_PREFIX) by (unfold pt; destruct tink; discriminate).
  set (k := mk_key (Some d) ENABLED id pt). set (ks := mk_keyset id [k]). set (q := mk_hpke_private (mk_hpke_public p X) s).
  assert (V : valid_keyset ks) by (apply L_Handle.single_valid; exact NU).
  assert (HP : exists pre, has_prefix pt id pre).
  { apply has_prefix_exists. unfold pt. destruct tink; [right; split; [left; reflexivity | exact LI] | left; reflexivity]. }
  assert (KS : hybrid_keyset is_hpke_private (good_hpke_private ec) ks [(k, q)]).
  { split; [exact V |]. split; [reflexivity |]. constructor; [| constructor]. cbn [fst snd k k_key_data k_key_data_opt k_output_prefix_type k_key_id]. split; [exact W3 |]. split; [exact W5 |].
    split; [exact K |]. split; [split; [exists a; exact WK | exact KP] |]. exact HP. }
  assert (AL : all_hpke_private ks [(k, q)]).
  { split; [reflexivity |]. constructor; [| constructor]. cbn [fst snd k k_key_data k_key_data_opt]. split; [exact W3 |]. split; [exact W5 |]. split; [exact MT |]. split; [exact K | exact (made_stated p (works_made p a WK))]. }
  destruct (hpke_public_handle ec lib hc w env r ks [(k, q)] EW EL HC V AL) as (ph & l' & PH & PI & EM & F2 & _ & PK).
  { intros k0 [<- | []]. split; [exact NU | discriminate]. }
  { intros k0 [<- | []]. apply PF. reflexivity. }
  specialize (PK KS). inversion F2 as [| x y u v H0 F3 E1 E2]. inversion F3. subst x u l' v. destruct y as (k' & q'). destruct H0 as (S1 & S2 & S3 & S4 & S5). cbn [fst snd] in *. subst q'.
  unfold enabled_of in PK. cbn [filter fst] in PK. rewrite S1 in PK. cbn [k k_status] in PK. change (Z.eqb ENABLED ENABLED) with true in PK. cbv iota in PK.
  destruct ph as [pks]. cbn [kh_keyset] in *.
  destruct (hpke_encrypt_handle_works ec hc w env r pks _ EW HC PK) as (enc & HE & WE).
  destruct (hpke_decrypt_handle_works ec lib hc w env r ks _ EW EL HL HC KS) as (dec & HD & WD).
  exists (mk_handle ks), k, q, (mk_handle pks), k', enc, dec. split; [| split; [| do 7 (split; [assumption |])]].
  - unfold generate_new. rewrite HR. cbn [generate_unused_key_id ks_key map mem_N existsb negb]. f_equal. rewrite EP. apply create_ok. split; [exact V | reflexivity].
  - split; [exists tink; split; [exact IT | reflexivity] |]. split; [exact FS |]. split; [exact (proj2 KP) |]. split; [exact KS |]. split; [exact AL |]. split; reflexivity.
  - intros rnd' P info AD. assert (IP : is_primary pks [(k', hprv_public q)] k' (hprv_public q)) by (split; [left; reflexivity | rewrite S2, PI; reflexivity]).
    destruct (hpke_carries_over ec hc pks _ enc ks _ dec k' k q rnd' P info HL WE IP KS WD (or_introl eq_refl) (eq_sym S2) (eq_sym S3)) as (Z1 & Z2).
    destruct (Z1 AD) as (C & EC). exists C. split; [exact EC |]. apply (Z2 C EC). left. reflexivity.
Qed.
