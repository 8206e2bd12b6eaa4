(** Proofs: new handles for the predefined JWT templates. *)
From Coq Require Import Strings.Byte Strings.String List NArith ZArith Bool Lia.
From Verif Require Import M_Base M_Utf8 M_Base64 M_Proto M_Wire M_ProtoMsg M_KeyFormats M_JwtTypes M_Prims M_PrimitiveSet M_Registry M_KeysetHandle M_Wrappers M_Json M_RawJwt M_JwtPrims M_JwtFormat M_JwtWrappers M_JwtKeys
  M_StreamTypes M_CcStream M_CcManagers M_Templates M_CcAes M_CcStreamKeys M_CcModes M_CcSymmetric M_CcSymKeys M_CcEcies M_CcEciesKeys M_CcSignatures M_CcJwt
  S_Keyset S_Handle S_Wrappers S_Registry S_Json S_Jwt S_JwtKeys S_Wire S_Config S_CcLaws S_CcAes S_CcStreamKeys S_CcModes S_CcSymmetric S_CcSymKeys S_CcSymHandles S_CcEcies S_CcEciesKeys S_CcSignatures S_CcSigHandles S_CcJwt S_CcJwtHandles
  L_Base S_Base64 L_Base64 L_CcSymHandles L_Registry L_Wire L_PrimitiveSet L_Keyset L_Wrappers L_Wrappers2 L_Wrappers3 L_Jwt L_Jwt2 L_Jwt5 L_Jwt6 L_Jwt7 L_Handle L_Config L_Config2 L_Config3 L_Config4 L_Cli3
  L_CcStreamKeys L_CcModes L_CcSymKeys L_CcSymKeys2 L_CcSymHandles3 L_CcEciesHandles2 L_CcSigDer L_CcSignatures L_CcSigKeys L_CcSigKeys2 L_CcEcies L_CcEcies2 L_CcEcies3 L_CcEciesKeys L_CcEciesKeys2 L_CcSigNew L_CcSigNew2
  S_ProtoMsg L_ProtoMsg L_CcSigHandles3 L_CcJwt L_CcJwt2 L_CcJwtParse L_CcJwtHandles L_CcJwtHandles2 L_CcJwtHandles3.
Import ListNotations.
Open Scope string_scope.
Open Scope list_scope.
Open Scope nat_scope.

Lemma kid_exists : forall k, k_output_prefix_type k = RAW \/ k_output_prefix_type k = TINK -> (k_key_id k < 2 ^ 32)%N -> exists kid, kid_of k kid.
Proof.
  intros k [R | T] L; [exists None; left; auto |]. destruct (be32_bytes _ L) as (b3 & b2 & b1 & b0 & _ & E). eexists. right. split; [exact T |]. exists b3, b2, b1, b0, (base64_encode [b3; b2; b1; b0]).
  split; [exact E |]. split; [apply base64_encode_text | reflexivity].
Qed.
Lemma jwt_template_wf : Forall (fun x => forall t, snd x = Ok t -> wf_key_template t /\ proto_size (serialize_key_template t)) jwt_templates.
Proof.
  unfold jwt_templates. repeat apply Forall_cons; try apply Forall_nil.
  all: intros t E; vm_compute in E; injection E as <-; (split; [split; [apply low_text | apply low_int]; vm_compute; reflexivity |]); apply low_size; vm_compute; reflexivity.
Qed.
(** What a template asks for, and that it can be sent *)
Lemma jwt_template_kind : forall name t, In (name, Ok t) jwt_templates -> wf_key_template t /\ proto_size (serialize_key_template t) /\ exists y, In (name, y) jwt_template_formats /\
  match y with
  | HsKind h size => kt_type_url t = type_url "JwtHmacKey" /\ asks_for_jwt_hmac (kt_value t) h size /\ (Z.of_nat (hash_size h) <= size)%Z /\ (0 <= size <= 50000)%Z
  | SigKind f => asks_for_jwt (kt_type_url t) (kt_value t) f /\ jwt_format_ok f /\ jwt_format_size_ok f
  end /\ kt_output_prefix_type t = (if String.prefix "raw_" name then RAW else TINK).
Proof.
  intros name t Hin. pose proof jwt_template_wf as WF. rewrite Forall_forall in WF. destruct (WF _ Hin t eq_refl) as (W1 & W2). split; [exact W1 |]. split; [exact W2 |].
  destruct (Forall2_in_l _ _ _ _ _ _ jwt_cc_templates Hin) as ((n & y) & IT & (EN & t' & E' & A & EP)). cbn [fst snd] in *. subst n. injection E' as <-. exists y. split; [exact IT |]. split; [| exact EP].
  destruct y as [h size |]; [| exact A]. do 2 (split; [apply A |]). split; [apply A |].
  assert (B : Forall (fun x => match snd x with HsKind _ s => (0 <= s <= 50000)%Z | _ => True end) jwt_template_formats) by (unfold jwt_template_formats; cbv zeta; cbn [app]; repeat constructor; cbn; lia).
  rewrite Forall_forall in B. exact (B _ IT).
Qed.
Definition new_id (raw : N) : N := (1 + raw mod 2147483647)%N.
Lemma new_id_bound : forall raw, (new_id raw < 2 ^ 32)%N.
Proof. intros raw. unfold new_id. pose proof (N.mod_lt raw 2147483647 ltac:(discriminate)). change (2 ^ 32)%N with 4294967296%N. lia. Qed.
(** The handle that is made with a new key *)
Lemma new_handle_of : forall r rnd raw draws t d p, registry_new_key_data r rnd t = Ok d -> kt_output_prefix_type t = p -> p = RAW \/ p = TINK ->
  let k := mk_key (Some d) ENABLED (new_id raw) p in let ks := mk_keyset (new_id raw) [k] in
  generate_new r rnd (raw :: draws) t = Some (Ok (mk_handle ks)) /\ valid_keyset ks /\ exists kid, kid_of k kid.
Proof.
  intros r rnd raw draws t d p HR EP PT. cbv zeta.
  assert (V : valid_keyset (mk_keyset (new_id raw) [mk_key (Some d) ENABLED (new_id raw) p])) by (apply L_Handle.single_valid; first [discriminate | destruct PT as [Q | Q]; cbn [k_output_prefix_type]; rewrite Q; discriminate]).
  split; [| split; [exact V |]].
  - unfold generate_new. rewrite HR. cbn [generate_unused_key_id ks_key map mem_N existsb negb]. f_equal. rewrite EP. apply create_ok. split; [exact V | reflexivity].
  - apply kid_exists; [exact PT | apply new_id_bound].
Qed.
Lemma template_prefix : forall name : string, let p := if String.prefix "raw_" name then RAW else TINK in p = RAW \/ p = TINK.
Proof. intros name. cbv zeta. destruct (String.prefix "raw_" name); auto. Qed.

Theorem new_jwt_mac_handle_works : forall lib random ec sg self_test w env r name t rnd raw draws, jwt_world lib random ec sg self_test w -> hmac_size_law lib ->
  random_law random -> float_codec (pe_rt env) -> float_times_ok (pe_rt env) ->
  configured w env JwtMac r -> In (name, Ok t) jwt_templates -> kt_type_url t = type_url "JwtHmacKey" ->
  exists h k q a, generate_new r rnd (raw :: draws) t = Some (Ok h) /\ new_jwt_mac_handle random rnd name h k q /\ handle_primitive r h ClsJwtMac = Ok (PrimJwtMac a) /\
    forall j, ordinary_jwt (pe_rt env) j -> well_typed j -> exists token, jm_compute a j = Ok token /\
      forall clock v j', same_but_empty_type j j' -> accepts (pe_rt env) clock v j' ->
        representable (current_time v clock - jv_clock_skew v)%Z -> representable (current_time v clock + jv_clock_skew v)%Z ->
        jm_verify a clock token v = Ok (mk_verified_jwt j').
Proof.
  intros lib random ec sg self_test w env r name t rnd raw draws HW HL RL Hc Hf HC Hin HU.
  destruct (jwt_template_kind name t Hin) as (W1 & W2 & y & IT & A & EP). destruct y as [h size | f].
  2: { exfalso. destruct A as ((U & _) & _). rewrite HU in U. apply type_url_inj in U. destruct (jwt_format_family f); discriminate U. }
  destruct A as (_ & A & LS & SZ). destruct (jwt_cc_new_mac_made lib random rnd _ h size A LS) as (d & ND & U).
  destruct (new_jwt_mac_sizes lib random rnd _ h size d RL A SZ ND) as (P1 & P2 & P3).
  destruct (jwt_cc_new_mac_key lib random rnd _ d RL ND P1) as (h' & size' & A' & _ & MT & IK & OK).
  assert (h' = h /\ size' = size) as (-> & ->).
  { destruct A as (m & E & (z & Z & AL) & S). destruct A' as (m' & E' & (z' & Z' & AL') & S'). rewrite E in E'. injection E' as <-. rewrite <- (num_at_number _ _ _ _ S), <- (num_at_number _ _ _ _ S'). split; [| reflexivity].
    rewrite <- (num_at_number _ _ _ _ Z) in AL. rewrite <- (num_at_number _ _ _ _ Z') in AL'. clear - AL AL'. destruct AL as [E | [E | [E | []]]], AL' as [E' | [E' | [E' | []]]]; congruence. }
  set (q := mk_jwt_hmac_secret h (random (2 * rnd)%N size) None) in *.
  assert (HR : registry_new_key_data r rnd t = Ok d).
  { assert (CF : cc_functions w ClsJwtMacInternal (type_url "JwtHmacKey") = Some (cl_key_type (jwt_mac_manager lib random), cl_new_key_data (jwt_mac_manager lib random), cl_public_key_data (jwt_mac_manager lib random)))
      by (cbn [cc_functions]; rewrite (proj1 HW); reflexivity).
    pose proof (configured_new_key w env JwtMac r _ ClsJwtMacInternal false _ _ _ rnd t HC (or_introl eq_refl) CF HU W1 W2) as Q. rewrite ND in Q. apply Q. intros d' E. injection E as <-. split; assumption. }
  destruct (new_handle_of r rnd raw draws t d _ HR EP (template_prefix name)) as (GN & V & kid & KI).
  set (k := mk_key (Some d) ENABLED (new_id raw) (if String.prefix "raw_" name then RAW else TINK)) in *. set (ks := mk_keyset (new_id raw) [k]) in *.
  assert (KS : jwt_keyset is_jwt_hmac jwt_hmac_ok ks [(k, q)]).
  { split; [exact V |]. split; [reflexivity |]. constructor; [| constructor]. cbn [fst snd]. change (k_key_data k) with d. do 4 (split; [assumption |]). exists kid. exact KI. }
  destruct (jwt_mac_handle_works lib random ec sg self_test w env r ks _ HW HL Hc Hf HC KS) as (a & HA & WA).
  exists (mk_handle ks), k, q, a. split; [exact GN |]. split; [| split; [exact HA |]].
  - split; [exists size; split; [exact IT |]; split; reflexivity |]. split; [exact KS |]. repeat split.
  - intros j OJ WT. assert (IP : is_primary ks [(k, q)] k q) by (split; [left; reflexivity | reflexivity]).
    destruct (proj1 (proj1 (proj1 WA) k q kid j IP KI) (or_introl eq_refl) OJ) as (token & ET & _). exists token. split; [exact ET |].
    intros clock v j' SE AC R1 R2. exact (jwt_mac_carries_over _ _ _ _ _ _ _ _ _ _ _ _ _ _ _ _ KS WA WA IP (or_introl eq_refl) eq_refl eq_refl OJ WT SE AC R1 R2 ET).
Qed.
Theorem new_jwt_sign_handle_works : forall lib random ec sg self_test w env r name t rnd raw draws, jwt_world lib random ec sg self_test w -> ec_laws ec lib -> sig_laws ec sg -> rsa_sizes sg ->
  float_codec (pe_rt env) -> float_times_ok (pe_rt env) ->
  configured w env JwtSignature r -> In (name, Ok t) jwt_templates -> kt_type_url t <> type_url "JwtHmacKey" ->
  exists h k q ph k' s v, generate_new r rnd (raw :: draws) t = Some (Ok h) /\ new_jwt_sign_handle ec sg rnd name h k q /\
    public_keyset_handle r h = Ok ph /\ jwt_keyset is_jwt_public (fun q => good_public ec (scheme q)) (kh_keyset ph) [(k', jwt_public_of q)] /\
    ks_primary_key_id (kh_keyset ph) = k_key_id k /\ k_key_id k' = k_key_id k /\ k_output_prefix_type k' = k_output_prefix_type k /\
    handle_primitive r h ClsJwtSign = Ok (PrimJwtSign s) /\ handle_primitive r ph ClsJwtVerify = Ok (PrimJwtVerify v) /\
    forall rnd' j, ordinary_jwt (pe_rt env) j -> well_typed j -> exists token, js_sign s rnd' j = Ok token /\
      forall clock vd j', same_but_empty_type j j' -> accepts (pe_rt env) clock vd j' ->
        representable (current_time vd clock - jv_clock_skew vd)%Z -> representable (current_time vd clock + jv_clock_skew vd)%Z ->
        jv_verify v clock token vd = Ok (mk_verified_jwt j').
Proof.
  intros lib random ec sg self_test w env r name t rnd raw draws HW EL SL RS Hc Hf HC Hin HU.
  destruct (jwt_template_kind name t Hin) as (W1 & W2 & y & IT & A & EP). destruct y as [h size | f]; [exfalso; apply HU, A |]. destruct A as (A & OK & SZ).
  pose proof (proj1 A) as EU. pose proof A as A'. rewrite EU in A'. destruct (jwt_cc_new_key ec lib sg self_test rnd _ f EL SL A' OK SZ) as (d & ND & U & MT & HK).
  destruct (new_jwt_sizes ec lib sg self_test rnd _ f d EL SL RS A' OK SZ ND) as (W4 & W5 & W3 & PF). destruct (HK W4) as (q & K & FK & GQ & MA). clear HK.
  assert (VP : valid_private (private_scheme q)) by (apply jwt_valid_private; rewrite scheme_of_public; apply GQ).
  assert (HR : registry_new_key_data r rnd t = Ok d).
  { assert (CF : cc_functions w ClsJwtSignInternal (type_url (family_name (jwt_format_family f) ++ "PrivateKey")) =
      Some (cl_key_type (jwt_sign_cc_manager ec sg self_test (jwt_format_family f)), cl_new_key_data (jwt_sign_cc_manager ec sg self_test (jwt_format_family f)), cl_public_key_data (jwt_sign_cc_manager ec sg self_test (jwt_format_family f))))
      by (cbn [cc_functions]; rewrite (proj1 (proj2 HW (jwt_format_family f))); reflexivity).
    pose proof (configured_new_key w env JwtSignature r _ ClsJwtSignInternal true _ _ _ rnd t HC (jwt_signer_types (jwt_format_family f)) CF EU W1 W2) as Q. rewrite ND in Q. apply Q.
    intros d' E. injection E as <-. split; assumption. }
  destruct (new_handle_of r rnd raw draws t d _ HR EP (template_prefix name)) as (GN & V & kid & KI). pose proof (template_prefix name) as PT. cbv zeta in PT.
  set (k := mk_key (Some d) ENABLED (new_id raw) (if String.prefix "raw_" name then RAW else TINK)) in *. set (ks := mk_keyset (new_id raw) [k]) in *.
  assert (KS : jwt_keyset is_jwt_private (fun q => good_private ec sg (private_scheme q)) ks [(k, q)]).
  { split; [exact V |]. split; [reflexivity |]. constructor; [| constructor]. cbn [fst snd]. change (k_key_data k) with d. do 4 (split; [assumption |]). exists kid. exact KI. }
  assert (AL : all_jwt_private ks [(k, q)]).
  { split; [reflexivity |]. constructor; [| constructor]. cbn [fst snd]. change (k_key_data k) with d. do 4 (split; [assumption |]). exact VP. }
  destruct (jwt_public_handle lib random ec sg self_test w env r ks [(k, q)] HW HC V AL) as (ph & l' & PH & PI & EM & F2 & _ & PK).
  { intros k0 [<- | []]. cbn [k k_output_prefix_type k_status]. split; [destruct PT as [-> | ->]; discriminate | discriminate]. }
  { intros k0 [<- | []]. apply PF. reflexivity. }
  specialize (PK KS). inversion F2 as [| x y a b H0 F3 E1 E2]. inversion F3. subst a b x l'. destruct y as (k' & q'). destruct H0 as (S1 & S2 & S3 & S4 & S5). cbn [fst snd] in *. subst q'.
  unfold enabled_ones in PK. cbn [filter fst] in PK. rewrite S1 in PK. cbn [k k_status] in PK. change (Z.eqb ENABLED ENABLED) with true in PK. cbv iota in PK.
  destruct ph as [pks]. cbn [kh_keyset] in *.
  destruct (jwt_sign_handle_works lib random ec sg self_test w env r ks _ HW SL Hc HC KS) as (s & HS & WS).
  destruct (jwt_verify_handle_works lib random ec sg self_test w env r pks _ HW SL Hf HC PK) as (v & HV & WV).
  exists (mk_handle ks), k, q, (mk_handle pks), k', s, v. split; [exact GN |]. split; [| do 7 (split; [assumption |])].
  - split; [exists f; split; [exact IT | exact FK] |]. split; [exact KS |]. split; [exact AL |]. split; [exact MA |]. repeat split.
  - intros rnd' j OJ WT. assert (IP : is_primary ks [(k, q)] k q) by (split; [left; reflexivity | reflexivity]).
    destruct (proj1 (proj1 (WS rnd') k q kid j IP KI) (or_introl (proj1 (proj2 FK))) OJ) as (token & ET & _). exists token. split; [exact ET |].
    intros clock vd j' SE AC R1 R2. exact (jwt_signature_carries_over _ _ _ _ _ _ _ _ _ _ _ _ _ _ _ _ _ SL KS WS IP MA WV (or_introl eq_refl) S2 S3 OJ WT SE AC R1 R2 ET).
Qed.
