(** Proofs: the JWT example programs over the C++ JWT keys; the JWK of a key verifies the same
    signatures as the key. *)
From Coq Require Import Strings.Byte Strings.String List NArith ZArith Bool Lia.
From Verif Require Import M_Base M_Utf8 M_Proto M_Wire M_ProtoMsg M_KeyFormats M_JwtTypes M_Prims M_PrimitiveSet M_Registry M_KeysetHandle M_Wrappers M_Json M_RawJwt M_JwtPrims M_JwtFormat M_JwtWrappers M_JwtKeys
  M_StreamTypes M_CcStream M_CcManagers M_Templates M_JsonKeyset M_KeysetStream M_Cli M_CcAes M_CcStreamKeys M_CcModes M_CcSymmetric M_CcSymKeys M_CcEcies M_CcEciesKeys M_CcSignatures M_CcJwt
  S_Keyset S_Handle S_Wrappers S_Registry S_Json S_JsonKeyset S_Jwt S_JwtKeys S_Jwk S_Wire S_Config S_Cli S_CliJwt S_CcLaws S_CcAes S_CcStreamKeys S_CcModes S_CcSymmetric S_CcSymKeys S_CcSymHandles S_CcEcies S_CcEciesKeys S_CcSignatures S_CcSigHandles S_CcJwt S_CcJwtHandles S_CcJwtPrograms
  L_Base L_PrimitiveSet L_Keyset L_Config L_Config2 L_Config3 L_Config4 L_Cli7
  L_CcSignatures L_CcSigKeys L_CcSigKeys2 L_CcJwt L_CcJwt2 L_CcJwtParse L_CcJwtHandles L_CcJwtHandles2.
Import ListNotations.
Open Scope string_scope.
Open Scope list_scope.
Open Scope nat_scope.

Lemma jwt_library_ready : forall lib random ec sg self_test w, jwt_library lib random ec sg self_test w -> cc_ready w JwtSignature.
Proof.
  intros lib random ec sg self_test w ((_ & HW) & T). split; [exact T |]. intros name c b H.
  assert (E : exists f, (name, c) = (family_name f ++ "PrivateKey", ClsJwtSignInternal)%string \/ (name, c) = (family_name f ++ "PublicKey", ClsJwtVerifyInternal)%string).
  { cbn in H. repeat (destruct H as [H | H]; [injection H as <- <- <-;
      first [exists ES; (left; reflexivity) || (right; reflexivity) | exists RS; (left; reflexivity) || (right; reflexivity) | exists PS; (left; reflexivity) || (right; reflexivity)] |]). destruct H. }
  destruct E as (f & [E | E]); injection E as -> ->; cbn [cc_functions]; [rewrite (proj1 (HW f)), jwt_sign_is | rewrite (proj2 (HW f)), jwt_verify_is]; do 2 eexists; destruct f; reflexivity.
Qed.

(** ** The key that is made of the JWK of a key *)
Definition with_kid (q : jwt_public) (kid : option pystr) : jwt_public :=
  match q with EsPublic h X Y _ => EsPublic h X Y kid | RsPublic h n e _ => RsPublic h n e kid | PsPublic h n e _ => PsPublic h n e kid end.
Lemma with_kid_same : forall q kid, scheme (with_kid q kid) = scheme q /\ public_family (with_kid q kid) = public_family q.
Proof.
  intros q kid'. destruct q; split; reflexivity.
Qed.
Lemma imported_key : forall k k' q, imported_as k k' -> is_jwt_public (k_key_data k) q ->
  exists m m', is_jwt_public (k_key_data k') (with_kid q (jpk_custom_kid m')) /\ kd_type_url (k_key_data k') = kd_type_url (k_key_data k) /\
    parse_jwt_public_key (kd_value (k_key_data k)) = Some m /\ parse_jwt_public_key (kd_value (k_key_data k')) = Some m' /\ jpk_algorithm m' = jpk_algorithm m.
Proof.
  intros k k' q (m & kid & type & P & _ & U & _ & _ & value & PV & KD) (U' & m0 & E & VER & (z & Z & A) & _ & H).
  assert (KE : k_key_data k' = mk_key_data (ulit ("type.googleapis.com/google.crypto.tink." ++ type)) value ASYMMETRIC_PUBLIC) by (unfold k_key_data; rewrite KD; reflexivity).
  exists m. eexists. rewrite KE. cbn [kd_value kd_type_url]. split; [| split; [exact (eq_sym U) |]; split; [exact P |]; split; [exact PV | reflexivity]]. cbn [jpk_custom_kid].
  assert (IS : In (jwt_public_schema (public_family q)) [JwtEcdsaPublicKey; JwtRsaPublicKey]) by (destruct q; cbn; tauto).
  rewrite (public_parsers_agree _ _ IS), P in E. cbn [option_map] in E. injection E as <-.
  destruct (with_kid_same q kid) as (_ & F). unfold is_jwt_public. rewrite F. split; [cbn [kd_type_url]; rewrite <- U; exact U' |]. eexists. cbn [kd_value]. split; [rewrite (public_parsers_agree _ _ IS), PV; reflexivity |].
  destruct q as [h X Y c | h X Y c | h X Y c]; cbn [public_family jwt_public_schema jwt_hash with_kid jwt_kid] in *; (split; [reflexivity |]); (split; [exists z; split; [exact Z | exact A] |]);
    (split; [destruct kid; [split; reflexivity | reflexivity] | exact H]).
Qed.
Definition verify_types : list (string * string) := [("ES", "JwtEcdsaPublicKey"); ("RS", "JwtRsaSsaPkcs1PublicKey"); ("PS", "JwtRsaSsaPssPublicKey")].
Lemma verify_type : forall family type, In (family, type) verify_types -> exists f, family = family_alg f /\ type = (family_name f ++ "PublicKey")%string.
Proof. intros family type [E | [E | [E | []]]]; injection E as <- <-; [exists ES | exists RS | exists PS]; split; reflexivity. Qed.
Lemma type_verified : forall f, In (family_alg f, family_name f ++ "PublicKey")%string verify_types.
Proof. intros []; cbn; tauto. Qed.
Theorem jwk_same_signatures : forall lib random ec sg self_test w ks, jwt_world lib random ec sg self_test w -> sig_laws ec sg -> jwk_verifies_the_same w ks.
Proof.
  intros lib random ec sg self_test w ks (_ & HW) SL k k' alg ck q _ IM W S (_ & _ & family & type & message & mm & IT & U & P & NA & CK & LK & G).
  destruct (verify_type _ _ IT) as (f & -> & ->). rewrite (proj2 (HW f)) in LK. apply (f_equal (fun o => match o with Some x => x | None => mm end)) in LK. cbv beta iota in LK. subst mm.
  destruct (proj1 (jwt_cc_verifier_made ec sg f (k_key_data k)) (ex_intro _ q G)) as (j & <- & IJ & GJ).
  destruct (imported_key k k' j IM IJ) as (m & m' & IJ' & U' & PM & PM' & EA). destruct (with_kid_same j (jpk_custom_kid m')) as (SC & FA).
  destruct (proj2 (jwt_cc_verifier_made ec sg (public_family j) (k_key_data k'))) as (q' & G'); [exists (with_kid j (jpk_custom_kid m')); split; [exact FA |]; split; [exact IJ' | rewrite SC; exact GJ] |].
  rewrite P in PM. injection PM as <-.
  exists (jpk_custom_kid m'), q'. split.
  - split; [exact W |]. split; [exact S |]. exists (family_alg (public_family j)), (family_name (public_family j) ++ "PublicKey")%string, m', (jwt_verify_cc_manager ec sg (public_family j)).
    split; [apply type_verified |]. split; [rewrite U'; exact U |]. split; [exact PM' |]. split; [rewrite EA; exact NA |]. split; [reflexivity |]. split; [apply (HW (public_family j)) | exact G'].
  - intros tag data. rewrite (jwt_cc_verifies ec sg _ j q SL IJ G tag data), <- SC. symmetry. apply (jwt_cc_verifies ec sg _ _ q' SL IJ'). rewrite FA. exact G'.
Qed.

(** ** Keysets *)
Lemma cc_sign_key : forall lib random ec sg self_test w k q, jwt_world lib random ec sg self_test w -> sig_laws ec sg -> wf_key_data (k_key_data k) -> proto_size (serialize_key_data (k_key_data k)) ->
  is_jwt_private (k_key_data k) q -> good_private ec sg (private_scheme q) ->
  exists cc, cc_jwt_sign_key w k (jwt_alg (jwt_public_of q)) (jwt_kid (jwt_public_of q)) cc /\ cl_get_primitive (jwt_sign_cc_manager ec sg self_test (private_family q)) (k_key_data k) = StOk cc.
Proof.
  intros lib random ec sg self_test w k q (_ & HW) SL W S I G. destruct (proj2 (jwt_cc_signer_made ec sg self_test (private_family q) (k_key_data k) SL)) as (cc & E); [exists q; auto |]. destruct (private_reads _ _ I) as (msg & EP & NA & EK).
  exists cc. split; [| exact E]. split; [exact W |]. split; [exact S |]. exists (family_alg (private_family q)), (family_name (private_family q) ++ "PrivateKey")%string, msg, (jwt_sign_cc_manager ec sg self_test (private_family q)).
  split; [destruct q; cbn; tauto |]. split; [exact (proj1 I) |]. split; [exact EP |]. split; [exact NA |]. split; [symmetry; exact EK |]. split; [apply HW | exact E].
Qed.
Lemma cc_verify_key : forall lib random ec sg self_test w k q, jwt_world lib random ec sg self_test w -> wf_key_data (k_key_data k) -> proto_size (serialize_key_data (k_key_data k)) ->
  is_jwt_public (k_key_data k) q -> good_public ec (scheme q) ->
  exists cc, cc_jwt_verify_key w k (jwt_alg q) (jwt_kid q) cc /\ cl_get_primitive (jwt_verify_cc_manager ec sg (public_family q)) (k_key_data k) = StOk cc.
Proof.
  intros lib random ec sg self_test w k q (_ & HW) W S I G. destruct (proj2 (jwt_cc_verifier_made ec sg (public_family q) (k_key_data k))) as (cc & E); [exists q; auto |]. destruct (public_reads _ _ I) as (msg & EP & NA & EK).
  exists cc. split; [| exact E]. split; [exact W |]. split; [exact S |]. exists (family_alg (public_family q)), (family_name (public_family q) ++ "PublicKey")%string, msg, (jwt_verify_cc_manager ec sg (public_family q)).
  split; [destruct q; cbn; tauto |]. split; [exact (proj1 I) |]. split; [exact EP |]. split; [exact NA |]. split; [symmetry; exact EK |]. split; [apply HW | exact E].
Qed.
Lemma keyset_in : forall K (is_key : key_data -> K -> Prop) good ks l k, jwt_keyset is_key good ks l -> In k (enabled_keys ks) ->
  exists q, In (k, q) l /\ wf_key_data (k_key_data k) /\ proto_size (serialize_key_data (k_key_data k)) /\ is_key (k_key_data k) q /\ good q /\ exists kid, kid_of k kid.
Proof.
  intros K is_key good ks l k (_ & E & F) I. rewrite <- E in I. apply in_map_iff in I. destruct I as ((k' & q) & <- & I). rewrite Forall_forall in F. exists q. split; [exact I | exact (F _ I)].
Qed.
Lemma keyset_out : forall K (is_key : key_data -> K -> Prop) good ks l k q, jwt_keyset is_key good ks l -> In (k, q) l ->
  In k (enabled_keys ks) /\ wf_key_data (k_key_data k) /\ proto_size (serialize_key_data (k_key_data k)) /\ is_key (k_key_data k) q /\ good q.
Proof.
  intros K is_key good ks l k q (_ & E & F) I. split; [rewrite <- E; exact (in_map fst _ _ I) |]. rewrite Forall_forall in F. destruct (F _ I) as (A & B & C & D & _). auto.
Qed.
Lemma private_keyset_signs : forall lib random ec sg self_test w ks l, jwt_world lib random ec sg self_test w -> sig_laws ec sg -> jwt_private_keyset ec sg ks l -> jwt_sign_keyset w ks.
Proof.
  intros lib random ec sg self_test w ks l HW SL KS k I. destruct (keyset_in _ _ _ _ _ _ KS I) as (q & _ & W & S & IK & G & kid & KI). split; [exact (raw_or_tink_kid _ _ KI) |].
  destruct (cc_sign_key _ _ _ _ _ _ k q HW SL W S IK G) as (cc & C & _). eauto.
Qed.
Lemma public_keyset_verifies : forall lib random ec sg self_test w ks l, jwt_world lib random ec sg self_test w -> jwt_public_keyset ec ks l -> jwt_verify_keyset w ks.
Proof.
  intros lib random ec sg self_test w ks l HW KS k I. destruct (keyset_in _ _ _ _ _ _ KS I) as (q & _ & W & S & IK & G & kid & KI). split; [exact (raw_or_tink_kid _ _ KI) |].
  destruct (cc_verify_key _ _ _ _ _ _ k q HW W S IK G) as (cc & C & _). eauto.
Qed.

(** ** The programs *)
Theorem cc_jwt_sign_cli : forall lib random ec sg self_test w env pb o rnd now path audience out fs ks l k q kid,
  jwt_library lib random ec sg self_test w -> sig_laws ec sg -> float_codec (pe_rt env) -> python_digit_limit (pe_rt env) ->
  holds_keyset (pe_rt env) fs path ks -> jwt_private_keyset ec sg ks l -> is_primary ks l k q -> kid_of k kid -> jwt_kid (jwt_public_of q) = None \/ kid = None ->
  valid_unicode audience -> (0 <= now + 100000000 <= max_timestamp * 1000000)%Z -> may_write o out = true ->
  signs_token (pe_rt env) sg rnd kid q audience (now + 100000000) (jwt_sign_cli w env pb o rnd now path audience out fs) out fs.
Proof.
  intros lib random ec sg self_test w env pb o rnd now path audience out fs ks l k q kid HL SL Hc Hd HK KS (I & PI) KI X HA HN HO. pose proof (jwt_library_ready _ _ _ _ _ _ HL) as R. destruct HL as (HW & _).
  destruct (keyset_out _ _ _ _ _ _ _ KS I) as (IE & W & S & IK & G). destruct (cc_sign_key _ _ _ _ _ _ k q HW SL W S IK G) as (cc & C & E).
  destruct (jwt_sign_cli_spec w env pb o rnd now path audience out fs ks k _ _ cc kid R Hc Hd HK (private_keyset_signs _ _ _ _ _ _ _ _ HW SL KS) IE PI C KI X HA HN HO) as (r & signed & header & payload & h & SC & D1 & HO' & D2 & T).
  destruct (jwt_cc_signs ec sg self_test _ q cc SL IK E rnd signed) as ((tag & ET) & A). rewrite ET in T. destruct T as (token & CP & WT).
  exists r, token. split; [exact SC |]. split; [| exact WT]. exists signed, header, payload, tag, h. split; [exact CP |]. split; [apply A, ET |]. split; [exact D1 |]. split; [| exact D2].
  destruct SC as (-> & _). destruct (jwt_kid (jwt_public_of q)), kid; try exact HO'. destruct X; discriminate.
Qed.
Theorem cc_jwk_cli : forall lib random ec sg self_test w env pb o pub out fs ks l,
  jwt_library lib random ec sg self_test w -> float_codec (pe_rt env) -> holds_keyset (pe_rt env) fs pub ks -> proto_size (serialize_keyset ks) -> may_write o out = true ->
  jwt_public_keyset ec ks l -> publishable ks ->
  exists text, jwk_set_text (pe_rt env) ks text /\ writes_text (jwt_generate_public_jwk_set w env pb o pub out fs) out text fs.
Proof.
  intros lib random ec sg self_test w env pb o pub out fs ks l HL Hc HK HS HO KS HP.
  exact (jwk_cli_publishes w env pb o pub out fs ks (jwt_library_ready _ _ _ _ _ _ HL) Hc HK HS HO (public_keyset_verifies _ _ _ _ _ _ _ _ (proj1 HL) KS) HP).
Qed.
Theorem cc_jwt_verify_cli : forall lib random ec sg self_test w env pb o pub out fs0 ks l draws clock jwk audience token fs x run,
  jwt_library lib random ec sg self_test w -> sig_laws ec sg -> float_codec (pe_rt env) -> float_times_ok (pe_rt env) -> representable clock ->
  holds_keyset (pe_rt env) fs0 pub ks -> proto_size (serialize_keyset ks) -> may_write o out = true -> jwt_public_keyset ec ks l ->
  fst (jwt_generate_public_jwk_set w env pb o pub out fs0) = Ok 0%Z ->
  copied (jwt_generate_public_jwk_set w env pb o pub out fs0) out fs jwk ->
  content fs jwk = Some x -> (N.of_nat (length x) < 2 ^ 23)%N ->
  jwt_verify_cli w env draws clock jwk audience token fs = Some run ->
  same_files fs (snd run) /\
  (fst run = Ok 0%Z <-> exists t, holds_text fs token t /\ valid_for_published (pe_rt env) sg l clock audience t).
Proof.
  intros lib random ec sg self_test w env pb o pub out fs0 ks l draws clock jwk audience token fs x run HL SL Hc Hf Hclk HK HS HO KS H0 CP HX HXS HR. destruct HL as (HW & HT).
  destruct (jwt_verify_cli_spec w env pb o pub out fs0 ks draws clock jwk audience token fs x run (jwt_library_ready _ _ _ _ _ _ (conj HW HT)) Hc Hf Hclk HK HS HO (public_keyset_verifies _ _ _ _ _ _ _ _ HW KS)
    (jwk_same_signatures _ _ _ _ _ _ ks HW SL) H0 CP HX HXS HR) as (SF & E). split; [exact SF |]. rewrite E.
  split; intros (t & T & H); exists t; (split; [exact T |]).
  - destruct H as (k & alg & ck & q & tk & r & I & C & KI & A). destruct (keyset_in _ _ _ _ _ _ KS I) as (j & IJ & W & S & IK & G & _).
    destruct (cc_verify_key _ _ _ _ _ _ k j HW W S IK G) as (cc & C' & E').
    destruct C as (_ & _ & family & type & message & mm & IT & U & P & NA & CK & LK & GQ). destruct (verify_type _ _ IT) as (f & -> & ->).
    assert (FE : f = public_family j).
    { pose proof (proj1 IK) as U'. rewrite U in U'. destruct f, (public_family j); try reflexivity; vm_compute in U'; discriminate U'. }
    subst f. rewrite (proj2 (proj2 HW _)) in LK. apply (f_equal (fun o => match o with Some x => x | None => mm end)) in LK. cbv beta iota in LK. subst mm. rewrite GQ in E'. apply L_CcSymHandles.st_ok_inj in E'. subst cc.
    destruct (public_reads _ _ IK) as (msg & EP & NA' & EK). rewrite P in EP. injection EP as <-. rewrite EK in CK. subst ck.
    assert (alg = jwt_alg j) as -> by (destruct NA as [(N1 & ->) | [(N1 & ->) | (N1 & ->)]], NA' as [(N2 & ->) | [(N2 & ->) | (N2 & ->)]]; try reflexivity; rewrite N1 in N2; discriminate N2).
    exists k, j, tk, r. split; [exact IJ |]. split; [exact KI |].
    refine (proj1 (token_accepted_valid _ _ _ _ _ _ _ _ _ _ _) A). intros tag signed. rewrite <- (jwt_cc_verifies ec sg _ j q SL IK GQ tag signed). destruct (cv_verify q tag signed) as [[] | [| e |]]; cbn; split; intros Z; try discriminate Z; reflexivity.
  - destruct H as (k & j & tk & r & IJ & KI & A). destruct (keyset_out _ _ _ _ _ _ _ KS IJ) as (I & W & S & IK & G). destruct (cc_verify_key _ _ _ _ _ _ k j HW W S IK G) as (cc & C' & E').
    exists k, (jwt_alg j), (jwt_kid j), cc, tk, r. split; [exact I |]. split; [exact C' |]. split; [exact KI |].
    refine (proj2 (token_accepted_valid _ _ _ _ _ _ _ _ _ _ _) A). intros tag signed. rewrite <- (jwt_cc_verifies ec sg _ j cc SL IK E' tag signed). destruct (cv_verify cc tag signed) as [[] | [| e |]]; cbn; split; intros Z; try discriminate Z; reflexivity.
Qed.
(** The three programs: what is signed is verified with the JWK set. *)
Theorem cc_jwt_files : forall lib random ec sg self_test w env pb o rnd now priv audience out1 fs1 ks1 l1 k1 q kid pub out2 fs2 ks2 l2 k2 draws clock jwk token fs x run,
  jwt_library lib random ec sg self_test w -> sig_laws ec sg -> float_codec (pe_rt env) -> python_digit_limit (pe_rt env) -> float_times_ok (pe_rt env) ->
  (* the signing run *)
  holds_keyset (pe_rt env) fs1 priv ks1 -> jwt_private_keyset ec sg ks1 l1 -> is_primary ks1 l1 k1 q -> matching ec sg (private_scheme q) ->
  kid_of k1 kid -> jwt_kid (jwt_public_of q) = None \/ kid = None ->
  valid_unicode audience -> (0 <= now + 100000000 <= max_timestamp * 1000000)%Z -> may_write o out1 = true ->
  (* the publishing run *)
  holds_keyset (pe_rt env) fs2 pub ks2 -> proto_size (serialize_keyset ks2) -> may_write o out2 = true -> jwt_public_keyset ec ks2 l2 -> publishable ks2 ->
  (* the public key of the signing key is in the published keyset *)
  In (k2, jwt_public_of q) l2 -> k_key_id k2 = k_key_id k1 -> k_output_prefix_type k2 = k_output_prefix_type k1 ->
  (* the verifying run, with the two files, before the expiration *)
  copied (jwt_sign_cli w env pb o rnd now priv audience out1 fs1) out1 fs token ->
  copied (jwt_generate_public_jwk_set w env pb o pub out2 fs2) out2 fs jwk ->
  content fs jwk = Some x -> (N.of_nat (length x) < 2 ^ 23)%N ->
  representable clock -> (clock < (now + 100000000) / 1000000 * 1000000)%Z ->
  jwt_verify_cli w env draws clock jwk audience token fs = Some run -> fst run = Ok 0%Z.
Proof.
  intros lib random ec sg self_test w env pb o rnd now priv audience out1 fs1 ks1 l1 k1 q kid pub out2 fs2 ks2 l2 k2 draws clock jwk token fs x run HL SL Hc Hd Hf HK1 KS1 PR MA KI X HA HN HO1 HK2 HS HO2 KS2 HP I2 EI ET C1 C2 HX HXS Hclk HE HR.
  destruct (cc_jwt_sign_cli _ _ _ _ _ _ _ pb o rnd now priv audience out1 _ _ _ _ _ _ HL SL Hc Hd HK1 KS1 PR KI X HA HN HO1) as (_ & _ & _ & _ & _ & _ & E1 & _).
  destruct (cc_jwk_cli _ _ _ _ _ _ _ pb o pub out2 _ _ _ HL Hc HK2 HS HO2 KS2 HP) as (_ & _ & _ & _ & E2 & _).
  pose proof (jwt_library_ready _ _ _ _ _ _ HL) as R. destruct HL as (HW & _). destruct PR as (I1 & PI).
  destruct (keyset_out _ _ _ _ _ _ _ KS1 I1) as (IE & W & S & IK & G). destruct (cc_sign_key _ _ _ _ _ _ k1 q HW SL W S IK G) as (cc & C & E).
  destruct (keyset_out _ _ _ _ _ _ _ KS2 I2) as (IE2 & W2 & S2 & IK2 & G2). destruct (cc_verify_key _ _ _ _ _ _ k2 _ HW W2 S2 IK2 G2) as (cv & CV & EV).
  refine (jwt_sign_then_verify w env pb o rnd now priv audience out1 fs1 ks1 k1 _ _ cc kid pub out2 fs2 ks2 k2 cv draws clock jwk token fs x run R Hc Hd Hf HK1 (private_keyset_signs _ _ _ _ _ _ _ _ HW SL KS1) IE PI C KI X HA HN HO1 E1
    HK2 HS HO2 (public_keyset_verifies _ _ _ _ _ _ _ _ HW KS2) (jwk_same_signatures _ _ _ _ _ _ ks2 HW SL) E2 IE2 CV (same_kid _ _ _ EI ET KI) _ C1 C2 HX HXS Hclk HE HR).
  intros rnd' data tag H. apply (jwt_cc_signs ec sg self_test _ q cc SL IK E rnd' data) in H. apply (jwt_cc_verifies ec sg _ _ cv SL IK2 EV). rewrite scheme_of_public. exact (signature_valid ec sg _ rnd' data tag SL G (jwt_encoded_private q) MA H).
Qed.
