(** Proofs: JWT keysets over the C++ key managers: tokens made and verified. *)
From Coq Require Import Strings.Byte Strings.String List NArith ZArith Bool Lia.
From Verif Require Import M_Base M_Utf8 M_Proto M_Wire M_ProtoMsg M_KeyFormats M_JwtTypes M_Prims M_PrimitiveSet M_Registry M_KeysetHandle M_Wrappers M_Json M_RawJwt M_JwtPrims M_JwtFormat M_JwtWrappers M_JwtKeys
  M_StreamTypes M_CcStream M_CcManagers M_Templates M_CcAes M_CcStreamKeys M_CcModes M_CcSymmetric M_CcSymKeys M_CcEcies M_CcEciesKeys M_CcSignatures M_CcJwt
  S_Keyset S_Handle S_Wrappers S_Registry S_Json S_Jwt S_JwtKeys S_Wire S_Config S_CcLaws S_CcAes S_CcStreamKeys S_CcModes S_CcSymmetric S_CcSymKeys S_CcSymHandles S_CcEcies S_CcEciesKeys S_CcSignatures S_CcSigHandles S_CcJwt S_CcJwtHandles
  L_Base L_Registry L_Wire L_PrimitiveSet L_Keyset L_Wrappers L_Wrappers2 L_Jwt L_Jwt2 L_Jwt5 L_Jwt6 L_Jwt7 L_Handle L_Config L_Config2 L_Config3 L_Config4
  L_CcStreamKeys L_CcModes L_CcSymKeys L_CcSymKeys2 L_CcEciesHandles2 L_CcSigDer L_CcSignatures L_CcSigKeys L_CcSigKeys2 L_CcJwt L_CcJwt2 L_CcJwtParse.
Import ListNotations.
Open Scope string_scope.
Open Scope list_scope.
Open Scope nat_scope.

Lemma Forall2_weaken : forall A B (R S : A -> B -> Prop), (forall x y, R x y -> S x y) -> forall l l', Forall2 R l l' -> Forall2 S l l'.
Proof. intros A B R S H l l' F. induction F; constructor; auto. Qed.
(** ** What the Python code reads of the keys *)
Lemma bits_named : forall f h z, jwt_algorithm h z -> names_algorithm f z (ulit (f ++ bits_name h)).
Proof. intros f h z [E | [E | [E | []]]]; injection E as <- <-; unfold names_algorithm; cbn [bits_name]; auto. Qed.
Lemma bits_known : forall f h, In f ["HS"; "ES"; "RS"; "PS"] -> In (ulit (f ++ bits_name h)) (map ulit algorithms).
Proof. intros f h [<- | [<- | [<- | [<- | []]]]]; destruct h; apply in_map; cbn; tauto. Qed.
Lemma mac_reads : forall d q, is_jwt_hmac d q -> exists k, parse_jwt_hmac_key (kd_value d) = Some k /\ names_algorithm "HS" (jhk_algorithm k) (hs_alg q) /\ jhk_custom_kid k = hs_kid q.
Proof.
  intros d q (_ & m & E & _ & (z & Z & A) & _ & K). rewrite hmac_parsers_agree in E. destruct (parse_jwt_hmac_key (kd_value d)) as [k |]; [| discriminate E]. cbn [option_map] in E. injection E as <-. exists k. split; [reflexivity |].
  split; [injection Z as <-; apply bits_named, A |]. unfold kid_at in K. destruct (jhk_custom_kid k) as [v |] eqn:EK; destruct (hs_kid q) as [v' |]; unfold hmac_value in K; rewrite EK in K; cbn in K; try discriminate K.
  - destruct K as (_ & K). injection K as <-. reflexivity.
  - destruct K as (K & _). discriminate K.
  - reflexivity.
Qed.
Lemma public_reads : forall d q, is_jwt_public d q -> exists k, parse_jwt_public_key (kd_value d) = Some k /\ names_algorithm (family_alg (public_family q)) (jpk_algorithm k) (jwt_alg q) /\ jpk_custom_kid k = jwt_kid q.
Proof.
  intros d q (_ & m & E & _ & (z & Z & A) & K & _). rewrite public_parsers_agree in E by (destruct q; cbn; tauto). destruct (parse_jwt_public_key (kd_value d)) as [k |]; [| discriminate E]. cbn [option_map] in E. injection E as <-. exists k. split; [reflexivity |].
  split; [destruct q; injection Z as <-; apply bits_named, A |]. unfold kid_at in K. destruct (jpk_custom_kid k) as [v |] eqn:EK; destruct (jwt_kid q) as [v' |]; unfold public_value in K; rewrite EK in K; destruct q; cbn in K; try discriminate K; try reflexivity.
  all: destruct K as (K0 & K); try discriminate K0; injection K as <-; reflexivity.
Qed.
Lemma private_reads : forall d q, is_jwt_private d q -> exists k, parse_jwt_private_key (kd_value d) = Some k /\ names_algorithm (family_alg (private_family q)) (jpk_algorithm k) (jwt_alg (jwt_public_of q)) /\
  jpk_custom_kid k = jwt_kid (jwt_public_of q).
Proof.
  intros d q (_ & m & E & _ & (_ & (z & Z & A) & K & _) & _). assert (IS : In (jwt_private_schema (private_family q)) [JwtEcdsaPrivateKey; JwtRsaPrivateKey]) by (destruct q; cbn; tauto). destruct (private_parsers_agree _ _ _ IS E) as (v & o & rest & k & -> & EP & O). exists k. split; [exact EP |].
  assert (O' : o = Some (VMsg (public_value k))).
  { destruct O as [(-> & _) | O]; [| exact O]. exfalso. destruct q; cbn in Z; injection Z as <-; destruct A as [A | [A | [A | []]]]; discriminate A. }
  clear O. subst o. split; [destruct q; injection Z as <-; apply bits_named, A |].
  unfold kid_at in K. destruct (jpk_custom_kid k) as [x |] eqn:EK; destruct (jwt_kid (jwt_public_of q)) as [x' |]; unfold public_value in K; rewrite EK in K; destruct q; cbn in K; try discriminate K; try reflexivity.
  all: destruct K as (K0 & K); try discriminate K0; injection K as <-; reflexivity.
Qed.

(** ** Keysets *)
Lemma jwt_keyset_made : forall K P (inj : P -> prim) reg cin is_key good ks (l : list (key * K)) (F : key -> K -> P -> Prop), jwt_keyset is_key good ks l ->
  (forall k q, wf_key_data (k_key_data k) -> proto_size (serialize_key_data (k_key_data k)) -> is_key (k_key_data k) q -> good q -> exists p, key_provides reg cin k (inj p) /\ F k q p) ->
  exists l', keys_with inj reg cin ks l' /\ Forall2 (fun x y => fst x = fst y /\ F (fst x) (snd x) (snd y)) l l'.
Proof.
  intros K P inj reg cin is_key good ks l F (V & E & FA) H. unfold keys_with. rewrite <- E. clear V E. induction FA as [| (k & q) l (W & S & I & G & _) FA IH]; [exists []; repeat split; constructor |].
  destruct IH as (l' & (E & F1) & F2). destruct (H k q W S I G) as (p & Hp & HF). exists ((k, p) :: l'). cbn [map fst snd]. rewrite E. split; [split; [reflexivity |] |]; constructor; auto.
Qed.
Lemma raw_or_tink_kid : forall k kid, kid_of k kid -> raw_or_tink k.
Proof. intros k kid [(H & _) | (H & _)]; [left | right]; exact H. Qed.
Lemma kid_prefix : forall k kid, kid_of k kid -> exists p, has_prefix (k_output_prefix_type k) (k_key_id k) p.
Proof.
  intros k kid [(H & _) | (H & b3 & b2 & b1 & b0 & s & E & _)]; rewrite H; apply has_prefix_exists; [left; reflexivity | right]. split; [auto |]. rewrite <- E. change (2 ^ 32)%N with 4294967296%N.
  change (2 ^ 24)%N with 16777216%N. change (2 ^ 16)%N with 65536%N. change (2 ^ 8)%N with 256%N. pose proof (to_N_lt b3). pose proof (to_N_lt b2). pose proof (to_N_lt b1). pose proof (to_N_lt b0). lia.
Qed.
Lemma jwt_handle_made : forall P (inj : P -> prim) reg ks c w mk (l : list (key * P)), (forall p, class_of (inj p) = w_input_primitive_class w) ->
  (forall ps, w_wrap w ps = (_ <- validate_jwt_primitive_set ps ;; Ok (mk ps))) -> dict_get pclass_eqb c (r_wrappers reg) = Some w -> valid_keyset ks ->
  keys_with inj reg (w_input_primitive_class w) ks l -> Forall (fun x => exists kid, kid_of (fst x) kid) l -> exists ps, handle_primitive reg (mk_handle ks) c = Ok (mk ps).
Proof.
  intros P inj reg ks c w mk l Hc Hm Hw V (E & F) HK. eexists. apply (handle_primitive_ok _ _ _ _ _ Hw). cbn [kh_keyset]. split; [exact V |].
  exists (map (lift inj) l). rewrite map_fst_lift. split; [exact E |]. split.
  - rewrite Forall_forall in *. intros kp Hi. apply in_map_iff in Hi. destruct Hi as (x & <- & Hi). split; [exact (F _ Hi) |]. split; [apply Hc |]. destruct (HK _ Hi) as (kid & Hk). exact (kid_prefix _ _ Hk).
  - rewrite Hm. rewrite (proj2 (validate_jwt_ok _ inj _ _ l)); [reflexivity |]. eapply Forall_impl; [| exact HK]. intros x (kid & Hk). exact (raw_or_tink_kid _ _ Hk).
Qed.
Lemma kids_over : forall K P (l : list (key * K)) (l' : list (key * P)) (R : key * K -> key * P -> Prop), (forall x y, R x y -> fst x = fst y) -> Forall2 R l l' ->
  Forall (fun x => exists kid, kid_of (fst x) kid) l -> Forall (fun x => exists kid, kid_of (fst x) kid) l'.
Proof. intros K P l l' R E H. induction H as [| x y l l' HR _ IH]; intros A; [constructor |]. inversion A as [| ? ? A1 A2]. subst. constructor; [rewrite <- (E _ _ HR); exact A1 | exact (IH A2)]. Qed.
Lemma keyset_kids : forall K is_key good ks (l : list (key * K)), jwt_keyset is_key good ks l -> Forall (fun x => exists kid, kid_of (fst x) kid) l.
Proof. intros K is_key good ks l (_ & _ & F). eapply Forall_impl; [| exact F]. intros x (_ & _ & _ & _ & H). exact H. Qed.

(** ** Tokens made with a key *)
Lemma token_made : forall rt alg ck auth tagged r k kid, float_codec rt -> In alg (map ulit algorithms) -> kid_valid ck -> kid_of k kid ->
  (forall signed, exists tag, auth signed = Ok tag /\ tagged signed tag) ->
  ((ck = None \/ kid = None) -> ordinary_jwt rt r -> exists token, encode_with_kid rt alg ck auth r kid = Ok token /\ token_for rt alg kid ck tagged r token) /\
  (ck <> None -> kid <> None -> exists m, encode_with_kid rt alg ck auth r kid = Err (JwtInvalidError m)).
Proof.
  intros rt alg ck auth tagged r k kid Hc Ha Hv Hk T. split.
  - intros Hex Ho. destruct (kid_of_valid _ _ Hk) as (Vk & _). destruct (encode_spec rt alg ck auth r kid Hc Ha Ho) as (signed & header & payload & h & H1 & H2 & H3 & H4); [intros x [X | X]; [exact (Hv x X) | exact (Vk x X)] | exact Hex |].
    destruct (T signed) as (tag & ET & TT). rewrite ET in H4. destruct H4 as (token & E & C). exists token. split; [exact E |]. exists signed, header, payload, tag, h.
    split; [exact C |]. split; [exact TT |]. split; [exact H1 |]. split; [| exact H3]. destruct ck, kid; cbn [effective_kid] in H2; try exact H2. destruct Hex; discriminate.
  - intros N1 N2. destruct ck as [c |]; [| congruence]. destruct kid as [x |]; [| congruence]. apply encode_conflict.
Qed.
Lemma makes_from : forall K P (inj : P -> prim) reg cin rt alg custom tagged ks (l : list (key * K)) (l' : list (key * P)) (make : raw_jwt -> result pystr) (call : raw_jwt -> P -> option pystr -> result pystr),
  float_codec rt ->
  Forall2 (fun x y => fst x = fst y /\ In (alg (snd x)) (map ulit algorithms) /\ kid_valid (custom (snd x)) /\ exists auth,
    (forall signed, exists tag, auth signed = Ok tag /\ tagged (snd x) signed tag) /\ forall r kid, call r (snd y) kid = encode_with_kid rt (alg (snd x)) (custom (snd x)) auth r kid) l l' ->
  (forall r, jwt_maker_spec inj reg cin ks (call r) (make r) l') -> makes_tokens rt alg custom tagged ks l make.
Proof.
  intros K P inj reg cin rt alg custom tagged ks l l' make call Hc F2 HM. split.
  - intros k q kid r (I & PI) HK. destruct (Forall2_in_l _ _ _ _ _ _ F2 I) as ((k' & p) & I' & EK & A & V & auth & T & C). cbn [fst snd] in *. subst k'.
    destruct (HM r) as (_ & _ & M & _). destruct (M k p (conj I' PI)) as (kid' & HK' & E). rewrite (kid_of_fun _ _ _ HK' HK) in E. rewrite E, C. exact (token_made rt (alg q) (custom q) auth (tagged q) r k kid Hc A V HK T).
  - intros NP r. destruct (HM r) as (_ & _ & _ & N). apply N. intros k p (I & PI). destruct (Forall2_in_r _ _ _ _ _ _ F2 I) as ((k' & q) & I' & EK & _). cbn [fst snd] in *. subst k'. exact (NP k q (conj I' PI)).
Qed.

(** ** Tokens accepted *)
Lemma token_accepted_valid : forall rt alg tk ck check (tagged : bytes -> bytes -> Prop) clock v token r, (forall tag signed, check tag signed = Ok tt <-> tagged signed tag) ->
  (S_Jwt.token_accepted rt alg tk ck check clock v token r <-> token_valid rt alg tk ck tagged clock v token r).
Proof.
  intros rt alg tk ck check tagged clock v token r H. split; intros (signed & header & payload & tag & h & C & T & R); exists signed, header, payload, tag, h; (split; [exact C |]); (split; [apply H, T | exact R]).
Qed.
Lemma accepts_from : forall K P (inj : P -> prim) reg cin rt alg custom tagged ks (l : list (key * K)) (l' : list (key * P)) (verify : Z -> pystr -> jwt_validator -> result verified_jwt)
    (call : Z -> pystr -> jwt_validator -> P -> option pystr -> result verified_jwt),
  (forall a b, inj a = inj b -> a = b) -> float_times_ok rt ->
  Forall2 (fun x y => fst x = fst y /\ In (alg (snd x)) (map ulit algorithms) /\ exists check,
    (forall tag signed, check tag signed = Ok tt <-> tagged (snd x) signed tag) /\ (forall tag signed, tink_total (use_tink_errors (check tag signed))) /\
    forall clock token v kid, call clock token v (snd y) kid = verify_with_kid rt (alg (snd x)) (custom (snd x)) check clock token v kid) l l' ->
  (forall clock token v, jwt_verifier_spec inj reg cin ks (call clock token v) (verify clock token v) l') -> accepts_tokens rt alg custom tagged l verify.
Proof.
  intros K P inj reg cin rt alg custom tagged ks l l' verify call Hi Hf F2 HV.
  set (KK := fun k a ck check => exists q p, In (k, q) l /\ In (k, p) l' /\ a = alg q /\ ck = custom q /\ In a (map ulit algorithms) /\ (forall tag signed, check tag signed = Ok tt <-> tagged q signed tag) /\
    (forall tag signed, tink_total (use_tink_errors (check tag signed))) /\ forall clock token v kid, call clock token v p kid = verify_with_kid rt a ck check clock token v kid).
  assert (L : forall k q, In (k, q) l -> exists p check, In (k, p) l' /\ (forall tag signed, check tag signed = Ok tt <-> tagged q signed tag) /\ KK k (alg q) (custom q) check).
  { intros k q I. destruct (Forall2_in_l _ _ _ _ _ _ F2 I) as ((k' & p) & I' & EK & A & check & T & C & E). cbn [fst snd] in *. subst k'. exists p, check. split; [exact I' |]. split; [exact T |]. exists q, p. auto 12. }
  assert (R : forall k p, In (k, p) l' -> exists q, In (k, q) l).
  { intros k p I. destruct (Forall2_in_r _ _ _ _ _ _ F2 I) as ((k' & q) & I' & EK & _). cbn [fst snd] in *. subst k'. exists q. exact I'. }
  assert (HK : forall clock token v k p a ck check, In (k, p) l' -> KK k a ck check -> In a (map ulit algorithms) /\ forall kid, call clock token v p kid = verify_with_kid rt a ck check clock token v kid).
  { intros clock token v k p a ck check I (q & p' & _ & I' & _ & _ & A & _ & _ & C). split; [exact A |]. intros kid. destruct (HV clock token v) as (KW & _). destruct (keys_with_in _ _ _ _ _ _ KW) as (KI & _).
    rewrite (Hi _ _ (key_provides_fun _ _ _ _ _ (proj2 (KI _ _ I)) (proj2 (KI _ _ I')))). apply C. }
  assert (HT : forall k a ck check, In k (enabled_keys ks) -> KK k a ck check -> forall tag signed, tink_total (use_tink_errors (check tag signed))).
  { intros k a ck check _ (q & p & _ & _ & _ & _ & _ & _ & T & _). exact T. }
  split.
  - intros clock v token r R1 R2. destruct (HV clock token v) as (KW & _ & HO). destruct (keys_with_in _ _ _ _ _ _ KW) as (KI & KE).
    assert (X : forall k p, In (k, p) l' -> exists a ck check, KK k a ck check). { intros k p I. destruct (R _ _ I) as (q & Q). destruct (L _ _ Q) as (_ & check & _ & _ & HKK). eauto. }
    rewrite (keyset_accepts rt ks l' clock v token (call clock token v) (verify clock token v) KK (fun k p I => proj1 (KI k p I)) X KE (HK clock token v) HT HO r Hf R1 R2). split.
    + intros (k & a & ck & check & kid & _ & (q & p & I & _ & -> & -> & _ & T & _) & HKid & HA). exists k, q, kid. split; [exact I |]. split; [exact HKid |]. exact (proj1 (token_accepted_valid _ _ _ _ _ _ _ _ _ _ T) HA).
    + intros (k & q & kid & I & HKid & HA). destruct (L k q I) as (p & check & I' & T & HKK). exists k, (alg q), (custom q), check, kid. split; [exact (proj1 (KI _ _ I')) |]. split; [exact HKK |]. split; [exact HKid |].
      exact (proj2 (token_accepted_valid _ _ _ _ _ _ _ _ _ _ T) HA).
  - intros clock v token HN. destruct (HV clock token v) as (KW & _ & HO). destruct (keys_with_in _ _ _ _ _ _ KW) as (KI & KE).
    assert (X : forall k p, In (k, p) l' -> exists a ck check, KK k a ck check). { intros k p I. destruct (R _ _ I) as (q & Q). destruct (L _ _ Q) as (_ & check & _ & _ & HKK). eauto. }
    apply (keyset_rejects rt ks l' clock v token (call clock token v) (verify clock token v) KK (fun k p I => proj1 (KI k p I)) X (HK clock token v) HT HO).
    intros k a ck check signed header payload tag _ (q & p & I & _ & _ & _ & _ & T & _) C E. apply T in E. exact (HN k q signed header payload tag I C E).
Qed.
Lemma bound_total : forall A (s : st_or A), tink_total (use_tink_errors (throw_not_ok s)).
Proof. intros A [a | [| m |]]; cbn; auto. Qed.
Lemma bound_ok : forall (s : st_or unit), throw_not_ok s = Ok tt <-> s = StOk tt.
Proof. intros [[] | [| m |]]; cbn; split; intros H; try discriminate H; reflexivity. Qed.
Lemma cc_built : forall P Q (bound : P -> Q) m d p, wf_key_data d -> proto_size (serialize_key_data d) -> cl_get_primitive m d = StOk p -> cc_primitive (cc_key_manager bound m) (serialize_key_data d) = Ok (bound p).
Proof. intros P Q bound m d p W S H. cbn [cc_primitive cc_key_manager]. unfold parse_or_empty. rewrite (key_data_round_trip _ W S), H. reflexivity. Qed.
Lemma mac_inj : forall a b, PrimJwtMacInternal a = PrimJwtMacInternal b -> a = b.
Proof. intros a b H. injection H as H. exact H. Qed.
Lemma sign_inj : forall a b, PrimJwtSignInternal a = PrimJwtSignInternal b -> a = b.
Proof. intros a b H. injection H as H. exact H. Qed.
Lemma verify_inj : forall a b, PrimJwtVerifyInternal a = PrimJwtVerifyInternal b -> a = b.
Proof. intros a b H. injection H as H. exact H. Qed.

(** ** MACs *)
Theorem jwt_mac_handle_works : forall lib random ec sg self_test w env r ks l, jwt_world lib random ec sg self_test w -> hmac_size_law lib -> float_codec (pe_rt env) -> float_times_ok (pe_rt env) ->
  configured w env JwtMac r -> jwt_keyset is_jwt_hmac jwt_hmac_ok ks l ->
  exists a, handle_primitive r (mk_handle ks) ClsJwtMac = Ok (PrimJwtMac a) /\ jwt_mac_works (pe_rt env) lib ks l a.
Proof.
  intros lib random ec sg self_test w env r ks l HW HL Hc Hf HC KS.
  destruct (proj1 (configured_jwt w env r) HC) as (m & Em & HM). rewrite (proj1 HW) in Em. injection Em as <-.
  assert (WR : dict_get pclass_eqb ClsJwtMac (r_wrappers r) = Some jwt_mac_wrapper) by (apply (configured_wrapper w env JwtMac r ClsJwtMac); [exact HC | cbn; tauto | reflexivity]).
  destruct (jwt_keyset_made _ _ PrimJwtMacInternal r ClsJwtMacInternal _ _ ks l
    (fun k q p => exists cc, is_jwt_hmac (k_key_data k) q /\ cl_get_primitive (jwt_mac_manager lib random) (k_key_data k) = StOk cc /\ p = jwt_hmac (pe_rt env) (hs_alg q) (hs_kid q) (bind_mac cc)) KS) as (l' & KW & F2).
  { intros k q W S I G. destruct (proj2 (jwt_cc_mac_made lib random (k_key_data k)) (ex_intro _ q (conj I G))) as (cc & E). destruct (mac_reads _ _ I) as (msg & EP & NA & EK).
    exists (jwt_hmac (pe_rt env) (hs_alg q) (hs_kid q) (bind_mac cc)). split; [| exists cc; auto]. exists (jwt_hmac_manager (pe_rt env) (cc_key_manager bind_mac (jwt_mac_manager lib random))), true.
    split; [rewrite (proj1 I); exact HM |]. split; [reflexivity |]. apply jwt_hmac_manager_spec. exists msg, (hs_alg q), (bind_mac cc). split; [exact (proj1 I) |]. split; [exact EP |]. split; [exact NA |].
    split; [exact (cc_built _ _ _ _ _ _ W S E) |]. rewrite EK. reflexivity. }
  destruct (jwt_handle_made _ PrimJwtMacInternal r ks ClsJwtMac jwt_mac_wrapper _ l' (fun _ => eq_refl) (fun _ => eq_refl) WR (proj1 KS) KW (kids_over _ _ _ _ _ (fun _ _ H => proj1 H) F2 (keyset_kids _ _ _ _ _ KS))) as (ps & HA).
  eexists. split; [exact HA |]. destruct (jwt_mac_handle_spec _ _ _ WR HA) as (_ & l2 & SM & SV). cbn [kh_keyset] in *.
  assert (l2 = l') as -> by (destruct (SM (mk_raw_jwt None [])) as (KW2 & _); exact (keys_with_fun _ _ _ _ _ _ _ mac_inj KW2 KW)).
  split.
  - eapply (makes_from _ _ PrimJwtMacInternal r ClsJwtMacInternal); [exact Hc | | exact SM]. eapply Forall2_weaken; [| exact F2]. intros (k & q) (k' & p) (EK & cc & I & E & ->). cbn [fst snd] in *. subst k'.
    split; [reflexivity |]. split; [apply bits_known; cbn; tauto |]. destruct (mac_reads _ _ I) as (msg & EP & _ & EK). split; [rewrite <- EK; exact (parse_hmac_kid_valid _ _ EP) |].
    exists (mac_compute (bind_mac cc)). split; [| intros; reflexivity]. intros signed. destruct (jwt_cc_mac_computes lib random _ q cc HL I E signed) as (C & _). eexists. split; [cbn [mac_compute bind_mac]; rewrite C; reflexivity | reflexivity].
  - eapply (accepts_from _ _ PrimJwtMacInternal r ClsJwtMacInternal); [exact mac_inj | exact Hf | | exact SV]. eapply Forall2_weaken; [| exact F2]. intros (k & q) (k' & p) (EK & cc & I & E & ->). cbn [fst snd] in *. subst k'.
    split; [reflexivity |]. split; [apply bits_known; cbn; tauto |]. exists (mac_verify (bind_mac cc)). cbn [mac_verify bind_mac]. split; [| split; [intros; apply bound_total | intros; reflexivity]].
    intros tag signed. rewrite bound_ok. exact (proj2 (jwt_cc_mac_computes lib random _ q cc HL I E signed) tag).
Qed.

(** ** Signatures *)
Definition private_akid (f : jwt_family) := match f with ES => ecdsa_private_alg_kid | RS => pkcs1_private_alg_kid | PS => pss_private_alg_kid end.
Definition public_akid (f : jwt_family) := match f with ES => ecdsa_public_alg_kid | RS => pkcs1_public_alg_kid | PS => pss_public_alg_kid end.
Theorem jwt_sign_handle_works : forall lib random ec sg self_test w env r ks l, jwt_world lib random ec sg self_test w -> sig_laws ec sg -> float_codec (pe_rt env) ->
  configured w env JwtSignature r -> jwt_keyset is_jwt_private (fun q => good_private ec sg (private_scheme q)) ks l ->
  exists a, handle_primitive r (mk_handle ks) ClsJwtSign = Ok (PrimJwtSign a) /\ jwt_sign_works (pe_rt env) sg ks l a.
Proof.
  intros lib random ec sg self_test w env r ks l HW SL Hc HC KS.
  assert (HM : forall f, exists n, manager_of r (type_url (family_name f ++ "PrivateKey")) = Some (jwt_sign_manager (pe_rt env) n (cc_key_manager bind_signer (jwt_sign_cc_manager ec sg self_test f)) (private_akid f), true)).
  { intros f. destruct (proj1 (proj2 (configured_jwt w env r) HC) (family_name f ++ "PrivateKey")%string (private_akid f)) as (n & m & Em & HM); [destruct f; cbn; tauto |]. rewrite (proj1 (proj2 HW f)) in Em. injection Em as <-. exists n. exact HM. }
  assert (WR : dict_get pclass_eqb ClsJwtSign (r_wrappers r) = Some jwt_sign_wrapper) by (apply (configured_wrapper w env JwtSignature r ClsJwtSign); [exact HC | cbn; tauto | reflexivity]).
  destruct (jwt_keyset_made _ _ PrimJwtSignInternal r ClsJwtSignInternal _ _ ks l
    (fun k q p => exists cc, is_jwt_private (k_key_data k) q /\ cl_get_primitive (jwt_sign_cc_manager ec sg self_test (private_family q)) (k_key_data k) = StOk cc /\
      p = jwt_public_key_sign (pe_rt env) (jwt_alg (jwt_public_of q)) (jwt_kid (jwt_public_of q)) (bind_signer cc)) KS) as (l' & KW & F2).
  { intros k q W S I G. destruct (proj2 (jwt_cc_signer_made ec sg self_test (private_family q) (k_key_data k) SL)) as (cc & E); [exists q; auto |]. destruct (private_reads _ _ I) as (msg & EP & NA & EK).
    eexists. split; [| exists cc; split; [exact I |]; split; [exact E | reflexivity]]. destruct (HM (private_family q)) as (n & HMf). eexists. exists true. split; [rewrite (proj1 I); exact HMf |]. split; [reflexivity |].
    assert (FA : In (family_alg (private_family q), (family_name (private_family q) ++ "PrivateKey")%string, private_akid (private_family q)) private_families) by (destruct q; cbn; tauto).
    apply (jwt_sign_manager_spec _ _ _ _ _ _ _ _ FA). exists msg, (jwt_alg (jwt_public_of q)), (bind_signer cc). split; [rewrite (proj1 I); destruct q; reflexivity |]. split; [exact EP |]. split; [exact NA |].
    split; [exact (cc_built _ _ _ _ _ _ W S E) |]. rewrite EK. reflexivity. }
  destruct (jwt_handle_made _ PrimJwtSignInternal r ks ClsJwtSign jwt_sign_wrapper _ l' (fun _ => eq_refl) (fun _ => eq_refl) WR (proj1 KS) KW (kids_over _ _ _ _ _ (fun _ _ H => proj1 H) F2 (keyset_kids _ _ _ _ _ KS))) as (ps & HA).
  eexists. split; [exact HA |]. destruct (jwt_sign_handle_spec _ _ _ WR HA) as (_ & l2 & SM). cbn [kh_keyset] in *.
  assert (l2 = l') as -> by (destruct (SM 0%N (mk_raw_jwt None [])) as (KW2 & _); exact (keys_with_fun _ _ _ _ _ _ _ sign_inj KW2 KW)).
  intros rnd. eapply (makes_from _ _ PrimJwtSignInternal r ClsJwtSignInternal); [exact Hc | | exact (SM rnd)]. eapply Forall2_weaken; [| exact F2]. intros (k & q) (k' & p) (EK & cc & I & E & ->). cbn [fst snd] in *. subst k'.
  split; [reflexivity |]. split; [apply bits_known; destruct q; cbn; tauto |]. destruct (private_reads _ _ I) as (msg & EP & _ & EK). split; [rewrite <- EK; exact (parse_private_kid_valid _ _ EP) |].
  exists (sign (bind_signer cc) rnd). split; [| intros; reflexivity]. intros signed. destruct (jwt_cc_signs ec sg self_test _ q cc SL I E rnd signed) as ((x & X) & C). exists x. split; [cbn [sign bind_signer]; rewrite X; reflexivity | apply C, X].
Qed.
Theorem jwt_verify_handle_works : forall lib random ec sg self_test w env r ks l, jwt_world lib random ec sg self_test w -> sig_laws ec sg -> float_times_ok (pe_rt env) ->
  configured w env JwtSignature r -> jwt_keyset is_jwt_public (fun q => good_public ec (scheme q)) ks l ->
  exists a, handle_primitive r (mk_handle ks) ClsJwtVerify = Ok (PrimJwtVerify a) /\ jwt_verify_works (pe_rt env) sg l a.
Proof.
  intros lib random ec sg self_test w env r ks l HW SL Hf HC KS.
  assert (HM : forall f, exists n, manager_of r (type_url (family_name f ++ "PublicKey")) = Some (jwt_verify_manager (pe_rt env) n (cc_key_manager bind_verifier (jwt_verify_cc_manager ec sg f)) (public_akid f), true)).
  { intros f. destruct (proj2 (proj2 (configured_jwt w env r) HC) (family_name f ++ "PublicKey")%string (public_akid f)) as (n & m & Em & HM); [destruct f; cbn; tauto |]. rewrite (proj2 (proj2 HW f)) in Em. injection Em as <-. exists n. exact HM. }
  assert (WR : dict_get pclass_eqb ClsJwtVerify (r_wrappers r) = Some jwt_verify_wrapper) by (apply (configured_wrapper w env JwtSignature r ClsJwtVerify); [exact HC | cbn; tauto | reflexivity]).
  destruct (jwt_keyset_made _ _ PrimJwtVerifyInternal r ClsJwtVerifyInternal _ _ ks l
    (fun k q p => exists cc, is_jwt_public (k_key_data k) q /\ cl_get_primitive (jwt_verify_cc_manager ec sg (public_family q)) (k_key_data k) = StOk cc /\
      p = jwt_public_key_verify (pe_rt env) (jwt_alg q) (jwt_kid q) (bind_verifier cc)) KS) as (l' & KW & F2).
  { intros k q W S I G. destruct (proj2 (jwt_cc_verifier_made ec sg (public_family q) (k_key_data k))) as (cc & E); [exists q; auto |]. destruct (public_reads _ _ I) as (msg & EP & NA & EK).
    eexists. split; [| exists cc; split; [exact I |]; split; [exact E | reflexivity]]. destruct (HM (public_family q)) as (n & HMf). eexists. exists true. split; [rewrite (proj1 I); exact HMf |]. split; [reflexivity |].
    assert (FA : In (family_alg (public_family q), (family_name (public_family q) ++ "PublicKey")%string, public_akid (public_family q)) public_families) by (destruct q; cbn; tauto).
    apply (jwt_verify_manager_spec _ _ _ _ _ _ _ _ FA). exists msg, (jwt_alg q), (bind_verifier cc). split; [rewrite (proj1 I); destruct q; reflexivity |]. split; [exact EP |]. split; [exact NA |].
    split; [exact (cc_built _ _ _ _ _ _ W S E) |]. rewrite EK. reflexivity. }
  destruct (jwt_handle_made _ PrimJwtVerifyInternal r ks ClsJwtVerify jwt_verify_wrapper _ l' (fun _ => eq_refl) (fun _ => eq_refl) WR (proj1 KS) KW (kids_over _ _ _ _ _ (fun _ _ H => proj1 H) F2 (keyset_kids _ _ _ _ _ KS))) as (ps & HA).
  eexists. split; [exact HA |]. destruct (jwt_verify_handle_spec _ _ _ WR HA) as (_ & l2 & SV). cbn [kh_keyset] in *.
  assert (l2 = l') as -> by (destruct (SV 0%Z [] (mk_jwt_validator None None None false false false false false 0%Z None)) as (KW2 & _); exact (keys_with_fun _ _ _ _ _ _ _ verify_inj KW2 KW)).
  eapply (accepts_from _ _ PrimJwtVerifyInternal r ClsJwtVerifyInternal); [exact verify_inj | exact Hf | | exact SV]. eapply Forall2_weaken; [| exact F2]. intros (k & q) (k' & p) (EK & cc & I & E & ->). cbn [fst snd] in *. subst k'.
  split; [reflexivity |]. split; [apply bits_known; destruct q; cbn; tauto |]. exists (verify (bind_verifier cc)). cbn [verify bind_verifier]. split; [| split; [intros; apply bound_total | intros; reflexivity]].
  intros tag signed. rewrite bound_ok. exact (jwt_cc_verifies ec sg _ q cc SL I E tag signed).
Qed.
