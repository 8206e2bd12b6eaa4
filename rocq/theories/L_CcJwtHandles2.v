(** Proofs: tokens of one JWT keyset are accepted by another; public keysets of JWT keysets. *)
From Coq Require Import Strings.Byte Strings.String List NArith ZArith Bool Lia.
From Verif Require Import M_Base M_Utf8 M_Proto M_Wire M_ProtoMsg M_KeyFormats M_JwtTypes M_Prims M_PrimitiveSet M_Registry M_KeysetHandle M_Wrappers M_Json M_RawJwt M_JwtPrims M_JwtFormat M_JwtWrappers M_JwtKeys
  M_StreamTypes M_CcStream M_CcManagers M_Templates M_CcAes M_CcStreamKeys M_CcModes M_CcSymmetric M_CcSymKeys M_CcEcies M_CcEciesKeys M_CcSignatures M_CcJwt
  S_Keyset S_Handle S_Wrappers S_Registry S_Json S_Jwt S_JwtKeys S_Wire S_Config S_CcLaws S_CcAes S_CcStreamKeys S_CcModes S_CcSymmetric S_CcSymKeys S_CcSymHandles S_CcEcies S_CcEciesKeys S_CcSignatures S_CcSigHandles S_CcJwt S_CcJwtHandles
  L_Base L_Registry L_Wire L_PrimitiveSet L_Keyset L_Wrappers L_Wrappers2 L_Wrappers3 L_Jwt L_Jwt2 L_Jwt5 L_Jwt6 L_Jwt7 L_Handle L_Config L_Config2 L_Config3 L_Config4 L_Cli3
  L_CcStreamKeys L_CcModes L_CcSymKeys L_CcSymKeys2 L_CcSymHandles3 L_CcEciesHandles2 L_CcSigDer L_CcSignatures L_CcSigKeys L_CcSigKeys2 L_CcJwt L_CcJwt2 L_CcJwtParse L_CcJwtHandles.
Import ListNotations.
Open Scope string_scope.
Open Scope list_scope.
Open Scope nat_scope.

Lemma same_kid : forall k k2 kid, k_key_id k2 = k_key_id k -> k_output_prefix_type k2 = k_output_prefix_type k -> kid_of k kid -> kid_of k2 kid.
Proof. intros k k2 kid EI ET H. unfold kid_of in *. rewrite EI, ET. exact H. Qed.
Lemma kid_not_empty : forall k kid, kid_of k kid -> kid <> Some [].
Proof. intros k kid H. exact (proj2 (kid_of_valid _ _ H)). Qed.
Lemma token_for_valid : forall rt alg kid ck (tagged tagged' : bytes -> bytes -> Prop) clock v r r' token, In alg (map ulit algorithms) -> (ck = None \/ kid = None) -> kid <> Some [] ->
  well_typed r -> same_but_empty_type r r' -> accepts rt clock v r' -> (forall s t, tagged s t -> tagged' s t) ->
  token_for rt alg kid ck tagged r token -> token_valid rt alg kid ck tagged' clock v token r'.
Proof.
  intros rt alg kid ck tagged tagged' clock v r r' token A X NE W SE AC T (signed & header & payload & tag & h & CP & TG & DH & HO & DP).
  exists signed, header, payload, tag, h. split; [exact CP |]. split; [exact (T _ _ TG) |]. split; [exact DH |].
  assert (HO' : header_of alg (effective_kid ck kid) (rj_type_header r) h).
  { destruct X as [-> | ->]; [destruct kid | destruct ck]; exact HO. }
  split; [exact (header_of_ok _ _ _ _ _ A X NE HO') |]. split; [exact (header_of_typ _ _ _ _ _ SE HO') |]. destruct SE as (EP & _). rewrite EP. split; [exact DP |].
  split; [| exact AC]. unfold well_typed, has_value in *. rewrite EP. exact W.
Qed.
(** A token made by one keyset is accepted by another one that has the key, with the same id
    and prefix. *)
Lemma tokens_carry_over : forall (K K2 : Type) rt (alg : K -> pystr) (alg2 : K2 -> pystr) custom custom2 (tagged : K -> bytes -> bytes -> Prop) (tagged2 : K2 -> bytes -> bytes -> Prop) ks l l2 make verify k k2 q q2 kid r r' token clock v,
  makes_tokens rt alg custom tagged ks l make -> accepts_tokens rt alg2 custom2 tagged2 l2 verify -> is_primary ks l k q -> In (k2, q2) l2 -> kid_of k kid ->
  k_key_id k2 = k_key_id k -> k_output_prefix_type k2 = k_output_prefix_type k -> alg2 q2 = alg q -> custom2 q2 = custom q -> In (alg q) (map ulit algorithms) ->
  (forall s t, tagged q s t -> tagged2 q2 s t) ->
  ordinary_jwt rt r -> well_typed r -> same_but_empty_type r r' -> accepts rt clock v r' ->
  representable (current_time v clock - jv_clock_skew v)%Z -> representable (current_time v clock + jv_clock_skew v)%Z ->
  make r = Ok token -> verify clock token v = Ok (mk_verified_jwt r').
Proof.
  intros K K2 rt alg alg2 custom custom2 tagged tagged2 ks l l2 make verify k k2 q q2 kid r r' token clock v (MK & _) (AC & _) IP I2 KI EI ET EA EC IA TG OR WT SE AV R1 R2 EM.
  apply AC; [exact R1 | exact R2 |]. exists k2, q2, kid. split; [exact I2 |]. split; [exact (same_kid _ _ _ EI ET KI) |].
  assert (X : custom q = None \/ kid = None).
  { destruct (custom q) eqn:E1; [| tauto]. destruct kid as [y |] eqn:E2; [| tauto]. destruct (proj2 (MK k q _ r IP KI)) as (m & E); [rewrite E1; discriminate | discriminate |]. rewrite E in EM. discriminate EM. }
  destruct (proj1 (MK k q kid r IP KI) X OR) as (t & E & TF). rewrite EM in E. injection E as <-. rewrite EA, EC.
  exact (token_for_valid _ _ _ _ _ _ _ _ _ _ _ IA X (kid_not_empty _ _ KI) WT SE AV TG TF).
Qed.
Lemma jwt_key_in : forall K (is_key : key_data -> K -> Prop) good ks l k q, jwt_keyset is_key good ks l -> In (k, q) l -> is_key (k_key_data k) q /\ good q /\ exists kid, kid_of k kid.
Proof. intros K is_key good ks l k q (_ & _ & F) I. rewrite Forall_forall in F. destruct (F _ I) as (_ & _ & A & B & C). auto. Qed.
Theorem jwt_mac_carries_over : forall rt lib ks l a ks2 l2 a2 k k2 q r r' token clock v,
  jwt_keyset is_jwt_hmac jwt_hmac_ok ks l -> jwt_mac_works rt lib ks l a -> jwt_mac_works rt lib ks2 l2 a2 -> is_primary ks l k q -> In (k2, q) l2 ->
  k_key_id k2 = k_key_id k -> k_output_prefix_type k2 = k_output_prefix_type k ->
  ordinary_jwt rt r -> well_typed r -> same_but_empty_type r r' -> accepts rt clock v r' ->
  representable (current_time v clock - jv_clock_skew v)%Z -> representable (current_time v clock + jv_clock_skew v)%Z ->
  jm_compute a r = Ok token -> jm_verify a2 clock token v = Ok (mk_verified_jwt r').
Proof.
  intros rt lib ks l a ks2 l2 a2 k k2 q r r' token clock v KS (MK & _) (_ & AC) IP I2 EI ET OR WT SE AV R1 R2 EM. destruct (jwt_key_in _ _ _ _ _ _ _ KS (proj1 IP)) as (_ & _ & kid & KI).
  eapply (tokens_carry_over _ _ _ _ _ _ _ _ _ _ _ _ _ _ k k2 q q kid r r' token clock v MK AC IP I2 KI EI ET eq_refl eq_refl); try eassumption; [| auto].
  apply bits_known. cbn. tauto.
Qed.
Theorem jwt_signature_carries_over : forall rt ec sg ks l a l2 a2 k k2 q rnd r r' token clock v, sig_laws ec sg ->
  jwt_keyset is_jwt_private (fun q => good_private ec sg (private_scheme q)) ks l -> jwt_sign_works rt sg ks l a -> is_primary ks l k q -> matching ec sg (private_scheme q) ->
  jwt_verify_works rt sg l2 a2 -> In (k2, jwt_public_of q) l2 -> k_key_id k2 = k_key_id k -> k_output_prefix_type k2 = k_output_prefix_type k ->
  ordinary_jwt rt r -> well_typed r -> same_but_empty_type r r' -> accepts rt clock v r' ->
  representable (current_time v clock - jv_clock_skew v)%Z -> representable (current_time v clock + jv_clock_skew v)%Z ->
  js_sign a rnd r = Ok token -> jv_verify a2 clock token v = Ok (mk_verified_jwt r').
Proof.
  intros rt ec sg ks l a l2 a2 k k2 q rnd r r' token clock v SL KS MK IP MA AC I2 EI ET OR WT SE AV R1 R2 EM. destruct (jwt_key_in _ _ _ _ _ _ _ KS (proj1 IP)) as (_ & G & kid & KI).
  eapply (tokens_carry_over _ _ _ _ _ _ _ _ _ _ _ _ _ _ k k2 q (jwt_public_of q) kid r r' token clock v (MK rnd) AC IP I2 KI EI ET eq_refl eq_refl); try eassumption.
  - apply bits_known. destruct q; cbn; tauto.
  - intros s t SI. cbv beta. rewrite scheme_of_public. exact (signature_valid ec sg _ rnd s t SL G (jwt_encoded_private q) MA SI).
Qed.

(** ** Public keysets *)
Lemma jwt_url_text : forall f, valid_text (type_url (family_name f ++ "PublicKey")) /\ valid_text (type_url (family_name f ++ "PrivateKey")).
Proof. intros []; split; apply low_text; vm_compute; reflexivity. Qed.
Lemma jwt_signer_types : forall f, In ((family_name f ++ "PrivateKey")%string, ClsJwtSignInternal, true) (key_types JwtSignature).
Proof. intros []; cbn; tauto. Qed.
Theorem jwt_public_handle : forall lib random ec sg self_test w env r ks l, jwt_world lib random ec sg self_test w -> configured w env JwtSignature r ->
  valid_keyset ks -> all_jwt_private ks l -> (forall k, In k (ks_key ks) -> k_output_prefix_type k <> UNKNOWN_PREFIX /\ k_status k <> UNKNOWN_STATUS) ->
  (forall k, In k (ks_key ks) -> jwt_public_fits ec sg self_test k) ->
  exists ph l', public_keyset_handle r (mk_handle ks) = Ok ph /\ ks_primary_key_id (kh_keyset ph) = ks_primary_key_id ks /\
    map fst l' = ks_key (kh_keyset ph) /\ Forall2 jwt_public_half l l' /\ Forall (fun y => kd_key_material_type (k_key_data (fst y)) = ASYMMETRIC_PUBLIC) l' /\
    (jwt_keyset is_jwt_private (fun q => good_private ec sg (private_scheme q)) ks (enabled_ones l) -> jwt_keyset is_jwt_public (fun q => good_public ec (scheme q)) (kh_keyset ph) (enabled_ones l')).
Proof.
  intros lib random ec sg self_test w env r ks l HW HC V (EM & F) KN PF.
  assert (G : exists l', Forall2 (fun x y => jwt_public_half x y /\ public_counterpart r (fst x) (fst y) /\ kd_key_material_type (k_key_data (fst y)) = ASYMMETRIC_PUBLIC /\
    wf_key_data (k_key_data (fst y)) /\ proto_size (serialize_key_data (k_key_data (fst y)))) l l').
  { assert (PF' : forall x, In x l -> jwt_public_fits ec sg self_test (fst x)) by (intros x I; apply PF; rewrite <- EM; apply in_map; exact I).
    clear KN PF EM V. induction F as [| (k & q) l (W & S & A & K & VP) F IH]; [exists []; constructor |]. destruct IH as (l' & IH); [intros x I; apply PF'; right; exact I |].
    cbn [fst snd] in *. destruct (jwt_cc_public_key ec sg self_test _ _ K VP) as (get & d' & G1 & G2 & U & MT & HP).
    destruct (PF' (k, q) (or_introl eq_refl) _ get d' G1 G2 (proj1 K)) as (S1 & S2).
    assert (WD : wf_key_data d') by (split; [rewrite U; apply jwt_url_text | rewrite MT; apply low_int; vm_compute; reflexivity]).
    exists ((mk_key (Some d') (k_status k) (k_key_id k) (k_output_prefix_type k), jwt_public_of q) :: l'). constructor; [| exact IH].
    cbn [fst snd]. split; [| split; [| split; [exact MT |]; split; assumption]].
    - do 3 (split; [reflexivity |]). split; [exact (HP S1) | reflexivity].
    - split; [| auto]. exists d'. split; [reflexivity |]. apply registry_public_key_data_ok.
      assert (AN : answers (registry_public_key_data r (k_key_data k)) (get (kd_value (k_key_data k)))).
      { eapply (configured_public_key w env JwtSignature r (family_name (private_family q) ++ "PrivateKey") ClsJwtSignInternal); [exact HC | exact (jwt_signer_types (private_family q)) | | exact (proj1 K) | exact A | exact W | exact S |].
        - cbn [cc_functions]. rewrite (proj1 (proj2 HW (private_family q))). cbn [manager_functions]. rewrite G1. reflexivity.
        - intros d2 E. rewrite G2 in E. injection E as <-. auto. }
      rewrite G2 in AN. exact AN. }
  destruct G as (l' & G). set (ks' := mk_keyset (ks_primary_key_id ks) (map fst l')).
  assert (G1 : Forall2 (fun x y => k_status y = k_status x /\ k_key_id y = k_key_id x /\ k_output_prefix_type y = k_output_prefix_type x /\ public_counterpart r x y) (ks_key ks) (map fst l')).
  { rewrite <- EM. clear - G. induction G as [| x y l l' (H & H' & _) G IH]; constructor; [| exact IH]. destruct H as (A & B & C & _). auto. }
  assert (V' : valid_keyset ks').
  { destruct V as ((k0 & I0 & D0) & _ & UQ & _).
    assert (PP : forall i, primary_positions ks' i -> primary_positions ks i).
    { intros i (k & N & S & E). cbn [ks_key ks_primary_key_id ks'] in *. destruct (Forall2_nth _ _ _ _ _ _ _ G1 N) as (k1 & N1 & A & B & C & _). exists k1. split; [exact N1 |]. split; congruence. }
    split; [| split; [| split]].
    - destruct (Forall2_in_l _ _ _ _ _ _ G1 I0) as (y & I & A & _). exists y. split; [exact I | congruence].
    - intros k I _. destruct (Forall2_in_r _ _ _ _ _ _ G1 I) as (x & IX & A & B & C & (d & ED & _) & _). destruct (KN _ IX). split; [exists d; exact ED |]. split; congruence.
    - intros i j A B. apply UQ; apply PP; assumption.
    - right. intros k I. apply in_map_iff in I. destruct I as (y & <- & I). destruct (Forall2_in_r _ _ _ _ _ _ G I) as (x & _ & _ & _ & M & _). exact M. }
  exists (mk_handle ks'), l'. split; [| split; [reflexivity |]; split; [reflexivity |]; split; [| split]].
  - apply public_keyset_handle_ok. cbn [kh_keyset ks_key ks_primary_key_id ks']. split; [reflexivity |]. split; [| split; [exact KN | exact V']].
    clear - G1. induction G1 as [| x y a b (_ & _ & _ & H) G1 IH]; constructor; assumption.
  - clear - G. induction G as [| x y l l' (H & _) G IH]; constructor; assumption.
  - clear - G. induction G as [| x y l l' (_ & _ & H & _) G IH]; constructor; assumption.
  - intros (_ & _ & FE). split; [exact V' |]. unfold enabled_ones in *. cbn [kh_keyset].
    assert (EF : forall K (a : list (key * K)), map fst (filter (fun x => Z.eqb (k_status (fst x)) ENABLED) a) = filter is_enabled (map fst a)).
    { intros K a. induction a as [| x a IH]; [reflexivity |]. cbn [filter map]. unfold is_enabled at 1. destruct (Z.eqb (k_status (fst x)) ENABLED); cbn [map]; rewrite IH; reflexivity. }
    split; [apply EF |]. clear - G FE. induction G as [| x y l l' H G IH]; [constructor |]. destruct H as ((A & B & C & K & E) & _ & M & W & S).
    cbn [filter] in *. rewrite A. destruct (Z.eqb (k_status (fst x)) ENABLED); [| exact (IH FE)].
    inversion_clear FE as [| ? ? (_ & _ & _ & GP & (p & HP)) FE']. constructor; [| exact (IH FE')]. split; [exact W |]. split; [exact S |]. rewrite E. split; [exact K |].
    split; [rewrite scheme_of_public; exact (proj1 GP) |]. exists p. exact (same_kid _ _ _ B C HP).
Qed.
