(** Proofs: JWK sets of keysets of C++ JWT keys. *)
From Coq Require Import Strings.Byte Strings.String List NArith ZArith Bool Lia.
From Verif Require Import M_Base M_Utf8 M_Proto M_Wire M_ProtoMsg M_KeyFormats M_JwtTypes M_Prims M_PrimitiveSet M_Registry M_KeysetHandle M_Wrappers M_Json M_RawJwt M_JwtValidator M_JwtPrims M_JwtFormat M_JwtWrappers M_JwtKeys M_Jwk
  M_StreamTypes M_CcStream M_CcManagers M_Templates M_Cli M_CcAes M_CcStreamKeys M_CcModes M_CcSymmetric M_CcSymKeys M_CcEcies M_CcEciesKeys M_CcSignatures M_CcJwt
  S_Keyset S_Handle S_Wrappers S_Registry S_Json S_JsonKeyset S_Jwt S_JwtKeys S_Jwk S_Wire S_Config S_Cli S_CliJwt S_CcLaws S_CcAes S_CcStreamKeys S_CcModes S_CcSymmetric S_CcSymKeys S_CcSymHandles S_CcEcies S_CcEciesKeys S_CcSignatures S_CcSigHandles S_CcJwt S_CcJwtHandles S_CcJwtPrograms S_CcJwk
  L_Base L_PrimitiveSet L_Keyset L_Jwt L_Jwt3 L_Jwt5 L_Jwk6 L_Jwk7 L_JwkVerify L_Config L_Config2 L_Config3 L_Config4 L_Cli7
  L_CcEciesHandles2 L_CcSignatures L_CcSigKeys L_CcSigKeys2 L_CcJwt L_CcJwt2 L_CcJwtParse L_CcJwtHandles L_CcJwtHandles2 L_CcJwtPrograms.
Import ListNotations.
Open Scope string_scope.
Open Scope list_scope.
Open Scope nat_scope.

Lemma under_kid_same : forall q kid, scheme (under_kid q kid) = scheme q /\ jwt_alg (under_kid q kid) = jwt_alg q /\ jwt_kid (under_kid q kid) = kid.
Proof.
  intros q kid'. destruct q; repeat split; reflexivity.
Qed.
Lemma imported_published : forall k k' q, imported_as k k' -> is_jwt_public (k_key_data k) q ->
  exists q', published_as (k, q) (k', q').
Proof.
  intros k k' q IM IK. destruct (imported_key k k' q IM IK) as (m & m' & IK' & _ & P & P' & _).
  destruct IM as (m0 & kid & type & P0 & (tk & KI & EK) & _ & (ST & RW & value & PV & KD)). rewrite P in P0. injection P0 as <-.
  assert (E : jpk_custom_kid m' = kid). { unfold k_key_data in P'. rewrite KD in P'. cbn [kd_value] in P'. rewrite PV in P'. injection P' as <-. reflexivity. }
  rewrite E in IK'. destruct (public_reads _ _ IK) as (m1 & P1 & _ & CK). rewrite P in P1. injection P1 as <-. rewrite CK in EK.
  exists (under_kid q kid). split; [exact ST |]. split; [exact RW |]. split; [exact IK' |]. exists kid. split; [exists tk; auto | reflexivity].
Qed.
Lemma published_list : forall (l : list (key * jwt_public)) ks', Forall2 imported_as (map fst l) ks' -> Forall (fun x => is_jwt_public (k_key_data (fst x)) (snd x)) l ->
  exists l', map fst l' = ks' /\ Forall2 published_as l l'.
Proof.
  induction l as [| (k & q) l IH]; intros ks' F A; inversion F as [| x y t t' IM F']; subst; [exists []; split; [reflexivity | constructor] |].
  inversion A as [| x' t'' IK A']; subst. cbn [fst snd] in *. destruct (IH _ F' A') as (l' & E & F2). destruct (imported_published _ _ _ IM IK) as (q' & P).
  exists ((y, q') :: l'). split; [cbn [map fst]; rewrite E; reflexivity | constructor; assumption].
Qed.

(** ** Export and import *)
Theorem jwk_set_exported : forall lib random ec sg self_test w rt ks l, jwt_world lib random ec sg self_test w -> float_codec rt -> wf_keyset ks -> proto_size (serialize_keyset ks) ->
  jwt_public_keyset ec ks l -> publishable ks ->
  exists text, from_public_keyset_handle rt (mk_handle ks) = Ok text /\ jwk_set_text rt ks text.
Proof.
  intros lib random ec sg self_test w rt ks l HW Hc Wf Sz KS (NS & MT). pose proof (public_keyset_verifies _ _ _ _ _ _ _ _ HW KS) as Hk.
  destruct (forall2_exists _ _ (fun k doc => exists m kid, exported_jwk k m kid doc) (enabled_keys ks)) as (docs & Hd).
  { intros k I. destruct (Hk k I) as (RT & alg & ck & q & Hq). apply (exportable _ _ _ _ _ Hq RT); [| exact (MT k I)]. apply filter_In in I. apply (proj2 Wf _ (proj1 I)). }
  destruct (proj1 (proj2 (jwk_export_spec rt (mk_handle ks) Hc Wf Sz)) NS docs Hd) as (text & E). exists text. split; [exact E |].
  destruct (proj1 (jwk_export_spec rt (mk_handle ks) Hc Wf Sz) text E) as (_ & docs' & J & D). exists docs'. auto.
Qed.
Theorem jwk_set_imported : forall ec rt ks l text draws r, float_codec rt -> wf_keyset ks -> proto_size (serialize_keyset ks) -> jwt_public_keyset ec ks l ->
  from_public_keyset_handle rt (mk_handle ks) = Ok text -> small_text text -> to_public_keyset_handle rt draws text = Some r ->
  match l with
  | [] => raises_tink r
  | _ => exists ks' l', r = Ok (mk_handle ks') /\ map fst l' = ks_key ks' /\ Forall2 published_as l l' /\ jwt_public_keyset ec ks' l' /\ NoDup (map k_key_id (ks_key ks')) /\ wf_keyset ks'
  end.
Proof.
  intros ec rt ks l text draws r Hc Wf Sz KS E St Ei. pose proof KS as (V & EL & FA).
  assert (NE : forall k, In k (enabled_keys ks) -> exists k, In k (ks_key (kh_keyset (mk_handle ks))) /\ k_status k = ENABLED).
  { intros k I. apply filter_In in I. destruct I as (I & S). exists k. split; [exact I | apply Z.eqb_eq; exact S]. }
  destruct l as [| x0 l0].
  - destruct (jwk_round_trip_none rt (mk_handle ks) text draws Hc Wf Sz E) as (e & E' & T).
    { intros (k & I & S). assert (X : In k (enabled_keys ks)) by (apply filter_In; split; [exact I | apply Z.eqb_eq; exact S]). rewrite <- EL in X. destruct X. }
    rewrite Ei in E'. injection E' as ->. exists e. auto.
  - assert (HS : In (fst x0) (enabled_keys ks)) by (rewrite <- EL; left; reflexivity).
    destruct (jwk_round_trip rt (mk_handle ks) text Hc Wf Sz E St (NE _ HS)) as (R & _). destruct (R _ _ Ei) as (h' & -> & F2 & ND & _). destruct h' as [ks']. cbn [kh_keyset] in *.
    change (Forall2 imported_as (enabled_keys ks) (ks_key ks')) in F2. rewrite <- EL in F2.
    destruct (published_list _ _ F2) as (l' & EM & P2). { eapply Forall_impl; [| exact FA]. intros x (_ & _ & I & _). exact I. }
    destruct (jwk_import_wf _ _ _ _ St Ei) as (Wf' & Sz' & V'). cbn [kh_keyset] in *.
    exists ks', l'. split; [reflexivity |]. split; [exact EM |]. split; [exact P2 |]. split; [| split; [exact ND | exact Wf']].
    assert (G : Forall (fun y => k_status (fst y) = ENABLED /\ k_output_prefix_type (fst y) = RAW /\ is_jwt_public (k_key_data (fst y)) (snd y) /\ good_public ec (scheme (snd y))) l').
    { clear - FA P2. induction P2 as [| x y t t' P P2 IH]; [constructor |]. inversion FA as [| a b (_ & _ & _ & G & _) FA']; subst. constructor; [| exact (IH FA')].
      destruct P as (S & RW & IK & kid & _ & Q). rewrite Q, (proj1 (under_kid_same _ _)). rewrite Q in IK. auto. }
    rewrite Forall_forall in G. split; [exact V' |]. split.
    + rewrite EM. unfold enabled_keys. symmetry. clear - EM G. assert (A : forall k, In k (ks_key ks') -> k_status k = ENABLED). { intros k I. rewrite <- EM in I. apply in_map_iff in I. destruct I as (y & <- & I). apply G, I. }
      clear - A. induction (ks_key ks') as [| k t IH]; [reflexivity |]. cbn [filter]. assert (B : S_Keyset.is_enabled k = true) by (apply Z.eqb_eq; exact (A k (or_introl eq_refl))). rewrite B. f_equal. apply IH. intros k' I. apply A. right. exact I.
    + apply Forall_forall. intros (k & q) I. destruct (G _ I) as (S & RW & IK & GQ). cbn [fst snd] in *. assert (IKs : In k (ks_key ks')) by (rewrite <- EM; exact (in_map fst _ _ I)).
      destruct V' as (_ & HU & _). assert (U : usable_key k) by (apply HU; [exact IKs | rewrite S; discriminate]). destruct U as ((d & Ed) & _).
      assert (ED : k_key_data k = d) by (unfold k_key_data; rewrite Ed; reflexivity). rewrite ED in *.
      split; [apply (proj2 Wf' k IKs); exact Ed |]. split; [exact (key_in_keyset_size ks' k d IKs Ed Sz') |]. split; [exact IK |]. split; [exact GQ |]. exists None. left. auto.
Qed.
(** Every list of new ids is possible. *)
Theorem jwk_set_imports : forall ec rt ks l text ids, float_codec rt -> wf_keyset ks -> proto_size (serialize_keyset ks) -> jwt_public_keyset ec ks l -> l <> [] ->
  from_public_keyset_handle rt (mk_handle ks) = Ok text -> small_text text -> length ids = length l -> NoDup ids -> Forall (fun id => (1 <= id <= 2147483647)%N) ids ->
  exists draws h', to_public_keyset_handle rt draws text = Some (Ok h') /\ map k_key_id (ks_key (kh_keyset h')) = ids.
Proof.
  intros ec rt ks l text ids Hc Wf Sz (_ & EL & _) NE E St EN ND RG.
  assert (HS : exists k, In k (ks_key (kh_keyset (mk_handle ks))) /\ k_status k = ENABLED).
  { destruct l as [| x l]; [contradiction |]. assert (I : In (fst x) (enabled_keys ks)) by (rewrite <- EL; left; reflexivity). apply filter_In in I. exists (fst x). split; [apply I | apply Z.eqb_eq, I]. }
  destruct (jwk_round_trip rt (mk_handle ks) text Hc Wf Sz E St HS) as (_ & R). apply R; [| exact ND | exact RG].
  change (length ids = length (enabled_keys ks)). rewrite <- EL, map_length. exact EN.
Qed.

(** ** Verifiers *)
Lemma published_tokens : forall rt (sg : sig_crypto) l l' clock v token r, Forall2 published_as l l' ->
  (exists k q kid, In (k, q) l' /\ kid_of k kid /\ token_valid rt (jwt_alg q) kid (jwt_kid q) (fun signed tag => valid_signature sg (scheme q) signed tag) clock v token r) <->
  (exists k q kid, In (k, q) l /\ kid_in_jwk k q kid /\ token_valid rt (jwt_alg q) None kid (fun signed tag => valid_signature sg (scheme q) signed tag) clock v token r).
Proof.
  intros rt sg l l' clock v token r F2. split.
  - intros (k' & q' & kid & I & KI & T). destruct (Forall2_in_r _ _ _ _ _ _ F2 I) as ((k & q) & I0 & (_ & RW & _ & kd & KJ & Q)). cbn [fst snd] in *. subst q'. destruct (under_kid_same q kd) as (S & A & K). rewrite A, K in T.
    exists k, q, kd. split; [exact I0 |]. split; [exact KJ |]. destruct KI as [(_ & ->) | (T2 & _)]; [| rewrite RW in T2; discriminate T2].
    destruct T as (signed & header & payload & tag & h & C & V & REST). exists signed, header, payload, tag, h. split; [exact C |]. split; [rewrite <- S; exact V | exact REST].
  - intros (k & q & kid & I & (tk & KI & EK) & T). destruct (Forall2_in_l _ _ _ _ _ _ F2 I) as ((k' & q') & I' & (_ & RW & _ & kd & (tk' & KI' & EK') & Q)). cbn [fst snd] in *. subst q'.
    assert (tk' = tk) as -> by exact (kid_of_fun _ _ _ KI' KI). rewrite <- EK in EK'. subst kd. destruct (under_kid_same q kid) as (S & A & K).
    exists k', (under_kid q kid), None. split; [exact I' |]. split; [left; auto |]. rewrite A, K.
    destruct T as (signed & header & payload & tag & h & C & V & REST). exists signed, header, payload, tag, h. split; [exact C |]. split; [rewrite S; exact V | exact REST].
Qed.
Theorem jwk_handle_works : forall lib random ec sg self_test w env r ks l text draws h', jwt_world lib random ec sg self_test w -> sig_laws ec sg -> float_codec (pe_rt env) -> float_times_ok (pe_rt env) ->
  configured w env JwtSignature r -> wf_keyset ks -> proto_size (serialize_keyset ks) -> jwt_public_keyset ec ks l ->
  from_public_keyset_handle (pe_rt env) (mk_handle ks) = Ok text -> small_text text -> to_public_keyset_handle (pe_rt env) draws text = Some (Ok h') ->
  exists a, handle_primitive r h' ClsJwtVerify = Ok (PrimJwtVerify a) /\ jwk_verify_works (pe_rt env) sg l a.
Proof.
  intros lib random ec sg self_test w env r ks l text draws h' HW SL Hc Hf HC Wf Sz KS E St Ei. pose proof (jwk_set_imported ec (pe_rt env) ks l text draws (Ok h') Hc Wf Sz KS E St Ei) as H.
  assert (X : exists ks' l', h' = mk_handle ks' /\ Forall2 published_as l l' /\ jwt_public_keyset ec ks' l').
  { destruct l; [destruct H as (e & T & _); discriminate T |]. destruct H as (ks' & l' & T & _ & F2 & KS' & _). exists ks', l'. split; [apply ok_inj in T; exact T |]. auto. }
  destruct X as (ks' & l' & -> & F2 & KS'). destruct (jwt_verify_handle_works _ _ _ _ _ _ env r ks' l' HW SL Hf HC KS') as (a & HA & W1 & W2).
  exists a. split; [exact HA |]. split.
  - intros clock v token j R1 R2. rewrite (W1 clock v token j R1 R2). apply published_tokens. exact F2.
  - intros clock v token N. apply W2. intros k' q' signed header payload tag I C V. destruct (Forall2_in_r _ _ _ _ _ _ F2 I) as ((k & q) & I0 & (_ & _ & _ & kd & _ & Q)). cbn [fst snd] in *. subst q'.
    rewrite (proj1 (under_kid_same q kd)) in V. exact (N k q signed header payload tag I0 C V).
Qed.
(** Tokens that the keyset accepts are accepted with its JWK set. *)
Theorem jwk_set_keeps : forall rt sg l a a' clock token v r, jwt_verify_works rt sg l a -> jwk_verify_works rt sg l a' ->
  representable (current_time v clock - jv_clock_skew v)%Z -> representable (current_time v clock + jv_clock_skew v)%Z ->
  jv_verify a clock token v = Ok r -> jv_verify a' clock token v = Ok r.
Proof.
  intros rt sg l a a' clock token v [r] (W & _) (W' & _) R1 R2 H. apply (W clock v token r R1 R2) in H. apply (W' clock v token r R1 R2). destruct H as (k & q & kid & I & KI & T).
  exists k, q, (match kid with Some t => Some t | None => jwt_kid q end). split; [exact I |]. split; [exists kid; auto |].
  destruct T as (signed & header & payload & tag & h & C & V & D & (O1 & O2 & O3 & O4 & O5) & REST). exists signed, header, payload, tag, h. split; [exact C |]. split; [exact V |]. split; [exact D |]. split; [| exact REST].
  split; [exact O1 |]. split; [exact O2 |]. split; [left; reflexivity |]. split; [intros x Hx; discriminate |].
  intros x y Hx Hy. destruct kid as [t |]; [| exact (O5 x y Hx Hy)]. apply some_inj in Hx. subst t. exact (nodup_fst_fun _ _ _ _ _ _ (document_nodup _ _ _ D) Hy (O4 x eq_refl)).
Qed.
(** Tokens that name a key are accepted with the JWK set only if the keyset accepts them, unless
    a TINK key has a custom kid. *)
Theorem jwk_set_adds_nothing : forall rt sg l a a' clock token v r, jwt_verify_works rt sg l a -> jwk_verify_works rt sg l a' ->
  representable (current_time v clock - jv_clock_skew v)%Z -> representable (current_time v clock + jv_clock_skew v)%Z ->
  (forall k q, In (k, q) l -> k_output_prefix_type k = TINK -> jwt_kid q = None) -> names_key rt token ->
  jv_verify a' clock token v = Ok r -> jv_verify a clock token v = Ok r.
Proof.
  intros rt sg l a a' clock token v [r] (W & _) (W' & _) R1 R2 ONE (s1 & h1 & p1 & t1 & hd1 & kv & C1 & D1 & IN1) H. apply (W' clock v token r R1 R2) in H. apply (W clock v token r R1 R2). destruct H as (k & q & kid & I & (tk & KI & ->) & T).
  exists k, q, tk. split; [exact I |]. split; [exact KI |].
  destruct T as (signed & header & payload & tag & h & C & V & D & (O1 & O2 & O3 & O4 & O5) & REST). exists signed, header, payload, tag, h. split; [exact C |]. split; [exact V |]. split; [exact D |]. split; [| exact REST].
  destruct (compact_parts_fun _ _ _ _ _ _ _ _ _ C C1) as (<- & <- & <- & <-).
  assert (E : hd1 = h). { apply document_iff in D, D1. rewrite D1 in D. apply ok_inj in D. congruence. }
  subst hd1. split; [exact O1 |]. split; [exact O2 |]. destruct tk as [t |].
  - assert (ck : jwt_kid q = None). { destruct KI as [(_ & E) | (T & _)]; [discriminate |]. exact (ONE _ _ I T). }
    rewrite ck. split; [right; reflexivity |]. split; [| intros x y Hx; discriminate]. intros x Hx. apply some_inj in Hx. subst x. rewrite <- (O5 t kv eq_refl IN1). exact IN1.
  - split; [left; reflexivity |]. split; [intros x Hx; discriminate | exact O5].
Qed.

(** ** From a private keyset to a verifier of its JWK set *)
Lemma public_half_facts : forall ks l ph l', wf_keyset ks -> all_jwt_private ks l -> ks_primary_key_id ph = ks_primary_key_id ks -> map fst l' = ks_key ph ->
  Forall2 jwt_public_half l l' -> Forall (fun y => kd_key_material_type (k_key_data (fst y)) = ASYMMETRIC_PUBLIC) l' -> wf_keyset ph /\ publishable ph.
Proof.
  intros ks l ph l' (W0 & WK) (EM & _) PI EM' F2 PU. rewrite Forall_forall in PU.
  assert (P : forall k, In k (ks_key ph) -> kd_key_material_type (k_key_data k) = ASYMMETRIC_PUBLIC) by (intros k I; rewrite <- EM' in I; apply in_map_iff in I; destruct I as (y & <- & I); exact (PU y I)).
  split; [split; [rewrite PI; exact W0 |] | split].
  - intros k I. pose proof (P k I) as MT. rewrite <- EM' in I. apply in_map_iff in I. destruct I as ((k1 & q1) & E & I). cbn [fst] in E. subst k1.
    destruct (Forall2_in_r _ _ _ _ _ _ F2 I) as ((k0 & q0) & I0 & (S & ID & PT & (U & _) & _)). cbn [fst snd] in *. assert (IK : In k0 (ks_key ks)) by (rewrite <- EM; exact (in_map fst _ _ I0)).
    destruct (WK _ IK) as (_ & B & C & D). split; [| rewrite S, ID, PT; auto]. intros d Ed. unfold k_key_data in U, MT. rewrite Ed in U, MT.
    split; [rewrite U; apply jwt_url_text | rewrite MT; vm_compute; split; congruence].
  - intros (k & I & S). rewrite (P k I) in S. vm_compute in S. intuition discriminate.
  - intros k I. apply filter_In in I. exact (P k (proj1 I)).
Qed.
Theorem jwk_set_circle : forall lib random ec sg self_test w env r ks l k q, jwt_world lib random ec sg self_test w -> sig_laws ec sg -> float_codec (pe_rt env) -> float_times_ok (pe_rt env) ->
  configured w env JwtSignature r -> valid_keyset ks -> wf_keyset ks -> all_jwt_private ks l ->
  (forall k, In k (ks_key ks) -> k_output_prefix_type k <> UNKNOWN_PREFIX /\ k_status k <> UNKNOWN_STATUS) -> (forall k, In k (ks_key ks) -> jwt_public_fits ec sg self_test k) ->
  jwt_private_keyset ec sg ks (enabled_ones l) -> is_primary ks (enabled_ones l) k q -> matching ec sg (private_scheme q) ->
  (k_output_prefix_type k = TINK -> jwt_kid (jwt_public_of q) = None) ->
  exists ph s, public_keyset_handle r (mk_handle ks) = Ok ph /\ handle_primitive r (mk_handle ks) ClsJwtSign = Ok (PrimJwtSign s) /\
    (proto_size (serialize_keyset (kh_keyset ph)) ->
     exists text, from_public_keyset_handle (pe_rt env) ph = Ok text /\
       forall draws h', small_text text -> to_public_keyset_handle (pe_rt env) draws text = Some (Ok h') ->
       exists a, handle_primitive r h' ClsJwtVerify = Ok (PrimJwtVerify a) /\
         forall rnd j, ordinary_jwt (pe_rt env) j -> well_typed j ->
         exists token, js_sign s rnd j = Ok token /\
           forall clock v j', same_but_empty_type j j' -> accepts (pe_rt env) clock v j' ->
             representable (current_time v clock - jv_clock_skew v)%Z -> representable (current_time v clock + jv_clock_skew v)%Z ->
             jv_verify a clock token v = Ok (mk_verified_jwt j')).
Proof.
  intros lib random ec sg self_test w env r ks l k q HW SL Hc Hf HC V Wf AL KN PF KS IP MA CK.
  destruct (jwt_public_handle _ _ _ _ _ _ env r ks l HW HC V AL KN PF) as (ph & l' & EP & PI & EM & F2 & PU & KP). specialize (KP KS).
  destruct (jwt_sign_handle_works _ _ _ _ _ _ env r ks _ HW SL Hc HC KS) as (s & ES & SW). destruct (public_half_facts ks l (kh_keyset ph) l' Wf AL PI EM F2 PU) as (Wf' & PB).
  exists ph, s. split; [exact EP |]. split; [exact ES |]. intros Sz. destruct ph as [pks]. cbn [kh_keyset] in *.
  destruct (jwk_set_exported _ _ _ _ _ _ (pe_rt env) pks _ HW Hc Wf' Sz KP PB) as (text & ET & _). exists text. split; [exact ET |]. intros draws h' St Ei.
  destruct (jwk_handle_works _ _ _ _ _ _ env r pks _ text draws h' HW SL Hc Hf HC Wf' Sz KP ET St Ei) as (a & HA & JW). exists a. split; [exact HA |].
  destruct (jwt_verify_handle_works _ _ _ _ _ _ env r pks _ HW SL Hf HC KP) as (a0 & _ & VW).
  intros rnd j OJ WT. destruct (jwt_key_in _ _ _ _ _ _ _ KS (proj1 IP)) as (_ & _ & kid & KI).
  assert (CD : jwt_kid (jwt_public_of q) = None \/ kid = None) by (destruct KI as [(_ & ->) | (T & _)]; [right; reflexivity | left; exact (CK T)]).
  destruct (proj1 (proj1 (SW rnd) k q kid j IP KI) CD OJ) as (token & ETk & _). exists token. split; [exact ETk |]. intros clock v j' SE AC R1 R2.
  apply (jwk_set_keeps _ _ _ a0 a clock token v _ VW JW R1 R2).
  pose proof (proj1 IP) as I. apply filter_In in I. destruct I as (I & EN). destruct (Forall2_in_l _ _ _ _ _ _ F2 I) as ((k2 & q2) & I2 & (S2 & ID2 & PT2 & _ & Q2)). cbn [fst snd] in *. subst q2.
  assert (I2' : In (k2, jwt_public_of q) (enabled_ones l')) by (apply filter_In; split; [exact I2 | cbn [fst]; rewrite S2; exact EN]).
  exact (jwt_signature_carries_over (pe_rt env) ec sg ks _ s _ a0 k k2 q rnd j j' token clock v SL KS SW IP MA VW I2' ID2 PT2 OJ WT SE AC R1 R2 ETk).
Qed.
