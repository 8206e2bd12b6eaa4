(** Verifiers made of exported JWK sets, compared with the verifiers of the keysets. *)
From Coq Require Import Strings.Byte Strings.String List NArith ZArith Bool Lia.
From Verif Require Import M_Base L_Base M_Proto M_Prims M_Registry M_KeysetHandle M_JwtTypes M_Json S_Json
  S_Wire S_Keyset M_Wire M_JwtPrims M_JwtWrappers M_JwtKeys S_Jwt S_JwtKeys L_Jwt L_Jwt5 L_Jwt6 L_Jwt7 M_Jwk S_Jwk L_Jwk7.
Import ListNotations.
Open Scope string_scope.
Open Scope list_scope.

Lemma enabled_has_key : forall rt ccv reg h vf,
  dict_get pclass_eqb ClsJwtVerify (r_wrappers reg) = Some jwt_verify_wrapper ->
  jwt_verify_registry rt ccv reg -> handle_primitive reg h ClsJwtVerify = Ok (PrimJwtVerify vf) ->
  forall k, In k (enabled_keys (kh_keyset h)) -> exists alg ck cc, jwt_verify_key ccv k alg ck cc.
Proof.
  intros rt ccv reg h vf Hw Hr Hh k Hk.
  destruct (jwt_verify_handle_spec _ _ _ Hw Hh) as (_ & l & Hv). specialize (Hv 0%Z [] (mk_jwt_validator None None None false false false false false 0 None)).
  destruct Hv as (Hl & _). destruct (keys_with_in _ _ _ _ _ _ Hl) as (Hin & Hen).
  destruct (Hen _ Hk) as (p & Hp). apply Hin in Hp. destruct Hp as (_ & Hp).
  apply (provides_verify_key _ _ _ _ _ Hr) in Hp. destruct Hp as (alg & ck & cc & H & _). eauto.
Qed.

Lemma family_of_url : forall f t f' t',
  In (f, t) [("ES", "JwtEcdsaPublicKey"); ("RS", "JwtRsaSsaPkcs1PublicKey"); ("PS", "JwtRsaSsaPssPublicKey")] ->
  In (f', t') [("ES", "JwtEcdsaPublicKey"); ("RS", "JwtRsaSsaPkcs1PublicKey"); ("PS", "JwtRsaSsaPssPublicKey")] ->
  ulit ("type.googleapis.com/google.crypto.tink." ++ t) = ulit ("type.googleapis.com/google.crypto.tink." ++ t') ->
  f = f' /\ t = t'.
Proof.
  intros f t f' t' [H | [H | [H | []]]] [H' | [H' | [H' | []]]] E;
    injection H as <- <-; injection H' as <- <-; try (vm_compute in E; discriminate); auto.
Qed.

(** The key made of the JWK of a key: same algorithm, kid of the JWK as custom kid. *)
Lemma imported_verify_key : forall ccv k k' alg ck cc alg' ck' cc', imported_as k k' ->
  jwt_verify_key ccv k alg ck cc -> jwt_verify_key ccv k' alg' ck' cc' ->
  alg' = alg /\ k_output_prefix_type k' = RAW /\ k_status k' = ENABLED /\
  exists tink_kid, kid_of k tink_kid /\ ck' = match tink_kid with Some t => Some t | None => ck end.
Proof.
  intros ccv k k' alg ck cc alg' ck' cc' (m & kid & type & Hm & (tk & Hk & ->) & Hu & (Hs & Hraw & value & Hv & Hd))
    (f & t & m1 & Hf & Hu1 & Hm1 & Ha & -> & Hg) (f' & t' & m2 & Hf' & Hu2 & Hm2 & Ha' & -> & Hg').
  rewrite Hm in Hm1. apply some_inj in Hm1. subst m1.
  unfold k_key_data in Hu2, Hm2. rewrite Hd in Hu2, Hm2. cbn [kd_type_url kd_value] in Hu2, Hm2.
  rewrite Hv in Hm2. apply some_inj in Hm2. subst m2. cbn [jpk_algorithm jpk_custom_kid] in *.
  rewrite Hu in Hu1. rewrite Hu2 in Hu1.
  destruct (family_of_url _ _ _ _ Hf' Hf Hu1) as (-> & ->).
  split; [exact (names_algorithm_fun _ _ _ _ Ha' Ha) |]. eauto 6.
Qed.

Lemma Forall2_in_l : forall A B (R : A -> B -> Prop) l l' a, Forall2 R l l' -> In a l -> exists b, In b l' /\ R a b.
Proof.
  intros A B R l l' a H. induction H as [| x y l l' Hxy H IH]; intros Hi; [destruct Hi |].
  destruct Hi as [-> | Hi]; [exists y; cbn; auto |]. destruct (IH Hi) as (b & Hb & Hr). exists b. cbn. auto.
Qed.
Lemma Forall2_in_r : forall A B (R : A -> B -> Prop) l l' b, Forall2 R l l' -> In b l' -> exists a, In a l /\ R a b.
Proof.
  intros A B R l l' b H. induction H as [| x y l l' Hxy H IH]; intros Hi; [destruct Hi |].
  destruct Hi as [-> | Hi]; [exists x; cbn; auto |]. destruct (IH Hi) as (a & Ha & Hr). exists a. cbn. auto.
Qed.

Lemma nodup_fst_fun : forall A B (l : list (A * B)) k v v', NoDup (map fst l) -> In (k, v) l -> In (k, v') l -> v = v'.
Proof.
  intros A B l k v v'. induction l as [| (a & b) l IH]; intros Hn H H'; [destruct H |].
  cbn [map fst] in Hn. inversion Hn as [| x y Hx Hy]; subst.
  destruct H as [E | H]; destruct H' as [E' | H'].
  - congruence.
  - exfalso. apply Hx. injection E as -> ->. apply (in_map fst) in H'. exact H'.
  - exfalso. apply Hx. injection E' as -> ->. apply (in_map fst) in H. exact H.
  - exact (IH Hy H H').
Qed.

Theorem jwk_verifier_iff : forall rt ccv reg h vf text draws h' vf',
  dict_get pclass_eqb ClsJwtVerify (r_wrappers reg) = Some jwt_verify_wrapper ->
  jwt_verify_registry rt ccv reg ->
  float_codec rt -> wf_keyset (kh_keyset h) -> proto_size (serialize_keyset (kh_keyset h)) ->
  from_public_keyset_handle rt h = Ok text -> small_text text ->
  to_public_keyset_handle rt draws text = Some (Ok h') ->
  handle_primitive reg h ClsJwtVerify = Ok (PrimJwtVerify vf) ->
  handle_primitive reg h' ClsJwtVerify = Ok (PrimJwtVerify vf') ->
  (forall k alg ck cc tag signed, In k (enabled_keys (kh_keyset h')) -> jwt_verify_key ccv k alg ck cc ->
     tink_total (use_tink_errors (verify cc tag signed))) ->
  (forall k k' alg ck ck' cc cc', In k (enabled_keys (kh_keyset h)) -> In k' (enabled_keys (kh_keyset h')) ->
     imported_as k k' -> jwt_verify_key ccv k alg ck cc -> jwt_verify_key ccv k' alg ck' cc' ->
     forall tag signed, verify cc tag signed = Ok tt <-> verify cc' tag signed = Ok tt) ->
  forall clock token v r, float_times_ok rt ->
  representable (current_time v clock - jv_clock_skew v) ->
  representable (current_time v clock + jv_clock_skew v) ->
  (jv_verify vf' clock token v = Ok (mk_verified_jwt r) <->
   exists k alg ck cc tink_kid, In k (enabled_keys (kh_keyset h)) /\ jwt_verify_key ccv k alg ck cc /\
     kid_of k tink_kid /\
     token_accepted rt alg None (match tink_kid with Some t => Some t | None => ck end) (verify cc) clock v token r).
Proof.
  intros rt ccv reg h vf text draws h' vf' Hw Hr Hc Hwf Hsz He Hst Hi Hh Hh' Ht Hsame clock token v r Hf R1 R2.
  assert (Hsome : exists k, In k (ks_key (kh_keyset h)) /\ k_status k = ENABLED).
  { destruct (filter S_Jwk.is_enabled (ks_key (kh_keyset h))) as [| k l] eqn:E.
    - destruct (jwk_round_trip_none rt h text draws Hc Hwf Hsz He) as (e & E' & _); [| congruence].
      intros (k & Hk & Hen). assert (Hi' : In k (filter S_Jwk.is_enabled (ks_key (kh_keyset h)))).
      { apply filter_In. split; [exact Hk | apply Z.eqb_eq; exact Hen]. }
      rewrite E in Hi'. destruct Hi'.
    - exists k. assert (Hi' : In k (filter S_Jwk.is_enabled (ks_key (kh_keyset h)))) by (rewrite E; left; reflexivity).
      apply filter_In in Hi'. destruct Hi' as (Hk & Hen). split; [exact Hk | apply Z.eqb_eq; exact Hen]. }
  destruct (jwk_round_trip rt h text Hc Hwf Hsz He Hst Hsome) as (Hrt & _).
  destruct (Hrt _ _ Hi) as (h'' & E & Hall & _). apply ok_inj in E. subst h''. clear Hrt.
  change (filter S_Jwk.is_enabled (ks_key (kh_keyset h))) with (enabled_keys (kh_keyset h)) in Hall.
  assert (Hen' : forall k, In k (ks_key (kh_keyset h')) -> In k (enabled_keys (kh_keyset h'))).
  { intros k Hk. destruct (Forall2_in_r _ _ _ _ _ _ Hall Hk) as (k0 & _ & (m & kid & type & _ & _ & _ & (Hs & _))).
    apply filter_In. split; [exact Hk | apply Z.eqb_eq; exact Hs]. }
  rewrite (jwt_verify_iff rt ccv reg h' vf' Hw Hr Hh' Ht clock token v r Hf R1 R2). split.
  - intros (k' & alg & ck' & cc' & kid & Hk' & Hv' & Hkid & Hacc).
    apply filter_In in Hk'. destruct Hk' as (Hk' & _).
    destruct (Forall2_in_r _ _ _ _ _ _ Hall Hk') as (k & Hk & Himp).
    destruct (enabled_has_key _ _ _ _ _ Hw Hr Hh k Hk) as (alg0 & ck & cc & Hv).
    destruct (imported_verify_key _ _ _ _ _ _ _ _ _ Himp Hv Hv') as (-> & Hraw & _ & tk & Htk & ->).
    exists k, alg0, ck, cc, tk. split; [exact Hk |]. split; [exact Hv |]. split; [exact Htk |].
    destruct Hkid as [(_ & ->) | (Hty & _)]; [| rewrite Hraw in Hty; discriminate].
    destruct Hacc as (signed & header & payload & tag & hd & H1 & H2 & H3).
    exists signed, header, payload, tag, hd. split; [exact H1 |]. split; [| exact H3].
    apply (Hsame _ _ _ _ _ _ _ Hk (Hen' _ Hk') Himp Hv Hv'). exact H2.
  - intros (k & alg & ck & cc & tk & Hk & Hv & Htk & Hacc).
    destruct (Forall2_in_l _ _ _ _ _ _ Hall Hk) as (k' & Hk' & Himp). apply Hen' in Hk'.
    destruct (enabled_has_key _ _ _ _ _ Hw Hr Hh' k' Hk') as (alg0 & ck' & cc' & Hv').
    destruct (imported_verify_key _ _ _ _ _ _ _ _ _ Himp Hv Hv') as (-> & Hraw & _ & tk' & Htk' & ->).
    assert (E : tk' = tk) by (exact (kid_of_fun _ _ _ Htk' Htk)).
    subst tk'. exists k', alg, (match tk with Some t => Some t | None => ck end), cc', None.
    split; [exact Hk' |]. split; [exact Hv' |]. split; [left; auto |].
    destruct Hacc as (signed & header & payload & tag & hd & H1 & H2 & H3).
    exists signed, header, payload, tag, hd. split; [exact H1 |]. split; [| exact H3].
    apply (Hsame _ _ _ _ _ _ _ Hk Hk' Himp Hv Hv'). exact H2.
Qed.

(** Every token that the verifier of the keyset accepts is accepted, with the same result,
    by the verifier of its JWK set. *)
Theorem jwk_verifier_keeps : forall rt ccv reg h vf text draws h' vf',
  dict_get pclass_eqb ClsJwtVerify (r_wrappers reg) = Some jwt_verify_wrapper ->
  jwt_verify_registry rt ccv reg ->
  float_codec rt -> wf_keyset (kh_keyset h) -> proto_size (serialize_keyset (kh_keyset h)) ->
  from_public_keyset_handle rt h = Ok text -> small_text text ->
  to_public_keyset_handle rt draws text = Some (Ok h') ->
  handle_primitive reg h ClsJwtVerify = Ok (PrimJwtVerify vf) ->
  handle_primitive reg h' ClsJwtVerify = Ok (PrimJwtVerify vf') ->
  (forall k alg ck cc tag signed, In k (enabled_keys (kh_keyset h)) \/ In k (enabled_keys (kh_keyset h')) ->
     jwt_verify_key ccv k alg ck cc -> tink_total (use_tink_errors (verify cc tag signed))) ->
  (forall k k' alg ck ck' cc cc', In k (enabled_keys (kh_keyset h)) -> In k' (enabled_keys (kh_keyset h')) ->
     imported_as k k' -> jwt_verify_key ccv k alg ck cc -> jwt_verify_key ccv k' alg ck' cc' ->
     forall tag signed, verify cc tag signed = Ok tt <-> verify cc' tag signed = Ok tt) ->
  forall clock token v r, float_times_ok rt ->
  representable (current_time v clock - jv_clock_skew v) ->
  representable (current_time v clock + jv_clock_skew v) ->
  jv_verify vf clock token v = Ok r -> jv_verify vf' clock token v = Ok r.
Proof.
  intros rt ccv reg h vf text draws h' vf' Hw Hr Hc Hwf Hsz He Hst Hi Hh Hh' Ht Hsame clock token v [r] Hf R1 R2 H.
  apply (jwt_verify_iff rt ccv reg h vf Hw Hr Hh) in H; auto.
  2: { intros k alg ck cc tag signed Hk. apply (Ht k). auto. }
  apply (jwk_verifier_iff rt ccv reg h vf text draws h' vf'); auto.
  { intros k alg ck cc tag signed Hk. apply (Ht k). auto. }
  destruct H as (k & alg & ck & cc & kid & Hk & Hv & Hkid & Hacc). exists k, alg, ck, cc, kid.
  split; [exact Hk |]. split; [exact Hv |]. split; [exact Hkid |].
  destruct Hacc as (signed & header & payload & tag & hd & H1 & H2 & H3 & (O1 & O2 & O3 & O4 & O5) & H4).
  exists signed, header, payload, tag, hd. split; [exact H1 |]. split; [exact H2 |]. split; [exact H3 |]. split; [| exact H4].
  split; [exact O1 |]. split; [exact O2 |]. split; [left; reflexivity |]. split; [intros x Hx; discriminate |].
  intros x y Hx Hy. destruct kid as [t |]; [| exact (O5 x y Hx Hy)].
  apply some_inj in Hx. subst t. pose proof (O4 x eq_refl) as Hin.
  apply document_nodup in H3. exact (nodup_fst_fun _ _ _ _ _ _ H3 Hy Hin).
Qed.

(** The other direction, for tokens with a kid and keysets in which no key has two kids. *)
Theorem jwk_verifier_adds_no_kid : forall rt ccv reg h vf text draws h' vf',
  dict_get pclass_eqb ClsJwtVerify (r_wrappers reg) = Some jwt_verify_wrapper ->
  jwt_verify_registry rt ccv reg ->
  float_codec rt -> wf_keyset (kh_keyset h) -> proto_size (serialize_keyset (kh_keyset h)) ->
  from_public_keyset_handle rt h = Ok text -> small_text text ->
  to_public_keyset_handle rt draws text = Some (Ok h') ->
  handle_primitive reg h ClsJwtVerify = Ok (PrimJwtVerify vf) ->
  handle_primitive reg h' ClsJwtVerify = Ok (PrimJwtVerify vf') ->
  (forall k alg ck cc tag signed, In k (enabled_keys (kh_keyset h)) \/ In k (enabled_keys (kh_keyset h')) ->
     jwt_verify_key ccv k alg ck cc -> tink_total (use_tink_errors (verify cc tag signed))) ->
  (forall k k' alg ck ck' cc cc', In k (enabled_keys (kh_keyset h)) -> In k' (enabled_keys (kh_keyset h')) ->
     imported_as k k' -> jwt_verify_key ccv k alg ck cc -> jwt_verify_key ccv k' alg ck' cc' ->
     forall tag signed, verify cc tag signed = Ok tt <-> verify cc' tag signed = Ok tt) ->
  (forall k alg ck cc, In k (enabled_keys (kh_keyset h)) -> jwt_verify_key ccv k alg ck cc ->
     k_output_prefix_type k = TINK -> ck = None) ->
  forall clock token v r, float_times_ok rt ->
  representable (current_time v clock - jv_clock_skew v) ->
  representable (current_time v clock + jv_clock_skew v) ->
  (exists signed header payload tag hd kid, compact_parts token signed header payload tag /\
     document rt (JDict hd) header /\ In (ulit "kid", kid) hd) ->
  jv_verify vf' clock token v = Ok r -> jv_verify vf clock token v = Ok r.
Proof.
  intros rt ccv reg h vf text draws h' vf' Hw Hr Hc Hwf Hsz He Hst Hi Hh Hh' Ht Hsame Hone clock token v [r] Hf R1 R2 Hkid H.
  apply (jwk_verifier_iff rt ccv reg h vf text draws h' vf') in H; auto.
  2: { intros k alg ck cc tag signed Hk. apply (Ht k). auto. }
  apply (jwt_verify_iff rt ccv reg h vf Hw Hr Hh); auto.
  { intros k alg ck cc tag signed Hk. apply (Ht k). auto. }
  destruct H as (k & alg & ck & cc & kid & Hk & Hv & Hkd & Hacc). exists k, alg, ck, cc, kid.
  split; [exact Hk |]. split; [exact Hv |]. split; [exact Hkd |].
  destruct Hacc as (signed & header & payload & tag & hd & H1 & H2 & H3 & (O1 & O2 & O3 & O4 & O5) & H4).
  exists signed, header, payload, tag, hd. split; [exact H1 |]. split; [exact H2 |]. split; [exact H3 |]. split; [| exact H4].
  destruct Hkid as (s1 & h1 & p1 & t1 & hd1 & kv & C & D & Hin).
  destruct (compact_parts_fun _ _ _ _ _ _ _ _ _ H1 C) as (<- & <- & <- & <-).
  assert (E : hd1 = hd). { apply document_iff in D, H3. rewrite D in H3. apply ok_inj in H3. congruence. }
  subst hd1. split; [exact O1 |]. split; [exact O2 |].
  destruct kid as [t |].
  - assert (ck = None). { destruct Hkd as [(_ & E) | (T & _)]; [discriminate |]. exact (Hone _ _ _ _ Hk Hv T). }
    subst ck. split; [right; reflexivity |]. split; [| intros x y Hx; discriminate].
    intros x Hx. apply some_inj in Hx. subst x. rewrite <- (O5 t kv eq_refl Hin). exact Hin.
  - split; [left; reflexivity |]. split; [intros x Hx; discriminate | exact O5].
Qed.

(** A verifier made of the JWK set of the public keyset accepts the tokens of the private
    keyset. *)
Theorem jwk_publish : forall rt ccv reg h vf text draws h' vf',
  dict_get pclass_eqb ClsJwtVerify (r_wrappers reg) = Some jwt_verify_wrapper ->
  jwt_verify_registry rt ccv reg ->
  float_codec rt -> wf_keyset (kh_keyset h) -> proto_size (serialize_keyset (kh_keyset h)) ->
  from_public_keyset_handle rt h = Ok text -> small_text text ->
  to_public_keyset_handle rt draws text = Some (Ok h') ->
  handle_primitive reg h ClsJwtVerify = Ok (PrimJwtVerify vf) ->
  handle_primitive reg h' ClsJwtVerify = Ok (PrimJwtVerify vf') ->
  (forall k alg ck cc tag signed, In k (enabled_keys (kh_keyset h)) \/ In k (enabled_keys (kh_keyset h')) ->
     jwt_verify_key ccv k alg ck cc -> tink_total (use_tink_errors (verify cc tag signed))) ->
  (forall k k' alg ck ck' cc cc', In k (enabled_keys (kh_keyset h)) -> In k' (enabled_keys (kh_keyset h')) ->
     imported_as k k' -> jwt_verify_key ccv k alg ck cc -> jwt_verify_key ccv k' alg ck' cc' ->
     forall tag signed, verify cc tag signed = Ok tt <-> verify cc' tag signed = Ok tt) ->
  forall ccs reg_s hs s k alg ck cc k' cc' rnd,
  dict_get pclass_eqb ClsJwtSign (r_wrappers reg_s) = Some jwt_sign_wrapper ->
  jwt_sign_registry rt ccs reg_s -> handle_primitive reg_s hs ClsJwtSign = Ok (PrimJwtSign s) ->
  In k (enabled_keys (kh_keyset hs)) -> k_key_id k = ks_primary_key_id (kh_keyset hs) ->
  jwt_sign_key ccs k alg ck cc ->
  In k' (enabled_keys (kh_keyset h)) -> jwt_verify_key ccv k' alg ck cc' ->
  k_key_id k' = k_key_id k -> k_output_prefix_type k' = k_output_prefix_type k ->
  (forall data tag, sign cc rnd data = Ok tag -> verify cc' tag data = Ok tt) ->
  forall clock token v r r', float_times_ok rt -> ordinary_jwt rt r -> well_typed r ->
  representable (current_time v clock - jv_clock_skew v) ->
  representable (current_time v clock + jv_clock_skew v) ->
  js_sign s rnd r = Ok token -> same_but_empty_type r r' -> accepts rt clock v r' ->
  jv_verify vf' clock token v = Ok (mk_verified_jwt r').
Proof.
  intros rt ccv reg h vf text draws h' vf' Hw Hr Hc Hwf Hsz He Hst Hi Hh Hh' Ht Hsame
    ccs reg_s hs s k alg ck cc k' cc' rnd Ws Rs Hs Hk Hp Hkk Hk' Hkk' Hid Hty Hcc clock token v r r' Hf Ho Hwt R1 R2 Hsg Hsb Ha.
  apply (jwk_verifier_keeps rt ccv reg h vf text draws h' vf'); auto.
  apply (jwt_signature_keyset_round_trip rt ccs ccv reg_s reg hs h s vf Ws Hw Rs Hr Hs Hh
    (fun k alg ck cc tag signed Hi => Ht k alg ck cc tag signed (or_introl Hi))
    k alg ck cc k' cc' Hk Hp Hkk Hk' Hkk' Hid Hty rnd Hcc clock token v r r'); auto.
Qed.
