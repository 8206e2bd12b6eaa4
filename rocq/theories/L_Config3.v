(** Proofs about keyset handles that use the registered managers, and about failing
    register functions. *)
From Coq Require Import Strings.Byte Strings.String List NArith ZArith Bool Lia.
From Verif Require Import M_Base M_Proto M_Wire M_Prims M_PrimitiveSet M_Registry M_KeysetHandle M_Wrappers M_Kms
  M_Json M_JwtWrappers M_JwtKeys M_StreamTypes M_CcStream M_Stream M_CcManagers M_KeyFormats M_Templates
  S_Keyset S_Wrappers S_Registry S_Wire S_Config L_Base L_Registry L_Wire L_PrimitiveSet L_Keyset L_Wrappers L_Wrappers2 L_Wrappers3
  L_Handle L_Config L_Config2.
Import ListNotations.
Open Scope string_scope.
Open Scope list_scope.

Lemma answers_total : forall A (x : result A) s, answers x s -> tink_total x.
Proof.
  intros A x [a | e]; cbn; [intros -> ; exact I |]. intros (e' & -> & H). exact H.
Qed.
Lemma answers_with_total : forall A B (pr : A -> B -> Prop) x s, answers_with pr x s -> tink_total x.
Proof.
  intros A B pr x [a | e]; cbn; [intros (y & -> & _); exact I |]. intros (e' & -> & H). exact H.
Qed.
Lemma answers_with_ok : forall A B (pr : A -> B -> Prop) y s, answers_with pr (Ok y) s ->
  exists a, s = StOk a /\ pr a y.
Proof.
  intros A B pr y [a | e]; cbn; [intros (z & E & H) | intros (e' & E & _); discriminate].
  apply ok_inj in E. subst z. eauto.
Qed.

Lemma reached_primitive : forall w env l r xs c d km b, reached w env l r xs -> cc_key c d ->
  manager_of r (kd_type_url d) = Some (km, b) ->
  km_primitive_class km = c /\ primitive_from_cc w env c d (km_primitive km d).
Proof.
  intros w env l r xs c d km b Hr (Hw & Hs & p & name & b' & Hp & Hin & Hu) Hm.
  destruct (key_types_signature _ _ _ _ Hin) as [Hi Hsig]. rewrite Hu in Hm.
  destruct (reached_manager _ _ _ _ _ _ _ _ Hr (signature_in _ _ Hi) Hm) as [_ Hb].
  exact (built_primitive _ _ _ _ Hb c b' d Hsig Hu Hw Hs).
Qed.
Lemma configured_provides : forall w env p r c k x, configured w env p r -> cc_key c (k_key_data k) ->
  key_provides r c k x -> primitive_from_cc w env c (k_key_data k) (Ok x).
Proof.
  intros w env p r c k x (l & xs & c0 & Hr & _) Hk (km & b & Hm & _ & Hp).
  destruct (reached_primitive _ _ _ _ _ _ _ _ _ Hr Hk Hm) as [_ H]. rewrite Hp in H. exact H.
Qed.

Lemma cc_class : forall c d, cc_key c d ->
  In c [ClsAead; ClsDaead; ClsHybridDecrypt; ClsHybridEncrypt; ClsMac; ClsPrf; ClsSign; ClsVerify; ClsRawStreamingAead].
Proof.
  intros c d (_ & _ & p & name & b & Hp & Hin & _).
  destruct p; try (exfalso; apply Hp; cbn; tauto); cbn in Hin;
    repeat (destruct Hin as [Hin | Hin]; [injection Hin; intros; subst; cbn; tauto |]); contradiction.
Qed.
Lemma from_cc_total : forall w env c d x, cc_key c d -> primitive_from_cc w env c d x -> tink_total x.
Proof.
  intros w env c d x Hc H. apply cc_class in Hc. cbn in Hc.
  intuition subst; cbn in H; destruct H as (m & _ & H); exact (answers_with_total _ _ _ _ _ H).
Qed.

Lemma for_each_prefix_total : forall (f : entry -> bool) ess,
  tink_total (for_each (for_each (fun e => if f e then Err (TinkError "unsupported OutputPrefixType") else Ok tt)) ess).
Proof.
  intros f. assert (H : forall es, tink_total (for_each (fun e => if f e then Err (TinkError "unsupported OutputPrefixType") else Ok tt) es)).
  { induction es as [| e es IH]; cbn [for_each]; [exact I |]. destruct (f e); cbn; [reflexivity | exact IH]. }
  induction ess as [| es ess IH]; cbn [for_each]; [exact I |]. specialize (H es).
  destruct (for_each _ es) as [[] |]; cbn; [exact IH | exact H].
Qed.
Lemma table_wrapper_total : forall c x, table_wrapper c = Some x -> forall ps, tink_total (w_wrap x ps).
Proof.
  intros c x H ps. destruct c; cbn in H; try discriminate H; apply some_inj in H; subst x; cbn; try exact I;
    unfold validate_primitive_set, validate_jwt_primitive_set;
    match goal with |- context[for_each (for_each (fun e => if @?f e then _ else _)) ?l] =>
      pose proof (for_each_prefix_total f l) as T; cbn beta in T; destruct (for_each (for_each _) l) as [[] |] end;
    cbn; try exact I; exact T.
Qed.

Theorem configured_handle_total : forall w env p r h c i,
  configured w env p r -> In (c, i) (primitives p) ->
  (forall k, In k (ks_key (kh_keyset h)) -> (k_key_id k < 2 ^ 32)%N) ->
  (forall k, In k (enabled_keys (kh_keyset h)) -> exists c', cc_key c' (k_key_data k)) ->
  tink_total (handle_primitive r h c).
Proof.
  intros w env p r h c i Hc Hin Hid Hk. apply handle_primitive_only_tink_errors; [exact Hid | |].
  - intros k km b Hke Hm. destruct (Hk k Hke) as (c' & Hc'). destruct Hc as (l & xs & c0 & Hr & _).
    destruct (reached_primitive _ _ _ _ _ _ _ _ _ Hr Hc' Hm) as [_ H]. exact (from_cc_total _ _ _ _ _ Hc' H).
  - intros x ps Hx. assert (Hf : In c (map fst (primitives p))) by (apply (in_map fst) in Hin; exact Hin).
    destruct (table_wrapper_in _ _ Hf) as (y & Hy).
    pose proof (configured_wrapper _ _ _ _ _ _ Hc Hf Hy) as Hw. unfold wrapper_of in Hw. rewrite Hx in Hw.
    apply some_inj in Hw. subst x. exact (table_wrapper_total _ _ Hy ps).
Qed.

Lemma handle_kind : forall r h c x w, dict_get pclass_eqb c (r_wrappers r) = Some w ->
  handle_primitive r h c = Ok x -> exists ps, w_wrap w ps = Ok x.
Proof.
  intros r h c x w Hw H. unfold handle_primitive in H.
  apply bind_ok in H. destruct H as (u & _ & H).
  apply bind_ok in H. destruct H as (u2 & _ & H). unfold registry_wrap in H.
  apply bind_ok in H. destruct H as (ps & _ & H). rewrite Hw in H.
  destruct (negb _); [discriminate H | eauto].
Qed.

Lemma last_with_id_in : forall P id (l : list (key * P)) q, last_with_id id l = Some q -> exists k, In (k, q) l.
Proof.
  intros P id l q. unfold last_with_id.
  enough (G : forall acc, fold_left (fun acc kp => if N.eqb (k_key_id (fst kp)) id then Some (snd kp) else acc) l acc = Some q ->
    acc = Some q \/ exists k, In (k, q) l) by (intros H; destruct (G _ H) as [E | E]; [discriminate | exact E]).
  induction l as [| [k p] l IH]; cbn [fold_left fst snd]; intros acc H; [auto |].
  destruct (IH _ H) as [E | (k' & E)]; [| right; exists k'; right; exact E].
  destruct (N.eqb (k_key_id k) id); [| auto]. apply some_inj in E. subst p. right. exists k. left. reflexivity.
Qed.

Lemma provides_cc : forall w env p r c k x, configured w env p r ->
  (exists c', cc_key c' (k_key_data k)) -> key_provides r c k x ->
  cc_key c (k_key_data k) /\ primitive_from_cc w env c (k_key_data k) (Ok x).
Proof.
  intros w env p r c k x (l & xs & c0 & Hr & _) (c' & Hk) (km & b & Hm & Hc & Hp).
  destruct (reached_primitive _ _ _ _ _ _ _ _ _ Hr Hk Hm) as [Hc' H]. rewrite Hp in H.
  rewrite Hc in Hc'. subst c'. split; assumption.
Qed.

Ltac cc_prims Hc Hk := intros k q Hke Hpk;
  destruct (provides_cc _ _ _ _ _ _ _ Hc (Hk k Hke) Hpk) as [_ Hfc];
  destruct Hfc as (m & _ & Hfc); apply answers_with_ok in Hfc; destruct Hfc as (z & _ & y & E & Hy);
  injection E as <-.

Theorem configured_only_tink : forall w env p r h c i x,
  configured w env p r -> ~ In p [StreamingAead; JwtMac; JwtSignature] -> In (c, i) (primitives p) ->
  (forall k, In k (enabled_keys (kh_keyset h)) -> exists c', cc_key c' (k_key_data k)) ->
  handle_primitive r h c = Ok x -> only_tink x.
Proof.
  intros w env p r h c i x Hc Hp Hin Hk Hx.
  assert (Hf : In c (map fst (primitives p))) by (apply (in_map fst) in Hin; exact Hin).
  destruct (table_wrapper_in _ _ Hf) as (y & Hy).
  pose proof (configured_wrapper _ _ _ _ _ _ Hc Hf Hy) as Hw. unfold wrapper_of in Hw.
  destruct (handle_kind _ _ _ _ _ Hw Hx) as (ps & Hps).
  destruct c; try discriminate Hy; apply some_inj in Hy; subst y;
    try (destruct p; cbn in Hin, Hp; exfalso; intuition congruence);
    cbn [w_wrap aead_wrapper daead_wrapper mac_wrapper public_key_sign_wrapper public_key_verify_wrapper
      hybrid_decrypt_wrapper hybrid_encrypt_wrapper prf_set_wrapper] in Hps;
    try (apply ok_inj in Hps; subst x).
  - cbn [only_tink]. refine (aead_only_tink_errors _ _ _ Hw Hx _). cc_prims Hc Hk. destruct Hy as [H1 H2].
    split; intros; eapply answers_total; [apply H1 | apply H2].
  - refine (daead_only_tink_errors _ _ _ Hw Hx _). cc_prims Hc Hk. destruct Hy as [H1 H2].
    split; intros; eapply answers_total; [apply H1 | apply H2].
  - refine (mac_only_tink_errors _ _ _ Hw Hx _). cc_prims Hc Hk. destruct Hy as [H1 H2].
    split; intros; eapply answers_total; [apply H1 | apply H2].
  - refine (sign_only_tink_errors _ _ _ Hw Hx _). cc_prims Hc Hk. intros; eapply answers_total; apply Hy.
  - refine (verify_only_tink_errors _ _ _ Hw Hx _). cc_prims Hc Hk. intros; eapply answers_total; apply Hy.
  - refine (hybrid_encrypt_only_tink_errors _ _ _ Hw Hx _). cc_prims Hc Hk. intros; eapply answers_total; apply Hy.
  - refine (hybrid_decrypt_only_tink_errors _ _ _ Hw Hx _). cc_prims Hc Hk. intros; eapply answers_total; apply Hy.
  - apply bind_ok in Hps. destruct Hps as (u & _ & Hps). apply ok_inj in Hps. subst x.
    destruct (prf_set_handle_spec _ _ _ _ _ Hw Hx) as (l & Hkw & _ & Hnd & Hall & Hpr & Hnp).
    cbn [only_tink].
    assert (D : (exists k q, is_primary (kh_keyset h) l k q) \/ (forall k q, ~ is_primary (kh_keyset h) l k q)).
    { clear. induction l as [| [k q] l IH]; [right; intros k q [[] _] |].
      destruct (N.eq_dec (k_key_id k) (ks_primary_key_id (kh_keyset h))) as [E | E].
      - left. exists k, q. split; [left; reflexivity | exact E].
      - destruct IH as [(k' & q' & H1 & H2) | IH].
        + left. exists k', q'. split; [right; exact H1 | exact H2].
        + right. intros k' q' [[H | H] H2]; [injection H as <- <-; contradiction | exact (IH k' q' (conj H H2))]. }
    assert (T : tink_total (wrapped_prf_primary_id ps) /\ tink_total (wrapped_prf_primary ps)).
    { destruct D as [(k & q & D) | D].
      - destruct (Hpr _ _ D) as [-> ->]. split; exact I.
      - destruct (Hnp D) as [(e1 & -> & H1) (e2 & -> & H2)]. split; assumption. }
    split; [exact (proj1 T) |]. split; [exact (proj2 T) |].
    intros id y Hi. apply (in_dict_get N.eqb N.eqb_eq) in Hi; [| exact Hnd]. rewrite Hall in Hi.
    destruct (last_with_id id l) as [q |] eqn:El; [| discriminate Hi]. cbn in Hi. apply some_inj in Hi. subst y.
    exists q. split; [reflexivity |]. destruct (last_with_id_in _ _ _ _ El) as (k & Hkq).
    destruct Hkw as [Hm HF]. rewrite Forall_forall in HF. pose proof (HF _ Hkq) as Hpk. cbn [fst snd] in Hpk.
    assert (Hke : In k (enabled_keys (kh_keyset h))) by (rewrite <- Hm; apply (in_map fst) in Hkq; exact Hkq).
    destruct (provides_cc _ _ _ _ _ _ _ Hc (Hk k Hke) Hpk) as [_ (m & _ & Hq)].
    apply answers_with_ok in Hq. destruct Hq as (z & _ & y & E & Hy). injection E as <-.
    intros x n Hn. eapply answers_total. apply Hy. exact Hn.
Qed.

Theorem configured_aead_round_trip : forall w env r h a k m q,
  configured w env Aead r -> handle_primitive r h ClsAead = Ok (PrimAead a) ->
  (forall k', In k' (enabled_keys (kh_keyset h)) -> cc_key ClsAead (k_key_data k')) ->
  In k (enabled_keys (kh_keyset h)) -> k_key_id k = ks_primary_key_id (kh_keyset h) ->
  cw_aead w (kd_type_url (k_key_data k)) = Some m -> cl_get_primitive m (k_key_data k) = StOk q ->
  forall rnd pt ad c prefix,
    ca_encrypt q rnd pt ad = StOk c -> c <> [] -> ca_decrypt q c ad = StOk pt ->
    has_prefix (k_output_prefix_type k) (k_key_id k) prefix ->
    (forall k' m' q' body, In k' (enabled_keys (kh_keyset h)) -> k' <> k ->
       cw_aead w (kd_type_url (k_key_data k')) = Some m' -> cl_get_primitive m' (k_key_data k') = StOk q' ->
       reaches k' (prefix ++ c) body -> exists s, ca_decrypt q' body ad = StErr s) ->
    aead_encrypt a rnd pt ad = Ok (prefix ++ c) /\ aead_decrypt a (prefix ++ c) ad = Ok pt.
Proof.
  intros w env r h a k m q Hc Hx Hk Hke Hid Hm Hq rnd pt ad c prefix He Hne Hd Hpf Hoth.
  assert (Hw : dict_get pclass_eqb ClsAead (r_wrappers r) = Some aead_wrapper)
    by (apply (configured_wrapper _ _ _ _ _ _ Hc); [left; reflexivity | reflexivity]).
  assert (Hk' : forall k', In k' (enabled_keys (kh_keyset h)) -> exists c', cc_key c' (k_key_data k')) by eauto.
  assert (G : forall k' p', In k' (enabled_keys (kh_keyset h)) -> key_provides r ClsAead k' (PrimAead p') ->
    exists m' q', cw_aead w (kd_type_url (k_key_data k')) = Some m' /\ cl_get_primitive m' (k_key_data k') = StOk q' /\
      presents_aead q' (PrimAead p')).
  { intros k' p' Hk1 Hp1. destruct (provides_cc _ _ _ _ _ _ _ Hc (Hk' k' Hk1) Hp1) as [_ (m' & E & Hq')].
    apply answers_with_ok in Hq'. destruct Hq' as (z & E2 & Hy). eauto. }
  destruct (aead_handle_spec _ _ _ Hw Hx) as (Hv & l & Hkw & _ & Henc & _).
  destruct Hkw as [Hmap HF]. pose proof Hke as Hke'. rewrite <- Hmap in Hke'. apply in_map_iff in Hke'.
  destruct Hke' as ([k0 p] & Ek & Hi). cbn in Ek. subst k0. rewrite Forall_forall in HF. pose proof (HF _ Hi) as Hp.
  cbn [fst snd] in Hp. destruct (G k p Hke Hp) as (m' & q' & E1 & E2 & a' & Ea & A1 & A2).
  injection Ea as <-. rewrite Hm in E1. apply some_inj in E1. subst m'. rewrite Hq in E2. injection E2 as <-.
  assert (Hpe : aead_encrypt p rnd pt ad = Ok c) by (specialize (A1 rnd pt ad); rewrite He in A1; exact A1).
  assert (Hpd : aead_decrypt p c ad = Ok pt) by (specialize (A2 c ad); rewrite Hd in A2; exact A2).
  assert (Hct : aead_encrypt a rnd pt ad = Ok (prefix ++ c)) by (
    destruct (Henc k p (conj Hi Hid) rnd pt ad) as (pf & Hpf' & E); rewrite Hpe in E;
    rewrite (has_prefix_fun _ _ _ _ Hpf Hpf'); exact E).
  split; [exact Hct |].
  apply (aead_round_trip _ _ _ Hw Hx k p Hke Hid Hp rnd pt ad c (prefix ++ c) Hpe Hne Hpd Hct).
  intros k' p' body Hk1 Hn Hp1 Hr. destruct (G k' p' Hk1 Hp1) as (m1 & q1 & E1 & E2 & a' & Ea & _ & B2).
  injection Ea as <-. destruct (Hoth _ _ _ _ Hk1 Hn E1 E2 Hr) as (s & Es).
  specialize (B2 body ad). rewrite Es in B2. exact B2.
Qed.

(** ** Templates *)
Definition served (m : string) (t : result key_template) : bool :=
  match t with
  | Ok t => existsb (fun p => existsb (str_eqb (kt_type_url t)) (type_urls p)) (module_packages m)
  | Err _ => false
  end.
Lemma all_served : forallb (fun e => forallb (fun x => served (fst e) (snd x)) (snd e)) predefined_templates = true.
Proof. vm_compute. reflexivity. Qed.
Theorem template_served : forall w env r m ts name t,
  In (m, ts) predefined_templates -> In (name, Ok t) ts ->
  (forall p, In p (module_packages m) -> configured w env p r) ->
  exists km, manager_of r (kt_type_url t) = Some (km, true) /\ km_key_type km = kt_type_url t /\
    forall rnd, registry_new_key_data r rnd t = km_new_key_data km rnd t.
Proof.
  intros w env r m ts name t Hm Ht Hc. pose proof all_served as H. rewrite forallb_forall in H.
  specialize (H _ Hm). cbn [fst snd] in H. rewrite forallb_forall in H. specialize (H _ Ht).
  cbn [snd served] in H. apply existsb_exists in H. destruct H as (p & Hp & H). apply existsb_exists in H.
  destruct H as (u & Hu & E). apply str_eqb_spec in E. subst u.
  destruct (configured_manager _ _ _ _ _ (Hc p Hp) Hu) as (km & Hkm & Hb). exists km.
  split; [exact Hkm |]. split; [exact (proj1 (built_signature _ _ _ _ Hb)) |].
  intros rnd. exact (proj1 (registry_new_key_data_spec r rnd t) km Hkm).
Qed.

(** ** Failing configuration *)
Theorem config_failure : forall w env n r,
  (cw_tink_config w <> StOk tt -> forall c,
     In c [CallTinkConfig; CallAead; CallDaead; CallHybrid; CallMac; CallPrf; CallSignature; CallStreamingAead] ->
     exists e, perform (setup_action w env n c) r = (r, Err e) /\ is_tink_error e = false) /\
  (cw_hpke_config w <> StOk tt -> exists e, perform (setup_action w env n CallHybrid) r = (r, Err e) /\ is_tink_error e = false) /\
  (cw_jwt_config w <> StOk tt -> forall c, In c [CallJwtMac; CallJwtSignature] ->
     exists e, perform (setup_action w env n c) r = (r, Err e) /\ is_tink_error e = false).
Proof.
  intros w env n r. split; [| split].
  - intros H c Hc. destruct (cw_tink_config w) as [[] | s] eqn:E; [congruence |].
    cbn in Hc. intuition subst; cbn; rewrite E; cbn; destruct s; cbn; eexists; split; reflexivity.
  - intros H. destruct (cw_hpke_config w) as [[] | s] eqn:E; [congruence |].
    cbn. rewrite E.
    destruct (cw_tink_config w) as [[] | s'] ; [destruct s | destruct s']; cbn; eexists; split; reflexivity.
  - intros H c Hc. destruct (cw_jwt_config w) as [[] | s] eqn:E; [congruence |].
    cbn in Hc. intuition subst; cbn; rewrite E; cbn; destruct s; cbn; eexists; split; reflexivity.
Qed.

Ltac pair_cases H := repeat (destruct H as [H | H]; [injection H as <- <- |]); try contradiction.
Lemma built_jwt : forall w env u km, built w env u km ->
  (option_map fst (signature u) = Some 30%N -> exists m, cw_mac w u = Some m /\
     km = jwt_hmac_manager (pe_rt env) (cc_key_manager bind_mac m)) /\
  (option_map fst (signature u) = Some 31%N -> exists n name akid m, In (name, akid) jwt_sign_names /\ u = type_url name /\
     cw_sign w u = Some m /\ km = jwt_sign_manager (pe_rt env) n (cc_key_manager bind_signer m) akid) /\
  (option_map fst (signature u) = Some 32%N -> exists n name akid m, In (name, akid) jwt_verify_names /\ u = type_url name /\
     cw_verify w u = Some m /\ km = jwt_verify_manager (pe_rt env) n (cc_key_manager bind_verifier m) akid).
Proof.
  intros w env u km H. destruct (built_signature _ _ _ _ H) as (_ & _ & Hsig). rewrite Hsig. cbn [option_map fst].
  destruct H; cbn [km_pytype key_manager_cc_to_py private_key_manager_cc_to_py
    kms_aead_key_manager kms_envelope_aead_key_manager jwt_hmac_manager jwt_sign_manager jwt_verify_manager];
    (split; [| split]); intros E; try discriminate E; eauto 10.
Qed.
(** The JWT key types are served by the managers that parse the key in Python, over the
    C++ manager of the same key type. *)
Theorem configured_jwt : forall w env r,
  (configured w env JwtMac r -> exists m, cw_mac w (type_url "JwtHmacKey") = Some m /\
     manager_of r (type_url "JwtHmacKey") = Some (jwt_hmac_manager (pe_rt env) (cc_key_manager bind_mac m), true)) /\
  (configured w env JwtSignature r ->
     (forall name akid, In (name, akid)
        [("JwtEcdsaPrivateKey", ecdsa_private_alg_kid); ("JwtRsaSsaPkcs1PrivateKey", pkcs1_private_alg_kid);
         ("JwtRsaSsaPssPrivateKey", pss_private_alg_kid)] ->
        exists n m, cw_sign w (type_url name) = Some m /\
          manager_of r (type_url name) = Some (jwt_sign_manager (pe_rt env) n (cc_key_manager bind_signer m) akid, true)) /\
     (forall name akid, In (name, akid)
        [("JwtEcdsaPublicKey", ecdsa_public_alg_kid); ("JwtRsaSsaPkcs1PublicKey", pkcs1_public_alg_kid);
         ("JwtRsaSsaPssPublicKey", pss_public_alg_kid)] ->
        exists n m, cw_verify w (type_url name) = Some m /\
          manager_of r (type_url name) = Some (jwt_verify_manager (pe_rt env) n (cc_key_manager bind_verifier m) akid, true))).
Proof.
  intros w env r. split; [| intros Hc; split].
  - intros Hc. destruct (configured_manager _ _ _ _ (type_url "JwtHmacKey") Hc (or_introl eq_refl)) as (km & Hm & Hb).
    rewrite Hm. destruct (built_jwt _ _ _ _ Hb) as (B & _). destruct (B eq_refl) as (m & E & ->). eauto.
  - intros name akid Hin.
    assert (Hu : In (type_url name) (type_urls JwtSignature) /\ option_map fst (signature (type_url name)) = Some 31%N).
    { pair_cases Hin; split; try (vm_compute; reflexivity); cbn; tauto. }
    destruct (configured_manager _ _ _ _ _ Hc (proj1 Hu)) as (km & Hm & Hb). rewrite Hm.
    destruct (built_jwt _ _ _ _ Hb) as (_ & B & _). destruct (B (proj2 Hu)) as (n & name' & akid' & m & Hin' & En & E & ->).
    assert (akid' = akid).
    { unfold jwt_sign_names in Hin'. clear - Hin Hin' En. pair_cases Hin; pair_cases Hin'; try reflexivity; exfalso; vm_compute in En; discriminate En. }
    subst akid'. eauto.
  - intros name akid Hin.
    assert (Hu : In (type_url name) (type_urls JwtSignature) /\ option_map fst (signature (type_url name)) = Some 32%N).
    { pair_cases Hin; split; try (vm_compute; reflexivity); cbn; tauto. }
    destruct (configured_manager _ _ _ _ _ Hc (proj1 Hu)) as (km & Hm & Hb). rewrite Hm.
    destruct (built_jwt _ _ _ _ Hb) as (_ & _ & B). destruct (B (proj2 Hu)) as (n & name' & akid' & m & Hin' & En & E & ->).
    assert (akid' = akid).
    { unfold jwt_verify_names in Hin'. clear - Hin Hin' En. pair_cases Hin; pair_cases Hin'; try reflexivity; exfalso; vm_compute in En; discriminate En. }
    subst akid'. eauto.
Qed.
