(** JWT registration, and helper lemmas for the examples over X_Jwt. *)
From Coq Require Import Strings.Byte Strings.String List NArith ZArith Bool Lia.
From Verif Require Import M_Base M_Proto M_JwtTypes M_Prims M_PrimitiveSet M_Registry M_KeysetHandle
  M_Json M_Wire M_JwtWrappers M_JwtKeys M_JwtRegister
  L_Base S_Keyset S_Registry L_Registry S_Json S_Jwt S_JwtKeys L_Jwt5 L_Jwt7 X_Rt X_Jwt.
Import ListNotations.
Open Scope list_scope.

Lemma run_managers : forall (Q : key_manager -> Prop) ops r,
  (forall u km b, manager_of r u = Some (km, b) -> Q km) ->
  (forall km a, In (OpRegisterKeyManager km a) ops -> Q km) ->
  forall u km b, manager_of (registry_run r ops) u = Some (km, b) -> Q km.
Proof.
  intros Q. unfold registry_run. induction ops as [| op ops IH]; intros r Hr Ho; [exact Hr |].
  cbn [fold_left]. apply IH; [| intros km a Hi; apply (Ho km a); right; exact Hi].
  intros u km b. unfold registry_step. destruct op as [km1 a | w]; cbn [registry_apply].
  - destruct (register_key_manager_cases r km1 a) as [(_ & ->) | (_ & e & -> & _)]; [| apply Hr].
    rewrite manager_of_set. destruct (str_eqb u (km_key_type km1)); [| apply Hr].
    intros E. apply some_inj in E. apply (f_equal fst) in E. cbn [fst] in E. subst km.
    unfold kept_manager. destruct (manager_of r (km_key_type km1)) as [(km0 & b0) |] eqn:E0; [eapply Hr; exact E0 |].
    apply (Ho km1 a). left. reflexivity.
  - destruct (register_wrapper_cases r w) as [(_ & ->) | (_ & e & -> & _)]; apply Hr.
Qed.

Lemma run_wrapper : forall c w ops r,
  w_primitive_class w = c -> (exists p, w_wrap w (mk_pset [] None (w_input_primitive_class w)) = Ok p /\ class_of p = c) ->
  (forall w', wrapper_of r c = Some w' -> w' = w) ->
  (forall w', In (OpRegisterWrapper w') ops -> w_primitive_class w' = c -> w' = w) ->
  (forall w', wrapper_of (registry_run r ops) c = Some w' -> w' = w) /\
  (In (OpRegisterWrapper w) ops \/ wrapper_of r c = Some w -> wrapper_of (registry_run r ops) c = Some w).
Proof.
  intros c w ops r Hc Hp. unfold registry_run. revert r.
  induction ops as [| op ops IH]; intros r Hr Ho; cbn [fold_left]; [split; [exact Hr | intros [[] | H]; exact H] |].
  assert (St : (forall w', wrapper_of (registry_step r op) c = Some w' -> w' = w) /\
    (op = OpRegisterWrapper w \/ wrapper_of r c = Some w -> wrapper_of (registry_step r op) c = Some w)).
  { unfold registry_step. destruct op as [km1 a | w1]; cbn [registry_apply].
    - destruct (register_key_manager_cases r km1 a) as [(_ & ->) | (_ & e & -> & _)];
        (split; [exact Hr | intros [H | H]; [discriminate | exact H]]).
    - destruct (register_wrapper_cases r w1) as [(_ & ->) | (N & e & -> & _)].
      + rewrite wrapper_of_set. destruct (pclass_eqb c (w_primitive_class w1)) eqn:E.
        * apply pclass_eqb_eq in E. assert (w1 = w) by (apply Ho; [left; reflexivity | auto]). subst w1.
          split; [intros w' H; apply some_inj in H; auto | reflexivity].
        * split; [exact Hr |]. intros [H | H]; [| exact H]. injection H as ->.
          apply (eqb_false_of _ _ pclass_eqb_eq) in E. congruence.
      + split; [exact Hr |]. intros [H | H]; [| exact H]. injection H as ->. exfalso. apply N.
        rewrite Hc. split; [intros w0 H0; apply Hr in H0; subst; reflexivity |].
        destruct Hp as (p & P1 & P2). exists p. split; [exact P1 | congruence]. }
  destruct St as (S1 & S2).
  destruct (IH (registry_step r op) S1) as (I1 & I2); [intros w' Hi; apply Ho; right; exact Hi |].
  split; [exact I1 |]. intros H. apply I2. destruct H as [[H | H] | H]; auto.
Qed.

(** Registries reached by any sequence of registrations in which the JWT primitives
    come from the JWT key managers and wrappers. *)
Definition jwt_registrations (rt : py_rt) (ccm : cc_manager mac)
    (ccs : string -> cc_manager signer) (ccv : string -> cc_manager verifier) (ops : list registry_op) : Prop :=
  (forall km a, In (OpRegisterKeyManager km a) ops ->
     (km_primitive_class km = ClsJwtMacInternal -> km = jwt_hmac_manager rt ccm) /\
     (km_primitive_class km = ClsJwtSignInternal ->
        exists n f t akid, In (f, t, akid) private_families /\ km = jwt_sign_manager rt n (ccs t) akid) /\
     (km_primitive_class km = ClsJwtVerifyInternal ->
        exists n f t akid, In (f, t, akid) public_families /\ km = jwt_verify_manager rt n (ccv t) akid)) /\
  (forall w, In (OpRegisterWrapper w) ops ->
     (w_primitive_class w = ClsJwtMac -> w = jwt_mac_wrapper) /\
     (w_primitive_class w = ClsJwtSign -> w = jwt_sign_wrapper) /\
     (w_primitive_class w = ClsJwtVerify -> w = jwt_verify_wrapper)).

Theorem jwt_registry_reached : forall rt ccm ccs ccv ops, jwt_registrations rt ccm ccs ccv ops ->
  let reg := registry_run empty_registry ops in
  jwt_mac_registry rt ccm reg /\ jwt_sign_registry rt ccs reg /\ jwt_verify_registry rt ccv reg /\
  (In (OpRegisterWrapper jwt_mac_wrapper) ops ->
     dict_get pclass_eqb ClsJwtMac (r_wrappers reg) = Some jwt_mac_wrapper) /\
  (In (OpRegisterWrapper jwt_sign_wrapper) ops ->
     dict_get pclass_eqb ClsJwtSign (r_wrappers reg) = Some jwt_sign_wrapper) /\
  (In (OpRegisterWrapper jwt_verify_wrapper) ops ->
     dict_get pclass_eqb ClsJwtVerify (r_wrappers reg) = Some jwt_verify_wrapper).
Proof.
  intros rt ccm ccs ccv ops (Hm & Hw). cbv zeta.
  assert (M : forall Q : key_manager -> Prop, (forall km a, In (OpRegisterKeyManager km a) ops -> Q km) ->
    forall u km b, dict_get str_eqb u (r_key_managers (registry_run empty_registry ops)) = Some (km, b) -> Q km).
  { intros Q HQ. apply run_managers; [discriminate | exact HQ]. }
  split; [| split; [| split; [| split; [| split]]]].
  - intros u km b Hd. refine (M (fun km => km_primitive_class km = ClsJwtMacInternal -> km = jwt_hmac_manager rt ccm) _ u km b Hd); intros k a Hi; apply (Hm k a Hi).
  - intros u km b Hd. refine (M (fun km => km_primitive_class km = ClsJwtSignInternal ->
      exists n f t akid, In (f, t, akid) private_families /\ km = jwt_sign_manager rt n (ccs t) akid) _ u km b Hd); intros k a Hi; apply (Hm k a Hi).
  - intros u km b Hd. refine (M (fun km => km_primitive_class km = ClsJwtVerifyInternal ->
      exists n f t akid, In (f, t, akid) public_families /\ km = jwt_verify_manager rt n (ccv t) akid) _ u km b Hd); intros k a Hi; apply (Hm k a Hi).
  - intros Hi. refine (proj2 (run_wrapper ClsJwtMac jwt_mac_wrapper ops empty_registry eq_refl _ _ _) (or_introl Hi));
      [eexists; split; reflexivity | discriminate | intros w' H; apply (Hw w' H)].
  - intros Hi. refine (proj2 (run_wrapper ClsJwtSign jwt_sign_wrapper ops empty_registry eq_refl _ _ _) (or_introl Hi));
      [eexists; split; reflexivity | discriminate | intros w' H; apply (Hw w' H)].
  - intros Hi. refine (proj2 (run_wrapper ClsJwtVerify jwt_verify_wrapper ops empty_registry eq_refl _ _ _) (or_introl Hi));
      [eexists; split; reflexivity | discriminate | intros w' H; apply (Hw w' H)].
Qed.

Theorem jwt_register_functions : forall rt ccm ccs ccv ops,
  ops = register_jwt_mac rt ccm ++ register_jwt_signature rt
          (ccs "JwtEcdsaPrivateKey", ccv "JwtEcdsaPublicKey")
          (ccs "JwtRsaSsaPkcs1PrivateKey", ccv "JwtRsaSsaPkcs1PublicKey")
          (ccs "JwtRsaSsaPssPrivateKey", ccv "JwtRsaSsaPssPublicKey") ->
  jwt_registrations rt ccm ccs ccv ops /\
  In (OpRegisterWrapper jwt_mac_wrapper) ops /\ In (OpRegisterWrapper jwt_sign_wrapper) ops /\
  In (OpRegisterWrapper jwt_verify_wrapper) ops.
Proof.
  intros rt ccm ccs ccv ops ->. split; [| cbn; tauto]. split.
  - intros km a Hi. cbn [register_jwt_mac register_jwt_signature app In fst snd] in Hi.
    repeat (destruct Hi as [Hi | Hi]; [try discriminate; injection Hi as <- <- |]); [.. | contradiction];
      (split; [| split]); try (intros K; discriminate); intros _; try reflexivity; eexists _, _, _, _.
    all: split; [| first [exact (eq_refl (jwt_sign_manager rt _ (ccs "JwtEcdsaPrivateKey") _))
                         | exact (eq_refl (jwt_sign_manager rt _ (ccs "JwtRsaSsaPkcs1PrivateKey") _))
                         | exact (eq_refl (jwt_sign_manager rt _ (ccs "JwtRsaSsaPssPrivateKey") _))
                         | exact (eq_refl (jwt_verify_manager rt _ (ccv "JwtEcdsaPublicKey") _))
                         | exact (eq_refl (jwt_verify_manager rt _ (ccv "JwtRsaSsaPkcs1PublicKey") _))
                         | exact (eq_refl (jwt_verify_manager rt _ (ccv "JwtRsaSsaPssPublicKey") _))]].
    all: cbn; auto.
  - intros w Hi. cbn [register_jwt_mac register_jwt_signature app In] in Hi.
    repeat (destruct Hi as [Hi | Hi]; [try discriminate; injection Hi as <- |]); [.. | contradiction];
      (split; [| split]); intros K; try discriminate; reflexivity.
Qed.

(** ** Examples *)

Lemma toy_float_times_ok : float_times_ok toy_rt.
Proof.
  intros f Hf Hn. unfold representable. destruct f as [| b | | z]; [congruence | destruct b; contradiction | cbn; lia |].
  cbn [timestamp] in Hf. cbn [toy_rt float_us].
  assert (P : (0 < 2 ^ 1074)%Z) by (apply Z.pow_pos_nonneg; lia).
  pose proof (Z.div_le_mono (z * 1000000) (max_timestamp * 1000000 * 2 ^ 1074) (2 ^ 1074) P) as M.
  rewrite Z.div_mul in M by lia. pose proof (Z.div_pos (z * 1000000) (2 ^ 1074)) as D. unfold max_timestamp in *. lia.
Qed.

Definition toy_reached := jwt_registry_reached toy_rt toy_cc_mac toy_ccs toy_ccv toy_jwt_ops
  (proj1 (jwt_register_functions toy_rt toy_cc_mac toy_ccs toy_ccv toy_jwt_ops eq_refl)).
Lemma toy_jwt_mac_registry : jwt_mac_registry toy_rt toy_cc_mac toy_jwt_registry.
Proof. exact (proj1 toy_reached). Qed.
Lemma toy_jwt_sign_registry : jwt_sign_registry toy_rt toy_ccs toy_jwt_registry.
Proof. exact (proj1 (proj2 toy_reached)). Qed.
Lemma toy_jwt_verify_registry : jwt_verify_registry toy_rt toy_ccv toy_jwt_registry.
Proof. exact (proj1 (proj2 (proj2 toy_reached))). Qed.

Lemma toy_check_total : forall key tag data, tink_total (use_tink_errors (toy_jwt_check key tag data)).
Proof. intros. unfold toy_jwt_check. destruct (bytes_eqb _ _); reflexivity. Qed.

Lemma within_int : forall v z, within v (JInt z) -> v = JInt z.
Proof. intros v z H. remember (JInt z) as w. destruct H; [auto | discriminate ..]. Qed.
Lemma within_list_inv : forall v l, within v (JList l) -> v = JList l \/ exists i, In i l /\ within v i.
Proof.
  intros v l H. remember (JList l) as w eqn:E. destruct H as [| l' i Hi H | l' k i Hi H]; [auto | | discriminate].
  injection E as <-. eauto.
Qed.
Lemma ordinary_int : forall z, (Z.abs z < 10 ^ 100)%Z -> ordinary toy_rt (JInt z).
Proof.
  intros z H. split; [split |split].
  - intros f Hf. apply within_int in Hf. discriminate.
  - intros l Hl. apply within_int in Hl. discriminate.
  - intros y [Hy | (l & w & Hl & _)]; apply within_int in Hy || apply within_int in Hl; discriminate.
  - intros y Hy. apply within_int in Hy. injection Hy as ->. right.
    eapply Z.lt_le_trans; [exact H |]. apply Z.pow_le_mono_r; [reflexivity | cbn [toy_rt int_max_str_digits]; discriminate].
Qed.
Lemma ordinary_list : forall rt l, (forall v, In v l -> ordinary rt v) -> ordinary rt (JList l).
Proof.
  intros rt l H. split; [split |split].
  - intros f Hf. apply within_list_inv in Hf. destruct Hf as [Hf | (i & Hi & Hf)]; [discriminate |].
    apply H in Hi. destruct Hi as ((K & _) & _). apply K. exact Hf.
  - intros l' Hf. apply within_list_inv in Hf. destruct Hf as [Hf | (i & Hi & Hf)]; [discriminate |].
    apply H in Hi. destruct Hi as ((_ & K) & _). apply K. exact Hf.
  - intros x [Hf | (l' & w & Hf & Hx)]; apply within_list_inv in Hf; destruct Hf as [Hf | (i & Hi & Hf)]; try discriminate.
    + apply H in Hi. destruct Hi as (_ & K & _). apply K. left. exact Hf.
    + apply H in Hi. destruct Hi as (_ & K & _). apply K. right. eauto.
  - intros z Hf. apply within_list_inv in Hf. destruct Hf as [Hf | (i & Hi & Hf)]; [discriminate |].
    apply H in Hi. destruct Hi as (_ & _ & K). apply K. exact Hf.
Qed.
Lemma ulit_valid : forall x, forallb (fun c => c <? 128)%N (ulit x) = true -> valid_unicode (ulit x).
Proof.
  intros x H. apply Forall_forall. intros c Hc. rewrite forallb_forall in H. apply H in Hc. apply N.ltb_lt in Hc. lia.
Qed.
Lemma toy_nodup : NoDup (map fst (rj_payload toy_jwt)).
Proof. cbn. repeat constructor; cbn; intuition discriminate. Qed.
Lemma toy_ordinary : ordinary_jwt toy_rt toy_jwt.
Proof.
  split.
  - apply ordinary_dict; [exact toy_nodup |]. intros k v H.
    cbn [toy_jwt rj_payload In] in H. destruct H as [H | [H | [H | []]]]; injection H as <- <-.
    + split; [apply ulit_valid; reflexivity | apply ordinary_str, ulit_valid; reflexivity].
    + split; [apply ulit_valid; reflexivity | apply ordinary_int; reflexivity].
    + split; [apply ulit_valid; reflexivity |]. apply ordinary_list. intros v [<- | [<- | []]];
        apply ordinary_str, ulit_valid; reflexivity.
  - intros v H. apply some_inj in H. subst v. apply ordinary_str, ulit_valid. reflexivity.
Qed.
Lemma toy_well_typed : well_typed toy_jwt.
Proof.
  split; [exact toy_nodup |]. split; [| split].
  - intros n v Hn H. cbn [has_value toy_jwt rj_payload In] in H.
    destruct Hn as [<- | [<- | [<- | []]]]; destruct H as [H | [H | [H | []]]]; try discriminate; injection H as <-; eexists; reflexivity.
  - intros n v Hn H. cbn [has_value toy_jwt rj_payload In] in H.
    destruct Hn as [<- | [<- | [<- | []]]]; destruct H as [H | [H | [H | []]]]; try discriminate; injection H as <-.
    cbn. unfold max_timestamp. lia.
  - intros v H. cbn [has_value toy_jwt rj_payload In] in H.
    destruct H as [H | [H | [H | []]]]; try discriminate; injection H as <-. right. eexists. split; [reflexivity |].
    split; [discriminate |]. repeat constructor; eexists; reflexivity.
Qed.
Lemma toy_same : same_but_empty_type toy_jwt toy_jwt.
Proof.
  split; [reflexivity |]. intros v. split; [| tauto]. intros H. split; [exact H |]. apply some_inj in H. subst v.
  intros K. cbn in K. intuition discriminate.
Qed.

Lemma toy_macs_total : forall k alg ck cc tag signed,
  jwt_mac_key toy_cc_mac k alg ck cc -> tink_total (use_tink_errors (mac_verify cc tag signed)).
Proof.
  intros k alg ck cc tag signed (_ & m & _ & _ & _ & E). cbn [cc_primitive toy_cc_mac] in E. apply ok_inj in E. subst cc.
  apply toy_check_total.
Qed.
Lemma toy_verifiers_total : forall k alg ck cc tag signed,
  jwt_verify_key toy_ccv k alg ck cc -> tink_total (use_tink_errors (verify cc tag signed)).
Proof.
  intros k alg ck cc tag signed (f & t & m & _ & _ & _ & _ & _ & E).
  cbn [cc_primitive toy_ccv toy_cc_verify] in E. apply ok_inj in E. subst cc. apply toy_check_total.
Qed.
Lemma toy_primary_facts :
  In toy_k1 (enabled_keys (kh_keyset toy_jwt_handle)) /\
  k_key_id toy_k1 = ks_primary_key_id (kh_keyset toy_jwt_handle) /\
  In toy_k1 (enabled_keys (kh_keyset toy_jwt_handle2)) /\
  exists cc, jwt_mac_key toy_cc_mac toy_k1 (ulit "HS256") None cc /\
    forall data tag, mac_compute cc data = Ok tag -> mac_verify cc tag data = Ok tt.
Proof.
  split; [left; reflexivity |]. split; [reflexivity |]. split; [right; right; left; reflexivity |].
  eexists. split.
  - split; [vm_compute; reflexivity |]. eexists. split; [vm_compute; reflexivity |].
    split; [left; split; reflexivity |]. split; [reflexivity |]. reflexivity.
  - intros data tag H. cbn [mac_compute] in H. apply ok_inj in H. subst tag. cbn [mac_verify]. unfold toy_jwt_check.
    rewrite bytes_eqb_refl. reflexivity.
Qed.
Lemma toy_signature_facts :
  In toy_s1 (enabled_keys (kh_keyset toy_sign_handle)) /\
  k_key_id toy_s1 = ks_primary_key_id (kh_keyset toy_sign_handle) /\
  In toy_v1 (enabled_keys (kh_keyset toy_verify_handle)) /\
  exists g g', jwt_sign_key toy_ccs toy_s1 (ulit "ES256") (Some (ulit "abc")) g /\
    jwt_verify_key toy_ccv toy_v1 (ulit "ES256") (Some (ulit "abc")) g' /\
    forall rnd data tag, sign g rnd data = Ok tag -> verify g' tag data = Ok tt.
Proof.
  split; [left; reflexivity |]. split; [reflexivity |]. split; [right; left; reflexivity |].
  eexists. eexists. split; [| split].
  - exists "ES"%string, "JwtEcdsaPrivateKey"%string. eexists. split; [left; reflexivity |]. split; [vm_compute; reflexivity |].
    split; [vm_compute; reflexivity |]. split; [left; split; reflexivity |]. split; [reflexivity |]. reflexivity.
  - exists "ES"%string, "JwtEcdsaPublicKey"%string. eexists. split; [left; reflexivity |]. split; [vm_compute; reflexivity |].
    split; [vm_compute; reflexivity |]. split; [left; split; reflexivity |]. split; [reflexivity |]. reflexivity.
  - intros rnd data tag H. cbn [sign] in H. apply ok_inj in H. subst tag. cbn [verify]. unfold toy_jwt_check.
    match goal with |- (if bytes_eqb (toy_jwt_tag ?a _) (toy_jwt_tag ?b _) then _ else _) = _ =>
      assert (E : a = b) by (vm_compute; reflexivity); rewrite E end.
    rewrite bytes_eqb_refl. reflexivity.
Qed.
