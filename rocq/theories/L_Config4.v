(** Proofs: the primitives of keyset handles over the C++ primitives of their keys. *)
From Coq Require Import Strings.Byte Strings.String List NArith ZArith Bool Lia.
From Verif Require Import M_Base M_Proto M_Wire M_Prims M_PrimitiveSet M_Registry M_KeysetHandle M_Wrappers M_Kms
  M_Json M_JwtWrappers M_JwtKeys M_StreamTypes M_CcStream M_Stream M_CcManagers
  S_Keyset S_Wrappers S_Registry S_Wire S_Config S_CcLaws L_Base L_Registry L_Wire L_PrimitiveSet L_Keyset
  L_Wrappers L_Wrappers2 L_Wrappers3 L_Handle L_Config L_Config2 L_Config3.
Import ListNotations.
Open Scope string_scope.
Open Scope list_scope.

(** ** Calls that answer what C++ answers *)
Lemma answers_of_status : forall A (x : result A) s, answers x s -> same_outcome (of_status s) x.
Proof.
  intros A x [a | e]; cbn; intros H.
  - left. symmetry. exact H.
  - right. split; [| exact H]. exists (TinkError ""). split; reflexivity.
Qed.
Lemma same_outcome_err : forall A e (x : result A), is_tink_error e = true -> same_outcome (Err e) x -> raises_tink x.
Proof.
  intros A e x He [<- | [_ H]]; [exists e; auto | exact H].
Qed.
Lemma same_outcome_ok : forall A (a : A) x, same_outcome (Ok a) x -> x = Ok a.
Proof.
  intros A a x [<- | [(e & E & _) _]]; [reflexivity | discriminate].
Qed.
Lemma same_outcome_sym : forall A (x y : result A), same_outcome x y -> same_outcome y x.
Proof. intros A x y [-> | [H1 H2]]; [left; reflexivity | right; auto]. Qed.
Lemma same_outcome_trans : forall A (x y z : result A), same_outcome x y -> same_outcome y z -> same_outcome x z.
Proof.
  intros A x y z [-> | [H1 H2]] H; [exact H |]. right. split; [exact H1 |].
  destruct H as [<- | [_ H]]; assumption.
Qed.

Lemma first_ok_outcomes : forall A (l1 l2 : list (result A)), Forall2 same_outcome l1 l2 ->
  Forall tink_total l1 -> forall x, first_ok l2 x -> first_success l1 x.
Proof.
  intros A l1 l2 H. induction H as [| a b l1 l2 Hab H IH]; intros Ht x Hx.
  - exists x. split; [exact Hx | left; reflexivity].
  - inversion Ht as [| ? ? Ha Hl]. subst. destruct a as [a | e].
    + apply same_outcome_ok in Hab. subst b.
      assert (x = Ok a) by (inversion Hx; subst; try congruence; reflexivity). subst x.
      exists (Ok a). split; [constructor | left; reflexivity].
    + cbn in Ha. pose proof (same_outcome_err _ _ _ Ha Hab) as (e' & -> & He').
      inversion Hx as [| | e0 rest0 r0 Et Hr | e0 rest0 Et]; subst; [| congruence].
      destruct (IH Hl x Hr) as (y & Hy & Hs). exists y. split; [constructor; assumption | exact Hs].
Qed.

Lemma of_status_total : forall A (s : st_or A), tink_total (of_status s).
Proof. intros A [a | e]; [exact I | reflexivity]. Qed.

(** The keys with their two primitives. *)
Definition paired {P Q} (pres : P -> Q -> Prop) (x : key * P) (y : key * Q) : Prop :=
  fst x = fst y /\ pres (snd x) (snd y).
Lemma Forall2_filter : forall A B (R : A -> B -> Prop) (f : A -> bool) (g : B -> bool) l m,
  (forall a b, R a b -> f a = g b) -> Forall2 R l m -> Forall2 R (filter f l) (filter g m).
Proof.
  intros A B R f g l m E H. induction H as [| a b l m Hab H IH]; [constructor |]. cbn.
  rewrite (E _ _ Hab). destruct (g b); [constructor; assumption | exact IH].
Qed.
Lemma Forall2_map2 : forall A B C D (R : A -> B -> Prop) (S : C -> D -> Prop) f g l m,
  (forall a b, R a b -> S (f a) (g b)) -> Forall2 R l m -> Forall2 S (map f l) (map g m).
Proof. intros A B C D R S f g l m E H. induction H; cbn; constructor; auto. Qed.

Lemma attempts_outcomes : forall P Q A (pres : P -> Q -> Prop) l l' x
  (f : key -> P -> bytes -> result A) (g : key -> Q -> bytes -> result A),
  Forall2 (paired pres) l l' ->
  (forall k p q body, pres p q -> same_outcome (f k p body) (g k q body)) ->
  Forall2 same_outcome (attempts l x f) (attempts l' x g).
Proof.
  intros P Q A pres l l' x f g H E. unfold attempts. apply Forall2_app.
  - eapply Forall2_map2; [| eapply Forall2_filter; [| exact H]].
    + intros [k p] [k' q] [Hk Hp]. cbn in *. subst k'. apply E. exact Hp.
    + intros [k p] [k' q] [Hk Hp]. cbn in *. subst k'. reflexivity.
  - eapply Forall2_map2; [| eapply Forall2_filter; [| exact H]].
    + intros [k p] [k' q] [Hk Hp]. cbn in *. subst k'. apply E. exact Hp.
    + intros [k p] [k' q] [Hk Hp]. cbn in *. subst k'. reflexivity.
Qed.
Lemma attempts_total : forall P A l x (f : key -> P -> bytes -> st_or A),
  Forall tink_total (attempts l x (fun k p body => of_status (f k p body))).
Proof.
  intros P A l x f. rewrite Forall_forall. unfold attempts. intros y Hy. apply in_app_or in Hy.
  destruct Hy as [Hy | Hy]; apply in_map_iff in Hy; destruct Hy as (kp & <- & _); apply of_status_total.
Qed.
Lemma cc_first : forall P Q A (pres : P -> Q -> Prop) l l' x
  (f : key -> P -> bytes -> st_or A) (g : key -> Q -> bytes -> result A) r,
  Forall2 (paired pres) l l' ->
  (forall k p q body, pres p q -> answers (g k q body) (f k p body)) ->
  first_ok (attempts l' x g) r -> first_success (attempts l x (fun k p body => of_status (f k p body))) r.
Proof.
  intros P Q A pres l l' x f g r H E Hr. eapply first_ok_outcomes; [| apply attempts_total | exact Hr].
  eapply attempts_outcomes; [exact H |]. intros. apply answers_of_status. apply E. assumption.
Qed.

(** ** From the C++ keys to the registry's *)
Section Lift.
  Variable w : cc_world.
  Variable env : py_env.
  Variable pkg : package.
  Variable r : registry.
  Hypothesis Hconf : configured w env pkg r.
  Context {P Q : Type} (c : pclass) (lookup : pystr -> option (cc_lib_manager P)) (inj : Q -> prim) (pres : P -> Q -> Prop).
  Hypothesis Hpkg : forall p name b, ~ In p [JwtMac; JwtSignature] -> In (name, c, b) (key_types p) -> p = pkg.
  Hypothesis Hnj : ~ In pkg [JwtMac; JwtSignature].
  Hypothesis Hfrom : forall d x, primitive_from_cc w env c d x ->
    exists m, lookup (kd_type_url d) = Some m /\
      answers_with (fun q y => exists a, y = inj a /\ pres q a) x (cl_get_primitive m d).

  Lemma lift_keys : forall ks l, cc_keys c lookup ks l ->
    exists l', keys_with inj r c ks l' /\ Forall2 (paired pres) l l'.
  Proof.
    intros ks l [Hm HF].
    assert (G : exists l', map fst l' = map fst l /\
      Forall (fun kp => key_provides r c (fst kp) (inj (snd kp))) l' /\ Forall2 (paired pres) l l').
    { clear Hm. induction HF as [| [k q] l Hq HF IH].
      - exists []. repeat split; constructor.
      - destruct IH as (l' & E & F & F2). cbn [fst snd] in Hq.
        destruct Hq as ((Hw & Hs & p & name & b & Hp & Hin & Hu) & m & Em & Eg).
        pose proof (Hpkg _ _ _ Hp Hin) as ->.
        pose proof (configured_primitive _ _ _ _ _ _ _ _ Hconf Hnj Hin Hu Hw Hs) as HP.
        destruct (Hfrom _ _ HP) as (m' & Em' & HA). rewrite Em in Em'. apply some_inj in Em'. subst m'.
        rewrite Eg in HA. cbn in HA. destruct HA as (y & Ey & a & -> & Ha).
        exists ((k, a) :: l'). split; [cbn; f_equal; exact E |]. split; constructor; auto.
        + cbn. apply registry_primitive_ok. exact Ey.
        + split; [reflexivity | exact Ha]. }
    destruct G as (l' & E & F & F2). exists l'. split; [| exact F2]. split; [congruence | exact F].
  Qed.
End Lift.

Lemma paired_primary : forall P Q (pres : P -> Q -> Prop) ks l l' k (q : P), Forall2 (paired pres) l l' ->
  is_primary ks l k q -> exists p : Q, is_primary ks l' k p /\ pres q p.
Proof.
  intros P Q pres ks l l' k q H [Hi Hid].
  destruct (Forall2_in_l _ _ _ _ _ _ H Hi) as ([k' p] & Hi' & Hk & Hp). cbn in Hk, Hp. subst k'.
  exists p. repeat split; auto.
Qed.
Lemma Forall2_in_r : forall A B (R : A -> B -> Prop) l m y,
  Forall2 R l m -> In y m -> exists x, In x l /\ R x y.
Proof.
  intros A B R l m y H. induction H as [| a b l m Hab H IH]; intros Hi; [destruct Hi |].
  destruct Hi as [-> | Hi]; [exists a; split; [left; reflexivity | exact Hab] |].
  destruct (IH Hi) as (x & Hx & HR); exists x; split; [right; exact Hx | exact HR].
Qed.
Lemma paired_no_primary : forall P Q (pres : P -> Q -> Prop) ks l l', Forall2 (paired pres) l l' ->
  (forall k (q : P), ~ is_primary ks l k q) -> forall k (p : Q), ~ is_primary ks l' k p.
Proof.
  intros P Q pres ks l l' H Hn k p [Hi Hid].
  destruct (Forall2_in_r _ _ _ _ _ _ H Hi) as ([k' q] & Hi' & Hk & Hp). cbn in Hk, Hp. subst k'.
  exact (Hn k q (conj Hi' Hid)).
Qed.
Lemma prefixed_answers : forall k own full s, answers own s -> with_prefix_of k own full -> prefixed k s full.
Proof.
  intros k own full s Ha (p & Hp & ->). exists p. split; [exact Hp |].
  destruct s as [c | e]; cbn in *.
  - subst own. reflexivity.
  - destruct Ha as (e' & -> & He). exists e'. auto.
Qed.

Lemma keys_with_fun : forall P (inj : P -> prim) r c ks l1 l2, (forall a b, inj a = inj b -> a = b) ->
  keys_with inj r c ks l1 -> keys_with inj r c ks l2 -> l1 = l2.
Proof.
  intros P inj r c ks l1 l2 Hi [E1 F1] [E2 F2]. rewrite <- E1 in E2. clear E1.
  revert l2 E2 F2. induction F1 as [| [k p] l1 H1 F1 IH]; intros [| [k' p'] l2] E2 F2; try discriminate; [reflexivity |].
  cbn in E2. inversion E2 as [[Ek El]]. subst k'. inversion F2 as [| ? ? H2 F2']. subst. cbn in H1, H2.
  rewrite (Hi _ _ (key_provides_fun _ _ _ _ _ H1 H2)). f_equal. apply IH; assumption.
Qed.

Ltac one_package := intros p ? ? Hp Hin; destruct p; cbn in Hin, Hp; try reflexivity;
  exfalso; intuition (try congruence).


Theorem aead_over_cc_ok : forall w env r ks l, configured w env Aead r -> cc_keyset ClsAead (cw_aead w) ks l ->
  exists a, handle_primitive r (mk_handle ks) ClsAead = Ok (PrimAead a) /\ aead_over_cc ks l a.
Proof.
  intros w env r ks l Hc (Hv & Hl & Hpf).
  assert (Hw : dict_get pclass_eqb ClsAead (r_wrappers r) = Some aead_wrapper)
    by (apply (configured_wrapper _ _ _ _ _ _ Hc); [cbn; tauto | reflexivity]).
  destruct (lift_keys w env Aead r Hc ClsAead (cw_aead w) PrimAead
    (fun q a => (forall r pt ad, answers (aead_encrypt a r pt ad) (ca_encrypt q r pt ad)) /\
      (forall ct ad, answers (aead_decrypt a ct ad) (ca_decrypt q ct ad)))
    ltac:(one_package) ltac:(cbn; intuition discriminate) (fun d x H => H) ks l Hl) as (l' & Hkw & H2).
  assert (HQ : exists x, handle_primitive r (mk_handle ks) ClsAead = Ok x).
  { apply (handle_primitive_iff_gen _ PrimAead r (mk_handle ks) _ aead_wrapper _ aead_inj (fun _ => eq_refl)
      (fun _ => eq_refl) Hw). split; [exact Hv |]. split; [exists l'; exact Hkw | exact Hpf]. }
  destruct HQ as (x & Hx).
  assert (Ha : exists a, x = PrimAead a).
  { destruct (handle_kind _ _ _ _ _ Hw Hx) as (ps & Hps). cbn in Hps. apply ok_inj in Hps. eauto. }
  destruct Ha as (a & ->). exists a. split; [exact Hx |].
  destruct (aead_handle_spec _ _ _ Hw Hx) as (_ & l2 & Hkw2 & HS). cbn [kh_keyset] in Hkw2, HS.
  assert (l2 = l') by (refine (keys_with_fun _ _ _ _ _ _ _ _ Hkw2 Hkw); congruence). subst l2.
  destruct HS as (Hd & He & Hn). split; [| split].
  - intros ct ad. eapply cc_first; [exact H2 | | exact (Hd ct ad)]. intros k p q body H. apply H.
  - intros k q Hp rnd pt ad. destruct (paired_primary _ _ _ _ _ _ _ _ H2 Hp) as (p & Hp' & [H _]).
    exact (prefixed_answers _ _ _ _ (H rnd pt ad) (He k p Hp' rnd pt ad)).
  - intros Hno. exact (Hn (paired_no_primary _ _ _ _ _ _ H2 Hno)).
Qed.

Theorem daead_over_cc_ok : forall w env r ks l, configured w env Daead r -> cc_keyset ClsDaead (cw_daead w) ks l ->
  exists a, handle_primitive r (mk_handle ks) ClsDaead = Ok (PrimDaead a) /\ daead_over_cc ks l a.
Proof.
  intros w env r ks l Hc (Hv & Hl & Hpf).
  assert (Hw : dict_get pclass_eqb ClsDaead (r_wrappers r) = Some daead_wrapper)
    by (apply (configured_wrapper _ _ _ _ _ _ Hc); [cbn; tauto | reflexivity]).
  destruct (lift_keys w env Daead r Hc ClsDaead (cw_daead w) PrimDaead
    (fun q a => (forall pt ad, answers (daead_encrypt a pt ad) (cda_encrypt q pt ad)) /\
      (forall ct ad, answers (daead_decrypt a ct ad) (cda_decrypt q ct ad)))
    ltac:(one_package) ltac:(cbn; intuition discriminate) (fun d x H => H) ks l Hl) as (l' & Hkw & H2).
  assert (HQ : exists x, handle_primitive r (mk_handle ks) ClsDaead = Ok x).
  { apply (handle_primitive_iff_gen _ PrimDaead r (mk_handle ks) _ daead_wrapper _ daead_inj (fun _ => eq_refl)
      (fun _ => eq_refl) Hw). split; [exact Hv |]. split; [exists l'; exact Hkw | exact Hpf]. }
  destruct HQ as (x & Hx).
  assert (Ha : exists a, x = PrimDaead a).
  { destruct (handle_kind _ _ _ _ _ Hw Hx) as (ps & Hps). cbn in Hps. apply ok_inj in Hps. eauto. }
  destruct Ha as (a & ->). exists a. split; [exact Hx |].
  destruct (daead_handle_spec _ _ _ Hw Hx) as (_ & l2 & Hkw2 & HS). cbn [kh_keyset] in Hkw2, HS.
  assert (l2 = l') by (refine (keys_with_fun _ _ _ _ _ _ _ _ Hkw2 Hkw); congruence). subst l2.
  destruct HS as (Hd & He & Hn). split; [| split].
  - intros ct ad. eapply cc_first; [exact H2 | | exact (Hd ct ad)]. intros k p q body H. apply H.
  - intros k q Hp pt ad. destruct (paired_primary _ _ _ _ _ _ _ _ H2 Hp) as (p & Hp' & [H _]).
    exact (prefixed_answers _ _ _ _ (H pt ad) (He k p Hp' pt ad)).
  - intros Hno. exact (Hn (paired_no_primary _ _ _ _ _ _ H2 Hno)).
Qed.

Theorem mac_over_cc_ok : forall w env r ks l, configured w env Mac r -> cc_keyset ClsMac (cw_mac w) ks l ->
  exists a, handle_primitive r (mk_handle ks) ClsMac = Ok (PrimMac a) /\ mac_over_cc ks l a.
Proof.
  intros w env r ks l Hc (Hv & Hl & Hpf).
  assert (Hw : dict_get pclass_eqb ClsMac (r_wrappers r) = Some mac_wrapper)
    by (apply (configured_wrapper _ _ _ _ _ _ Hc); [cbn; tauto | reflexivity]).
  destruct (lift_keys w env Mac r Hc ClsMac (cw_mac w) PrimMac
    (fun q a => (forall data, answers (mac_compute a data) (cm_compute q data)) /\
      (forall tag data, answers (mac_verify a tag data) (cm_verify q tag data)))
    ltac:(one_package) ltac:(cbn; intuition discriminate) (fun d x H => H) ks l Hl) as (l' & Hkw & H2).
  assert (HQ : exists x, handle_primitive r (mk_handle ks) ClsMac = Ok x).
  { apply (handle_primitive_iff_gen _ PrimMac r (mk_handle ks) _ mac_wrapper _ mac_inj (fun _ => eq_refl)
      (fun _ => eq_refl) Hw). split; [exact Hv |]. split; [exists l'; exact Hkw | exact Hpf]. }
  destruct HQ as (x & Hx).
  assert (Ha : exists a, x = PrimMac a).
  { destruct (handle_kind _ _ _ _ _ Hw Hx) as (ps & Hps). cbn in Hps. apply ok_inj in Hps. eauto. }
  destruct Ha as (a & ->). exists a. split; [exact Hx |].
  destruct (mac_handle_spec _ _ _ Hw Hx) as (_ & l2 & Hkw2 & HS). cbn [kh_keyset] in Hkw2, HS.
  assert (l2 = l') by (refine (keys_with_fun _ _ _ _ _ _ _ _ Hkw2 Hkw); congruence). subst l2.
  destruct HS as (Hs & Hd & He & Hn). split; [exact Hs | split; [| split]].
  - intros tag data Hlen. eapply (cc_first _ _ _ _ _ _ _ (fun k q body => cm_verify q body (legacy_data k data)));
      [exact H2 | | exact (Hd tag data Hlen)]. intros k p q body H. apply H.
  - intros k q Hp data. destruct (paired_primary _ _ _ _ _ _ _ _ H2 Hp) as (p & Hp' & [H _]).
    exact (prefixed_answers _ _ _ _ (H _) (He k p Hp' data)).
  - intros Hno. exact (Hn (paired_no_primary _ _ _ _ _ _ H2 Hno)).
Qed.

Theorem signer_over_cc_ok : forall w env r ks l, configured w env Signature r -> cc_keyset ClsSign (cw_sign w) ks l ->
  exists a, handle_primitive r (mk_handle ks) ClsSign = Ok (PrimSign a) /\ signer_over_cc ks l a.
Proof.
  intros w env r ks l Hc (Hv & Hl & Hpf).
  assert (Hw : dict_get pclass_eqb ClsSign (r_wrappers r) = Some public_key_sign_wrapper)
    by (apply (configured_wrapper _ _ _ _ _ _ Hc); [cbn; tauto | reflexivity]).
  destruct (lift_keys w env Signature r Hc ClsSign (cw_sign w) PrimSign
    (fun q a => forall r data, answers (sign a r data) (cs_sign q r data))
    ltac:(one_package) ltac:(cbn; intuition discriminate) (fun d x H => H) ks l Hl) as (l' & Hkw & H2).
  assert (HQ : exists x, handle_primitive r (mk_handle ks) ClsSign = Ok x).
  { apply (handle_primitive_iff_gen _ PrimSign r (mk_handle ks) _ public_key_sign_wrapper _ sign_inj (fun _ => eq_refl)
      (fun _ => eq_refl) Hw). split; [exact Hv |]. split; [exists l'; exact Hkw | exact Hpf]. }
  destruct HQ as (x & Hx).
  assert (Ha : exists a, x = PrimSign a).
  { destruct (handle_kind _ _ _ _ _ Hw Hx) as (ps & Hps). cbn in Hps. apply ok_inj in Hps. eauto. }
  destruct Ha as (a & ->). exists a. split; [exact Hx |].
  destruct (sign_handle_spec _ _ _ Hw Hx) as (_ & l2 & Hkw2 & HS). cbn [kh_keyset] in Hkw2, HS.
  assert (l2 = l') by (refine (keys_with_fun _ _ _ _ _ _ _ _ Hkw2 Hkw); congruence). subst l2.
  destruct HS as (He & Hn). split.
  - intros k q Hp rnd data. destruct (paired_primary _ _ _ _ _ _ _ _ H2 Hp) as (p & Hp' & H).
    exact (prefixed_answers _ _ _ _ (H rnd _) (He k p Hp' rnd data)).
  - intros Hno. exact (Hn (paired_no_primary _ _ _ _ _ _ H2 Hno)).
Qed.

Theorem verifier_over_cc_ok : forall w env r ks l, configured w env Signature r -> cc_keyset ClsVerify (cw_verify w) ks l ->
  exists a, handle_primitive r (mk_handle ks) ClsVerify = Ok (PrimVerify a) /\ verifier_over_cc l a.
Proof.
  intros w env r ks l Hc (Hv & Hl & Hpf).
  assert (Hw : dict_get pclass_eqb ClsVerify (r_wrappers r) = Some public_key_verify_wrapper)
    by (apply (configured_wrapper _ _ _ _ _ _ Hc); [cbn; tauto | reflexivity]).
  destruct (lift_keys w env Signature r Hc ClsVerify (cw_verify w) PrimVerify
    (fun q a => forall s data, answers (verify a s data) (cv_verify q s data))
    ltac:(one_package) ltac:(cbn; intuition discriminate) (fun d x H => H) ks l Hl) as (l' & Hkw & H2).
  assert (HQ : exists x, handle_primitive r (mk_handle ks) ClsVerify = Ok x).
  { apply (handle_primitive_iff_gen _ PrimVerify r (mk_handle ks) _ public_key_verify_wrapper _ verify_inj (fun _ => eq_refl)
      (fun _ => eq_refl) Hw). split; [exact Hv |]. split; [exists l'; exact Hkw | exact Hpf]. }
  destruct HQ as (x & Hx).
  assert (Ha : exists a, x = PrimVerify a).
  { destruct (handle_kind _ _ _ _ _ Hw Hx) as (ps & Hps). cbn in Hps. apply ok_inj in Hps. eauto. }
  destruct Ha as (a & ->). exists a. split; [exact Hx |].
  destruct (verify_handle_spec _ _ _ Hw Hx) as (_ & l2 & Hkw2 & HS). cbn [kh_keyset] in Hkw2, HS.
  assert (l2 = l') by (refine (keys_with_fun _ _ _ _ _ _ _ _ Hkw2 Hkw); congruence). subst l2.
  destruct HS as (Hs & Hd). split; [exact Hs |].
  intros tag data Hlen. eapply (cc_first _ _ _ _ _ _ _ (fun k q body => cv_verify q body (legacy_data k data)));
      [exact H2 | | exact (Hd tag data Hlen)]. intros k p q body H. apply H.
Qed.

Theorem hybrid_decrypt_over_cc_ok : forall w env r ks l, configured w env Hybrid r -> cc_keyset ClsHybridDecrypt (cw_hybrid_decrypt w) ks l ->
  exists a, handle_primitive r (mk_handle ks) ClsHybridDecrypt = Ok (PrimHybridDecrypt a) /\ hybrid_decrypt_over_cc l a.
Proof.
  intros w env r ks l Hc (Hv & Hl & Hpf).
  assert (Hw : dict_get pclass_eqb ClsHybridDecrypt (r_wrappers r) = Some hybrid_decrypt_wrapper)
    by (apply (configured_wrapper _ _ _ _ _ _ Hc); [cbn; tauto | reflexivity]).
  destruct (lift_keys w env Hybrid r Hc ClsHybridDecrypt (cw_hybrid_decrypt w) PrimHybridDecrypt
    (fun q a => forall ct ci, answers (hd_decrypt a ct ci) (chd_decrypt q ct ci))
    ltac:(one_package) ltac:(cbn; intuition discriminate) (fun d x H => H) ks l Hl) as (l' & Hkw & H2).
  assert (HQ : exists x, handle_primitive r (mk_handle ks) ClsHybridDecrypt = Ok x).
  { apply (handle_primitive_iff_gen _ PrimHybridDecrypt r (mk_handle ks) _ hybrid_decrypt_wrapper _ hd_inj (fun _ => eq_refl)
      (fun _ => eq_refl) Hw). split; [exact Hv |]. split; [exists l'; exact Hkw | exact Hpf]. }
  destruct HQ as (x & Hx).
  assert (Ha : exists a, x = PrimHybridDecrypt a).
  { destruct (handle_kind _ _ _ _ _ Hw Hx) as (ps & Hps). cbn in Hps. apply ok_inj in Hps. eauto. }
  destruct Ha as (a & ->). exists a. split; [exact Hx |].
  destruct (hybrid_decrypt_handle_spec _ _ _ Hw Hx) as (_ & l2 & Hkw2 & HS). cbn [kh_keyset] in Hkw2, HS.
  assert (l2 = l') by (refine (keys_with_fun _ _ _ _ _ _ _ _ Hkw2 Hkw); congruence). subst l2.
  intros ct ad. eapply cc_first; [exact H2 | | exact (HS ct ad)]. intros k p q body H. apply H.
Qed.

Theorem hybrid_encrypt_over_cc_ok : forall w env r ks l, configured w env Hybrid r -> cc_keyset ClsHybridEncrypt (cw_hybrid_encrypt w) ks l ->
  exists a, handle_primitive r (mk_handle ks) ClsHybridEncrypt = Ok (PrimHybridEncrypt a) /\ hybrid_encrypt_over_cc ks l a.
Proof.
  intros w env r ks l Hc (Hv & Hl & Hpf).
  assert (Hw : dict_get pclass_eqb ClsHybridEncrypt (r_wrappers r) = Some hybrid_encrypt_wrapper)
    by (apply (configured_wrapper _ _ _ _ _ _ Hc); [cbn; tauto | reflexivity]).
  destruct (lift_keys w env Hybrid r Hc ClsHybridEncrypt (cw_hybrid_encrypt w) PrimHybridEncrypt
    (fun q a => forall r pt ci, answers (he_encrypt a r pt ci) (che_encrypt q r pt ci))
    ltac:(one_package) ltac:(cbn; intuition discriminate) (fun d x H => H) ks l Hl) as (l' & Hkw & H2).
  assert (HQ : exists x, handle_primitive r (mk_handle ks) ClsHybridEncrypt = Ok x).
  { apply (handle_primitive_iff_gen _ PrimHybridEncrypt r (mk_handle ks) _ hybrid_encrypt_wrapper _ he_inj (fun _ => eq_refl)
      (fun _ => eq_refl) Hw). split; [exact Hv |]. split; [exists l'; exact Hkw | exact Hpf]. }
  destruct HQ as (x & Hx).
  assert (Ha : exists a, x = PrimHybridEncrypt a).
  { destruct (handle_kind _ _ _ _ _ Hw Hx) as (ps & Hps). cbn in Hps. apply ok_inj in Hps. eauto. }
  destruct Ha as (a & ->). exists a. split; [exact Hx |].
  destruct (hybrid_encrypt_handle_spec _ _ _ Hw Hx) as (_ & l2 & Hkw2 & HS). cbn [kh_keyset] in Hkw2, HS.
  assert (l2 = l') by (refine (keys_with_fun _ _ _ _ _ _ _ _ Hkw2 Hkw); congruence). subst l2.
  destruct HS as (He & Hn). split.
  - intros k q Hp rnd pt ad. destruct (paired_primary _ _ _ _ _ _ _ _ H2 Hp) as (p & Hp' & H).
    exact (prefixed_answers _ _ _ _ (H rnd pt ad) (He k p Hp' rnd pt ad)).
  - intros Hno. exact (Hn (paired_no_primary _ _ _ _ _ _ H2 Hno)).
Qed.
