(** Further proofs about wrapped primitives: round trips through the public
    handle (C09, C10), rotation for the other primitives (C05, C07-C10), and
    "only TinkError" for all of them (C12). *)
From Coq Require Import Strings.Byte Strings.String List NArith ZArith Bool Lia.
From Verif Require Import M_Base M_Proto M_Wire M_Prims M_PrimitiveSet M_Registry
  M_KeysetHandle M_Wrappers S_Keyset S_Handle L_Base L_PrimitiveSet L_Keyset L_Wrappers
  L_Wrappers2 L_Handle.
Import ListNotations.
Open Scope list_scope.

(** ** Public counterparts *)

Lemma public_data_of_fun : forall reg k d1 d2,
  public_data_of reg k d1 -> public_data_of reg k d2 -> d1 = d2.
Proof.
  intros reg k d1 d2 (_ & km1 & b1 & f1 & H1 & F1 & E1) (_ & km2 & b2 & f2 & H2 & F2 & E2).
  congruence.
Qed.

Lemma public_counterpart_fun : forall reg k p1 p2,
  public_counterpart reg k p1 -> public_counterpart reg k p2 -> p1 = p2.
Proof.
  intros reg k p1 p2 ((d1 & H1 & D1) & S1 & I1 & T1) ((d2 & H2 & D2) & S2 & I2 & T2).
  pose proof (public_data_of_fun _ _ _ _ D1 D2) as <-.
  destruct p1, p2; cbn in *; congruence.
Qed.

Lemma Forall2_in_l : forall A B (R : A -> B -> Prop) l m x,
  Forall2 R l m -> In x l -> exists y, In y m /\ R x y.
Proof.
  intros A B R l m x H. induction H as [| a b l m Hab H IH]; intros Hi; [destruct Hi |].
  destruct Hi as [-> | Hi]; [exists b | destruct (IH Hi) as (y & Hy & HR); exists y];
    simpl; auto.
Qed.

Lemma enabled_in : forall k ks, In k (enabled_keys ks) <-> In k (ks_key ks) /\ k_status k = ENABLED.
Proof.
  intros k ks. unfold enabled_keys. rewrite filter_In. unfold is_enabled.
  rewrite Z.eqb_eq. tauto.
Qed.

Lemma public_primary : forall reg h ph k pk,
  public_keyset_handle reg h = Ok ph ->
  In k (enabled_keys (kh_keyset h)) ->
  k_key_id k = ks_primary_key_id (kh_keyset h) ->
  public_counterpart reg k pk ->
  In pk (enabled_keys (kh_keyset ph)) /\ k_key_id pk = ks_primary_key_id (kh_keyset ph).
Proof.
  intros reg h ph k pk Hph Hk Hid Hc.
  apply public_keyset_handle_ok in Hph. destruct Hph as (Hpid & Hf2 & _ & _).
  apply enabled_in in Hk. destruct Hk as [Hk Hs].
  destruct (Forall2_in_l _ _ _ _ _ _ Hf2 Hk) as (pk' & Hi & Hc').
  pose proof (public_counterpart_fun _ _ _ _ Hc Hc') as <-.
  destruct Hc as (_ & Es & Ei & _). split; [apply enabled_in; split; [assumption | congruence] |].
  congruence.
Qed.

(** ** Hybrid encryption round trip (C10) *)

Theorem hybrid_round_trip : forall reg h ph enc dec,
  dict_get pclass_eqb ClsHybridEncrypt (r_wrappers reg) = Some hybrid_encrypt_wrapper ->
  dict_get pclass_eqb ClsHybridDecrypt (r_wrappers reg) = Some hybrid_decrypt_wrapper ->
  public_keyset_handle reg h = Ok ph ->
  handle_primitive reg ph ClsHybridEncrypt = Ok (PrimHybridEncrypt enc) ->
  handle_primitive reg h ClsHybridDecrypt = Ok (PrimHybridDecrypt dec) ->
  forall k pk pe pd,
    In k (enabled_keys (kh_keyset h)) -> k_key_id k = ks_primary_key_id (kh_keyset h) ->
    public_counterpart reg k pk ->
    key_provides reg ClsHybridEncrypt pk (PrimHybridEncrypt pe) ->
    key_provides reg ClsHybridDecrypt k (PrimHybridDecrypt pd) ->
  forall r pt ci c ct,
    he_encrypt pe r pt ci = Ok c -> c <> [] -> hd_decrypt pd c ci = Ok pt ->
    he_encrypt enc r pt ci = Ok ct ->
    (forall k' p' body, In k' (enabled_keys (kh_keyset h)) -> k' <> k ->
       key_provides reg ClsHybridDecrypt k' (PrimHybridDecrypt p') -> reaches k' ct body ->
       raises_tink (hd_decrypt p' body ci)) ->
    hd_decrypt dec ct ci = Ok pt.
Proof.
  intros reg h ph enc dec Hwe Hwd Hph Hhe Hhd k pk pe pd Hk Hid Hc Hpe Hpd
    r pt ci c ct He Hne Hd Hct Ho.
  destruct (public_primary _ _ _ _ _ Hph Hk Hid Hc) as [Hpk Hpid].
  destruct (hybrid_encrypt_handle_spec _ _ _ Hwe Hhe) as (_ & le & Hkwe & Hee & _).
  destruct (hybrid_decrypt_handle_spec _ _ _ Hwd Hhd) as (_ & ld & Hkwd & Hdd).
  pose proof (handle_primitive_prefixes _ _ _ _ _ Hwd Hhd) as Hpf.
  assert (Hi : In (pk, pe) le) by (apply (law_in _ _ _ _ _ PrimHybridEncrypt_inj Hkwe); auto).
  destruct (Hee pk pe (conj Hi Hpid) r pt ci) as (q & Hq & Hfull).
  rewrite Hct, He in Hfull. apply ok_inj in Hfull. subst ct.
  destruct Hc as (_ & _ & Ei & Et). rewrite Ei, Et in Hq.
  eapply (law_single _ _ _ _ _ PrimHybridDecrypt_inj Hkwd Hpf
            (fun _ p body => hd_decrypt p body ci)); eauto.
  apply produced_reaches; auto.
Qed.

(** ** Signature round trip (C09) *)

Theorem signature_round_trip : forall reg h ph sg vf,
  dict_get pclass_eqb ClsSign (r_wrappers reg) = Some public_key_sign_wrapper ->
  dict_get pclass_eqb ClsVerify (r_wrappers reg) = Some public_key_verify_wrapper ->
  public_keyset_handle reg h = Ok ph ->
  handle_primitive reg h ClsSign = Ok (PrimSign sg) ->
  handle_primitive reg ph ClsVerify = Ok (PrimVerify vf) ->
  (forall k p s data, In k (enabled_keys (kh_keyset ph)) ->
     key_provides reg ClsVerify k (PrimVerify p) -> tink_total (verify p s data)) ->
  forall k pk ps pv,
    In k (enabled_keys (kh_keyset h)) -> k_key_id k = ks_primary_key_id (kh_keyset h) ->
    public_counterpart reg k pk ->
    key_provides reg ClsSign k (PrimSign ps) ->
    key_provides reg ClsVerify pk (PrimVerify pv) ->
    (forall r data s, sign ps r data = Ok s -> verify pv s data = Ok tt /\ (5 < length s)%nat) ->
  forall r data s, sign sg r data = Ok s -> verify vf s data = Ok tt.
Proof.
  intros reg h ph sg vf Hws Hwv Hph Hhs Hhv Htot k pk ps pv Hk Hid Hc Hps Hpv Hrt r data s Hs.
  destruct (public_primary _ _ _ _ _ Hph Hk Hid Hc) as [Hpk Hpid].
  apply (signature_verify_iff _ _ _ Hwv Hhv Htot).
  destruct (sign_handle_spec _ _ _ Hws Hhs) as (_ & l & Hkw & Hss & _).
  assert (Hi : In (k, ps) l) by (apply (law_in _ _ _ _ _ PrimSign_inj Hkw); auto).
  destruct (Hss k ps (conj Hi Hid) r data) as (q & Hq & Hfull). rewrite Hs in Hfull.
  destruct (sign ps r (legacy_data k data)) as [t | e] eqn:Et; [| discriminate].
  apply ok_inj in Hfull. subst s. destruct (Hrt _ _ _ Et) as [Hver Hlen].
  split; [rewrite app_length; lia |].
  destruct Hc as (_ & _ & Ei & Ety).
  exists pk, pv, t. split; [assumption |]. split; [assumption |]. split.
  - apply produced_reaches; [rewrite Ei, Ety; assumption |]. intros ->. simpl in Hlen. lia.
  - unfold legacy_data in *. rewrite Ety. assumption.
Qed.

(** ** Only TinkErrors (C12) *)

Section Total.
  Context {P : Type} (inj : P -> prim) (reg : registry) (c : pclass) (ks : keyset)
    (l : list (key * P)).
  Hypothesis inj_inj : forall a b, inj a = inj b -> a = b.
  Hypothesis Hkw : keys_with inj reg c ks l.

  Lemma primary_op_total : forall (own : key -> P -> result bytes) (full : result bytes),
    (forall k p, is_primary ks l k p -> with_prefix_of k (own k p) full) ->
    ((forall k p, ~ is_primary ks l k p) -> raises_tink full) ->
    (forall k p, In k (enabled_keys ks) -> key_provides reg c k (inj p) -> tink_total (own k p)) ->
    tink_total full.
  Proof.
    intros own full He Hn Htot.
    destruct (find (fun kp => N.eqb (k_key_id (fst kp)) (ks_primary_key_id ks)) l)
      as [[k p] |] eqn:E.
    - apply find_some in E. destruct E as [Hi Hid]. simpl in Hid. apply N.eqb_eq in Hid.
      destruct (He k p (conj Hi Hid)) as (q & _ & Hfull). rewrite Hfull.
      apply (law_in _ _ _ _ _ inj_inj Hkw) in Hi. destruct Hi as [Hi Hp].
      pose proof (Htot k p Hi Hp) as Ht. destruct (own k p); exact Ht.
    - destruct Hn as (e & -> & Ht).
      + intros k p [Hi Hid]. apply (find_none _ _ E) in Hi. simpl in Hi.
        apply N.eqb_neq in Hi. congruence.
      + exact Ht.
  Qed.
End Total.

Theorem daead_only_tink_errors : forall reg h a,
  dict_get pclass_eqb ClsDaead (r_wrappers reg) = Some daead_wrapper ->
  handle_primitive reg h ClsDaead = Ok (PrimDaead a) ->
  (forall k p, In k (enabled_keys (kh_keyset h)) -> key_provides reg ClsDaead k (PrimDaead p) ->
     (forall pt ad, tink_total (daead_encrypt p pt ad)) /\
     (forall ct ad, tink_total (daead_decrypt p ct ad))) ->
  (forall pt ad, tink_total (daead_encrypt a pt ad)) /\
  (forall ct ad, tink_total (daead_decrypt a ct ad)).
Proof.
  intros reg h a Hw Hh Htot.
  destruct (daead_handle_spec _ _ _ Hw Hh) as (Hv & l & Hkw & Hd & He & Hn).
  pose proof (handle_primitive_prefixes _ _ _ _ _ Hw Hh) as Hpf. split.
  - intros pt ad.
    apply (primary_op_total _ _ _ _ _ PrimDaead_inj Hkw (fun _ p => daead_encrypt p pt ad));
      auto.
    intros k p Hk Hp. apply (Htot k p Hk Hp).
  - intros ct ad.
    eapply (law_iff _ _ _ _ _ PrimDaead_inj Hkw Hpf); [| apply Hd].
    intros k p body Hk Hp _. simpl. apply (Htot k p Hk Hp).
Qed.

Theorem mac_only_tink_errors : forall reg h a,
  dict_get pclass_eqb ClsMac (r_wrappers reg) = Some mac_wrapper ->
  handle_primitive reg h ClsMac = Ok (PrimMac a) ->
  (forall k p, In k (enabled_keys (kh_keyset h)) -> key_provides reg ClsMac k (PrimMac p) ->
     (forall data, tink_total (mac_compute p data)) /\
     (forall tag data, tink_total (mac_verify p tag data))) ->
  (forall data, tink_total (mac_compute a data)) /\
  (forall tag data, tink_total (mac_verify a tag data)).
Proof.
  intros reg h a Hw Hh Htot.
  destruct (mac_handle_spec _ _ _ Hw Hh) as (Hv & l & Hkw & _ & _ & He & Hn). split.
  - intros data.
    apply (primary_op_total _ _ _ _ _ PrimMac_inj Hkw
             (fun k p => mac_compute p (legacy_data k data))); auto.
    intros k p Hk Hp. apply (Htot k p Hk Hp).
  - intros tag data. apply (mac_verify_iff _ _ _ Hw Hh). intros k p t d Hk Hp.
    apply (Htot k p Hk Hp).
Qed.

Theorem sign_only_tink_errors : forall reg h a,
  dict_get pclass_eqb ClsSign (r_wrappers reg) = Some public_key_sign_wrapper ->
  handle_primitive reg h ClsSign = Ok (PrimSign a) ->
  (forall k p, In k (enabled_keys (kh_keyset h)) -> key_provides reg ClsSign k (PrimSign p) ->
     forall r data, tink_total (sign p r data)) ->
  forall r data, tink_total (sign a r data).
Proof.
  intros reg h a Hw Hh Htot r data.
  destruct (sign_handle_spec _ _ _ Hw Hh) as (Hv & l & Hkw & He & Hn).
  apply (primary_op_total _ _ _ _ _ PrimSign_inj Hkw (fun k p => sign p r (legacy_data k data)));
    auto.
  intros k p Hk Hp. apply (Htot k p Hk Hp).
Qed.

Theorem verify_only_tink_errors : forall reg h a,
  dict_get pclass_eqb ClsVerify (r_wrappers reg) = Some public_key_verify_wrapper ->
  handle_primitive reg h ClsVerify = Ok (PrimVerify a) ->
  (forall k p, In k (enabled_keys (kh_keyset h)) -> key_provides reg ClsVerify k (PrimVerify p) ->
     forall s data, tink_total (verify p s data)) ->
  forall s data, tink_total (verify a s data).
Proof.
  intros reg h a Hw Hh Htot s data. apply (signature_verify_iff _ _ _ Hw Hh). eauto.
Qed.

Theorem hybrid_encrypt_only_tink_errors : forall reg h a,
  dict_get pclass_eqb ClsHybridEncrypt (r_wrappers reg) = Some hybrid_encrypt_wrapper ->
  handle_primitive reg h ClsHybridEncrypt = Ok (PrimHybridEncrypt a) ->
  (forall k p, In k (enabled_keys (kh_keyset h)) ->
     key_provides reg ClsHybridEncrypt k (PrimHybridEncrypt p) ->
     forall r pt ci, tink_total (he_encrypt p r pt ci)) ->
  forall r pt ci, tink_total (he_encrypt a r pt ci).
Proof.
  intros reg h a Hw Hh Htot r pt ci.
  destruct (hybrid_encrypt_handle_spec _ _ _ Hw Hh) as (Hv & l & Hkw & He & Hn).
  apply (primary_op_total _ _ _ _ _ PrimHybridEncrypt_inj Hkw (fun _ p => he_encrypt p r pt ci));
    auto.
  intros k p Hk Hp. apply (Htot k p Hk Hp).
Qed.

Theorem hybrid_decrypt_only_tink_errors : forall reg h a,
  dict_get pclass_eqb ClsHybridDecrypt (r_wrappers reg) = Some hybrid_decrypt_wrapper ->
  handle_primitive reg h ClsHybridDecrypt = Ok (PrimHybridDecrypt a) ->
  (forall k p, In k (enabled_keys (kh_keyset h)) ->
     key_provides reg ClsHybridDecrypt k (PrimHybridDecrypt p) ->
     forall ct ci, tink_total (hd_decrypt p ct ci)) ->
  forall ct ci, tink_total (hd_decrypt a ct ci).
Proof.
  intros reg h a Hw Hh Htot ct ci.
  destruct (hybrid_decrypt_handle_spec _ _ _ Hw Hh) as (Hv & l & Hkw & Hd).
  pose proof (handle_primitive_prefixes _ _ _ _ _ Hw Hh) as Hpf.
  eapply (law_iff _ _ _ _ _ PrimHybridDecrypt_inj Hkw Hpf); [| apply Hd].
  intros k p body Hk Hp _. simpl. eauto.
Qed.

(** Getting the primitive itself raises only TinkError, when the managers and the
    wrapper do. *)
Theorem handle_primitive_only_tink_errors : forall reg h c,
  (forall k, In k (ks_key (kh_keyset h)) -> (k_key_id k < 2 ^ 32)%N) ->
  (forall k km b, In k (enabled_keys (kh_keyset h)) ->
     dict_get str_eqb (kd_type_url (k_key_data k)) (r_key_managers reg) = Some (km, b) ->
     tink_total (km_primitive km (k_key_data k))) ->
  (forall w ps, dict_get pclass_eqb c (r_wrappers reg) = Some w -> tink_total (w_wrap w ps)) ->
  tink_total (handle_primitive reg h c).
Proof.
  intros reg h c Hid Hkm Hw. unfold handle_primitive.
  destruct (validate_keyset (kh_keyset h)) as [[] | e] eqn:Hv; cbn [bind].
  2: { simpl. eapply validate_keyset_err; eauto. }
  unfold registry_input_primitive_class, registry_wrap.
  destruct (dict_get pclass_eqb c (r_wrappers reg)) as [w |]; cbn [bind]; [| reflexivity].
  destruct (add_key_primitives reg (w_input_primitive_class w) (ks_primary_key_id (kh_keyset h))
              (new_primitive_set (w_input_primitive_class w)) (ks_key (kh_keyset h)))
    as [ps | e] eqn:Ha; cbn [bind].
  - destruct (negb (pclass_eqb (ps_primitive_class ps) (w_input_primitive_class w)));
      [reflexivity | auto].
  - simpl. apply add_key_primitives_err in Ha. destruct Ha as (k & ps' & Hk & Ha).
    unfold add_key_primitive in Ha.
    destruct (Z.eqb_spec (k_status k) ENABLED) as [Hs | Hs]; [| discriminate].
    apply bind_err in Ha. destruct Ha as [Ha | (p & _ & Ha)].
    + unfold registry_primitive, registry_key_manager, key_manager_internal in Ha.
      destruct (dict_get str_eqb (kd_type_url (k_key_data k)) (r_key_managers reg))
        as [[km b] |] eqn:Hg; cbn [bind fst] in Ha.
      * destruct (negb (pclass_eqb (km_primitive_class km) (w_input_primitive_class w))).
        -- injection Ha as <-. reflexivity.
        -- assert (Hk' : In k (enabled_keys (kh_keyset h))) by (apply enabled_in; auto).
           pose proof (Hkm k km b Hk' Hg) as Ht. rewrite Ha in Ht. exact Ht.
      * injection Ha as <-. reflexivity.
    + apply bind_err in Ha. destruct Ha as [Ha | ([ps2 e2] & _ & Ha)]; [| discriminate].
      unfold add_primitive in Ha.
      destruct (negb (isinstance p (ps_primitive_class ps'))).
      * injection Ha as <-. reflexivity.
      * apply bind_err in Ha. destruct Ha as [Ha | (q & _ & Ha)]; [| discriminate].
        destruct (output_prefix_err _ _ Ha) as [He | He]; auto.
        specialize (Hid k Hk). lia.
Qed.

(** ** Rotation for the other primitives *)

Lemma rotation_gen : forall P A (inj : P -> prim) reg c ks1 ks2 (l1 l2 : list (key * P)) added
    (f : key -> P -> bytes -> result A) x r1 r2,
  (forall a b, inj a = inj b -> a = b) ->
  keys_with inj reg c ks1 l1 -> keys_with inj reg c ks2 l2 ->
  Forall (fun k => exists q, has_prefix (k_output_prefix_type k) (k_key_id k) q) (enabled_keys ks2) ->
  interleave (enabled_keys ks1) added (enabled_keys ks2) ->
  first_ok (attempts l1 x f) r1 -> first_ok (attempts l2 x f) r2 ->
  (forall k p body, In k added -> key_provides reg c k (inj p) -> reaches k x body ->
     raises_tink (f k p body)) ->
  same_outcome r1 r2.
Proof.
  intros P A inj reg c ks1 ks2 l1 l2 added f x r1 r2 Hinj Hk1 Hk2 Hq2 Hil Hd1 Hd2 Hadd.
  pose proof Hk1 as [Hl1 Hf1]. pose proof Hk2 as [Hl2 Hf2].
  destruct (interleave_lift _ inj reg c _ _ _ Hinj Hil l1 l2 Hl1 Hf1 Hl2 Hf2)
    as (la & Hla & Hfa & Hi).
  assert (Hq : Forall (fun kp : key * P => exists q,
            has_prefix (k_output_prefix_type (fst kp)) (k_key_id (fst kp)) q) la).
  { apply (Forall_map_fst P (fun k => exists q, has_prefix (k_output_prefix_type k) (k_key_id k) q)).
    rewrite Hla. rewrite Forall_forall in *.
    intros k Hk. apply Hq2. clear - Hil Hk. induction Hil; simpl in *; intuition. }
  assert (Hx : first_ok (attempts l2 x f) r1).
  { eapply interleave_first_ok; [| | exact Hd1].
    - apply attempts_interleave. exact Hi.
    - rewrite Forall_forall. intros r Hr. apply attempts_in in Hr; auto.
      destruct Hr as (k & p & body & Hin & Hre & ->). apply (Hadd k); auto.
      + rewrite <- Hla. change k with (fst (k, p)). apply in_map. assumption.
      + rewrite Forall_forall in Hfa. apply (Hfa (k, p)). assumption. }
  destruct (first_ok_fun _ _ _ _ Hx Hd2) as [-> | (e & e' & -> & -> & He & He')].
  - left. reflexivity.
  - right. split; eexists; eauto.
Qed.

Theorem daead_rotation : forall reg h1 h2 a1 a2 added,
  dict_get pclass_eqb ClsDaead (r_wrappers reg) = Some daead_wrapper ->
  handle_primitive reg h1 ClsDaead = Ok (PrimDaead a1) ->
  handle_primitive reg h2 ClsDaead = Ok (PrimDaead a2) ->
  interleave (enabled_keys (kh_keyset h1)) added (enabled_keys (kh_keyset h2)) ->
  forall ct ad,
  (forall k p body, In k added -> key_provides reg ClsDaead k (PrimDaead p) -> reaches k ct body ->
     raises_tink (daead_decrypt p body ad)) ->
  same_outcome (daead_decrypt a1 ct ad) (daead_decrypt a2 ct ad).
Proof.
  intros reg h1 h2 a1 a2 added Hw H1 H2 Hil ct ad Hadd.
  destruct (daead_handle_spec _ _ _ Hw H1) as (_ & l1 & Hk1 & Hd1 & _).
  destruct (daead_handle_spec _ _ _ Hw H2) as (_ & l2 & Hk2 & Hd2 & _).
  exact (rotation_gen _ _ _ _ _ _ _ _ _ _ (fun _ p body => daead_decrypt p body ad) _ _ _
           PrimDaead_inj Hk1 Hk2 (handle_primitive_prefixes _ _ _ _ _ Hw H2) Hil
           (Hd1 ct ad) (Hd2 ct ad) Hadd).
Qed.

Theorem hybrid_rotation : forall reg h1 h2 a1 a2 added,
  dict_get pclass_eqb ClsHybridDecrypt (r_wrappers reg) = Some hybrid_decrypt_wrapper ->
  handle_primitive reg h1 ClsHybridDecrypt = Ok (PrimHybridDecrypt a1) ->
  handle_primitive reg h2 ClsHybridDecrypt = Ok (PrimHybridDecrypt a2) ->
  interleave (enabled_keys (kh_keyset h1)) added (enabled_keys (kh_keyset h2)) ->
  forall ct ci,
  (forall k p body, In k added -> key_provides reg ClsHybridDecrypt k (PrimHybridDecrypt p) ->
     reaches k ct body -> raises_tink (hd_decrypt p body ci)) ->
  same_outcome (hd_decrypt a1 ct ci) (hd_decrypt a2 ct ci).
Proof.
  intros reg h1 h2 a1 a2 added Hw H1 H2 Hil ct ad Hadd.
  destruct (hybrid_decrypt_handle_spec _ _ _ Hw H1) as (_ & l1 & Hk1 & Hd1).
  destruct (hybrid_decrypt_handle_spec _ _ _ Hw H2) as (_ & l2 & Hk2 & Hd2).
  exact (rotation_gen _ _ _ _ _ _ _ _ _ _ (fun _ p body => hd_decrypt p body ad) _ _ _
           PrimHybridDecrypt_inj Hk1 Hk2 (handle_primitive_prefixes _ _ _ _ _ Hw H2) Hil
           (Hd1 ct ad) (Hd2 ct ad) Hadd).
Qed.

Theorem mac_rotation : forall reg h1 h2 a1 a2 added,
  dict_get pclass_eqb ClsMac (r_wrappers reg) = Some mac_wrapper ->
  handle_primitive reg h1 ClsMac = Ok (PrimMac a1) ->
  handle_primitive reg h2 ClsMac = Ok (PrimMac a2) ->
  interleave (enabled_keys (kh_keyset h1)) added (enabled_keys (kh_keyset h2)) ->
  forall tag data,
  (forall k p body, In k added -> key_provides reg ClsMac k (PrimMac p) ->
     reaches k tag body -> raises_tink (mac_verify p body (legacy_data k data))) ->
  same_outcome (mac_verify a1 tag data) (mac_verify a2 tag data).
Proof.
  intros reg h1 h2 a1 a2 added Hw H1 H2 Hil tag data Hadd.
  destruct (mac_handle_spec _ _ _ Hw H1) as (_ & l1 & Hk1 & Hs1 & Hd1 & _).
  destruct (mac_handle_spec _ _ _ Hw H2) as (_ & l2 & Hk2 & Hs2 & Hd2 & _).
  destruct (Nat.le_gt_cases (length tag) 5) as [Hl | Hl]; [right; auto |].
  exact (rotation_gen _ _ _ _ _ _ _ _ _ _ (fun k p body => mac_verify p body (legacy_data k data))
           _ _ _ PrimMac_inj Hk1 Hk2 (handle_primitive_prefixes _ _ _ _ _ Hw H2) Hil
           (Hd1 tag data Hl) (Hd2 tag data Hl) Hadd).
Qed.

Theorem verify_rotation : forall reg h1 h2 a1 a2 added,
  dict_get pclass_eqb ClsVerify (r_wrappers reg) = Some public_key_verify_wrapper ->
  handle_primitive reg h1 ClsVerify = Ok (PrimVerify a1) ->
  handle_primitive reg h2 ClsVerify = Ok (PrimVerify a2) ->
  interleave (enabled_keys (kh_keyset h1)) added (enabled_keys (kh_keyset h2)) ->
  forall sg data,
  (forall k p body, In k added -> key_provides reg ClsVerify k (PrimVerify p) ->
     reaches k sg body -> raises_tink (verify p body (legacy_data k data))) ->
  same_outcome (verify a1 sg data) (verify a2 sg data).
Proof.
  intros reg h1 h2 a1 a2 added Hw H1 H2 Hil tag data Hadd.
  destruct (verify_handle_spec _ _ _ Hw H1) as (_ & l1 & Hk1 & Hs1 & Hd1).
  destruct (verify_handle_spec _ _ _ Hw H2) as (_ & l2 & Hk2 & Hs2 & Hd2).
  destruct (Nat.le_gt_cases (length tag) 5) as [Hl | Hl]; [right; auto |].
  exact (rotation_gen _ _ _ _ _ _ _ _ _ _ (fun k p body => verify p body (legacy_data k data))
           _ _ _ PrimVerify_inj Hk1 Hk2 (handle_primitive_prefixes _ _ _ _ _ Hw H2) Hil
           (Hd1 tag data Hl) (Hd2 tag data Hl) Hadd).
Qed.

(** Whatever the registered wrapper of a class returns is a primitive of that
    class, so the typed statements above cover every successful call. *)
Lemma result_is : forall P (inj : P -> prim) reg h c w Q,
  dict_get pclass_eqb c (r_wrappers reg) = Some w ->
  (forall ps q, w_wrap w ps = Ok q -> exists a, q = inj a) ->
  handle_primitive reg h c = Ok Q -> exists a, Q = inj a.
Proof.
  intros P inj reg h c w Q Hw Hi H. apply (handle_primitive_ok _ _ _ _ _ Hw) in H.
  destruct H as (_ & l & _ & _ & Hq). eauto.
Qed.

Theorem handle_primitive_typed_result : forall reg h Q,
  (dict_get pclass_eqb ClsAead (r_wrappers reg) = Some aead_wrapper ->
   handle_primitive reg h ClsAead = Ok Q -> exists a, Q = PrimAead a) /\
  (dict_get pclass_eqb ClsDaead (r_wrappers reg) = Some daead_wrapper ->
   handle_primitive reg h ClsDaead = Ok Q -> exists a, Q = PrimDaead a) /\
  (dict_get pclass_eqb ClsMac (r_wrappers reg) = Some mac_wrapper ->
   handle_primitive reg h ClsMac = Ok Q -> exists a, Q = PrimMac a) /\
  (dict_get pclass_eqb ClsSign (r_wrappers reg) = Some public_key_sign_wrapper ->
   handle_primitive reg h ClsSign = Ok Q -> exists a, Q = PrimSign a) /\
  (dict_get pclass_eqb ClsVerify (r_wrappers reg) = Some public_key_verify_wrapper ->
   handle_primitive reg h ClsVerify = Ok Q -> exists a, Q = PrimVerify a) /\
  (dict_get pclass_eqb ClsHybridEncrypt (r_wrappers reg) = Some hybrid_encrypt_wrapper ->
   handle_primitive reg h ClsHybridEncrypt = Ok Q -> exists a, Q = PrimHybridEncrypt a) /\
  (dict_get pclass_eqb ClsHybridDecrypt (r_wrappers reg) = Some hybrid_decrypt_wrapper ->
   handle_primitive reg h ClsHybridDecrypt = Ok Q -> exists a, Q = PrimHybridDecrypt a) /\
  (dict_get pclass_eqb ClsPrfSet (r_wrappers reg) = Some prf_set_wrapper ->
   handle_primitive reg h ClsPrfSet = Ok Q -> exists i a p, Q = PrimPrfSet i a p).
Proof.
  intros reg h Q.
  repeat match goal with |- _ /\ _ => split end; intros Hw H;
    try (eapply result_is; [exact Hw | | exact H]; cbn;
         intros ps q E; apply ok_inj in E; subst q; eauto).
  apply (handle_primitive_ok _ _ _ _ _ Hw) in H. destruct H as (_ & l & _ & _ & Hq).
  cbn [w_wrap prf_set_wrapper] in Hq. apply bind_ok in Hq. destruct Hq as (u & _ & E).
  apply ok_inj in E. subst. eauto.
Qed.

(** When getting the primitive succeeds: the keyset is valid, every ENABLED key has
    a primitive of the class and a known prefix type. *)
Theorem handle_primitive_iff : forall reg h,
  (dict_get pclass_eqb ClsAead (r_wrappers reg) = Some aead_wrapper ->
   ((exists Q, handle_primitive reg h ClsAead = Ok Q) <->
    valid_keyset (kh_keyset h) /\
    (exists l, keys_with PrimAead reg ClsAead (kh_keyset h) l) /\
    Forall (fun k => exists q, has_prefix (k_output_prefix_type k) (k_key_id k) q)
      (enabled_keys (kh_keyset h)))) /\
  (dict_get pclass_eqb ClsDaead (r_wrappers reg) = Some daead_wrapper ->
   ((exists Q, handle_primitive reg h ClsDaead = Ok Q) <->
    valid_keyset (kh_keyset h) /\
    (exists l, keys_with PrimDaead reg ClsDaead (kh_keyset h) l) /\
    Forall (fun k => exists q, has_prefix (k_output_prefix_type k) (k_key_id k) q)
      (enabled_keys (kh_keyset h)))) /\
  (dict_get pclass_eqb ClsMac (r_wrappers reg) = Some mac_wrapper ->
   ((exists Q, handle_primitive reg h ClsMac = Ok Q) <->
    valid_keyset (kh_keyset h) /\
    (exists l, keys_with PrimMac reg ClsMac (kh_keyset h) l) /\
    Forall (fun k => exists q, has_prefix (k_output_prefix_type k) (k_key_id k) q)
      (enabled_keys (kh_keyset h)))) /\
  (dict_get pclass_eqb ClsSign (r_wrappers reg) = Some public_key_sign_wrapper ->
   ((exists Q, handle_primitive reg h ClsSign = Ok Q) <->
    valid_keyset (kh_keyset h) /\
    (exists l, keys_with PrimSign reg ClsSign (kh_keyset h) l) /\
    Forall (fun k => exists q, has_prefix (k_output_prefix_type k) (k_key_id k) q)
      (enabled_keys (kh_keyset h)))) /\
  (dict_get pclass_eqb ClsVerify (r_wrappers reg) = Some public_key_verify_wrapper ->
   ((exists Q, handle_primitive reg h ClsVerify = Ok Q) <->
    valid_keyset (kh_keyset h) /\
    (exists l, keys_with PrimVerify reg ClsVerify (kh_keyset h) l) /\
    Forall (fun k => exists q, has_prefix (k_output_prefix_type k) (k_key_id k) q)
      (enabled_keys (kh_keyset h)))) /\
  (dict_get pclass_eqb ClsHybridEncrypt (r_wrappers reg) = Some hybrid_encrypt_wrapper ->
   ((exists Q, handle_primitive reg h ClsHybridEncrypt = Ok Q) <->
    valid_keyset (kh_keyset h) /\
    (exists l, keys_with PrimHybridEncrypt reg ClsHybridEncrypt (kh_keyset h) l) /\
    Forall (fun k => exists q, has_prefix (k_output_prefix_type k) (k_key_id k) q)
      (enabled_keys (kh_keyset h)))) /\
  (dict_get pclass_eqb ClsHybridDecrypt (r_wrappers reg) = Some hybrid_decrypt_wrapper ->
   ((exists Q, handle_primitive reg h ClsHybridDecrypt = Ok Q) <->
    valid_keyset (kh_keyset h) /\
    (exists l, keys_with PrimHybridDecrypt reg ClsHybridDecrypt (kh_keyset h) l) /\
    Forall (fun k => exists q, has_prefix (k_output_prefix_type k) (k_key_id k) q)
      (enabled_keys (kh_keyset h)))).
Proof.
  intros reg h. repeat match goal with |- _ /\ _ => split end; intros Hw.
  - exact (handle_primitive_iff_gen _ PrimAead reg h _ aead_wrapper _ aead_inj (fun _ => eq_refl)
             (fun _ => eq_refl) Hw).
  - exact (handle_primitive_iff_gen _ PrimDaead reg h _ daead_wrapper _ daead_inj (fun _ => eq_refl)
             (fun _ => eq_refl) Hw).
  - exact (handle_primitive_iff_gen _ PrimMac reg h _ mac_wrapper _ mac_inj (fun _ => eq_refl)
             (fun _ => eq_refl) Hw).
  - exact (handle_primitive_iff_gen _ PrimSign reg h _ public_key_sign_wrapper _ sign_inj (fun _ => eq_refl)
             (fun _ => eq_refl) Hw).
  - exact (handle_primitive_iff_gen _ PrimVerify reg h _ public_key_verify_wrapper _ verify_inj (fun _ => eq_refl)
             (fun _ => eq_refl) Hw).
  - exact (handle_primitive_iff_gen _ PrimHybridEncrypt reg h _ hybrid_encrypt_wrapper _ he_inj (fun _ => eq_refl)
             (fun _ => eq_refl) Hw).
  - exact (handle_primitive_iff_gen _ PrimHybridDecrypt reg h _ hybrid_decrypt_wrapper _ hd_inj (fun _ => eq_refl)
             (fun _ => eq_refl) Hw).
Qed.
