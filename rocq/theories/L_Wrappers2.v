(** Proofs about the other primitive wrappers. *)
From Coq Require Import Strings.Byte Strings.String List NArith ZArith Bool Lia.
From Verif Require Import M_Base M_Proto M_Prims M_PrimitiveSet M_Registry M_KeysetHandle
  M_Wrappers S_Keyset S_Wrappers S_PrimitiveSet L_Base L_PrimitiveSet L_Keyset L_Wrappers.
Import ListNotations.
Open Scope list_scope.

(** ** Generic laws *)

Section Law.
  Context {P A : Type} (inj : P -> prim) (reg : registry) (c : pclass) (ks : keyset)
    (l : list (key * P)).
  Hypothesis inj_inj : forall a b, inj a = inj b -> a = b.
  Hypothesis Hkw : keys_with inj reg c ks l.
  Hypothesis Hpfx : Forall (fun k => exists q, has_prefix (k_output_prefix_type k) (k_key_id k) q)
                      (enabled_keys ks).

  Lemma law_pfx : Forall (fun kp => exists q,
     has_prefix (k_output_prefix_type (fst kp)) (k_key_id (fst kp)) q) l.
  Proof.
    destruct Hkw as [Hl _]. rewrite <- Hl in Hpfx. exact (Forall_map_fst _ _ _ Hpfx).
  Qed.

  Lemma law_in : forall k p, In (k, p) l <-> In k (enabled_keys ks) /\ key_provides reg c k (inj p).
  Proof.
    destruct Hkw as [Hl Hf]. rewrite Forall_forall in Hf. intros k p. split.
    - intros Hi. split; [| apply (Hf (k, p)); assumption].
      rewrite <- Hl. change k with (fst (k, p)). apply in_map. assumption.
    - intros [Hk Hp]. rewrite <- Hl in Hk. apply in_map_iff in Hk.
      destruct Hk as [[k' p'] [Hkk Hi]]. simpl in Hkk. subst k'.
      pose proof (Hf _ Hi) as Hp'. simpl in Hp'.
      pose proof (key_provides_fun _ _ _ _ _ Hp Hp') as Heq. apply inj_inj in Heq.
      subst. assumption.
  Qed.

  Lemma law_attempt_in : forall (f : key -> P -> bytes -> result A) x r,
    In r (attempts l x f) <->
    exists k p body, In k (enabled_keys ks) /\ key_provides reg c k (inj p) /\
                     reaches k x body /\ r = f k p body.
  Proof.
    intros f x r. rewrite (attempts_in f l x r law_pfx). split.
    - intros (k & p & body & Hi & Hr & Hx). apply law_in in Hi. exists k, p, body. tauto.
    - intros (k & p & body & Hk & Hp & Hr & Hx). exists k, p, body.
      rewrite law_in. tauto.
  Qed.

  Lemma law_sound : forall (f : key -> P -> bytes -> result A) x v,
    first_ok (attempts l x f) (Ok v) ->
    exists k p body, In k (enabled_keys ks) /\ key_provides reg c k (inj p) /\
                     reaches k x body /\ f k p body = Ok v.
  Proof.
    intros f x v H. apply first_ok_ok in H. destruct H as (pre & post & He & _).
    assert (Hi : In (Ok v) (attempts l x f)) by (rewrite He; apply in_or_app; right; left; auto).
    apply law_attempt_in in Hi. destruct Hi as (k & p & body & H1 & H2 & H3 & H4).
    exists k, p, body. auto.
  Qed.

  (** With primitives that return or raise TinkError: success iff some key
      accepts. *)
  Lemma law_iff : forall (f : key -> P -> bytes -> result A) x r,
    (forall k p body, In k (enabled_keys ks) -> key_provides reg c k (inj p) ->
       reaches k x body -> tink_total (f k p body)) ->
    first_ok (attempts l x f) r ->
    ((exists v, r = Ok v) <->
     exists k p body v, In k (enabled_keys ks) /\ key_provides reg c k (inj p) /\
                        reaches k x body /\ f k p body = Ok v) /\
    tink_total r.
  Proof.
    intros f x r Htot Hfo.
    assert (Hall : Forall tink_total (attempts l x f)).
    { rewrite Forall_forall. intros r' Hr'. apply law_attempt_in in Hr'.
      destruct Hr' as (k & p & body & H1 & H2 & H3 & ->). eauto. }
    split; [split |].
    - intros [v ->]. apply law_sound in Hfo. destruct Hfo as (k & p & body & H). 
      exists k, p, body, v. tauto.
    - intros (k & p & body & v & H1 & H2 & H3 & H4).
      destruct (first_ok_some _ _ _ v Hfo Hall) as (v' & Hv & _); [| eauto].
      apply law_attempt_in. exists k, p, body. auto.
    - eapply first_ok_total; eauto.
  Qed.

  Lemma law_single : forall (f : key -> P -> bytes -> result A) x k p body v r,
    In k (enabled_keys ks) -> key_provides reg c k (inj p) -> reaches k x body ->
    f k p body = Ok v ->
    (forall k' p' body', In k' (enabled_keys ks) -> k' <> k ->
       key_provides reg c k' (inj p') -> reaches k' x body' -> raises_tink (f k' p' body')) ->
    first_ok (attempts l x f) r -> r = Ok v.
  Proof.
    intros f x k p body v r Hk Hp Hr Hv Ho Hfo.
    eapply (attempts_single _ _ inj); eauto.
    - apply law_in. auto.
    - intros k' p' body' Hi Hn Hr'. apply law_in in Hi. destruct Hi. eauto.
  Qed.
End Law.

(** A success of some key is enough when the others raise nothing but TinkError
    and the answer carries no information (verification). *)

(** ** Deterministic AEAD *)

Lemma daead_inj : forall p, class_of p = ClsDaead -> exists a, p = PrimDaead a.
Proof. intros []; simpl; intro H; try discriminate. eauto. Qed.
Lemma PrimDaead_inj : forall a b, PrimDaead a = PrimDaead b -> a = b.
Proof. intros. congruence. Qed.

Lemma daead_handle_spec : forall reg h a,
  dict_get pclass_eqb ClsDaead (r_wrappers reg) = Some daead_wrapper ->
  handle_primitive reg h ClsDaead = Ok (PrimDaead a) ->
  valid_keyset (kh_keyset h) /\ exists l, daead_spec reg (kh_keyset h) a l.
Proof.
  intros reg h a Hw Hh.
  destruct (handle_primitive_typed _ PrimDaead _ _ _ daead_wrapper _ daead_inj Hw Hh)
    as (Hv & l & Hk & Hg & HQ).
  cbn [w_input_primitive_class daead_wrapper] in *.
  split; auto. exists l. simpl in HQ. inv HQ. unfold daead_spec; simpl.
  pose proof Hk as [Hl _]. split; [assumption |]. split; [| split].
  - intros ct ad. unfold wrapped_daead_decrypt, NON_RAW_PREFIX_SIZE, body_part, prefix_part.
    eapply (wrapped_try_spec _ _ PrimDaead); eauto.
  - intros k p Hp pt ad. exists (pfx k).
    pose proof (good_in _ _ _ _ _ _ _ Hg (proj1 Hp)) as Hgk.
    split; [eapply pfx_ok; eauto |].
    unfold wrapped_daead_encrypt.
    rewrite (primary_pset_for _ _ _ _ _ _ _ _ Hv Hl Hg Hp). simpl.
    destruct (daead_encrypt p pt ad); reflexivity.
  - intros Hn pt ad. unfold wrapped_daead_encrypt.
    rewrite (no_primary_pset_for _ _ _ _ _ Hn). simpl. eexists. split; reflexivity.
Qed.

Theorem daead_round_trip : forall reg h a,
  dict_get pclass_eqb ClsDaead (r_wrappers reg) = Some daead_wrapper ->
  handle_primitive reg h ClsDaead = Ok (PrimDaead a) ->
  forall k p, In k (enabled_keys (kh_keyset h)) ->
    k_key_id k = ks_primary_key_id (kh_keyset h) ->
    key_provides reg ClsDaead k (PrimDaead p) ->
  forall pt ad c ct,
    daead_encrypt p pt ad = Ok c -> c <> [] -> daead_decrypt p c ad = Ok pt ->
    daead_encrypt a pt ad = Ok ct ->
    (forall k' p' body, In k' (enabled_keys (kh_keyset h)) -> k' <> k ->
       key_provides reg ClsDaead k' (PrimDaead p') -> reaches k' ct body ->
       raises_tink (daead_decrypt p' body ad)) ->
    daead_decrypt a ct ad = Ok pt.
Proof.
  intros reg h a Hw Hh k p Hk Hid Hp pt ad c ct Henc Hne Hdec Hct Ho.
  destruct (daead_handle_spec _ _ _ Hw Hh) as (Hv & l & Hkw & Hd & He & _).
  pose proof (handle_primitive_prefixes _ _ _ _ _ Hw Hh) as Hpf.
  assert (Hi : In (k, p) l) by (apply (law_in _ _ _ _ _ PrimDaead_inj Hkw); auto).
  destruct (He k p (conj Hi Hid) pt ad) as (q & Hq & Hfull).
  rewrite Henc, Hct in Hfull. inv Hfull.
  refine (law_single _ _ _ _ _ PrimDaead_inj Hkw Hpf _ _ k p c _ _ Hk Hp _ _ _ (Hd _ _)); auto.
  apply produced_reaches; auto.
Qed.

(** ** Hybrid *)

Lemma hd_inj : forall p, class_of p = ClsHybridDecrypt -> exists a, p = PrimHybridDecrypt a.
Proof. intros []; simpl; intro H; try discriminate. eauto. Qed.
Lemma PrimHybridDecrypt_inj : forall a b, PrimHybridDecrypt a = PrimHybridDecrypt b -> a = b.
Proof. intros. congruence. Qed.
Lemma he_inj : forall p, class_of p = ClsHybridEncrypt -> exists a, p = PrimHybridEncrypt a.
Proof. intros []; simpl; intro H; try discriminate. eauto. Qed.
Lemma PrimHybridEncrypt_inj : forall a b, PrimHybridEncrypt a = PrimHybridEncrypt b -> a = b.
Proof. intros. congruence. Qed.

Lemma hybrid_decrypt_handle_spec : forall reg h a,
  dict_get pclass_eqb ClsHybridDecrypt (r_wrappers reg) = Some hybrid_decrypt_wrapper ->
  handle_primitive reg h ClsHybridDecrypt = Ok (PrimHybridDecrypt a) ->
  valid_keyset (kh_keyset h) /\ exists l, hybrid_decrypt_spec reg (kh_keyset h) a l.
Proof.
  intros reg h a Hw Hh.
  destruct (handle_primitive_typed _ PrimHybridDecrypt _ _ _ hybrid_decrypt_wrapper _ hd_inj Hw Hh)
    as (Hv & l & Hk & Hg & HQ).
  cbn [w_input_primitive_class hybrid_decrypt_wrapper] in *.
  split; auto. exists l. simpl in HQ. inv HQ. unfold hybrid_decrypt_spec; simpl.
  split; [assumption |].
  intros ct ad. unfold wrapped_hybrid_decrypt, NON_RAW_PREFIX_SIZE, body_part, prefix_part.
  eapply (wrapped_try_spec _ _ PrimHybridDecrypt); eauto.
Qed.

Lemma hybrid_encrypt_handle_spec : forall reg h a,
  dict_get pclass_eqb ClsHybridEncrypt (r_wrappers reg) = Some hybrid_encrypt_wrapper ->
  handle_primitive reg h ClsHybridEncrypt = Ok (PrimHybridEncrypt a) ->
  valid_keyset (kh_keyset h) /\ exists l, hybrid_encrypt_spec reg (kh_keyset h) a l.
Proof.
  intros reg h a Hw Hh.
  destruct (handle_primitive_typed _ PrimHybridEncrypt _ _ _ hybrid_encrypt_wrapper _ he_inj Hw Hh)
    as (Hv & l & Hk & Hg & HQ).
  cbn [w_input_primitive_class hybrid_encrypt_wrapper] in *.
  split; auto. exists l. simpl in HQ. inv HQ. unfold hybrid_encrypt_spec; simpl.
  pose proof Hk as [Hl _]. split; [assumption |]. split.
  - intros k p Hp r pt ad. exists (pfx k).
    pose proof (good_in _ _ _ _ _ _ _ Hg (proj1 Hp)) as Hgk.
    split; [eapply pfx_ok; eauto |].
    unfold wrapped_hybrid_encrypt.
    rewrite (primary_pset_for _ _ _ _ _ _ _ _ Hv Hl Hg Hp). simpl.
    destruct (he_encrypt p r pt ad); reflexivity.
  - intros Hn r pt ad. unfold wrapped_hybrid_encrypt.
    rewrite (no_primary_pset_for _ _ _ _ _ Hn). simpl. eexists. split; reflexivity.
Qed.

(** ** MAC *)

Lemma mac_inj : forall p, class_of p = ClsMac -> exists a, p = PrimMac a.
Proof. intros []; simpl; intro H; try discriminate. eauto. Qed.
Lemma PrimMac_inj : forall a b, PrimMac a = PrimMac b -> a = b.
Proof. intros. congruence. Qed.

Lemma raw_not_legacy : forall k data, is_raw_key k = true -> legacy_data k data = data.
Proof.
  intros k data H. unfold is_raw_key in H. apply Z.eqb_eq in H. unfold legacy_data.
  rewrite H. reflexivity.
Qed.

Lemma mac_handle_spec : forall reg h a,
  dict_get pclass_eqb ClsMac (r_wrappers reg) = Some mac_wrapper ->
  handle_primitive reg h ClsMac = Ok (PrimMac a) ->
  valid_keyset (kh_keyset h) /\ exists l, mac_spec reg (kh_keyset h) a l.
Proof.
  intros reg h a Hw Hh.
  destruct (handle_primitive_typed _ PrimMac _ _ _ mac_wrapper _ mac_inj Hw Hh)
    as (Hv & l & Hk & Hg & HQ).
  cbn [w_input_primitive_class mac_wrapper] in *.
  split; auto. exists l. simpl in HQ. inv HQ. unfold mac_spec; simpl.
  pose proof Hk as [Hl _]. split; [assumption |]. split; [| split; [| split]].
  - intros tag data Hlen. unfold wrapped_mac_verify, NON_RAW_PREFIX_SIZE.
    apply Nat.leb_le in Hlen. rewrite Hlen. eexists. split; reflexivity.
  - intros tag data Hlen. unfold wrapped_mac_verify, NON_RAW_PREFIX_SIZE, body_part, prefix_part.
    replace (length tag <=? 5)%nat with false by (symmetry; apply Nat.leb_gt; assumption).
    pose proof (wrapped_try_spec _ _ PrimMac reg ClsMac (ks_primary_key_id (kh_keyset h)) l tag
      (fun k p body => mac_verify p body (legacy_data k data))
      (fun e => if (e_output_prefix_type e =? LEGACY)%Z
         then call_verify_mac (e_primitive e) (skipn 5 tag) (data ++ [x00])
         else call_verify_mac (e_primitive e) (skipn 5 tag) data)
      (fun e => call_verify_mac (e_primitive e) tag data)
      (TinkError "invalid MAC") Hg) as Hs.
    cbv zeta in Hs. rewrite (proj2 (Nat.ltb_lt _ _) Hlen) in Hs. apply Hs; auto.
    + intros [k p]. unfold entry_of, legacy_data, lift. cbn [fst snd e_output_prefix_type e_primitive].
      destruct (k_output_prefix_type k =? LEGACY)%Z; reflexivity.
    + intros [k p] Hr. cbn. rewrite raw_not_legacy; auto.
  - intros k p Hp data. exists (pfx k).
    pose proof (good_in _ _ _ _ _ _ _ Hg (proj1 Hp)) as Hgk.
    split; [eapply pfx_ok; eauto |].
    unfold wrapped_mac_compute.
    rewrite (primary_pset_for _ _ _ _ _ _ _ _ Hv Hl Hg Hp). cbn. unfold legacy_data.
    change LEGACY_START_BYTE with x00.
    destruct (mac_compute p _); reflexivity.
  - intros Hn data. unfold wrapped_mac_compute.
    rewrite (no_primary_pset_for _ _ _ _ _ Hn). simpl. eexists. split; reflexivity.
Qed.

(** verify_mac decides "some enabled key accepts". *)
Theorem mac_verify_iff : forall reg h a,
  dict_get pclass_eqb ClsMac (r_wrappers reg) = Some mac_wrapper ->
  handle_primitive reg h ClsMac = Ok (PrimMac a) ->
  (forall k p tag data, In k (enabled_keys (kh_keyset h)) -> key_provides reg ClsMac k (PrimMac p) ->
     tink_total (mac_verify p tag data)) ->
  forall tag data,
  tink_total (mac_verify a tag data) /\
  (mac_verify a tag data = Ok tt <->
   (5 < length tag)%nat /\
   exists k p body, In k (enabled_keys (kh_keyset h)) /\ key_provides reg ClsMac k (PrimMac p) /\
     reaches k tag body /\ mac_verify p body (legacy_data k data) = Ok tt).
Proof.
  intros reg h a Hw Hh Htot tag data.
  destruct (mac_handle_spec _ _ _ Hw Hh) as (_ & l & Hkw & Hs & Hv & _).
  pose proof (handle_primitive_prefixes _ _ _ _ _ Hw Hh) as Hpf.
  destruct (Nat.le_gt_cases (length tag) 5) as [Hlen | Hlen].
  - destruct (Hs tag data Hlen) as (e & He & Ht). rewrite He. split; [exact Ht |].
    split; [discriminate | intros [H _]; lia].
  - destruct (law_iff _ _ _ _ _ PrimMac_inj Hkw Hpf _ _ _
      (fun k p body H1 H2 _ => Htot k p body (legacy_data k data) H1 H2) (Hv tag data Hlen))
      as [Hiff Ht].
    split; [exact Ht |]. split.
    + intro Ho. split; [assumption |].
      destruct (proj1 Hiff (ex_intro _ tt Ho)) as (k & p & body & v & H1 & H2 & H3 & H4).
      destruct v. exists k, p, body. auto.
    + intros (_ & k & p & body & H1 & H2 & H3 & H4).
      destruct (proj2 Hiff) as [[] Hx]; [| assumption].
      exists k, p, body, tt. auto.
Qed.

(** Tags computed by the keyset verify. *)
Theorem mac_round_trip : forall reg h a,
  dict_get pclass_eqb ClsMac (r_wrappers reg) = Some mac_wrapper ->
  handle_primitive reg h ClsMac = Ok (PrimMac a) ->
  (forall k p tag data, In k (enabled_keys (kh_keyset h)) -> key_provides reg ClsMac k (PrimMac p) ->
     tink_total (mac_verify p tag data)) ->
  forall k p, In k (enabled_keys (kh_keyset h)) ->
    k_key_id k = ks_primary_key_id (kh_keyset h) ->
    key_provides reg ClsMac k (PrimMac p) ->
    (forall data t, mac_compute p data = Ok t -> mac_verify p t data = Ok tt /\ (5 < length t)%nat) ->
  forall data tag, mac_compute a data = Ok tag -> mac_verify a tag data = Ok tt.
Proof.
  intros reg h a Hw Hh Htot k p Hk Hid Hp Hc data tag Htag.
  apply (mac_verify_iff _ _ _ Hw Hh Htot).
  destruct (mac_handle_spec _ _ _ Hw Hh) as (Hv & l & Hkw & _ & _ & He & _).
  assert (Hi : In (k, p) l) by (apply (law_in _ _ _ _ _ PrimMac_inj Hkw); auto).
  destruct (He k p (conj Hi Hid) data) as (q & Hq & Hfull). rewrite Htag in Hfull.
  destruct (mac_compute p (legacy_data k data)) as [t | e] eqn:Et; [| discriminate].
  inv Hfull. destruct (Hc _ _ Et) as [Hver Hlen]. split.
  - rewrite app_length. lia.
  - exists k, p, t. repeat split; auto. apply produced_reaches; auto.
    intros ->. simpl in Hlen. lia.
Qed.

(** ** Signatures *)

Lemma sign_inj : forall p, class_of p = ClsSign -> exists a, p = PrimSign a.
Proof. intros []; simpl; intro H; try discriminate. eauto. Qed.
Lemma PrimSign_inj : forall a b, PrimSign a = PrimSign b -> a = b.
Proof. intros. congruence. Qed.
Lemma verify_inj : forall p, class_of p = ClsVerify -> exists a, p = PrimVerify a.
Proof. intros []; simpl; intro H; try discriminate. eauto. Qed.
Lemma PrimVerify_inj : forall a b, PrimVerify a = PrimVerify b -> a = b.
Proof. intros. congruence. Qed.

Lemma sign_handle_spec : forall reg h a,
  dict_get pclass_eqb ClsSign (r_wrappers reg) = Some public_key_sign_wrapper ->
  handle_primitive reg h ClsSign = Ok (PrimSign a) ->
  valid_keyset (kh_keyset h) /\ exists l, sign_spec reg (kh_keyset h) a l.
Proof.
  intros reg h a Hw Hh.
  destruct (handle_primitive_typed _ PrimSign _ _ _ public_key_sign_wrapper _ sign_inj Hw Hh)
    as (Hv & l & Hk & Hg & HQ).
  cbn [w_input_primitive_class public_key_sign_wrapper] in *.
  split; auto. exists l. simpl in HQ. inv HQ. unfold sign_spec; simpl.
  pose proof Hk as [Hl _]. split; [assumption |]. split.
  - intros k p Hp r data. exists (pfx k).
    pose proof (good_in _ _ _ _ _ _ _ Hg (proj1 Hp)) as Hgk.
    split; [eapply pfx_ok; eauto |].
    unfold wrapped_sign.
    rewrite (primary_pset_for _ _ _ _ _ _ _ _ Hv Hl Hg Hp). cbn. unfold legacy_data.
    destruct (sign p r _); reflexivity.
  - intros Hn r data. unfold wrapped_sign.
    rewrite (no_primary_pset_for _ _ _ _ _ Hn). simpl. eexists. split; reflexivity.
Qed.

Lemma verify_handle_spec : forall reg h a,
  dict_get pclass_eqb ClsVerify (r_wrappers reg) = Some public_key_verify_wrapper ->
  handle_primitive reg h ClsVerify = Ok (PrimVerify a) ->
  valid_keyset (kh_keyset h) /\ exists l, verify_spec reg (kh_keyset h) a l.
Proof.
  intros reg h a Hw Hh.
  destruct (handle_primitive_typed _ PrimVerify _ _ _ public_key_verify_wrapper _ verify_inj Hw Hh)
    as (Hv & l & Hk & Hg & HQ).
  cbn [w_input_primitive_class public_key_verify_wrapper] in *.
  split; auto. exists l. simpl in HQ. inv HQ. unfold verify_spec; simpl.
  split; [assumption |]. split.
  - intros sg data Hlen. unfold wrapped_verify, NON_RAW_PREFIX_SIZE.
    apply Nat.leb_le in Hlen. rewrite Hlen. eexists. split; reflexivity.
  - intros sg data Hlen. unfold wrapped_verify, NON_RAW_PREFIX_SIZE, body_part, prefix_part.
    replace (length sg <=? 5)%nat with false by (symmetry; apply Nat.leb_gt; assumption).
    pose proof (wrapped_try_spec _ _ PrimVerify reg ClsVerify (ks_primary_key_id (kh_keyset h)) l sg
      (fun k p body => verify p body (legacy_data k data))
      (fun e => if (e_output_prefix_type e =? LEGACY)%Z
         then call_verify (e_primitive e) (skipn 5 sg) (data ++ [x00])
         else call_verify (e_primitive e) (skipn 5 sg) data)
      (fun e => call_verify (e_primitive e) sg data)
      (TinkError "invalid signature") Hg) as Hs.
    cbv zeta in Hs. rewrite (proj2 (Nat.ltb_lt _ _) Hlen) in Hs. apply Hs; auto.
    + intros [k p]. unfold entry_of, legacy_data, lift. cbn [fst snd e_output_prefix_type e_primitive].
      destruct (k_output_prefix_type k =? LEGACY)%Z; reflexivity.
    + intros [k p] Hr. cbn. rewrite raw_not_legacy; auto.
Qed.

Theorem signature_verify_iff : forall reg h a,
  dict_get pclass_eqb ClsVerify (r_wrappers reg) = Some public_key_verify_wrapper ->
  handle_primitive reg h ClsVerify = Ok (PrimVerify a) ->
  (forall k p sg data, In k (enabled_keys (kh_keyset h)) -> key_provides reg ClsVerify k (PrimVerify p) ->
     tink_total (verify p sg data)) ->
  forall sg data,
  tink_total (verify a sg data) /\
  (verify a sg data = Ok tt <->
   (5 < length sg)%nat /\
   exists k p body, In k (enabled_keys (kh_keyset h)) /\ key_provides reg ClsVerify k (PrimVerify p) /\
     reaches k sg body /\ verify p body (legacy_data k data) = Ok tt).
Proof.
  intros reg h a Hw Hh Htot sg data.
  destruct (verify_handle_spec _ _ _ Hw Hh) as (_ & l & Hkw & Hs & Hv).
  pose proof (handle_primitive_prefixes _ _ _ _ _ Hw Hh) as Hpf.
  destruct (Nat.le_gt_cases (length sg) 5) as [Hlen | Hlen].
  - destruct (Hs sg data Hlen) as (e & He & Ht). rewrite He. split; [exact Ht |].
    split; [discriminate | intros [H _]; lia].
  - destruct (law_iff _ _ _ _ _ PrimVerify_inj Hkw Hpf _ _ _
      (fun k p body H1 H2 _ => Htot k p body (legacy_data k data) H1 H2) (Hv sg data Hlen))
      as [Hiff Ht].
    split; [exact Ht |]. split.
    + intro Ho. split; [assumption |].
      destruct (proj1 Hiff (ex_intro _ tt Ho)) as (k & p & body & v & H1 & H2 & H3 & H4).
      destruct v. exists k, p, body. auto.
    + intros (_ & k & p & body & H1 & H2 & H3 & H4).
      destruct (proj2 Hiff) as [[] Hx]; [| assumption].
      exists k, p, body, tt. auto.
Qed.

(** ** PRF set *)

Lemma prf_inj : forall p, class_of p = ClsPrf -> exists a, p = PrimPrf a.
Proof. intros []; simpl; intro H; try discriminate. eauto. Qed.
Lemma PrimPrf_inj : forall a b, PrimPrf a = PrimPrf b -> a = b.
Proof. intros. congruence. Qed.

Lemma validate_primitive_set_ok : forall c pid l,
  validate_primitive_set (pset_for c pid l) = Ok tt <->
  Forall (fun kp => k_output_prefix_type (fst kp) = RAW) l.
Proof.
  intros c pid l. unfold validate_primitive_set. rewrite for_each_ok.
  unfold pset_for, ps_all, group. simpl. rewrite map_map. simpl.
  rewrite Forall_map. rewrite !Forall_forall. split.
  - intros H kp Hi.
    specialize (H (e_identifier (entry_of kp))). rewrite distinct_in in H.
    specialize (H (in_map _ _ _ (in_map entry_of _ _ Hi))).
    rewrite for_each_ok, Forall_forall in H. specialize (H (entry_of kp)).
    rewrite filter_In in H. specialize (H (conj (in_map entry_of _ _ Hi) (bytes_eqb_refl _))).
    simpl in H. destruct (Z.eqb_spec (k_output_prefix_type (fst kp)) RAW); auto. discriminate.
  - intros H p _. rewrite for_each_ok, Forall_forall. intros e He.
    apply filter_In in He. destruct He as [He _]. apply in_map_iff in He.
    destruct He as [kp [<- Hi]]. simpl. rewrite H by assumption. reflexivity.
Qed.

Lemma validate_primitive_set_err : forall ps e,
  validate_primitive_set ps = Err e -> is_tink_error e = true.
Proof.
  intros ps e H. unfold validate_primitive_set in H. apply for_each_err in H.
  destruct H as (l & _ & H). apply for_each_err in H. destruct H as (x & _ & H).
  destruct (negb _); inv H. reflexivity.
Qed.

Lemma prf_all_get : forall es d id,
  dict_get N.eqb id (fold_left (fun d e => dict_set N.eqb (e_key_id e) (e_primitive e) d) es d) =
  fold_left (fun acc e => if N.eqb (e_key_id e) id then Some (e_primitive e) else acc) es
    (dict_get N.eqb id d).
Proof.
  induction es as [| e es IH]; intros d id; [reflexivity |]. simpl. rewrite IH. f_equal.
  destruct (N.eqb_spec (e_key_id e) id) as [-> | Hn].
  - apply dict_get_set_same. apply N.eqb_eq.
  - apply dict_get_set_other; [apply N.eqb_eq | congruence].
Qed.

Lemma prf_all_nodup : forall es d, NoDup (map fst d) ->
  NoDup (map fst (fold_left (fun d e => dict_set N.eqb (e_key_id e) (e_primitive e) d) es d)).
Proof.
  induction es as [| e es IH]; intros d Hd; [assumption |]. simpl. apply IH.
  apply dict_set_nodup; auto. apply N.eqb_eq.
Qed.

Lemma last_with_id_lift : forall es id acc acc' (l : list (key * prf)),
  es = map entry_of (map (lift PrimPrf) l) -> acc' = option_map PrimPrf acc ->
  fold_left (fun acc e => if N.eqb (e_key_id e) id then Some (e_primitive e) else acc) es acc' =
  option_map PrimPrf
    (fold_left (fun acc kp => if N.eqb (k_key_id (fst kp)) id then Some (snd kp) else acc) l acc).
Proof.
  intros es id acc acc' l. revert es acc acc'. induction l as [| kp l IH]; intros es acc acc' -> ->.
  - reflexivity.
  - simpl. apply IH; auto. destruct (k_key_id (fst kp) =? id)%N; reflexivity.
Qed.

Lemma filter_all : forall A (f : A -> bool) l, Forall (fun x => f x = true) l -> filter f l = l.
Proof. induction 1; [reflexivity |]. simpl. rewrite H, IHForall. reflexivity. Qed.

Theorem prf_set_handle_spec : forall reg h pid all prim0,
  dict_get pclass_eqb ClsPrfSet (r_wrappers reg) = Some prf_set_wrapper ->
  handle_primitive reg h ClsPrfSet = Ok (PrimPrfSet pid all prim0) ->
  exists l, prf_set_spec reg (kh_keyset h) pid all prim0 l.
Proof.
  intros reg h pid all prim0 Hw Hh.
  destruct (handle_primitive_typed _ PrimPrf _ _ _ prf_set_wrapper _ prf_inj Hw Hh)
    as (Hv & l & Hk & Hg & HQ).
  cbn [w_input_primitive_class prf_set_wrapper w_wrap] in *.
  apply bind_ok in HQ. destruct HQ as [[] [Hval HQ]].
  apply validate_primitive_set_ok in Hval.
  pose proof Hk as [Hl _]. exists l. split; [assumption |].
  rewrite Forall_map in Hval. simpl in Hval.
  split; [assumption |]. injection HQ as <- <- <-. split; [| split; [| split]].
  - apply prf_all_nodup. constructor.
  - intros id. unfold wrapped_prf_all. rewrite prf_all_get.
    rewrite (lookup_raw _ _ _ _ Hg), (filter_lift _ PrimPrf is_raw_key).
    rewrite filter_all.
    2: { eapply Forall_impl; [| exact Hval]. intros kp Hr. unfold is_raw_key. simpl in Hr.
         rewrite Hr. reflexivity. }
    unfold last_with_id. eapply last_with_id_lift; reflexivity.
  - intros k p Hp. unfold wrapped_prf_primary_id, wrapped_prf_primary.
    rewrite (primary_pset_for _ _ _ _ _ _ _ _ Hv Hl Hg Hp). simpl.
    destruct Hp as [_ ->]. auto.
  - intros Hn. unfold wrapped_prf_primary_id, wrapped_prf_primary.
    rewrite (no_primary_pset_for _ _ _ _ _ Hn). simpl.
    split; eexists; split; reflexivity.
Qed.

(** A keyset with an enabled non-RAW key is refused with TinkError. *)
Theorem prf_set_refuses_prefixed : forall reg h k,
  dict_get pclass_eqb ClsPrfSet (r_wrappers reg) = Some prf_set_wrapper ->
  In k (enabled_keys (kh_keyset h)) -> k_output_prefix_type k <> RAW ->
  forall Q, handle_primitive reg h ClsPrfSet <> Ok Q.
Proof.
  intros reg h k Hw Hk Hr Q HQ.
  destruct (handle_primitive_typed _ PrimPrf _ _ _ prf_set_wrapper _ prf_inj Hw HQ)
    as (Hv & l & [Hl _] & Hg & HQ').
  cbn [w_input_primitive_class prf_set_wrapper w_wrap] in *.
  apply bind_ok in HQ'. destruct HQ' as [[] [Hval _]].
  apply validate_primitive_set_ok in Hval. rewrite Forall_map in Hval. simpl in Hval.
  rewrite <- Hl in Hk. apply in_map_iff in Hk. destruct Hk as [kp [<- Hi]].
  rewrite Forall_forall in Hval. apply Hval in Hi. congruence.
Qed.

(** ** Only TinkErrors *)

Theorem aead_only_tink_errors : forall reg h a,
  dict_get pclass_eqb ClsAead (r_wrappers reg) = Some aead_wrapper ->
  handle_primitive reg h ClsAead = Ok (PrimAead a) ->
  (forall k p, In k (enabled_keys (kh_keyset h)) -> key_provides reg ClsAead k (PrimAead p) ->
     (forall r pt ad, tink_total (aead_encrypt p r pt ad)) /\
     (forall ct ad, tink_total (aead_decrypt p ct ad))) ->
  (forall r pt ad, tink_total (aead_encrypt a r pt ad)) /\
  (forall ct ad, tink_total (aead_decrypt a ct ad)).
Proof.
  intros reg h a Hw Hh Htot.
  destruct (aead_handle_spec _ _ _ Hw Hh) as (Hv & l & Hkw & Hd & He & Hn).
  pose proof (handle_primitive_prefixes _ _ _ _ _ Hw Hh) as Hpf. split.
  - intros r pt ad.
    destruct (find (fun kp => N.eqb (k_key_id (fst kp)) (ks_primary_key_id (kh_keyset h))) l)
      as [[k p] |] eqn:E.
    + apply find_some in E. destruct E as [Hi Hid]. simpl in Hid. apply N.eqb_eq in Hid.
      destruct (He k p (conj Hi Hid) r pt ad) as (q & _ & Hfull). rewrite Hfull.
      apply (law_in _ _ _ _ _ PrimAead_inj Hkw) in Hi. destruct Hi as [Hi Hp].
      pose proof (proj1 (Htot k p Hi Hp) r pt ad) as Ht.
      destruct (aead_encrypt p r pt ad); exact Ht.
    + destruct (Hn) with (r := r) (pt := pt) (ad := ad) as (e & -> & Ht).
      * intros k p [Hi Hid]. apply (find_none _ _ E) in Hi. simpl in Hi.
        apply N.eqb_neq in Hi. congruence.
      * exact Ht.
  - intros ct ad.
    eapply (law_iff _ _ _ _ _ PrimAead_inj Hkw Hpf); [| apply Hd].
    intros k p body Hk Hp _. simpl. apply (Htot k p Hk Hp).
Qed.
