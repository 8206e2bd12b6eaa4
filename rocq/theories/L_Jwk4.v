(** JWK sets: import of whole documents. *)
From Coq Require Import Strings.Byte Strings.String List NArith ZArith Bool Lia.
From Verif Require Import M_Base L_Base M_Utf8 L_Utf8 M_Base64 S_Base64 L_Base64 M_Proto M_Prims
  M_Registry M_KeysetHandle M_KeysetIO M_JwtTypes M_Json S_Json L_Json L_Json2
  L_Json3 L_Json4 S_Wire S_Keyset S_Handle M_Wire L_Wire L_Handle M_JwtKeys M_JwtFormat
  M_KmsIntegrations S_Jwt S_JwtKeys L_Jwt L_JsonKeyset2 M_Jwk S_Jwk L_Jwk L_Jwk2 L_Jwk3.
Import ListNotations.
Open Scope string_scope.
Open Scope list_scope.

Definition jwk_key (doc : json) (k : key) : Prop :=
  exists type m id, public_jwk doc type m /\ k = jkey type m id.

Lemma last_cons : forall A (l : list A) x d, last (x :: l) d = last l x.
Proof.
  intros A. induction l as [| a l IH]; intros x d; [reflexivity |].
  change (last (x :: a :: l) d) with (last (a :: l) d). rewrite !IH. reflexivity.
Qed.

Lemma import_keys_inv : forall raws vs, Forall2 (resolves plain) raws vs ->
  forall draws ks r, import_keys draws vs ks = Some r ->
  match r with
  | Ok ks' => exists new, ks_key ks' = (ks_key ks ++ new)%list /\ Forall2 jwk_key raws new /\
      (NoDup (map k_key_id (ks_key ks)) -> NoDup (map k_key_id (ks_key ks'))) /\
      Forall (fun k => (1 <= k_key_id k <= 2147483647)%N) new /\
      ks_primary_key_id ks' = last (map k_key_id new) (ks_primary_key_id ks)
  | Err e => exists raw v, In raw raws /\ resolves plain raw v /\ jwk_to_key v = Err e
  end.
Proof.
  intros raws vs H. induction H as [| raw v raws vs Hr H IH]; intros draws ks r E; cbn [import_keys] in E.
  - apply some_inj in E. subst r. exists []. rewrite app_nil_r. repeat split; auto.
  - destruct (jwk_to_key v) as [k | e] eqn:Ek.
    2: { apply some_inj in E. subst r. exists raw, v. cbn [In]. auto. }
    destruct draws as [| d ds]; [discriminate |].
    destruct (generate_unused_key_id d ks) as [id |] eqn:Eg; [| discriminate].
    apply (jwk_to_key_iff _ _ _ Hr) in Ek. destruct Ek as (type & m & Hj & ->).
    apply IH in E. destruct r as [ks' | e].
    + destruct E as (new & E1 & E2 & E3 & E4 & E5).
      cbn [ks_key ks_primary_key_id public_proto_key k_key_data_opt k_status k_output_prefix_type] in *.
      destruct (generate_unused_fresh _ _ _ Eg) as [Hid Hfresh].
      exists (jkey type m id :: new). split; [rewrite E1, <- app_assoc; reflexivity |].
      split; [constructor; [exists type, m, id; auto | exact E2] |].
      split; [| split].
      * intros Hn. apply E3. rewrite map_app. cbn [map k_key_id].
        apply NoDup_Add with (a := id) (l := map k_key_id (ks_key ks)).
        -- rewrite <- (app_nil_r (map k_key_id (ks_key ks))) at 1. apply Add_app.
        -- auto.
      * constructor; [exact Hid | exact E4].
      * rewrite E5. cbn [map k_key_id jkey]. symmetry. apply last_cons.
    + destruct E as (raw' & v' & Hi & E). exists raw', v'. cbn [In]. tauto.
Qed.

Lemma import_keys_forced : forall raws vs, Forall2 (resolves plain) raws vs ->
  Forall (fun raw => exists type m, public_jwk raw type m) raws ->
  forall ids ks, length ids = length raws -> NoDup (map k_key_id (ks_key ks) ++ ids) ->
  Forall (fun id => (1 <= id <= 2147483647)%N) ids ->
  exists ks', import_keys (map (fun id => [(id - 1)%N]) ids) vs ks = Some (Ok ks') /\
    map k_key_id (ks_key ks') = (map k_key_id (ks_key ks) ++ ids)%list.
Proof.
  intros raws vs H. induction H as [| raw v raws vs Hr H IH]; intros Hj ids ks Hl Hn Hid.
  - destruct ids; [| discriminate]. exists ks. rewrite app_nil_r. auto.
  - destruct ids as [| id ids]; [discriminate |]. injection Hl as Hl. inversion Hj as [| ? ? (type & m & J) Hj']; subst.
    inversion Hid as [| ? ? Hi Hid']; subst. cbn [map import_keys].
    rewrite (proj2 (jwk_to_key_iff _ _ _ Hr) (ex_intro _ type (ex_intro _ m (conj J eq_refl)))).
    cbn [generate_unused_key_id]. unfold MAX_INT32. rewrite randint_surj by exact Hi.
    assert (Hm : mem_N id (map k_key_id (ks_key ks)) = false).
    { destruct (mem_N id _) eqn:E; [| reflexivity]. apply mem_N_spec in E. exfalso.
      apply NoDup_remove_2 in Hn. apply Hn. apply in_or_app. auto. }
    rewrite Hm. cbn [negb].
    match goal with |- context [import_keys _ vs ?k] => destruct (IH Hj' ids k Hl) as (ks' & E1 & E2) end; [| exact Hid' |].
    + cbn [ks_key]. rewrite map_app, <- app_assoc. exact Hn.
    + exists ks'. split; [exact E1 |]. rewrite E2. cbn [ks_key]. rewrite map_app, <- app_assoc. reflexivity.
Qed.

(** ** The keyset *)

Lemma last_app_one : forall A (l : list A) x d, last (l ++ [x]) d = x.
Proof. intros A l x d. induction l as [| a l IH]; [reflexivity |]. cbn [app last]. destruct (l ++ [x])%list eqn:E; [destruct l; discriminate | exact IH]. Qed.

Lemma names_algorithm_range : forall f a alg, names_algorithm f a alg -> int32_range a.
Proof. intros f a alg [(-> & _) | [(-> & _) | (-> & _)]]; unfold int32_range; lia. Qed.

Lemma public_jwk_wf : forall doc type m, public_jwk doc type m ->
  wf_jwt_public_key m /\ valid_text (tink_url type).
Proof.
  intros doc type m (f & kty & n1 & n2 & priv & alg & Hf & Hm & Hn & P1 & _ & _ & _ & _ & P5 & P6 & P7 & P8).
  split; [split; [| split] |].
  - rewrite P8. unfold uint32_range. lia.
  - eapply names_algorithm_range; exact Hn.
  - intros kid E. rewrite E in P7. destruct P7 as [_ P7]. unfold valid_unicode in P7. rewrite Forall_forall in P7.
    intros c Hc. specialize (P7 c Hc). lia.
  - unfold jwk_families in Hf. cbn [In] in Hf. apply valid_text_scalar. apply Forall_forall. apply forallb_forall.
    destruct Hf as [Hf | [Hf | [Hf | []]]]; injection Hf as _ _ <- _ _ _; vm_compute; reflexivity.
Qed.

Lemma jwk_keys_wf : forall docs keys pid, Forall2 jwk_key docs keys ->
  Forall (fun k => (1 <= k_key_id k <= 2147483647)%N) keys -> (pid < 2 ^ 32)%N ->
  wf_keyset (mk_keyset pid keys).
Proof.
  intros docs keys pid H Hid Hp. split; [exact Hp |]. cbn [ks_key]. intros k Hk.
  rewrite Forall_forall in Hid. specialize (Hid k Hk).
  assert (G : exists doc, jwk_key doc k).
  { clear -H Hk. induction H as [| doc k' docs keys Hj H IH]; [destruct Hk |]. destruct Hk as [<- | Hk]; [eauto | auto]. }
  destruct G as (doc & type & m & id & Hj & ->). apply public_jwk_wf in Hj. destruct Hj as [_ Hj].
  unfold wf_key. cbn [jkey k_key_data_opt k_status k_key_id k_output_prefix_type] in *.
  split; [| unfold int32_range, uint32_range, ENABLED, RAW; lia].
  intros d E. apply some_inj in E. subst d. split; [exact Hj |]. unfold int32_range, ASYMMETRIC_PUBLIC. cbn. lia.
Qed.

Lemma jwk_keys_valid : forall docs keys pid, Forall2 jwk_key docs keys -> keys <> [] ->
  NoDup (map k_key_id keys) -> valid_keyset (mk_keyset pid keys).
Proof.
  intros docs keys pid H Hne Hn.
  assert (G : forall k, In k keys -> exists type m id, k = jkey type m id).
  { clear -H. induction H as [| doc k' docs keys (type & m & id & _ & E) H IH]; intros k Hk; [destruct Hk |].
    destruct Hk as [<- | Hk]; [eauto | auto]. }
  repeat split; cbn [ks_key ks_primary_key_id].
  - destruct keys as [| k keys]; [congruence |]. exists k. split; [left; reflexivity |].
    destruct (G k (or_introl eq_refl)) as (type & m & id & ->). discriminate.
  - destruct (G _ H0) as (type & m & id & ->). cbn. eauto.
  - destruct (G _ H0) as (type & m & id & ->). discriminate.
  - destruct (G _ H0) as (type & m & id & ->). discriminate.
  - intros i j (ki & Hi & _ & Ei) (kj & Hj & _ & Ej). cbn [ks_key ks_primary_key_id] in *.
    assert (Hi' : nth_error (map k_key_id keys) i = Some pid) by (rewrite nth_error_map, Hi; cbn; congruence).
    assert (Hj' : nth_error (map k_key_id keys) j = Some pid) by (rewrite nth_error_map, Hj; cbn; congruence).
    rewrite NoDup_nth_error in Hn. apply Hn; [| congruence]. apply nth_error_Some. congruence.
  - right. intros k Hk. destruct (G _ Hk) as (type & m & id & ->). reflexivity.
Qed.

Lemma jwk_keys_public : forall docs keys pid, Forall2 jwk_key docs keys -> ~ has_secret (mk_keyset pid keys).
Proof.
  intros docs keys pid H (k & Hk & Hs). cbn [ks_key] in Hk.
  assert (G : exists type m id, k = jkey type m id).
  { clear -H Hk. induction H as [| doc k' docs keys (type & m & id & _ & E) H IH]; [destruct Hk |].
    destruct Hk as [<- | Hk]; [eauto | auto]. }
  destruct G as (type & m & id & ->). cbn in Hs. unfold secret_type in Hs. destruct Hs as [Hs | [Hs | Hs]]; discriminate.
Qed.

(** ** The document *)

Lemma jwk_set_keys_ok : forall rt text vs,
  jwk_set_keys rt text = Ok vs <->
  exists doc v0 v, json_text rt doc text /\ member doc "keys" v0 /\ resolves plain v0 v /\ py_iter v = Ok vs.
Proof.
  intros rt text vs. unfold jwk_set_keys. split.
  - intros H. apply bind_ok in H. destruct H as (v & Hv & H).
    assert (Hl : json_loads_plain rt text = Ok v).
    { destruct (json_loads_plain rt text) as [w | []]; try discriminate; exact Hv. }
    apply loads_text in Hl. destruct Hl as (doc & Ht & Hr).
    apply bind_ok in H. destruct H as (b & Hb & H). destruct b; [| discriminate]. cbn [negb] in H.
    apply bind_ok in H. destruct H as (w & Hw & H).
    destruct v as [| | | | | | d]; try discriminate.
    destruct (resolves_to_dict _ _ Hr) as (l0 & ->). destruct (resolves_view _ _ Hr) as (d' & E & V).
    injection E as <-. cbn [py_getitem] in Hw. destruct (dict_get _ _ d) as [w' |] eqn:Eg; [| discriminate].
    apply ok_inj in Hw. subst w'. apply (proj1 V) in Eg. destruct Eg as (v0 & Hm & Hr0).
    exists (JDict l0), v0, w. auto.
  - intros (doc & v0 & v & Ht & Hm & Hr & Hi).
    assert (D : exists l, doc = JDict l) by (destruct Hm as (l1 & l2 & -> & _); eauto). destruct D as (l0 & ->).
    assert (R : exists w, json_loads_plain rt text = Ok w /\ resolves plain (JDict l0) w).
    { assert (G : forall u, exists w, resolves plain u w).
      { induction u as [| b | z | f | x | l IH | l IH] using json_nested_ind; try (eexists; apply R_atom; exact I).
        - assert (K : exists l', Forall2 (resolves plain) l l').
          { induction IH as [| a l (a' & Ha) IH (l' & Hl)]; eauto. }
          destruct K as (l' & K). eexists. apply R_list. exact K.
        - assert (K : exists l', Forall2 (fun p q : pystr * json => fst p = fst q /\ resolves plain (snd p) (snd q)) l l').
          { induction IH as [| [k a] l (a' & Ha) IH (l' & Hl)]; [eauto |]. exists ((k, a') :: l'). constructor; [split; [reflexivity | exact Ha] | exact Hl]. }
          destruct K as (l' & K). eexists. eapply R_dict; [exact K | reflexivity]. }
      destruct (G (JDict l0)) as (w & Hw). exists w. split; [apply loads_text; eauto | exact Hw]. }
    destruct R as (w & El & Hw). rewrite El. cbn [bind].
    destruct (resolves_view _ _ Hw) as (d & -> & V). pose proof (proj2 V _ _ Hm) as (v' & Eg & Hr').
    assert (v' = v).
    { clear -Hr Hr'. revert v v' Hr Hr'.
      induction v0 as [| b | z | f | x | l IH | l IH] using json_nested_ind; intros v v' Hr Hr';
        try (apply resolves_atom in Hr, Hr'; try exact I; congruence).
      - apply resolves_list in Hr, Hr'. destruct Hr as (a & -> & Ha). destruct Hr' as (c & -> & Hc). f_equal.
        revert a c Ha Hc. induction IH as [| i l Hi IH IHl]; intros a c Ha Hc; inversion Ha; inversion Hc; subst; [reflexivity |].
        f_equal; [eapply Hi; eassumption | apply IHl; assumption].
      - apply resolves_dict in Hr, Hr'. destruct Hr as (a & Ha & Ea). destruct Hr' as (c & Hc & Ec).
        assert (a = c); [| congruence]. clear Ea Ec.
        revert a c Ha Hc. induction IH as [| [k i] l Hi IH IHl]; intros a c Ha Hc; inversion Ha as [| ? [k1 i1] ? ? [E1 R1]]; inversion Hc as [| ? [k2 i2] ? ? [E2 R2]]; subst; [reflexivity |].
        cbn in *. subst k1 k2. f_equal; [f_equal; eapply Hi; eassumption | apply IHl; assumption]. }
    subst v'. cbn [py_in bind]. rewrite (proj2 (existsb_key "keys" d) (ex_intro _ _ Eg)). cbn [negb py_getitem].
    rewrite Eg. exact Hi.
Qed.

Lemma py_iter_not_keys : forall v vs r, (forall l, v <> JList l) -> py_iter v = Ok vs ->
  forall draws ks, import_keys draws vs ks = Some r -> r = Ok ks \/ exists e, r = Err e.
Proof.
  intros v vs r Hv Hi draws ks H.
  assert (G : Forall (fun x => exists e, jwk_to_key x = Err e) vs).
  { assert (K : forall x, exists e, jwk_to_key (JStr x) = Err e).
    { intros x. unfold jwk_to_key. cbn [py_in bind]. destruct (contains (ulit "alg") x); cbn; eauto. }
    destruct v as [| | | | x | l | d]; try discriminate.
    - cbn in Hi. apply ok_inj in Hi. subst vs. apply Forall_map. apply Forall_forall. intros. apply K.
    - destruct (Hv l eq_refl).
    - cbn in Hi. apply ok_inj in Hi. subst vs. apply Forall_map. apply Forall_forall. intros. apply K. }
  destruct G as [| x vs (e & E) G]; cbn [import_keys] in H.
  - apply some_inj in H. auto.
  - rewrite E in H. apply some_inj in H. eauto.
Qed.

Lemma empty_keyset_refused : forall h, proto_parse_without_secret (serialize_keyset (mk_keyset 0 [])) <> Ok h.
Proof.
  intros h H. apply proto_parse_without_secret_spec in H. destruct H as [H _]. apply H. reflexivity.
Qed.

(** What is accepted, and the result. *)
Theorem jwk_import_sound : forall rt draws text h, small_text text ->
  to_public_keyset_handle rt draws text = Some (Ok h) ->
  exists doc items, json_text rt doc text /\ member doc "keys" (JList items) /\
    keyset_of_jwks items (kh_keyset h).
Proof.
  intros rt draws text h Hs H. unfold to_public_keyset_handle in H.
  destruct (jwk_set_keys rt text) as [vs | e] eqn:Ek; [| discriminate].
  apply jwk_set_keys_ok in Ek. destruct Ek as (doc & v0 & v & Ht & Hm & Hr & Hi).
  destruct (import_keys draws vs (mk_keyset 0 [])) as [[ks | e] |] eqn:Ei; try discriminate.
  apply some_inj in H.
  assert (D : (exists l, v = JList l) \/ forall l, v <> JList l).
  { destruct v; try (right; intros; discriminate). left. eauto. }
  destruct D as [(l & ->) | D].
  2: { exfalso. destruct (py_iter_not_keys _ _ _ D Hi _ _ Ei) as [E | (e & E)]; [| discriminate].
       apply ok_inj in E. subst ks. exact (empty_keyset_refused _ H). }
  cbn in Hi. apply ok_inj in Hi. subst vs. apply resolves_to_list in Hr. destruct Hr as (items & -> & Hr).
  exists doc, items. split; [exact Ht |]. split; [exact Hm |].
  apply (import_keys_inv _ _ Hr) in Ei. destruct Ei as (new & E1 & E2 & E3 & E4 & E5).
  cbn [ks_key ks_primary_key_id app map] in *. specialize (E3 (NoDup_nil _)).
  destruct ks as [pid keys]. cbn [ks_key ks_primary_key_id] in *. subst keys.
  assert (Hp : (pid < 2 ^ 32)%N).
  { rewrite E5. clear -E4. assert (0 < 2 ^ 32)%N by lia. destruct new as [| k new] using rev_ind; [exact H |].
    rewrite map_app. cbn [map]. rewrite last_app_one. apply Forall_app in E4. destruct E4 as [_ E4].
    inversion E4; subst. lia. }
  pose proof (jwk_keys_wf _ _ _ E2 E4 Hp) as Hw.
  pose proof (keyset_len pid _ _ E2) as Hlen. pose proof (member_list_size _ _ _ _ _ Ht Hm) as Hsz.
  assert (Hps : proto_size (serialize_keyset (mk_keyset pid new))).
  { unfold proto_size, small_text in *. change (2 ^ 23)%N with 8388608%N in Hs. change (2 ^ 31)%N with 2147483648%N. lia. }
  apply proto_parse_without_secret_spec in H. destruct H as (Hne & ks' & Hp' & _ & Hv & ->).
  rewrite (keyset_round_trip _ Hw Hps) in Hp'. apply some_inj in Hp'. subst ks'. cbn [kh_keyset].
  unfold keyset_of_jwks. cbn [ks_key ks_primary_key_id]. split; [| split; [exact E3 | split; [exact E4 |]]].
  - clear -E2 Hlen Hsz Hs. 
    assert (B : forall n, In n (map jsize items) -> (n <= list_sum (map jsize items))%nat).
    { intros n Hn. apply in_split in Hn. destruct Hn as (l1 & l2 & ->). rewrite list_sum_app. cbn. lia. }
    assert (B' : Forall (fun d => (N.of_nat (jsize d) < 8388608)%N) items).
    { apply Forall_forall. intros d Hd. specialize (B _ (in_map jsize _ _ Hd)). unfold small_text in Hs.
      change (2 ^ 23)%N with 8388608%N in Hs. lia. }
    clear -E2 B'. induction E2 as [| d k items new (type & m & id & Hj & ->) E2 IH]; [constructor |].
    inversion B'; subst. constructor; [| auto]. exists type, m. split; [exact Hj |].
    split; [reflexivity |]. split; [reflexivity |]. exists (serialize_jwt_public_key m). split; [| reflexivity].
    destruct (public_jwk_wf _ _ _ Hj) as [W _]. apply jwt_public_key_round_trip; [exact W |].
    pose proof (message_len m). destruct (public_jwk_size _ _ _ Hj) as [G _]. unfold proto_size.
    change (2 ^ 31)%N with 2147483648%N. lia.
  - destruct new as [| k new] using rev_ind.
    + exfalso. destruct Hv as ((k & [] & _) & _).
    + exists new, k. split; [reflexivity |]. rewrite E5, map_app. cbn [map]. apply last_app_one.
Qed.
