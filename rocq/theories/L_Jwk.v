(** JWK sets: reading one JWK. *)
From Coq Require Import Strings.Byte Strings.String List NArith ZArith Bool Lia.
From Verif Require Import M_Base L_Base M_Utf8 L_Utf8 M_Base64 S_Base64 L_Base64 M_Proto M_Prims
  M_Registry M_KeysetHandle M_KeysetIO M_JwtTypes M_Json S_Json L_Json L_Json2
  L_Json3 L_Json4 S_Wire S_Keyset S_Handle M_Wire L_Wire L_Handle M_JwtKeys M_JwtFormat
  M_KmsIntegrations S_Jwt S_JwtKeys L_Jwt L_JsonKeyset2 M_Jwk S_Jwk.
Import ListNotations.
Open Scope string_scope.
Open Scope list_scope.

(** ** Members *)

Lemma dict_of_pairs_get : forall (l : list (pystr * json)) k v,
  dict_get str_eqb k (dict_of_pairs l) = Some v <->
  exists l1 l2, l = l1 ++ (k, v) :: l2 /\ ~ In k (map fst l2).
Proof.
  intros l k v. induction l as [| [k' v'] l IH] using rev_ind.
  - split; [discriminate |]. intros (l1 & l2 & E & _). destruct l1; discriminate.
  - unfold dict_of_pairs in *. rewrite fold_left_app. cbn [fold_left fst snd].
    destruct (str_eqb k k') eqn:Ek.
    + apply str_eqb_spec in Ek. subst k'. rewrite dict_get_set_same by apply str_eqb_spec.
      split.
      * intros E. apply some_inj in E. subst v'. exists l, []. auto.
      * intros (l1 & l2 & E & Hn). destruct l2 as [| p l2] using rev_ind.
        -- apply app_inj_tail in E. destruct E as [_ E]. injection E as ->. reflexivity.
        -- exfalso. clear IHl2. apply Hn. rewrite app_comm_cons, app_assoc in E. apply app_inj_tail in E.
           destruct E as [_ <-]. rewrite map_app. apply in_or_app. right. left. reflexivity.
    + assert (Hk : k <> k') by (intros ->; rewrite (proj2 (str_eqb_spec k' k') eq_refl) in Ek; discriminate).
      rewrite dict_get_set_other by (try apply str_eqb_spec; assumption). rewrite IH. split.
      * intros (l1 & l2 & -> & Hn). exists l1, (l2 ++ [(k', v')]). rewrite <- app_assoc. split; [reflexivity |].
        rewrite map_app. intros Hi. apply in_app_or in Hi. destruct Hi as [Hi | [Hi | []]]; [auto |].
        cbn in Hi. congruence.
      * intros (l1 & l2 & E & Hn). destruct l2 as [| p l2] using rev_ind.
        -- apply app_inj_tail in E. destruct E as [_ E]. injection E as E _. congruence.
        -- clear IHl2. rewrite app_comm_cons, app_assoc in E. apply app_inj_tail in E.
           destruct E as [-> <-]. exists l1, l2. split; [reflexivity |]. intros Hi. apply Hn.
           rewrite map_app. apply in_or_app. auto.
Qed.

Lemma dict_of_pairs_keys : forall (l : list (pystr * json)) k,
  In k (map fst (dict_of_pairs l)) <-> In k (map fst l).
Proof.
  intros l k. induction l as [| [k' v'] l IH] using rev_ind; [reflexivity |].
  unfold dict_of_pairs in *. rewrite fold_left_app. cbn [fold_left fst snd].
  rewrite dict_set_keys, map_app, in_app_iff. cbn [map fst In].
  destruct (existsb (str_eqb k') _) eqn:E.
  - rewrite IH. split; [auto |]. intros [H | [<- | []]]; [exact H |].
    apply existsb_exists in E. destruct E as (x & Hx & E). apply str_eqb_spec in E. subst x.
    apply IH. exact Hx.
  - rewrite in_app_iff, IH. reflexivity.
Qed.

Notation plain := (fun l => Ok (JDict (dict_of_pairs l))).

Lemma Forall2_split_r : forall A B (R : A -> B -> Prop) l m1 b m2, Forall2 R l (m1 ++ b :: m2) ->
  exists l1 a l2, l = l1 ++ a :: l2 /\ Forall2 R l1 m1 /\ R a b /\ Forall2 R l2 m2.
Proof.
  intros A B R l m1 b m2 H. apply Forall2_app_inv_r in H. destruct H as (l1 & l2 & H1 & H2 & ->).
  inversion H2; subst. eauto 8.
Qed.
Lemma Forall2_split_l : forall A B (R : A -> B -> Prop) m l1 a l2, Forall2 R (l1 ++ a :: l2) m ->
  exists m1 b m2, m = m1 ++ b :: m2 /\ Forall2 R l1 m1 /\ R a b /\ Forall2 R l2 m2.
Proof.
  intros A B R m l1 a l2 H. apply Forall2_app_inv_l in H. destruct H as (m1 & m2 & H1 & H2 & ->).
  inversion H2; subst. eauto 8.
Qed.
Lemma members_keys : forall (R : json -> json -> Prop) (l l' : list (pystr * json)),
  Forall2 (fun p q => fst p = fst q /\ R (snd p) (snd q)) l l' -> map fst l = map fst l'.
Proof. intros R l l' H. induction H as [| p q l l' [E _] H IH]; cbn; congruence. Qed.

(** [d] is what json.loads makes of the object [raw]. *)
Definition view (raw : json) (d : list (pystr * json)) : Prop :=
  (forall name v, dict_get str_eqb (ulit name) d = Some v ->
     exists v0, member raw name v0 /\ resolves plain v0 v) /\
  (forall name v0, member raw name v0 ->
     exists v, dict_get str_eqb (ulit name) d = Some v /\ resolves plain v0 v).

Lemma resolves_view : forall l0 v, resolves plain (JDict l0) v ->
  exists d, v = JDict d /\ view (JDict l0) d.
Proof.
  intros l0 v H. apply resolves_dict in H. destruct H as (l & Hl & E). apply ok_inj in E. subst v.
  eexists. split; [reflexivity |]. split.
  - intros name v Hg. apply dict_of_pairs_get in Hg. destruct Hg as (l1 & l2 & -> & Hn).
    apply Forall2_split_r in Hl. destruct Hl as (m1 & [k v0] & m2 & -> & H1 & [Ek Hr] & H2).
    cbn in Ek, Hr. subst k. exists v0. split; [| exact Hr]. exists m1, m2. split; [reflexivity |].
    rewrite (members_keys _ _ _ H2). exact Hn.
  - intros name v0 (m1 & m2 & E & Hn). injection E as ->. 
    apply Forall2_split_l in Hl. destruct Hl as (l1 & [k v] & l2 & -> & H1 & [Ek Hr] & H2).
    cbn in Ek, Hr. subst k. exists v. split; [| exact Hr]. apply dict_of_pairs_get. exists l1, l2.
    split; [reflexivity |]. rewrite <- (members_keys _ _ _ H2). exact Hn.
Qed.

Lemma resolves_str : forall v0 x, resolves plain v0 (JStr x) <-> v0 = JStr x.
Proof.
  intros v0 x. split; [| intros ->; apply R_atom; exact I].
  intros H. inversion H; subst; [reflexivity | discriminate].
Qed.
Lemma resolves_to_list : forall v0 l, resolves plain v0 (JList l) ->
  exists l0, v0 = JList l0 /\ Forall2 (resolves plain) l0 l.
Proof.
  intros v0 l H. inversion H; subst; [contradiction | eauto | discriminate].
Qed.
Lemma resolves_to_dict : forall v0 d, resolves plain v0 (JDict d) ->
  exists l0, v0 = JDict l0.
Proof. intros v0 l H. inversion H; subst; [contradiction | eauto]. Qed.

Lemma member_fun : forall raw name v w, member raw name v -> member raw name w -> v = w.
Proof.
  intros raw name v w (l1 & l2 & E & Hn) (m1 & m2 & E' & Hm). rewrite E in E'. injection E' as E'.
  assert (G : forall (l : list (pystr * json)) k v, (exists l1 l2, l = l1 ++ (k, v) :: l2 /\ ~ In k (map fst l2)) ->
              dict_get str_eqb k (dict_of_pairs l) = Some v) by (intros; apply dict_of_pairs_get; assumption).
  specialize (G (l1 ++ (ulit name, v) :: l2) (ulit name)) as G'.
  assert (H1 := G' v (ex_intro _ l1 (ex_intro _ l2 (conj eq_refl Hn)))).
  assert (H2 := G' w (ex_intro _ m1 (ex_intro _ m2 (conj E' Hm)))). congruence.
Qed.

Lemma existsb_key : forall name (d : list (pystr * json)),
  existsb (fun kv => str_eqb (ulit name) (fst kv)) d = true <-> exists v, dict_get str_eqb (ulit name) d = Some v.
Proof.
  intros name d. split.
  - intros H. destruct (dict_get str_eqb (ulit name) d) as [v |] eqn:E; [eauto |].
    apply existsb_exists in H. destruct H as ([k v] & Hi & Hk). apply str_eqb_spec in Hk. cbn in Hk. subst k.
    apply dict_get_none in E; [| apply str_eqb_spec]. destruct E. apply in_map_iff. exists (ulit name, v). auto.
  - intros (v & H). apply dict_get_in in H; [| apply str_eqb_spec]. apply existsb_exists.
    exists (ulit name, v). split; [exact H | apply str_eqb_spec; reflexivity].
Qed.
Lemma has_member_iff : forall raw d name, view raw d -> has d name = true <-> has_member raw name.
Proof.
  intros raw d name [V1 V2]. unfold has. rewrite existsb_key. split.
  - intros (v & H). apply V1 in H. destruct H as (v0 & H & _). exists v0. exact H.
  - intros (v & H). apply V2 in H. destruct H as (w & H & _). exists w. exact H.
Qed.
Lemma has_false_iff : forall raw d name, view raw d -> has d name = false <-> ~ has_member raw name.
Proof.
  intros raw d name V. rewrite <- (has_member_iff _ _ _ V). destruct (has d name); intuition discriminate.
Qed.
Lemma is_str_iff : forall x v, is_str x v = true <-> v = JStr x.
Proof.
  intros x v. destruct v; cbn [is_str]; try (split; discriminate).
  rewrite str_eqb_spec. split; congruence.
Qed.
Lemma get_is_iff : forall raw d name x, view raw d -> get_is d name x = true <-> member raw name (JStr x).
Proof.
  intros raw d name x [V1 V2]. unfold get_is. split.
  - destruct (dict_get str_eqb (ulit name) d) as [v |] eqn:E; [| discriminate]. intros H.
    apply is_str_iff in H. subst v. apply V1 in E. destruct E as (v0 & Hm & Hr). apply resolves_str in Hr.
    subst v0. exact Hm.
  - intros Hm. apply V2 in Hm. destruct Hm as (v & -> & Hr).
    apply resolves_atom in Hr; [| exact I]. subst v. apply is_str_iff. reflexivity.
Qed.
Lemma get_str : forall raw d name x, view raw d ->
  dict_get str_eqb (ulit name) d = Some (JStr x) <-> member raw name (JStr x).
Proof.
  intros raw d name x V. rewrite <- (get_is_iff _ _ _ _ V). unfold get_is.
  destruct (dict_get str_eqb (ulit name) d) as [v |]; [| split; discriminate].
  rewrite is_str_iff. split; congruence.
Qed.
Lemma get_none : forall raw d name, view raw d ->
  dict_get str_eqb (ulit name) d = None <-> ~ has_member raw name.
Proof.
  intros raw d name V. rewrite <- (has_false_iff _ _ _ V). unfold has.
  split; intros H.
  - destruct (existsb _ d) eqn:E; [| reflexivity]. apply existsb_key in E. destruct E as (v & E). congruence.
  - destruct (dict_get _ _ d) as [v |] eqn:E; [| reflexivity].
    assert (K : existsb (fun kv => str_eqb (ulit name) (fst kv)) d = true) by (apply existsb_key; eauto). congruence.
Qed.

(** ** Values *)

Lemma ascii_utf8 : forall s : bytes, Forall (fun c => (Byte.to_N c < 128)%N) s ->
  utf8_encode (map Byte.to_N s) = Some s.
Proof.
  intros s H. induction H as [| c s Hc H IH]; [reflexivity |]. cbn [map utf8_encode]. rewrite IH.
  unfold utf8_encode_char. replace (is_scalar (Byte.to_N c)) with true by (symmetry; apply is_scalar_spec; lia).
  cbn [negb]. replace (Byte.to_N c <? 128)%N with true by lia.
  rewrite byte_of_N_of_to_N. reflexivity.
Qed.
Lemma url_text_ascii : forall x s, base64_text_loose url_alphabet x s ->
  Forall (fun c => (Byte.to_N c < 128)%N) s.
Proof.
  intros x s (l & fill & Hl & -> & _). apply Forall_map. revert Hl. apply Forall_impl.
  intros d Hd. assert (F : Forall (fun c => (Byte.to_N c < 128)%N) url_alphabet).
  { apply Forall_forall. intros c Hc.
    assert (K : forallb (fun c => (Byte.to_N c <? 128)%N) url_alphabet = true) by (vm_compute; reflexivity).
    rewrite forallb_forall in K. specialize (K c Hc). lia. }
  rewrite Forall_forall in F. apply F. apply nth_In. cbn. lia.
Qed.
Lemma utf8_ascii_inv : forall s t, utf8_encode t = Some s -> Forall (fun c => (Byte.to_N c < 128)%N) s ->
  t = map Byte.to_N s.
Proof.
  intros s t E H. apply ascii_utf8 in H. apply utf8_decode_encode in E, H. rewrite E in H. congruence.
Qed.

Lemma jwk_base64_iff : forall v x,
  jwk_base64_decode v = Ok x <-> exists t, v = JStr t /\ base64url_loose x t.
Proof.
  intros v x. destruct v as [| | | | t | |]; cbn [jwk_base64_decode];
    try (split; [discriminate | intros (u & E & _); discriminate]).
  split.
  - destruct (utf8_encode t) as [s |] eqn:E; [| discriminate]. intros H. apply base64_decode_iff in H.
    exists t. split; [reflexivity |]. exists s. split; [| exact H].
    apply (utf8_ascii_inv _ _ E (url_text_ascii _ _ H)).
  - intros (u & Eu & s & -> & H). injection Eu as ->. 
    rewrite (ascii_utf8 s (url_text_ascii _ _ H)). apply base64_decode_iff. exact H.
Qed.
Lemma jwk_base64_err : forall t e, jwk_base64_decode (JStr t) = Err e -> valid_unicode t -> is_tink_error e = true.
Proof.
  intros t e H Ht. cbn [jwk_base64_decode] in H.
  destruct (utf8_encode t) as [s |] eqn:E.
  - unfold base64_decode in H. destruct (negb _); [inv H; reflexivity |].
    destruct (urlsafe_b64decode _); inv H. reflexivity.
  - exfalso. assert (K : exists s, utf8_encode t = Some s).
    { apply utf8_encode_some. revert Ht. apply Forall_impl. intros c Hc. apply is_scalar_spec. lia. }
    destruct K as (s & K). congruence.
Qed.
Lemma utf8_valid : forall x, (exists s, utf8_encode x = Some s) <-> valid_unicode x.
Proof.
  intros x. rewrite utf8_encode_some. unfold valid_unicode. split; apply Forall_impl;
    intros c Hc; apply is_scalar_spec in Hc || apply is_scalar_spec; lia.
Qed.

Lemma key_ops_ok : forall raw d, view raw d ->
  (validate_use_and_key_ops d = Ok tt <->
   (forall v, member raw "use" v -> v = JStr (ulit "sig")) /\
   (forall v, member raw "key_ops" v -> v = JList [JStr (ulit "verify")])).
Proof.
  intros raw d V. unfold validate_use_and_key_ops. split.
  - intros H. apply bind_ok in H. destruct H as (u & H1 & H2). split.
    + intros v Hv. destruct (has d "use") eqn:Eh.
      * destruct (get_is d "use" (ulit "sig")) eqn:Eg; [| discriminate].
        apply (get_is_iff raw) in Eg; [| exact V]. eapply member_fun; eassumption.
      * apply (has_false_iff raw) in Eh; [| exact V]. destruct Eh. exists v. exact Hv.
    + intros v Hv. destruct V as [V1 V2]. apply V2 in Hv. destruct Hv as (w & E & Hr). rewrite E in H1.
      destruct w as [| | | | x | [| w [|]] | [| ? [|]]]; try discriminate.
      destruct (is_str (ulit "verify") w) eqn:Ew; [| discriminate]. apply is_str_iff in Ew. subst w.
      apply resolves_to_list in Hr. destruct Hr as (l0 & -> & Hl). inversion Hl as [| a b l1 l2 Ha Ht]; subst.
      inversion Ht; subst. apply resolves_str in Ha. subst a. reflexivity.
  - intros [Hu Hk].
    replace (has d "use" && negb (get_is d "use" (ulit "sig"))) with false.
    2: { symmetry. apply andb_false_iff. destruct (has d "use") eqn:Eh; [| auto]. right.
         apply (has_member_iff raw) in Eh; [| exact V]. destruct Eh as (v & Hv). rewrite (Hu v Hv) in Hv.
         apply (get_is_iff raw d) in Hv; [| exact V]. rewrite Hv. reflexivity. }
    destruct (dict_get str_eqb (ulit "key_ops") d) as [v |] eqn:E; [| reflexivity].
    destruct V as [V1 V2]. apply V1 in E. destruct E as (v0 & Hm & Hr). rewrite (Hk _ Hm) in Hr.
    apply resolves_list in Hr. destruct Hr as (l & -> & Hl). inversion Hl as [| a b l1 l2 Ha Ht]; subst.
    inversion Ht; subst. apply resolves_atom in Ha; [| exact I]. subst b. reflexivity.
Qed.
Lemma key_ops_err : forall raw d e, view raw d ->
  (forall v, member raw "key_ops" v -> exists l, v = JList l) ->
  validate_use_and_key_ops d = Err e -> is_tink_error e = true.
Proof.
  intros raw d e V Hk H. unfold validate_use_and_key_ops in H. apply bind_err in H.
  destruct H as [H | (u & _ & H)].
  - destruct (dict_get str_eqb (ulit "key_ops") d) as [v |] eqn:E; [| discriminate].
    apply (proj1 V) in E. destruct E as (v0 & Hm & Hr). destruct (Hk _ Hm) as (l & ->).
    apply resolves_list in Hr. destruct Hr as (l' & -> & _). destruct l' as [| w [|]]; try (inv H; reflexivity).
    destruct (is_str _ w); inv H. reflexivity.
  - destruct (has d "use" && _); inv H. reflexivity.
Qed.

Lemma custom_kid_iff : forall raw d o, view raw d ->
  (jwk_custom_kid d = Ok o <->
   match o with
   | Some kid => member raw "kid" (JStr kid) /\ valid_unicode kid
   | None => ~ has_member raw "kid"
   end).
Proof.
  intros raw d o V. unfold jwk_custom_kid. destruct o as [kid |].
  - rewrite <- (get_str _ _ _ _ V), <- utf8_valid. split.
    + destruct (dict_get _ _ d) as [[| | | | x | |] |]; try discriminate.
      destruct (utf8_encode x) eqn:E; [| discriminate]. intros H. inv H. eauto.
    + intros (-> & s & ->). reflexivity.
  - rewrite <- (get_none _ _ _ V). split.
    + destruct (dict_get _ _ d) as [[| | | | x | |] |]; try discriminate; try reflexivity.
      destruct (utf8_encode x) eqn:E; discriminate.
    + intros ->. reflexivity.
Qed.
Lemma custom_kid_err : forall raw d e, view raw d ->
  (forall v, member raw "kid" v -> exists x, v = JStr x /\ valid_unicode x) ->
  jwk_custom_kid d <> Err e.
Proof.
  intros raw d e V Hk H. unfold jwk_custom_kid in H.
  destruct (dict_get _ _ d) as [v |] eqn:E; [| discriminate].
  apply (proj1 V) in E. destruct E as (v0 & Hm & Hr). destruct (Hk _ Hm) as (x & -> & Hx).
  apply resolves_atom in Hr; [| exact I]. subst v. apply utf8_valid in Hx. destruct Hx as (s & Hx). 
  rewrite Hx in H. discriminate.
Qed.

Lemma getitem_base64 : forall raw d name x, view raw d ->
  ((exists v, py_getitem (JDict d) (ulit name) = Ok v /\ jwk_base64_decode v = Ok x) <->
   exists t, member raw name (JStr t) /\ base64url_loose x t).
Proof.
  intros raw d name x V. cbn [py_getitem]. split.
  - intros (v & Hg & Hb). apply jwk_base64_iff in Hb. destruct Hb as (t & -> & Hb). exists t. split; [| exact Hb].
    apply (get_str _ _ _ _ V). destruct (dict_get _ _ d); inv Hg. reflexivity.
  - intros (t & Hm & Hb). apply (get_str _ _ _ _ V) in Hm. rewrite Hm. eexists. split; [reflexivity |].
    apply jwk_base64_iff. eauto.
Qed.
Lemma getitem_base64_err : forall raw d name e, view raw d ->
  (exists x, member raw name (JStr x) /\ valid_unicode x) ->
  (v <- py_getitem (JDict d) (ulit name) ;; jwk_base64_decode v) = Err e -> is_tink_error e = true.
Proof.
  intros raw d name e V (x & Hm & Hx) H. apply (get_str _ _ _ _ V) in Hm. cbn [py_getitem] in H.
  rewrite Hm in H. cbn [bind] in H. eapply jwk_base64_err; eassumption.
Qed.
