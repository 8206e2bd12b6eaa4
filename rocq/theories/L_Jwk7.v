(** JWK sets: export followed by import. *)
From Coq Require Import Strings.Byte Strings.String List NArith ZArith Bool Lia.
From Verif Require Import M_Base L_Base M_Utf8 L_Utf8 M_Base64 S_Base64 L_Base64 M_Proto M_Prims
  M_Registry M_KeysetHandle M_KeysetIO M_JwtTypes M_Json S_Json L_Json L_Json2
  L_Json3 L_Json4 S_Wire S_Keyset S_Handle M_Wire L_Wire L_Handle M_JwtKeys M_JwtFormat
  M_KmsIntegrations S_Jwt S_JwtKeys L_Jwt L_Jwt7 L_JsonKeyset L_JsonKeyset2 M_Jwk S_Jwk L_Jwk L_Jwk2 L_Jwk3
  L_Jwk4 L_Jwk5 L_Jwk6.
Import ListNotations.
Open Scope string_scope.
Open Scope list_scope.

Lemma member_in : forall l name v, NoDup (map fst l) ->
  (member (JDict l) name v <-> In (ulit name, v) l).
Proof.
  intros l name v Hn. split.
  - intros (l1 & l2 & E & _). injection E as ->. apply in_app_iff. right. left. reflexivity.
  - intros H. apply in_split in H. destruct H as (l1 & l2 & ->). exists l1, l2. split; [reflexivity |].
    rewrite map_app in Hn. cbn [map fst] in Hn. apply NoDup_remove_2 in Hn. intros Hi. apply Hn.
    apply in_app_iff. right. exact Hi.
Qed.

Lemma base64url_loosen : forall x t, base64url x t -> base64url_loose x t.
Proof. intros x t (s & E & H). exists s. split; [exact E | apply base64_text_loosen; exact H]. Qed.

Lemma base64url_loose_fun : forall x y t, base64url_loose x t -> base64url_loose y t -> x = y.
Proof.
  intros x y t Hx Hy. assert (A : jwk_base64_decode (JStr t) = Ok x) by (apply jwk_base64_iff; eauto).
  assert (B : jwk_base64_decode (JStr t) = Ok y) by (apply jwk_base64_iff; eauto).
  rewrite A in B. apply ok_inj in B. exact B.
Qed.

Lemma exported_public : forall k m kid doc, exported_jwk k m kid doc ->
  exists type, kd_type_url (k_key_data k) = ulit ("type.googleapis.com/google.crypto.tink." ++ type) /\
    public_jwk doc type (mk_jwt_public_key 0 (jpk_algorithm m) (jpk_3 m) (jpk_4 m) kid).
Proof.
  intros k m kid doc Hx. destruct (exported_members _ _ _ _ Hx) as (l & E & Hn & _).
  destruct Hx as (Hmat & Hp & Hk & f & kty & type & n1 & n2 & priv & alg & t1 & t2 & Hf & Hu & Ha & H1 & H2 & crv & Hc & Ed).
  assert (El : l = [(ulit "kty", JStr (ulit kty))] ++ crv ++
                 [(ulit n1, JStr t1); (ulit n2, JStr t2); (ulit "use", JStr (ulit "sig"));
                  (ulit "alg", JStr alg); (ulit "key_ops", JList [JStr (ulit "verify")])] ++
                 match kid with Some x => [(ulit "kid", JStr x)] | None => [] end).
  { rewrite E in Ed. injection Ed as Ed. exact Ed. }
  clear Ed. subst doc. exists type. split; [exact Hu |].
  assert (M : forall name v, In (ulit name, v) l -> member (JDict l) name v).
  { intros name v Hi. apply member_in; assumption. }
  assert (U : forall name v w, In (ulit name, v) l -> member (JDict l) name w -> w = v).
  { intros name v w Hi Hw. eapply member_fun; [exact Hw | apply M; exact Hi]. }
  assert (I1 : In (ulit "kty", JStr (ulit kty)) l) by (rewrite El; apply in_app_iff; left; left; reflexivity).
  assert (I2 : forall x, In x [(ulit n1, JStr t1); (ulit n2, JStr t2); (ulit "use", JStr (ulit "sig"));
                  (ulit "alg", JStr alg); (ulit "key_ops", JList [JStr (ulit "verify")])] -> In x l).
  { intros x Hi. rewrite El. apply in_app_iff. right. apply in_app_iff. right. apply in_app_iff. left. exact Hi. }
  exists f, kty, n1, n2, priv, alg. cbn [jpk_algorithm jpk_3 jpk_4 jpk_custom_kid jpk_version].
  split; [exact Hf |]. split; [apply M, I2; cbn [In]; tauto |]. split; [exact Ha |]. split; [apply M, I1 |].
  split.
  { intros ->. destruct Hc as [(_ & c & Hc & ->) | (Hc & _)]; [| congruence]. exists c. split; [exact Hc |].
    apply M. rewrite El. apply in_app_iff. right. apply in_app_iff. left. left. reflexivity. }
  split; [intros v Hv; eapply U; [| exact Hv]; apply I2; cbn [In]; tauto |].
  split; [intros v Hv; eapply U; [| exact Hv]; apply I2; cbn [In]; tauto |].
  assert (N : forall name, ~ In (ulit name) (map fst l) -> ~ has_member (JDict l) name).
  { intros name Hni (v & Hv). apply Hni. apply (member_in l name v Hn) in Hv. apply in_map_iff. exists (ulit name, v). auto. }
  split.
  { intros p Hip. apply N. rewrite El. unfold jwk_families in Hf. cbn [In] in Hf.
    destruct Hf as [Hf | [Hf | [Hf | []]]]; injection Hf as <- <- _ <- <- <-;
      (destruct Hc as [(Hc0 & c & Hc & ->) | (Hc0 & ->)]; try congruence); cbn [In] in Hip;
      repeat (destruct Hip as [<- | Hip]; [intros Hi; destruct kid; cbn [map fst app In] in Hi;
        repeat (destruct Hi as [Hi | Hi]; [vm_compute in Hi; discriminate Hi |]); destruct Hi |]); destruct Hip. }
  split; [exists t1; split; [apply M, I2; cbn [In]; tauto | apply base64url_loosen; exact H1] |].
  split; [exists t2; split; [apply M, I2; cbn [In]; tauto | apply base64url_loosen; exact H2] |].
  split; [| reflexivity].
  destruct kid as [x |].
  - split; [| eapply exported_kid_valid; [exact Hk | exact Hp | reflexivity]].
    apply M. rewrite El. repeat (apply in_app_iff; right). left. reflexivity.
  - apply N. rewrite El. unfold jwk_families in Hf. cbn [In] in Hf.
    destruct Hf as [Hf | [Hf | [Hf | []]]]; injection Hf as <- <- _ <- <- <-;
      (destruct Hc as [(Hc0 & c & Hc & ->) | (Hc0 & ->)]; try congruence);
      intros Hi; cbn [map fst app In] in Hi;
        repeat (destruct Hi as [Hi | Hi]; [vm_compute in Hi; discriminate Hi |]); destruct Hi.
Qed.

(** A JWK determines the key it stands for. *)
Theorem public_jwk_fun : forall doc t t' m m', public_jwk doc t m -> public_jwk doc t' m' -> t = t' /\ m = m'.
Proof.
  intros doc t t' m m'
    (f & kty & n1 & n2 & priv & alg & Hf & Hm & Hn & P1 & Hc & P2 & P3 & P4 & (t1 & P5 & P5') & (t2 & P6 & P6') & P7 & P8)
    (f' & kty' & n1' & n2' & priv' & alg' & Hf' & Hm' & Hn' & Q1 & Hc' & Q2 & Q3 & Q4 & (t1' & Q5 & Q5') & (t2' & Q6 & Q6') & Q7 & Q8).
  pose proof (member_fun _ _ _ _ Hm Hm') as E. injection E as <-.
  assert (K : f = f' /\ jpk_algorithm m = jpk_algorithm m').
  { unfold jwk_families in Hf, Hf'. cbn [In] in Hf, Hf'.
    assert (A : In f ["ES"; "RS"; "PS"]) by (destruct Hf as [Hf | [Hf | [Hf | []]]]; injection Hf as <- _ _ _ _ _; cbn [In]; auto).
    assert (B : In f' ["ES"; "RS"; "PS"]) by (destruct Hf' as [Hf' | [Hf' | [Hf' | []]]]; injection Hf' as <- _ _ _ _ _; cbn [In]; auto).
    clear -A B Hn Hn'. cbn [In] in A, B.
    destruct A as [<- | [<- | [<- | []]]]; destruct B as [<- | [<- | [<- | []]]];
      destruct Hn as [(-> & ->) | [(-> & ->) | (-> & ->)]]; destruct Hn' as [(-> & E) | [(-> & E) | (-> & E)]];
      try (vm_compute in E; discriminate E); split; reflexivity. }
  destruct K as (<- & Ea).
  assert (K : t = t' /\ n1 = n1' /\ n2 = n2').
  { unfold jwk_families in Hf, Hf'. cbn [In] in Hf, Hf'.
    destruct Hf as [Hf | [Hf | [Hf | []]]]; injection Hf as <- _ <- <- <- _;
      (destruct Hf' as [Hf' | [Hf' | [Hf' | []]]]; apply (f_equal (fun x => match x with (a, b, c, d, e, g) => (a, c, d, e) end)) in Hf';
       cbv beta iota in Hf'; try discriminate Hf'; injection Hf' as <- <- <-; auto). }
  destruct K as (<- & <- & <-). split; [reflexivity |].
  pose proof (member_fun _ _ _ _ P5 Q5) as E. injection E as <-.
  pose proof (member_fun _ _ _ _ P6 Q6) as E. injection E as <-.
  pose proof (base64url_loose_fun _ _ _ P5' Q5') as E3. pose proof (base64url_loose_fun _ _ _ P6' Q6') as E4.
  destruct m as [v a b c d], m' as [v' a' b' c' d']. cbn [jpk_version jpk_algorithm jpk_3 jpk_4 jpk_custom_kid] in *. subst.
  f_equal. destruct d as [d |], d' as [d' |]; try reflexivity.
  - destruct P7 as [P7 _], Q7 as [Q7 _]. pose proof (member_fun _ _ _ _ P7 Q7) as E. injection E as <-. reflexivity.
  - destruct P7 as [P7 _]. destruct Q7. eexists; exact P7.
  - destruct Q7 as [Q7 _]. destruct P7. eexists; exact Q7.
Qed.

Lemma exported_imported : forall k doc k' m kid, exported_jwk k m kid doc ->
  (exists type m', public_jwk doc type m' /\ holds_public_key k' type m') -> imported_as k k'.
Proof.
  intros k doc k' m kid Hx (type & m' & Hj & Hh).
  destruct (exported_public _ _ _ _ Hx) as (type' & Hu & Hj').
  destruct (public_jwk_fun _ _ _ _ _ Hj Hj') as (-> & ->).
  destruct Hx as (_ & Hp & Hk & _). exists m, kid, type'. auto.
Qed.

Lemma forall2_comp : forall (A B C : Type) (R : A -> B -> Prop) (S : B -> C -> Prop) (T : A -> C -> Prop) l m n,
  (forall a b c, R a b -> S b c -> T a c) -> Forall2 R l m -> Forall2 S m n -> Forall2 T l n.
Proof.
  intros A B C R S T l m n H H1. revert n. induction H1 as [| a b l m Ha H1 IH]; intros n H2; inversion H2; subst; constructor; eauto.
Qed.

Theorem jwk_round_trip : forall rt h text, float_codec rt -> wf_keyset (kh_keyset h) ->
  proto_size (serialize_keyset (kh_keyset h)) ->
  from_public_keyset_handle rt h = Ok text -> small_text text ->
  (exists k, In k (ks_key (kh_keyset h)) /\ k_status k = ENABLED) ->
  (forall draws r, to_public_keyset_handle rt draws text = Some r ->
     exists h', r = Ok h' /\
       Forall2 imported_as (filter is_enabled (ks_key (kh_keyset h))) (ks_key (kh_keyset h')) /\
       NoDup (map k_key_id (ks_key (kh_keyset h'))) /\
       exists before k, ks_key (kh_keyset h') = before ++ [k] /\
         ks_primary_key_id (kh_keyset h') = k_key_id k) /\
  (forall ids, length ids = length (filter is_enabled (ks_key (kh_keyset h))) -> NoDup ids ->
     Forall (fun id => (1 <= id <= 2147483647)%N) ids ->
     exists draws h', to_public_keyset_handle rt draws text = Some (Ok h') /\
       map k_key_id (ks_key (kh_keyset h')) = ids).
Proof.
  intros rt h text Hc Hw Hsz H Hs (k0 & Hk0 & He0).
  destruct (jwk_export_spec rt h Hc Hw Hsz) as (X & _). destruct (X _ H) as (_ & docs & Ht & Hd).
  assert (Hm : member (JDict [(ulit "keys", JList docs)]) "keys" (JList docs)).
  { exists [], []. split; [reflexivity | intros []]. }
  assert (Hlen : length (filter is_enabled (ks_key (kh_keyset h))) = length docs).
  { clear -Hd. induction Hd; cbn [length]; congruence. }
  assert (Hne : docs <> []).
  { assert (Hi : In k0 (filter is_enabled (ks_key (kh_keyset h)))).
    { apply filter_In. split; [exact Hk0 |]. unfold is_enabled. rewrite He0. reflexivity. }
    intros ->. destruct (filter is_enabled (ks_key (kh_keyset h))); [destruct Hi | discriminate]. }
  assert (Hj : Forall (fun j => exists type m, public_jwk j type m) docs).
  { clear -Hd. induction Hd as [| k d l docs (m & kid & Hx) Hd IH]; constructor; [| exact IH].
    destruct (exported_public _ _ _ _ Hx) as (type & _ & Hj). eauto. }
  destruct (jwk_import_complete _ _ _ _ Ht Hs Hm Hne Hj) as (C1 & C2). split.
  - intros draws r Hr. destruct (C1 _ _ Hr) as (h' & ->). exists h'. split; [reflexivity |].
    destruct (jwk_import_sound _ _ _ _ Hs Hr) as (doc' & items' & Ht' & Hm' & (F & Hn & _ & Hp)).
    rewrite (json_text_fun _ _ _ _ Ht' Ht) in Hm'. pose proof (member_fun _ _ _ _ Hm' Hm) as E. injection E as ->.
    split; [| split; [exact Hn | exact Hp]].
    eapply forall2_comp; [| exact Hd | exact F]. intros k d k' (m & kid & Hx) Hy. eapply exported_imported; eassumption.
  - intros ids Hl. rewrite Hlen in Hl. apply C2. exact Hl.
Qed.

(** Without an enabled key the set is empty and cannot be read back. *)
Theorem jwk_round_trip_none : forall rt h text draws, float_codec rt -> wf_keyset (kh_keyset h) ->
  proto_size (serialize_keyset (kh_keyset h)) ->
  from_public_keyset_handle rt h = Ok text ->
  ~ (exists k, In k (ks_key (kh_keyset h)) /\ k_status k = ENABLED) ->
  exists e, to_public_keyset_handle rt draws text = Some (Err e) /\ is_tink_error e = true.
Proof.
  intros rt h text draws Hc Hw Hsz H Hno.
  destruct (jwk_export_spec rt h Hc Hw Hsz) as (X & _). destruct (X _ H) as (_ & docs & Ht & Hd).
  assert (Hm : member (JDict [(ulit "keys", JList docs)]) "keys" (JList docs)).
  { exists [], []. split; [reflexivity | intros []]. }
  assert (E : filter is_enabled (ks_key (kh_keyset h)) = []).
  { destruct (filter is_enabled (ks_key (kh_keyset h))) as [| k l] eqn:E; [reflexivity |]. exfalso. apply Hno.
    exists k. assert (Hi : In k (filter is_enabled (ks_key (kh_keyset h)))) by (rewrite E; left; reflexivity).
    apply filter_In in Hi. destruct Hi as [Hi He]. split; [exact Hi |]. apply Z.eqb_eq. exact He. }
  rewrite E in Hd. inversion Hd; subst docs.
  destruct (items_of _ _ _ _ Ht Hm) as (vs & Hvs & Ek). inversion Hvs; subst vs.
  unfold to_public_keyset_handle. rewrite Ek. cbn [import_keys].
  destruct (proto_parse_without_secret (serialize_keyset (mk_keyset 0 []))) as [h' | e] eqn:Ep.
  - destruct (empty_keyset_refused _ Ep).
  - exists e. split; [reflexivity |]. destruct (binary_parsers_total (serialize_keyset (mk_keyset 0 []))) as (_ & T & _).
    rewrite Ep in T. exact T.
Qed.
