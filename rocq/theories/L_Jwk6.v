(** JWK sets: export, and export followed by import. *)
From Coq Require Import Strings.Byte Strings.String List NArith ZArith Bool Lia.
From Verif Require Import M_Base L_Base M_Utf8 L_Utf8 M_Base64 S_Base64 L_Base64 M_Proto M_Prims
  M_Registry M_KeysetHandle M_KeysetIO M_JwtTypes M_Json S_Json L_Json L_Json2
  L_Json3 L_Json4 S_Wire S_Keyset S_Handle M_Wire L_Wire L_Handle M_JwtKeys M_JwtFormat
  M_KmsIntegrations S_Jwt S_JwtKeys L_Jwt L_Jwt7 L_JsonKeyset L_JsonKeyset2 M_Jwk S_Jwk L_Jwk L_Jwk2 L_Jwk3
  L_Jwk4 L_Jwk5.
Import ListNotations.
Open Scope string_scope.
Open Scope list_scope.

Lemma es_params : forall a alg c, dict_get Z.eqb a ECDSA_PARAMS = Some (alg, c) <->
  names_algorithm "ES" a alg /\ In (alg, c) jwk_curves.
Proof.
  intros a alg c. split.
  - unfold ECDSA_PARAMS. cbn [dict_get].
    destruct (Z.eqb_spec a 1) as [-> | _]; [intros H; inv H; split; [left; auto | left; reflexivity] |].
    destruct (Z.eqb_spec a 2) as [-> | _]; [intros H; inv H; split; [right; left; auto | right; left; reflexivity] |].
    destruct (Z.eqb_spec a 3) as [-> | _]; [intros H; inv H; split; [right; right; auto | right; right; left; reflexivity] |].
    discriminate.
  - intros [H Hc]. destruct (es_curve_spec _ _ H) as (c' & -> & _ & U). rewrite (U _ Hc). reflexivity.
Qed.
Lemma rs_params : forall a alg, dict_get Z.eqb a RSA_SSA_PKCS1_PARAMS = Some alg <-> names_algorithm "RS" a alg.
Proof.
  intros a alg. unfold RSA_SSA_PKCS1_PARAMS, names_algorithm. cbn [dict_get]. split.
  - destruct (Z.eqb_spec a 1) as [-> | _]; [intros H; inv H; auto |].
    destruct (Z.eqb_spec a 2) as [-> | _]; [intros H; inv H; auto |].
    destruct (Z.eqb_spec a 3) as [-> | _]; [intros H; inv H; auto |]. discriminate.
  - intros [(-> & ->) | [(-> & ->) | (-> & ->)]]; reflexivity.
Qed.
Lemma ps_params : forall a alg, dict_get Z.eqb a RSA_SSA_PSS_PARAMS = Some alg <-> names_algorithm "PS" a alg.
Proof.
  intros a alg. unfold RSA_SSA_PSS_PARAMS, names_algorithm. cbn [dict_get]. split.
  - destruct (Z.eqb_spec a 1) as [-> | _]; [intros H; inv H; auto |].
    destruct (Z.eqb_spec a 2) as [-> | _]; [intros H; inv H; auto |].
    destruct (Z.eqb_spec a 3) as [-> | _]; [intros H; inv H; auto |]. discriminate.
  - intros [(-> & ->) | [(-> & ->) | (-> & ->)]]; reflexivity.
Qed.

Definition kid_member (kid : option pystr) : list (pystr * json) :=
  match kid with Some x => [(ulit "kid", JStr x)] | None => [] end.

Lemma with_kid_iff : forall k m out doc,
  with_kid k m out = Ok doc <-> exists kid, exported_kid k m kid /\ doc = JDict (out ++ kid_member kid).
Proof.
  intros k m out doc. unfold with_kid, exported_kid. split.
  - intros H. apply bind_ok in H. destruct H as (tk & Ht & H). apply get_kid_ok in Ht.
    assert (Hne : tk <> Some []) by (apply (kid_of_valid _ _ Ht)).
    exists (match tk with Some t => Some t | None => jpk_custom_kid m end). split; [eauto |].
    destruct tk as [[| c t] |]; [exfalso; apply Hne; reflexivity | |].
    + apply ok_inj in H. subst doc. reflexivity.
    + destruct (jpk_custom_kid m); apply ok_inj in H; subst doc; cbn [kid_member]; rewrite ?app_nil_r; reflexivity.
  - intros (kid & (tk & Ht & ->) & ->). assert (Hne : tk <> Some []) by (apply (kid_of_valid _ _ Ht)).
    apply get_kid_ok in Ht. rewrite Ht. cbn [bind]. destruct tk as [[| c t] |]; [exfalso; apply Hne; reflexivity | reflexivity |].
    destruct (jpk_custom_kid m); cbn [kid_member]; rewrite ?app_nil_r; reflexivity.
Qed.

Lemma encode_iff : forall x t, base64url x t <-> t = jwk_base64_encode x.
Proof.
  intros x t. unfold base64url, jwk_base64_encode, ascii_text. split.
  - intros (s & -> & H). f_equal. eapply base64_text_fun; [exact H | apply base64_encode_text].
  - intros ->. exists (base64_encode x). split; [reflexivity | apply base64_encode_text].
Qed.

Lemma from_string_ok : forall x m, jwt_public_key_from_string x = Ok m <-> parse_jwt_public_key x = Some m.
Proof.
  intros x m. unfold jwt_public_key_from_string. destruct (parse_jwt_public_key x); split; intros H; inv H; reflexivity.
Qed.

Theorem convert_key_iff : forall k doc, k_status k = ENABLED ->
  (convert_key k = Ok (Some doc) <-> exists m kid, exported_jwk k m kid doc).
Proof.
  intros k doc Hst. unfold convert_key. rewrite Hst, Z.eqb_refl. cbn [negb]. split.
  - intros H. destruct (Z.eqb_spec (kd_key_material_type (k_key_data k)) ASYMMETRIC_PUBLIC) as [Hmat |]; [| discriminate].
    cbn [negb] in H. destruct (_ || _); [| discriminate]. cbn [negb] in H. cbv zeta in H.
    destruct (str_eqb (kd_type_url (k_key_data k)) JWT_ECDSA_PUBLIC_KEY_TYPE) eqn:U1.
    { apply str_eqb_spec in U1. apply bind_ok in H. destruct H as (j & H & E). apply ok_inj, some_inj in E. subst j.
      unfold convert_jwt_ecdsa_key in H. apply bind_ok in H. destruct H as (m & Hp & H). apply from_string_ok in Hp.
      destruct (dict_get Z.eqb (jpk_algorithm m) ECDSA_PARAMS) as [[alg c] |] eqn:Ea; [| discriminate].
      apply es_params in Ea. destruct Ea as [Hn Hc]. apply with_kid_iff in H. destruct H as (kid & Hk & ->).
      exists m, kid. split; [exact Hmat |]. split; [exact Hp |]. split; [exact Hk |].
      exists "ES", "EC", "JwtEcdsaPublicKey", "x", "y", ["d"], alg, (jwk_base64_encode (jpk_3 m)), (jwk_base64_encode (jpk_4 m)).
      split; [left; reflexivity |]. split; [exact U1 |]. split; [exact Hn |].
      split; [apply encode_iff; reflexivity |]. split; [apply encode_iff; reflexivity |].
      exists [(ulit "crv", JStr c)]. split; [left; eauto |]. reflexivity. }
    destruct (str_eqb (kd_type_url (k_key_data k)) JWT_RSA_SSA_PKCS1_PUBLIC_KEY_TYPE) eqn:U2.
    { apply str_eqb_spec in U2. apply bind_ok in H. destruct H as (j & H & E). apply ok_inj, some_inj in E. subst j.
      unfold convert_jwt_rsa_key in H. apply bind_ok in H. destruct H as (m & Hp & H). apply from_string_ok in Hp.
      destruct (dict_get Z.eqb (jpk_algorithm m) RSA_SSA_PKCS1_PARAMS) as [alg |] eqn:Ea; [| discriminate].
      apply rs_params in Ea. apply with_kid_iff in H. destruct H as (kid & Hk & ->).
      exists m, kid. split; [exact Hmat |]. split; [exact Hp |]. split; [exact Hk |].
      exists "RS", "RSA", "JwtRsaSsaPkcs1PublicKey", "n", "e", ["p"; "q"; "dp"; "dq"; "d"; "qi"], alg, (jwk_base64_encode (jpk_3 m)), (jwk_base64_encode (jpk_4 m)).
      split; [right; left; reflexivity |]. split; [exact U2 |]. split; [exact Ea |].
      split; [apply encode_iff; reflexivity |]. split; [apply encode_iff; reflexivity |].
      exists []. split; [right; split; [discriminate | reflexivity] |]. reflexivity. }
    destruct (str_eqb (kd_type_url (k_key_data k)) JWT_RSA_SSA_PSS_PUBLIC_KEY_TYPE) eqn:U3; [| discriminate].
    apply str_eqb_spec in U3. apply bind_ok in H. destruct H as (j & H & E). apply ok_inj, some_inj in E. subst j.
    unfold convert_jwt_rsa_key in H. apply bind_ok in H. destruct H as (m & Hp & H). apply from_string_ok in Hp.
    destruct (dict_get Z.eqb (jpk_algorithm m) RSA_SSA_PSS_PARAMS) as [alg |] eqn:Ea; [| discriminate].
    apply ps_params in Ea. apply with_kid_iff in H. destruct H as (kid & Hk & ->).
    exists m, kid. split; [exact Hmat |]. split; [exact Hp |]. split; [exact Hk |].
    exists "PS", "RSA", "JwtRsaSsaPssPublicKey", "n", "e", ["p"; "q"; "dp"; "dq"; "d"; "qi"], alg, (jwk_base64_encode (jpk_3 m)), (jwk_base64_encode (jpk_4 m)).
    split; [right; right; left; reflexivity |]. split; [exact U3 |]. split; [exact Ea |].
    split; [apply encode_iff; reflexivity |]. split; [apply encode_iff; reflexivity |].
    exists []. split; [right; split; [discriminate | reflexivity] |]. reflexivity.
  - intros (m & kid & Hmat & Hp & Hk & f & kty & type & n1 & n2 & priv & alg & t1 & t2 & Hf & Hu & Hn & H1 & H2 & crv & Hc & ->).
    rewrite Hmat, Z.eqb_refl. cbn [negb].
    replace ((k_output_prefix_type k =? RAW)%Z || (k_output_prefix_type k =? TINK)%Z) with true.
    2: { symmetry. destruct Hk as (tk & [(E & _) | (E & _)] & _); rewrite E; reflexivity. }
    cbn [negb]. cbv zeta. rewrite Hu. apply encode_iff in H1, H2. subst t1 t2. apply from_string_ok in Hp.
    unfold jwk_families in Hf. cbn [In] in Hf. destruct Hf as [Hf | [Hf | [Hf | []]]];
      injection Hf as <- <- <- <- <- <-.
    + destruct Hc as [(_ & c & Hc & ->) | (Hc & _)]; [| congruence].
      change (str_eqb (ulit (_ ++ "JwtEcdsaPublicKey")) JWT_ECDSA_PUBLIC_KEY_TYPE) with true. cbv iota.
      unfold convert_jwt_ecdsa_key. rewrite Hp. cbn [bind]. rewrite (proj2 (es_params _ _ _) (conj Hn Hc)).
      rewrite (proj2 (with_kid_iff k m _ _) (ex_intro _ kid (conj Hk eq_refl))). reflexivity.
    + destruct Hc as [(Hc & _) | (_ & ->)]; [discriminate |].
      change (str_eqb (ulit (_ ++ "JwtRsaSsaPkcs1PublicKey")) JWT_ECDSA_PUBLIC_KEY_TYPE) with false.
      change (str_eqb (ulit (_ ++ "JwtRsaSsaPkcs1PublicKey")) JWT_RSA_SSA_PKCS1_PUBLIC_KEY_TYPE) with true. cbv iota.
      unfold convert_jwt_rsa_key. rewrite Hp. cbn [bind]. rewrite (proj2 (rs_params _ _) Hn).
      rewrite (proj2 (with_kid_iff k m _ _) (ex_intro _ kid (conj Hk eq_refl))). reflexivity.
    + destruct Hc as [(Hc & _) | (_ & ->)]; [discriminate |].
      change (str_eqb (ulit (_ ++ "JwtRsaSsaPssPublicKey")) JWT_ECDSA_PUBLIC_KEY_TYPE) with false.
      change (str_eqb (ulit (_ ++ "JwtRsaSsaPssPublicKey")) JWT_RSA_SSA_PKCS1_PUBLIC_KEY_TYPE) with false.
      change (str_eqb (ulit (_ ++ "JwtRsaSsaPssPublicKey")) JWT_RSA_SSA_PSS_PUBLIC_KEY_TYPE) with true. cbv iota.
      unfold convert_jwt_rsa_key. rewrite Hp. cbn [bind]. rewrite (proj2 (ps_params _ _) Hn).
      rewrite (proj2 (with_kid_iff k m _ _) (ex_intro _ kid (conj Hk eq_refl))). reflexivity.
Qed.

Lemma convert_key_enabled : forall k o, k_status k = ENABLED -> convert_key k = Ok o -> exists doc, o = Some doc.
Proof.
  intros k o Hst H. unfold convert_key in H. rewrite Hst, Z.eqb_refl in H. cbn [negb] in H.
  repeat match type of H with context [if ?b then _ else _] => destruct b end; try discriminate;
    apply bind_ok in H; destruct H as (j & _ & H); apply ok_inj in H; eauto.
Qed.
Lemma convert_key_disabled : forall k, k_status k <> ENABLED -> convert_key k = Ok None.
Proof. intros k H. unfold convert_key. apply Z.eqb_neq in H. rewrite H. reflexivity. Qed.

Theorem convert_keys_iff : forall l docs,
  convert_keys l = Ok docs <->
  Forall2 (fun k doc => exists m kid, exported_jwk k m kid doc) (filter is_enabled l) docs.
Proof.
  induction l as [| k l IH]; intros docs; cbn [convert_keys filter].
  - split; [intros H; apply ok_inj in H; subst; constructor | intros H; inversion H; reflexivity].
  - unfold is_enabled at 1. destruct (Z.eqb_spec (k_status k) ENABLED) as [Hst | Hst].
    + split.
      * intros H. apply bind_ok in H. destruct H as (o & Ho & H). apply bind_ok in H. destruct H as (js & Hj & H).
        apply ok_inj in H. destruct (convert_key_enabled _ _ Hst Ho) as (doc & ->). subst docs.
        constructor; [apply convert_key_iff; assumption | apply IH; exact Hj].
      * intros H. inversion H as [| ? doc ? js Hd Hj]; subst. apply convert_key_iff in Hd; [| exact Hst].
        rewrite Hd. cbn [bind]. apply IH in Hj. rewrite Hj. reflexivity.
    + rewrite (convert_key_disabled _ Hst). cbn [bind]. rewrite <- IH. destruct (convert_keys l); cbn [bind]; split; congruence.
Qed.

(** ** The text *)

Lemma parse_public_kid_valid : forall x m, parse_jwt_public_key x = Some m -> kid_valid (jpk_custom_kid m).
Proof.
  intros x m H. eapply (merge_message_inv _ (fun p => kid_valid (jpk_custom_kid p))); [exact public_step_kid_valid | | exact H].
  intros y Hy. discriminate.
Qed.

Lemma exported_kid_valid : forall k m kid x, exported_kid k m kid -> parse_jwt_public_key x = Some m ->
  forall t, kid = Some t -> valid_unicode t.
Proof.
  intros k m kid x (tk & Hk & ->) Hp t E. destruct tk as [u |].
  - apply some_inj in E. subst u. destruct (kid_of_valid _ _ Hk) as [V _]. apply V. reflexivity.
  - apply (parse_public_kid_valid _ _ Hp). exact E.
Qed.
Lemma base64url_valid : forall x t, base64url x t -> valid_unicode t.
Proof.
  intros x t (s & -> & H). assert (L : base64_text_loose url_alphabet x s).
  { destruct H as (l & f & A & B & C & D & _). exists l, f. auto. }
  apply url_text_ascii in L. unfold valid_unicode. apply Forall_map. revert L. apply Forall_impl. intros c Hc. lia.
Qed.
Lemma names_algorithm_ascii : forall f a alg, In f ["ES"; "RS"; "PS"] -> names_algorithm f a alg -> valid_unicode alg.
Proof.
  intros f a alg Hf Hn. apply ascii_valid. cbn [In] in Hf. destruct Hf as [<- | [<- | [<- | []]]];
    destruct Hn as [(_ & ->) | [(_ & ->) | (_ & ->)]]; reflexivity.
Qed.

(** The members of an exported JWK. *)
Lemma exported_members : forall k m kid doc, exported_jwk k m kid doc -> exists l, doc = JDict l /\
  NoDup (map fst l) /\ Forall (fun kv => valid_unicode (fst kv) /\
    ((exists x, snd kv = JStr x /\ valid_unicode x) \/ snd kv = JList [JStr (ulit "verify")])) l.
Proof.
  intros k m kid doc (Hmat & Hp & Hk & f & kty & type & n1 & n2 & priv & alg & t1 & t2 & Hf & Hu & Hn & H1 & H2 & crv & Hc & ->).
  eexists. split; [reflexivity |].
  assert (Halg : valid_unicode alg).
  { eapply names_algorithm_ascii; [| exact Hn]. unfold jwk_families in Hf. cbn [In] in *.
    destruct Hf as [Hf | [Hf | [Hf | []]]]; injection Hf as <- _ _ _ _ _; auto. }
  pose proof (exported_kid_valid _ _ _ _ Hk Hp) as Hkid. apply base64url_valid in H1, H2. 
  split.
  - unfold jwk_families in Hf. cbn [In] in Hf.
    destruct Hf as [Hf | [Hf | [Hf | []]]]; injection Hf as <- <- _ <- <- _;
      (destruct Hc as [(Hc0 & c & Hc & ->) | (Hc0 & ->)]; try congruence); destruct kid; cbn [map app fst];
      nodup_names.
  - apply Forall_app. split; [| apply Forall_app; split; [| apply Forall_app; split]].
    + constructor; [| constructor]. split; [apply ascii_valid; reflexivity |]. left. eexists. split; [reflexivity |].
      unfold jwk_families in Hf. cbn [In] in Hf.
      destruct Hf as [Hf | [Hf | [Hf | []]]]; injection Hf as <- <- _ _ _ _; apply ascii_valid; reflexivity.
    + destruct Hc as [(_ & c & Hc & ->) | (_ & ->)]; [| constructor]. constructor; [| constructor].
      split; [apply ascii_valid; reflexivity |]. left. eexists. split; [reflexivity |].
      unfold jwk_curves in Hc. cbn [In] in Hc. destruct Hc as [Hc | [Hc | [Hc | []]]]; apply (f_equal snd) in Hc;
        cbn [snd] in Hc; subst c; apply ascii_valid; reflexivity.
    + unfold jwk_families in Hf. cbn [In] in Hf.
      assert (A1 : forall x y : string, In x ["x"; "y"; "n"; "e"; "use"; "alg"; "key_ops"] -> valid_unicode (ulit x)).
      { intros x _ Hx. apply ascii_valid. cbn [In] in Hx.
        repeat (destruct Hx as [<- | Hx]; [reflexivity |]). destruct Hx. }
      assert (A2 : forall x t, In x ["x"; "y"; "n"; "e"; "use"; "alg"; "key_ops"] -> valid_unicode t ->
        valid_unicode (fst (ulit x, JStr t)) /\ ((exists y, snd (ulit x, JStr t) = JStr y /\ valid_unicode y) \/
          snd (ulit x, JStr t) = JList [JStr (ulit "verify")])).
      { intros x t Hx Ht. cbn [fst snd]. split; [apply (A1 x x Hx) |]. left. eauto. }
      assert (A3 : forall x y : string, In x ["x"; "n"] -> In y ["y"; "e"] -> Forall
         (fun kv : pystr * json => valid_unicode (fst kv) /\
            ((exists x0, snd kv = JStr x0 /\ valid_unicode x0) \/ snd kv = JList [JStr (ulit "verify")]))
         [(ulit x, JStr t1); (ulit y, JStr t2); (ulit "use", JStr (ulit "sig")); (ulit "alg", JStr alg);
          (ulit "key_ops", JList [JStr (ulit "verify")])]).
      { intros x y Hx Hy. constructor; [apply A2; [cbn [In] in *; tauto | exact H1] |].
        constructor; [apply A2; [cbn [In] in *; tauto | exact H2] |].
        constructor; [apply A2; [cbn [In]; tauto | apply ascii_valid; reflexivity] |].
        constructor; [apply A2; [cbn [In]; tauto | exact Halg] |].
        constructor; [| constructor]. cbn [fst snd]. split; [apply (A1 "key_ops" "x"); cbn [In]; tauto | right; reflexivity]. }
      destruct Hf as [Hf | [Hf | [Hf | []]]]; injection Hf as _ _ _ <- <- _; apply A3; cbn [In]; tauto.
    + destruct kid as [t |]; [| constructor]. constructor; [| constructor]. split; [apply ascii_valid; reflexivity |].
      left. eexists. split; [reflexivity | apply Hkid; reflexivity].
Qed.

Lemma exported_good : forall rt k m kid doc, exported_jwk k m kid doc -> good_json rt doc.
Proof.
  intros rt k m kid doc H. destruct (exported_members _ _ _ _ H) as (l & -> & Hn & Hl).
  apply good_dict; [exact Hn |]. revert Hl. apply Forall_impl. intros [x v] [H1 H2]. cbn [fst snd] in *.
  split; [exact H1 |]. destruct H2 as [(y & -> & Hy) | ->]; [apply good_str; exact Hy |].
  apply good_list. constructor; [| constructor]. apply good_str. apply ascii_valid. reflexivity.
Qed.

Lemma set_good : forall rt (R : key -> json -> Prop) keys docs,
  (forall k d, R k d -> good_json rt d) -> Forall2 R keys docs ->
  good_json rt (JDict [(ulit "keys", JList docs)]).
Proof.
  intros rt R keys docs HR H. apply good_dict; [repeat constructor; auto |].
  constructor; [| constructor]. cbn [fst snd]. split; [apply ascii_valid; reflexivity |]. apply good_list.
  induction H; constructor; eauto.
Qed.

Lemma good_dumps : forall rt v, float_codec rt -> good_json rt v ->
  exists t, json_dumps rt v = Ok t /\ json_text rt v t.
Proof.
  intros rt v Hc (Hn & Hf & Hi & Hs).
  destruct (dumps_text rt [] []) with (v := v) as (t & E & V);
    [repeat constructor | repeat constructor | exact Hc | |].
  - repeat split; [intros f Hw; destruct (Hf f Hw) | exact Hi | |]; apply valid_unicode_code_points, Hs; assumption.
  - exists t. split; [exact E |]. exists [], t, []. rewrite app_nil_r. repeat split; [constructor | exact V | constructor].
Qed.

Theorem jwk_export_spec : forall rt h, float_codec rt -> wf_keyset (kh_keyset h) ->
  proto_size (serialize_keyset (kh_keyset h)) ->
  (forall text, from_public_keyset_handle rt h = Ok text ->
     ~ has_secret (kh_keyset h) /\
     exists docs, json_text rt (JDict [(ulit "keys", JList docs)]) text /\
       Forall2 (fun k doc => exists m kid, exported_jwk k m kid doc)
         (filter is_enabled (ks_key (kh_keyset h))) docs) /\
  (~ has_secret (kh_keyset h) ->
   forall docs, Forall2 (fun k doc => exists m kid, exported_jwk k m kid doc)
                  (filter is_enabled (ks_key (kh_keyset h))) docs ->
   exists text, from_public_keyset_handle rt h = Ok text) /\
  (has_secret (kh_keyset h) -> raises_tink (from_public_keyset_handle rt h)).
Proof.
  intros rt h Hc Hw Hsz. unfold from_public_keyset_handle.
  destruct (proto_serialize_without_secret_spec h) as [S1 S2].
  assert (F : keyset_from_string (serialize_keyset (kh_keyset h)) = Ok (kh_keyset h)).
  { unfold keyset_from_string. rewrite (keyset_round_trip _ Hw Hsz). reflexivity. }
  split; [| split].
  - intros text H. apply bind_ok in H. destruct H as (x & Hx & H).
    assert (Hn : ~ has_secret (kh_keyset h)).
    { intros Hs. destruct (S1 Hs) as (e & E & _). rewrite E in Hx. discriminate. }
    split; [exact Hn |]. rewrite (S2 Hn) in Hx. apply ok_inj in Hx. subst x. rewrite F in H. cbn [bind] in H.
    apply bind_ok in H. destruct H as (docs & Hd & H). apply convert_keys_iff in Hd. exists docs. split; [| exact Hd].
    destruct (good_dumps rt (JDict [(ulit "keys", JList docs)]) Hc) as (t & E & V).
    + eapply set_good; [| exact Hd]. intros k d (m & kid & Hx). eapply exported_good; exact Hx.
    + rewrite E in H. apply ok_inj in H. subst t. exact V.
  - intros Hn docs Hd. rewrite (S2 Hn). cbn [bind]. rewrite F. cbn [bind].
    rewrite (proj2 (convert_keys_iff _ _) Hd). cbn [bind].
    destruct (good_dumps rt (JDict [(ulit "keys", JList docs)]) Hc) as (t & E & V).
    + eapply set_good; [| exact Hd]. intros k d (m & kid & Hx). eapply exported_good; exact Hx.
    + exists t. exact E.
  - intros Hs. destruct (S1 Hs) as (e & E & T). rewrite E. exists e. auto.
Qed.

Lemma with_kid_err : forall k m out e, uint32_range (k_key_id k) -> with_kid k m out = Err e -> is_tink_error e = true.
Proof.
  intros k m out e Hid H. unfold with_kid in H. apply bind_err in H. destruct H as [H | (kid & _ & H)].
  - apply get_kid_err in H. destruct H as (_ & [H | (_ & H)]).
    + destruct e; try discriminate. reflexivity.
    + unfold uint32_range in Hid. lia.
  - destruct kid as [[|] |]; try discriminate; destruct (jpk_custom_kid m); discriminate.
Qed.
Lemma convert_key_err : forall k e, uint32_range (k_key_id k) ->
  (k_status k = ENABLED -> exists m, parse_jwt_public_key (kd_value (k_key_data k)) = Some m) ->
  convert_key k = Err e -> is_tink_error e = true.
Proof.
  intros k e Hid Hp H. unfold convert_key in H. destruct (Z.eqb_spec (k_status k) ENABLED) as [Hst |]; [| discriminate].
  destruct (Hp Hst) as (m & Em). cbn [negb] in H. cbv zeta in H.
  destruct (negb _); [inv H; reflexivity |]. destruct (negb _); [inv H; reflexivity |].
  unfold convert_jwt_ecdsa_key, convert_jwt_rsa_key, jwt_public_key_from_string in H. rewrite Em in H. cbn [bind] in H.
  destruct (str_eqb _ _).
  { apply bind_err in H. destruct H as [H | (j & _ & H)]; [| discriminate].
    destruct (dict_get _ _ _) as [[a c] |]; [eapply with_kid_err; eassumption | inv H; reflexivity]. }
  destruct (str_eqb _ _).
  { apply bind_err in H. destruct H as [H | (j & _ & H)]; [| discriminate].
    destruct (dict_get _ _ _); [eapply with_kid_err; eassumption | inv H; reflexivity]. }
  destruct (str_eqb _ _); [| inv H; reflexivity].
  apply bind_err in H. destruct H as [H | (j & _ & H)]; [| discriminate].
  destruct (dict_get _ _ _); [eapply with_kid_err; eassumption | inv H; reflexivity].
Qed.

Theorem jwk_export_errors : forall rt h e, float_codec rt -> wf_keyset (kh_keyset h) ->
  proto_size (serialize_keyset (kh_keyset h)) ->
  (forall k, In k (ks_key (kh_keyset h)) -> k_status k = ENABLED ->
     exists m, parse_jwt_public_key (kd_value (k_key_data k)) = Some m) ->
  from_public_keyset_handle rt h = Err e -> is_tink_error e = true.
Proof.
  intros rt h e Hc Hw Hsz Hp H. unfold from_public_keyset_handle in H.
  destruct (proto_serialize_without_secret_spec h) as [S1 S2].
  assert (F : keyset_from_string (serialize_keyset (kh_keyset h)) = Ok (kh_keyset h)).
  { unfold keyset_from_string. rewrite (keyset_round_trip _ Hw Hsz). reflexivity. }
  apply bind_err in H. destruct H as [H | (x & Hx & H)].
  - assert (D : has_secret (kh_keyset h) \/ ~ has_secret (kh_keyset h)).
    { unfold has_secret. assert (K : forall t, secret_type t \/ ~ secret_type t).
      { intros t. unfold secret_type. destruct (Z.eq_dec t UNKNOWN_KEYMATERIAL), (Z.eq_dec t SYMMETRIC), (Z.eq_dec t ASYMMETRIC_PRIVATE); tauto. }
      clear -K. induction (ks_key (kh_keyset h)) as [| k l IH]; [right; intros (k & [] & _) |].
      destruct (K (kd_key_material_type (k_key_data k))) as [Hk | Hk]; [left; exists k; cbn [In]; auto |].
      destruct IH as [(k' & Hi & Hs) | Hn]; [left; exists k'; cbn [In]; auto |].
      right. intros (k' & [<- | Hi] & Hs); [auto |]. apply Hn. eauto. }
    destruct D as [D | D].
    + destruct (S1 D) as (e' & E & T). rewrite E in H. apply (f_equal (fun r => match r with Err x => Some x | Ok _ => None end)) in H.
      apply some_inj in H. subst e'. exact T.
    + rewrite (S2 D) in H. discriminate.
  - assert (Hn : ~ has_secret (kh_keyset h)).
    { intros Hs. destruct (S1 Hs) as (e' & E & _). rewrite E in Hx. discriminate. }
    rewrite (S2 Hn) in Hx. apply ok_inj in Hx. subst x. rewrite F in H. cbn [bind] in H.
    apply bind_err in H. destruct H as [H | (docs & Hd & H)].
    + destruct Hw as [_ Hw]. revert Hp Hw H. generalize (ks_key (kh_keyset h)). clear. 
      induction l as [| k l IH]; intros Hp Hw H; [discriminate |]. cbn [convert_keys] in H.
      apply bind_err in H. destruct H as [H | (o & _ & H)].
      * eapply convert_key_err; [| | exact H]; [apply (Hw k); left; reflexivity | apply Hp; left; reflexivity].
      * apply bind_err in H. destruct H as [H | (js & _ & H)]; [| discriminate].
        apply IH; [intros; apply Hp; [right |]; assumption | intros; apply Hw; right; assumption | exact H].
    + exfalso. apply convert_keys_iff in Hd.
      destruct (good_dumps rt (JDict [(ulit "keys", JList docs)]) Hc) as (t & E & V).
      * eapply set_good; [| exact Hd]. intros k d (m & kid & Hx). eapply exported_good; exact Hx.
      * congruence.
Qed.
