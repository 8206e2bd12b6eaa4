(** JWK sets: from a JWK to a Tink key. *)
From Coq Require Import Strings.Byte Strings.String List NArith ZArith Bool Lia.
From Verif Require Import M_Base L_Base M_Utf8 L_Utf8 M_Base64 S_Base64 L_Base64 M_Proto M_Prims
  M_Registry M_KeysetHandle M_KeysetIO M_JwtTypes M_Json S_Json L_Json L_Json2
  L_Json3 L_Json4 S_Wire S_Keyset S_Handle M_Wire L_Wire L_Handle M_JwtKeys M_JwtFormat
  M_KmsIntegrations S_Jwt S_JwtKeys L_Jwt L_JsonKeyset2 M_Jwk S_Jwk L_Jwk.
Import ListNotations.
Open Scope string_scope.
Open Scope list_scope.

Definition tink_url (type : string) : pystr :=
  ulit ("type.googleapis.com/google.crypto.tink." ++ type).

Lemma name_table : forall f (t : list (pystr * Z)) alg a,
  t = [(ulit (f ++ "256"), 1%Z); (ulit (f ++ "384"), 2%Z); (ulit (f ++ "512"), 3%Z)] ->
  NoDup (map fst t) ->
  dict_get str_eqb alg t = Some a <-> names_algorithm f a alg.
Proof.
  intros f t alg a -> Hn. unfold names_algorithm. cbn [dict_get]. split.
  - destruct (str_eqb alg _) eqn:E1; [apply str_eqb_spec in E1; intros H; inv H; auto |].
    destruct (str_eqb alg (ulit (f ++ "384"))) eqn:E2; [apply str_eqb_spec in E2; intros H; inv H; auto |].
    destruct (str_eqb alg (ulit (f ++ "512"))) eqn:E3; [apply str_eqb_spec in E3; intros H; inv H; auto |].
    discriminate.
  - cbn [map fst] in Hn. inversion Hn as [| ? ? N1 N2]; subst. inversion N2 as [| ? ? N3 N4]; subst.
    intros [(-> & ->) | [(-> & ->) | (-> & ->)]].
    + rewrite (proj2 (str_eqb_spec _ _) eq_refl). reflexivity.
    + destruct (str_eqb (ulit (f ++ "384")) (ulit (f ++ "256"))) eqn:E.
      * apply str_eqb_spec in E. destruct N1. left. exact E.
      * rewrite (proj2 (str_eqb_spec _ _) eq_refl). reflexivity.
    + destruct (str_eqb (ulit (f ++ "512")) (ulit (f ++ "256"))) eqn:E.
      * apply str_eqb_spec in E. destruct N1. right. left. exact E.
      * destruct (str_eqb (ulit (f ++ "512")) (ulit (f ++ "384"))) eqn:E'.
        -- apply str_eqb_spec in E'. destruct N3. left. exact E'.
        -- rewrite (proj2 (str_eqb_spec _ _) eq_refl). reflexivity.
Qed.
Ltac nodup_names := repeat (constructor; [cbn [In]; intros H; decompose [or] H; try contradiction;
                                 match goal with E : _ = _ |- _ => vm_compute in E; discriminate E end |]); constructor.
Lemma es_table : forall alg a, dict_get str_eqb alg ECDSA_NAME_TO_ALGORITHM = Some a <-> names_algorithm "ES" a alg.
Proof. intros. apply name_table; [reflexivity | nodup_names]. Qed.
Lemma rs_table : forall alg a, dict_get str_eqb alg RSA_SSA_PKCS1_NAME_TO_ALGORITHM = Some a <-> names_algorithm "RS" a alg.
Proof. intros. apply name_table; [reflexivity | nodup_names]. Qed.
Lemma ps_table : forall alg a, dict_get str_eqb alg RSA_SSA_PSS_NAME_TO_ALGORITHM = Some a <-> names_algorithm "PS" a alg.
Proof. intros. apply name_table; [reflexivity | nodup_names]. Qed.

(** What the converters have in common: the part of [public_jwk] after alg. *)
Definition jwk_parts (raw : json) (kty first second : string) (private : list string) (m : jwt_public_key) : Prop :=
  member raw "kty" (JStr (ulit kty)) /\
  (forall v, member raw "use" v -> v = JStr (ulit "sig")) /\
  (forall v, member raw "key_ops" v -> v = JList [JStr (ulit "verify")]) /\
  (forall p, In p private -> ~ has_member raw p) /\
  (exists t, member raw first (JStr t) /\ base64url_loose (jpk_3 m) t) /\
  (exists t, member raw second (JStr t) /\ base64url_loose (jpk_4 m) t) /\
  match jpk_custom_kid m with
  | Some kid => member raw "kid" (JStr kid) /\ valid_unicode kid
  | None => ~ has_member raw "kid"
  end /\ jpk_version m = 0%N.

Definition read_parts (d : list (pystr * json)) (first second : string) (url : pystr) (algorithm : Z) : result key :=
  vx <- py_getitem (JDict d) (ulit first) ;; x <- jwk_base64_decode vx ;;
  vy <- py_getitem (JDict d) (ulit second) ;; y <- jwk_base64_decode vy ;;
  kid <- jwk_custom_kid d ;;
  Ok (public_proto_key url (mk_jwt_public_key 0 algorithm x y kid)).

Lemma read_parts_iff : forall raw d first second url a k, view raw d ->
  (read_parts d first second url a = Ok k <->
   exists m, jpk_algorithm m = a /\ jpk_version m = 0%N /\ k = public_proto_key url m /\
     (exists t, member raw first (JStr t) /\ base64url_loose (jpk_3 m) t) /\
     (exists t, member raw second (JStr t) /\ base64url_loose (jpk_4 m) t) /\
     match jpk_custom_kid m with
     | Some kid => member raw "kid" (JStr kid) /\ valid_unicode kid
     | None => ~ has_member raw "kid"
     end).
Proof.
  intros raw d first second url a k V. unfold read_parts. split.
  - intros H. apply bind_ok in H. destruct H as (vx & E1 & H). apply bind_ok in H. destruct H as (x & E2 & H).
    apply bind_ok in H. destruct H as (vy & E3 & H). apply bind_ok in H. destruct H as (y & E4 & H).
    apply bind_ok in H. destruct H as (kid & E5 & H). apply ok_inj in H. subst k.
    exists (mk_jwt_public_key 0 a x y kid). cbn [jpk_algorithm jpk_version jpk_3 jpk_4 jpk_custom_kid].
    repeat split; try (apply (getitem_base64 _ _ _ _ V); eauto).
    apply (custom_kid_iff _ _ _ V). exact E5.
  - intros ([ver a' x y kid] & Ea & Ev & -> & H1 & H2 & H3).
    cbn [jpk_algorithm jpk_version jpk_3 jpk_4 jpk_custom_kid] in *. subst a' ver.
    apply (getitem_base64 _ _ _ _ V) in H1, H2. destruct H1 as (vx & -> & H1). destruct H2 as (vy & E2 & H2).
    cbn [bind]. rewrite H1. cbn [bind]. rewrite E2. cbn [bind]. rewrite H2. cbn [bind].
    apply (custom_kid_iff _ _ _ V) in H3. rewrite H3. reflexivity.
Qed.
Lemma read_parts_err : forall raw d first second url a e, view raw d ->
  (forall v, member raw "kid" v -> exists x, v = JStr x /\ valid_unicode x) ->
  (exists x, member raw first (JStr x) /\ valid_unicode x) ->
  (exists x, member raw second (JStr x) /\ valid_unicode x) ->
  read_parts d first second url a = Err e -> is_tink_error e = true.
Proof.
  intros raw d first second url a e V Hk H1 H2 H. unfold read_parts in H.
  destruct H1 as (x1 & M1 & U1). destruct H2 as (x2 & M2 & U2).
  apply (get_str _ _ _ _ V) in M1, M2. cbn [py_getitem] in H. rewrite M1, M2 in H. cbn [bind] in H.
  apply bind_err in H. destruct H as [H | (x & _ & H)]; [eapply jwk_base64_err; eassumption |].
  apply bind_err in H. destruct H as [H | (y & _ & H)]; [eapply jwk_base64_err; eassumption |].
  apply bind_err in H. destruct H as [H | (kid & _ & H)]; [| discriminate].
  exfalso. eapply custom_kid_err; eassumption.
Qed.

Lemma ecdsa_fold : forall alg d, convert_to_ecdsa_key alg d =
  match dict_get str_eqb alg ECDSA_NAME_TO_ALGORITHM with
  | None => Err (TinkError "unknown ECDSA algorithm")
  | Some algorithm =>
      if negb (get_is d "kty" (ulit "EC")) then Err (TinkError "invalid kty") else
      match dict_get Z.eqb algorithm ECDSA_PARAMS with
      | None => Err KeyError
      | Some (_, crv) =>
          if negb (get_is d "crv" crv) then Err (TinkError "invalid crv") else
          _ <- validate_use_and_key_ops d ;;
          if has d "d" then Err (TinkError "cannot convert private ECDSA key") else
          read_parts d "x" "y" JWT_ECDSA_PUBLIC_KEY_TYPE algorithm
      end
  end.
Proof. reflexivity. Qed.
Lemma rsa_fold : forall table url alg d, convert_to_rsa_key table url alg d =
  match dict_get str_eqb alg table with
  | None => Err (TinkError "unknown RSA SSA algorithm")
  | Some algorithm =>
      if negb (get_is d "kty" (ulit "RSA")) then Err (TinkError "invalid kty") else
      _ <- validate_use_and_key_ops d ;;
      if existsb (has d) ["p"; "q"; "dp"; "dq"; "d"; "qi"] then
        Err (TinkError "importing RSA private keys is not implemented")
      else read_parts d "n" "e" url algorithm
  end.
Proof.
  intros. unfold convert_to_rsa_key. destruct (dict_get str_eqb alg table); [| reflexivity].
  destruct (negb _); [reflexivity |]. destruct (validate_use_and_key_ops d); [| reflexivity]. cbn [bind existsb].
  rewrite !orb_false_r, !orb_assoc. reflexivity.
Qed.

Lemma existsb_has : forall raw d names, view raw d ->
  existsb (has d) names = false <-> forall p, In p names -> ~ has_member raw p.
Proof.
  intros raw d names V. split.
  - intros H p Hp. apply (has_false_iff _ _ _ V). destruct (has d p) eqn:E; [| reflexivity].
    rewrite <- H. symmetry. apply existsb_exists. eauto.
  - intros H. destruct (existsb (has d) names) eqn:E; [| reflexivity]. apply existsb_exists in E.
    destruct E as (p & Hp & E). apply (has_member_iff _ _ _ V) in E. destruct (H p Hp E).
Qed.

Definition es_curve (a : Z) : option pystr := option_map snd (dict_get Z.eqb a ECDSA_PARAMS).
Lemma es_curve_spec : forall a alg, names_algorithm "ES" a alg ->
  exists c, dict_get Z.eqb a ECDSA_PARAMS = Some (alg, c) /\ In (alg, c) jwk_curves /\
    forall c', In (alg, c') jwk_curves -> c' = c.
Proof.
  intros a alg H. unfold names_algorithm in H. destruct H as [(-> & ->) | [(-> & ->) | (-> & ->)]].
  all: eexists; split; [reflexivity | split; [unfold jwk_curves; cbn [In]; auto |]].
  all: intros c' Hc; unfold jwk_curves in Hc; cbn [In] in Hc; destruct Hc as [Hc | [Hc | [Hc | []]]];
    pose proof (f_equal fst Hc) as E; apply (f_equal snd) in Hc; cbn [fst snd] in E, Hc;
    try (symmetry; exact Hc); vm_compute in E; discriminate.
Qed.

Lemma ecdsa_iff : forall raw d alg k, view raw d ->
  (convert_to_ecdsa_key alg d = Ok k <->
   exists m, names_algorithm "ES" (jpk_algorithm m) alg /\
     (exists c, In (alg, c) jwk_curves /\ member raw "crv" (JStr c)) /\
     jwk_parts raw "EC" "x" "y" ["d"] m /\ k = public_proto_key (tink_url "JwtEcdsaPublicKey") m).
Proof.
  intros raw d alg k V. rewrite ecdsa_fold. change (tink_url _) with JWT_ECDSA_PUBLIC_KEY_TYPE. split.
  - destruct (dict_get str_eqb alg _) as [a |] eqn:Ea; [| discriminate]. apply es_table in Ea.
    destruct (get_is d "kty" _) eqn:Ek; [| discriminate]. apply (get_is_iff _ _ _ _ V) in Ek. cbn [negb].
    destruct (es_curve_spec _ _ Ea) as (c & -> & Hc & _).
    destruct (get_is d "crv" c) eqn:Ec; [| discriminate]. apply (get_is_iff _ _ _ _ V) in Ec. cbn [negb].
    intros H. apply bind_ok in H. destruct H as ([] & Hu & H). apply (key_ops_ok _ _ V) in Hu.
    destruct (has d "d") eqn:Ed; [discriminate |]. apply (has_false_iff _ _ _ V) in Ed.
    apply (read_parts_iff _ _ _ _ _ _ _ V) in H. destruct H as (m & <- & Hv & -> & H).
    exists m. split; [exact Ea |]. split; [eauto |]. split; [| reflexivity].
    unfold jwk_parts. destruct Hu as [Hu Ho]. destruct H as (H1 & H2 & H3).
    repeat (split; [assumption |]). split; [| auto]. intros p [<- | []]. exact Ed.
  - intros (m & Ha & (c & Hc & Hm) & (P1 & P2 & P3 & P4 & P5 & P6 & P7 & P8) & ->).
    rewrite (proj2 (es_table _ _) Ha). rewrite (proj2 (get_is_iff _ _ _ _ V) P1). cbn [negb].
    destruct (es_curve_spec _ _ Ha) as (c' & -> & _ & Hu). rewrite <- (Hu _ Hc).
    rewrite (proj2 (get_is_iff _ _ _ _ V) Hm). cbn [negb].
    rewrite (proj2 (key_ops_ok _ _ V) (conj P2 P3)). cbn [bind].
    rewrite (proj2 (has_false_iff _ _ _ V) (P4 "d" (or_introl eq_refl))).
    apply (read_parts_iff _ _ _ _ _ _ _ V). exists m. auto 8.
Qed.

Lemma rsa_iff : forall f table type raw d alg k, view raw d ->
  (forall alg a, dict_get str_eqb alg table = Some a <-> names_algorithm f a alg) ->
  (convert_to_rsa_key table (tink_url type) alg d = Ok k <->
   exists m, names_algorithm f (jpk_algorithm m) alg /\
     jwk_parts raw "RSA" "n" "e" ["p"; "q"; "dp"; "dq"; "d"; "qi"] m /\ k = public_proto_key (tink_url type) m).
Proof.
  intros f table type raw d alg k V T. rewrite rsa_fold. split.
  - destruct (dict_get str_eqb alg _) as [a |] eqn:Ea; [| discriminate]. apply T in Ea.
    destruct (get_is d "kty" _) eqn:Ek; [| discriminate]. apply (get_is_iff _ _ _ _ V) in Ek. cbn [negb].
    intros H. apply bind_ok in H. destruct H as ([] & Hu & H). apply (key_ops_ok _ _ V) in Hu.
    destruct (existsb _ _) eqn:Ed; [discriminate |]. pose proof (proj1 (existsb_has _ _ _ V) Ed) as Ed'.
    apply (read_parts_iff _ _ _ _ _ _ _ V) in H. destruct H as (m & <- & Hv & -> & H).
    exists m. split; [exact Ea |]. split; [| reflexivity].
    unfold jwk_parts. destruct Hu as [Hu Ho]. destruct H as (H1 & H2 & H3). auto 10.
  - intros (m & Ha & (P1 & P2 & P3 & P4 & P5 & P6 & P7 & P8) & ->).
    rewrite (proj2 (T _ _) Ha). rewrite (proj2 (get_is_iff _ _ _ _ V) P1). cbn [negb].
    rewrite (proj2 (key_ops_ok _ _ V) (conj P2 P3)). cbn [bind].
    rewrite (proj2 (existsb_has _ _ _ V) P4).
    apply (read_parts_iff _ _ _ _ _ _ _ V). exists m. auto 8.
Qed.

Lemma startswith_app : forall p s, startswith (p ++ s) p = true.
Proof.
  intros p s. unfold startswith. replace (strip_prefix p (p ++ s)) with (Some s); [reflexivity |].
  symmetry. induction p as [| c p IH]; [reflexivity |]. cbn [app strip_prefix]. rewrite N.eqb_refl. exact IH.
Qed.
Lemma names_prefix : forall f a alg, names_algorithm f a alg -> exists r, alg = (ulit f ++ r)%list.
Proof.
  assert (G : forall f x, ulit (f ++ x) = (ulit f ++ ulit x)%list).
  { intros f x. induction f as [| c f IH]; [reflexivity |]. cbn. f_equal. exact IH. }
  intros f a alg [(_ & ->) | [(_ & ->) | (_ & ->)]]; rewrite G; eauto.
Qed.

Theorem jwk_to_key_iff : forall raw v k, resolves plain raw v ->
  (jwk_to_key v = Ok k <->
   exists type m, public_jwk raw type m /\ k = public_proto_key (tink_url type) m).
Proof.
  intros raw v k Hr. split.
  - intros H. unfold jwk_to_key in H. apply bind_ok in H. destruct H as (b & Hb & H).
    destruct b; [| discriminate]. cbn [negb] in H. apply bind_ok in H. destruct H as (a & Ha & H).
    destruct v as [| | | | | | d]; try discriminate. destruct a as [| | | | alg | |]; try discriminate.
    destruct (resolves_to_dict _ _ Hr) as (l0 & ->). destruct (resolves_view _ _ Hr) as (d' & E & V).
    injection E as <-. cbn [py_getitem] in Ha.
    destruct (dict_get str_eqb (ulit "alg") d) as [w |] eqn:Eg; [| discriminate]. apply ok_inj in Ha. subst w.
    apply (get_str _ _ _ _ V) in Eg. unfold public_jwk.
    destruct (startswith alg (ulit "ES")); [| destruct (startswith alg (ulit "RS")); [| destruct (startswith alg (ulit "PS")); [| discriminate]]].
    + apply (ecdsa_iff _ _ _ _ V) in H. destruct H as (m & Hn & Hc & (P1 & P2 & P3 & P4 & P5 & P6 & P7 & P8) & ->).
      exists "JwtEcdsaPublicKey", m. split; [| reflexivity].
      exists "ES", "EC", "x", "y", ["d"], alg. split; [left; reflexivity |]. auto 20.
    + apply (rsa_iff "RS" _ "JwtRsaSsaPkcs1PublicKey" _ _ _ _ V rs_table) in H.
      destruct H as (m & Hn & (P1 & P2 & P3 & P4 & P5 & P6 & P7 & P8) & ->).
      exists "JwtRsaSsaPkcs1PublicKey", m. split; [| reflexivity].
      exists "RS", "RSA", "n", "e", ["p"; "q"; "dp"; "dq"; "d"; "qi"], alg. split; [right; left; reflexivity |].
      repeat (split; [assumption |]). split; [discriminate |]. auto 10.
    + apply (rsa_iff "PS" _ "JwtRsaSsaPssPublicKey" _ _ _ _ V ps_table) in H.
      destruct H as (m & Hn & (P1 & P2 & P3 & P4 & P5 & P6 & P7 & P8) & ->).
      exists "JwtRsaSsaPssPublicKey", m. split; [| reflexivity].
      exists "PS", "RSA", "n", "e", ["p"; "q"; "dp"; "dq"; "d"; "qi"], alg. split; [right; right; left; reflexivity |].
      repeat (split; [assumption |]). split; [discriminate |]. auto 10.
  - intros (type & m & (f & kty & n1 & n2 & priv & alg & Hf & Hm & Hn & P1 & Hc & P2 & P3 & P4 & P5 & P6 & P7 & P8) & ->).
    assert (D : exists l, raw = JDict l) by (destruct Hm as (l1 & l2 & -> & _); eauto). destruct D as (l0 & ->).
    destruct (resolves_view _ _ Hr) as (d & -> & V).
    pose proof (proj2 (get_str _ _ _ _ V) Hm) as Eg. unfold jwk_to_key. cbn [py_in bind].
    rewrite (proj2 (existsb_key "alg" d) (ex_intro _ _ Eg)). cbn [negb py_getitem]. rewrite Eg. cbn [bind].
    destruct (names_prefix _ _ _ Hn) as (r & Er).
    unfold jwk_families in Hf. cbn [In] in Hf. destruct Hf as [Hf | [Hf | [Hf | []]]];
      injection Hf as <- <- <- <- <- <-.
    + rewrite Er, startswith_app, <- Er. apply (ecdsa_iff _ _ _ _ V). exists m. split; [exact Hn |].
      split; [apply Hc; reflexivity |]. split; [| reflexivity]. repeat (split; [assumption |]). assumption.
    + replace (startswith alg (ulit "ES")) with false by (rewrite Er; reflexivity).
      rewrite Er at 1. rewrite startswith_app. apply (rsa_iff "RS" _ "JwtRsaSsaPkcs1PublicKey" _ _ _ _ V rs_table).
      exists m. split; [exact Hn |]. split; [| reflexivity]. repeat (split; [assumption |]). assumption.
    + replace (startswith alg (ulit "ES")) with false by (rewrite Er; reflexivity).
      replace (startswith alg (ulit "RS")) with false by (rewrite Er; reflexivity).
      rewrite Er at 1. rewrite startswith_app. apply (rsa_iff "PS" _ "JwtRsaSsaPssPublicKey" _ _ _ _ V ps_table).
      exists m. split; [exact Hn |]. split; [| reflexivity]. repeat (split; [assumption |]). assumption.
Qed.

Theorem jwk_to_key_err : forall raw v e, resolves plain raw v -> typed_jwk raw ->
  jwk_to_key v = Err e -> is_tink_error e = true.
Proof.
  intros raw v e Hr ((l0 & ->) & Talg & Tops & Tkid & Tnum) H.
  destruct (resolves_view _ _ Hr) as (d & -> & V). unfold jwk_to_key in H. cbn [py_in bind] in H.
  destruct (existsb _ d) eqn:Ex; [| inv H; reflexivity]. cbn [negb] in H.
  apply existsb_key in Ex. destruct Ex as (w & Ex). cbn [py_getitem] in H. rewrite Ex in H. cbn [bind] in H.
  pose proof (proj1 V _ _ Ex) as (w0 & Hw & Hres). destruct (Talg _ Hw) as (alg & ->).
  apply resolves_atom in Hres; [| exact I]. subst w.
  destruct (startswith alg (ulit "ES")); [| destruct (startswith alg (ulit "RS")); [| destruct (startswith alg (ulit "PS")); [| inv H; reflexivity]]].
  - rewrite ecdsa_fold in H. destruct (dict_get str_eqb alg _) as [a |] eqn:Ea; [| inv H; reflexivity].
    destruct (get_is d "kty" _) eqn:Ek; [| inv H; reflexivity]. apply (get_is_iff _ _ _ _ V) in Ek. cbn [negb] in H.
    apply es_table in Ea. destruct (es_curve_spec _ _ Ea) as (c & Ec & _). rewrite Ec in H.
    destruct (get_is d "crv" c); [| inv H; reflexivity]. cbn [negb] in H.
    apply bind_err in H. destruct H as [H | (u & _ & H)]; [eapply key_ops_err; eassumption |].
    destruct (has d "d"); [inv H; reflexivity |].
    eapply (read_parts_err _ _ _ _ _ _ _ V Tkid); [| | exact H].
    + apply (Tnum "ES" "EC" "JwtEcdsaPublicKey" "x" "y" ["d"] "x"); [left; reflexivity | exact Ek | auto].
    + apply (Tnum "ES" "EC" "JwtEcdsaPublicKey" "x" "y" ["d"] "y"); [left; reflexivity | exact Ek | auto].
  - rewrite rsa_fold in H. destruct (dict_get str_eqb alg _) as [a |] eqn:Ea; [| inv H; reflexivity].
    destruct (get_is d "kty" _) eqn:Ek; [| inv H; reflexivity]. apply (get_is_iff _ _ _ _ V) in Ek. cbn [negb] in H.
    apply bind_err in H. destruct H as [H | (u & _ & H)]; [eapply key_ops_err; eassumption |].
    destruct (existsb _ _); [inv H; reflexivity |].
    eapply (read_parts_err _ _ _ _ _ _ _ V Tkid); [| | exact H].
    + eapply (Tnum "RS" "RSA"); [right; left; reflexivity | exact Ek | auto].
    + eapply (Tnum "RS" "RSA"); [right; left; reflexivity | exact Ek | auto].
  - rewrite rsa_fold in H. destruct (dict_get str_eqb alg _) as [a |] eqn:Ea; [| inv H; reflexivity].
    destruct (get_is d "kty" _) eqn:Ek; [| inv H; reflexivity]. apply (get_is_iff _ _ _ _ V) in Ek. cbn [negb] in H.
    apply bind_err in H. destruct H as [H | (u & _ & H)]; [eapply key_ops_err; eassumption |].
    destruct (existsb _ _); [inv H; reflexivity |].
    eapply (read_parts_err _ _ _ _ _ _ _ V Tkid); [| | exact H].
    + eapply (Tnum "RS" "RSA"); [right; left; reflexivity | exact Ek | auto].
    + eapply (Tnum "RS" "RSA"); [right; left; reflexivity | exact Ek | auto].
Qed.
