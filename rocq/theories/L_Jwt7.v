(** JWT keys in keysets: from the key messages to the tokens. *)
From Coq Require Import Strings.Byte Strings.String List NArith ZArith Bool Lia Permutation.
From Verif Require Import M_Base M_Proto M_Utf8 M_Wire M_JwtTypes M_Prims M_PrimitiveSet M_Registry M_KeysetHandle
  M_Json M_JwtPrims M_JwtFormat M_JwtWrappers M_JwtKeys
  L_Base S_Keyset S_PrimitiveSet L_PrimitiveSet L_Keyset L_Wrappers L_Wrappers2 L_Utf8 L_Wire S_Json S_Base64 S_Jwt S_JwtKeys
  L_Json3 L_Jwt L_Jwt2 L_Jwt5 L_Jwt6.
Import ListNotations.
Open Scope list_scope.

(** ** The outcome of a list of attempts *)

Lemma outcome_ok : forall A (at_ : list (result A)) a, verify_outcome at_ (Ok a) -> In (Ok a) at_.
Proof.
  intros A at_ a [(b & r & c & -> & _ & _ & <-) | (_ & [(b & e & c & _ & _ & _ & E) | (_ & e & E & _)])]; try discriminate.
  apply in_or_app. right. left. reflexivity.
Qed.
Lemma outcome_complete : forall A (at_ : list (result A)) out a, verify_outcome at_ out -> In (Ok a) at_ ->
  (forall r, In r at_ -> r = Ok a \/ raises_tink r) -> out = Ok a.
Proof.
  intros A at_ out a [(b & r & c & -> & _ & N & ->) | (F & _)] Hi Ht.
  - destruct (Ht r) as [E | E]; [apply in_or_app; right; left; reflexivity | exact E | contradiction].
  - rewrite Forall_forall in F. destruct (F _ Hi) as (e & E & _). discriminate.
Qed.
Lemma outcome_fail : forall A (at_ : list (result A)) out, verify_outcome at_ out -> Forall raises_tink at_ -> raises_tink out.
Proof.
  intros A at_ out [(b & r & c & -> & _ & N & ->) | (F & [(b & e & c & -> & _ & _ & ->) | (_ & e & -> & T & _)])] H.
  - exfalso. apply N. rewrite Forall_forall in H. apply H. apply in_or_app. right. left. reflexivity.
  - rewrite Forall_forall in H. apply H. apply in_or_app. right. left. reflexivity.
  - exists e. auto.
Qed.
Lemma Forall2_in_l : forall A B (R : A -> B -> Prop) l l', Forall2 R l l' -> forall x, In x l -> exists y, In y l' /\ R x y.
Proof.
  induction 1 as [| x y l l' Hr _ IH]; intros z Hz; [destruct Hz |]; destruct Hz as [E | E]; [subst; exists y; cbn; auto |].
  destruct (IH z E) as (w & Hw & Hx). exists w. cbn. auto.
Qed.
Lemma Forall2_in_r : forall A B (R : A -> B -> Prop) l l', Forall2 R l l' -> forall y, In y l' -> exists x, In x l /\ R x y.
Proof.
  induction 1 as [| x y l l' Hr _ IH]; intros z Hz; [destruct Hz |]; destruct Hz as [E | E]; [subst; exists x; cbn; auto |].
  destruct (IH z E) as (w & Hw & Hx). exists w. cbn. auto.
Qed.
Lemma attempts_in_iff : forall P A (call : P -> option pystr -> result A) l at_,
  jwt_attempts call l at_ -> forall r, In r at_ <-> exists k p kid, In (k, p) l /\ kid_of k kid /\ r = call p kid.
Proof.
  intros P A call l at_ H r. unfold jwt_attempts in H. split.
  - intros Hr. destruct (Forall2_in_r _ _ _ _ _ H r Hr) as ((k & p) & Hi & kid & Hk & E). cbn [fst snd] in *.
    exists k, p, kid. split; [| auto]. apply (Permutation_in _ (grouped_permutation _ l)). exact Hi.
  - intros (k & p & kid & Hi & Hk & ->).
    apply (Permutation_in _ (Permutation_sym (grouped_permutation _ l))) in Hi.
    destruct (Forall2_in_l _ _ _ _ _ H _ Hi) as (r & Hr & kid' & Hk' & ->). cbn [fst snd] in *.
    rewrite (kid_of_fun _ _ _ Hk Hk'). exact Hr.
Qed.

(** ** Verification by a keyset of keys with known parameters *)

Section Verifier.
  Context {P : Type} (rt : py_rt) (ks : keyset) (l : list (key * P)) (clock : Z) (v : jwt_validator) (token : pystr).
  Context (call : P -> option pystr -> result verified_jwt) (out : result verified_jwt).
  Context (K : key -> pystr -> option pystr -> (bytes -> bytes -> result unit) -> Prop).
  Hypothesis Hl : forall k p, In (k, p) l -> In k (enabled_keys ks).
  Hypothesis Hex : forall k p, In (k, p) l -> exists alg ck check, K k alg ck check.
  Hypothesis Hen : forall k, In k (enabled_keys ks) -> exists p, In (k, p) l.
  Hypothesis Hrt : Forall (fun kp => raw_or_tink (fst kp)) l.
  Hypothesis HK : forall k p alg ck check, In (k, p) l -> K k alg ck check ->
    In alg (map ulit algorithms) /\ (forall kid, call p kid = verify_with_kid rt alg ck check clock token v kid).
  Hypothesis Htot : forall k alg ck check, In k (enabled_keys ks) -> K k alg ck check ->
    forall tag signed, tink_total (use_tink_errors (check tag signed)).
  Hypothesis Hout : exists at_, jwt_attempts call l at_ /\ verify_outcome at_ out.

  Lemma check_tink : forall k alg ck check, In k (enabled_keys ks) -> K k alg ck check ->
    forall tag signed e, use_tink_errors (check tag signed) = Err e -> is_tink_error e = true.
  Proof. intros k alg ck check Hk Hkk tag signed e E. pose proof (Htot _ _ _ _ Hk Hkk tag signed) as T. rewrite E in T. exact T. Qed.

  Lemma keyset_accepts : forall r, float_times_ok rt ->
    representable (current_time v clock - jv_clock_skew v) ->
    representable (current_time v clock + jv_clock_skew v) ->
    (out = Ok (mk_verified_jwt r) <->
     exists k alg ck check kid, In k (enabled_keys ks) /\ K k alg ck check /\ kid_of k kid /\
       token_accepted rt alg kid ck check clock v token r).
  Proof.
    intros r Hf R1 R2. destruct Hout as (at_ & Ha & Ho). pose proof (attempts_in_iff _ _ _ _ _ Ha) as Hin. split.
    - intros ->. apply outcome_ok, Hin in Ho. destruct Ho as (k & p & kid & Hi & Hk & E).
      destruct (Hex _ _ Hi) as (alg & ck & check & Hkk). destruct (HK _ _ _ _ _ Hi Hkk) as (Halg & Hc).
      exists k, alg, ck, check, kid. split; [eapply Hl; exact Hi |]. split; [exact Hkk |]. split; [exact Hk |].
      rewrite Hc in E. symmetry in E. apply verify_sound in E. exact E.
    - intros (k & alg & ck & check & kid & Hke & Hkk & Hkid & Hacc).
      destruct (Hen _ Hke) as (p & Hi). destruct (HK _ _ _ _ _ Hi Hkk) as (Halg & Hc).
      assert (E : verify_with_kid rt alg ck check clock token v kid = Ok (mk_verified_jwt r))
        by (apply verify_complete; assumption).
      apply (outcome_complete _ _ _ _ Ho).
      + apply Hin. exists k, p, kid. split; [exact Hi |]. split; [exact Hkid |]. rewrite Hc, E. reflexivity.
      + intros x Hx. apply Hin in Hx. destruct Hx as (k' & p' & kid' & Hi' & Hk' & ->).
        destruct (Hex _ _ Hi') as (alg' & ck' & check' & Hkk'). destruct (HK _ _ _ _ _ Hi' Hkk') as (Halg' & Hc').
        rewrite Hc'. apply (verify_agree _ _ _ _ _ _ _ _ _ _ _ _ _ E).
        eapply check_tink; [eapply Hl; exact Hi' | exact Hkk'].
  Qed.

  Lemma keyset_rejects :
    (forall k alg ck check signed header payload tag, In k (enabled_keys ks) -> K k alg ck check ->
       compact_parts token signed header payload tag -> check tag signed <> Ok tt) ->
    raises_tink out.
  Proof.
    intros Hno. destruct Hout as (at_ & Ha & Ho). apply (outcome_fail _ _ _ Ho). apply Forall_forall.
    intros x Hx. apply (attempts_in_iff _ _ _ _ _ Ha) in Hx. destruct Hx as (k & p & kid & Hi & Hk & ->).
    destruct (Hex _ _ Hi) as (alg & ck & check & Hkk). destruct (HK _ _ _ _ _ Hi Hkk) as (Halg & Hc). rewrite Hc.
    destruct (verify_unauthenticated rt alg ck check clock token v kid) as (e & -> & He).
    { intros signed h q tag Hp. eapply Hno; [eapply Hl; exact Hi | exact Hkk | exact Hp]. }
    exists e. split; [reflexivity |]. destruct He as [He | (signed & tag & He)].
    - destruct e; cbn in *; congruence.
    - eapply check_tink; [eapply Hl; exact Hi | exact Hkk | exact He].
  Qed.
End Verifier.

(** ** The key managers *)

Lemma alg_text_spec : forall f a t,
  alg_text [(f ++ "256")%string; (f ++ "384")%string; (f ++ "512")%string] a = Some t <-> names_algorithm f a t.
Proof.
  intros f a t. unfold alg_text, names_algorithm.
  destruct (Z.ltb_spec a 1) as [L | L]; cbn [orb].
  { split; [discriminate |]. intros [(-> & _) | [(-> & _) | (-> & _)]]; lia. }
  destruct (Z.ltb_spec 3 a) as [G | G].
  { split; [discriminate |]. intros [(-> & _) | [(-> & _) | (-> & _)]]; lia. }
  assert (C : a = 1%Z \/ a = 2%Z \/ a = 3%Z) by lia. destruct C as [-> | [-> | ->]].
  all: cbv [nth_error Z.to_nat Z.sub Z.add Z.opp Z.pos_sub Pos.to_nat Pos.iter_op option_map Nat.add].
  all: split; [intros E; apply some_inj in E; subst t; tauto |];
       intros [(K & ->) | [(K & ->) | (K & ->)]]; try discriminate; reflexivity.
Qed.

Lemma names_algorithm_in : forall f a t, In f ["HS"; "ES"; "RS"; "PS"]%string -> names_algorithm f a t -> In t (map ulit algorithms).
Proof.
  intros f a t Hf H. destruct Hf as [<- | [<- | [<- | [<- | []]]]];
    destruct H as [(_ & ->) | [(_ & ->) | (_ & ->)]]; apply in_map; cbn; tauto.
Qed.

Theorem jwt_hmac_manager_spec : forall rt cc d p,
  km_primitive (jwt_hmac_manager rt cc) d = Ok p <->
  exists message alg m,
    kd_type_url d = ulit "type.googleapis.com/google.crypto.tink.JwtHmacKey" /\
    parse_jwt_hmac_key (kd_value d) = Some message /\ names_algorithm "HS" (jhk_algorithm message) alg /\
    cc_primitive cc (serialize_key_data d) = Ok m /\
    p = PrimJwtMacInternal (jwt_hmac rt alg (jhk_custom_kid message) m).
Proof.
  intros rt cc d p. cbn [km_primitive jwt_hmac_manager]. unfold jwt_hmac_primitive. rewrite use_tink_ok.
  change JWT_HMAC_KEY_TYPE with (ulit "type.googleapis.com/google.crypto.tink.JwtHmacKey").
  destruct (str_eqb (kd_type_url d) (ulit "type.googleapis.com/google.crypto.tink.JwtHmacKey")) eqn:Eu; cbn [negb].
  - apply str_eqb_spec in Eu. destruct (parse_jwt_hmac_key (kd_value d)) as [k |].
    + change HMAC_ALGORITHM_STRING with (alg_text [("HS" ++ "256")%string; ("HS" ++ "384")%string; ("HS" ++ "512")%string]).
      destruct (alg_text _ (jhk_algorithm k)) as [alg |] eqn:Ea.
      * split.
        -- intros H. apply bind_ok in H. destruct H as (m & Hm & H). apply ok_inj in H. subst p.
           exists k, alg, m. apply alg_text_spec in Ea. auto.
        -- intros (k' & alg' & m & _ & Ek & Ha & Hm & ->). apply some_inj in Ek. subst k'.
           apply alg_text_spec in Ha. rewrite Ha in Ea. apply some_inj in Ea. subst alg'. rewrite Hm. reflexivity.
      * split; [discriminate |]. intros (k' & alg' & m & _ & Ek & Ha & _). apply some_inj in Ek. subst k'.
        apply alg_text_spec in Ha. congruence.
    + split; [discriminate |]. intros (k' & alg' & m & _ & Ek & _). discriminate.
  - split; [discriminate |]. intros (k' & alg' & m & E & _). apply str_eqb_spec in E. congruence.
Qed.

(** A JWT HMAC key with an algorithm that this version does not know: KeyError. *)
Theorem jwt_hmac_manager_unknown_algorithm : forall rt cc d message,
  kd_type_url d = ulit "type.googleapis.com/google.crypto.tink.JwtHmacKey" ->
  parse_jwt_hmac_key (kd_value d) = Some message ->
  (forall alg, ~ names_algorithm "HS" (jhk_algorithm message) alg) ->
  km_primitive (jwt_hmac_manager rt cc) d = Err KeyError.
Proof.
  intros rt cc d k Hu Hp Ha. cbn [km_primitive jwt_hmac_manager]. unfold jwt_hmac_primitive.
  change JWT_HMAC_KEY_TYPE with (ulit "type.googleapis.com/google.crypto.tink.JwtHmacKey").
  rewrite Hu, (proj2 (str_eqb_spec _ _) eq_refl), Hp. cbn [negb].
  change HMAC_ALGORITHM_STRING with (alg_text [("HS" ++ "256")%string; ("HS" ++ "384")%string; ("HS" ++ "512")%string]).
  destruct (alg_text _ (jhk_algorithm k)) as [alg |] eqn:Ea; [| reflexivity].
  apply alg_text_spec in Ea. exfalso. exact (Ha _ Ea).
Qed.

Lemma alg_kid_spec : forall f t parse d alg ck,
  alg_kid (ulit ("type.googleapis.com/google.crypto.tink." ++ t))
    (alg_text [(f ++ "256")%string; (f ++ "384")%string; (f ++ "512")%string]) parse d = Ok (alg, ck) <->
  kd_type_url d = ulit ("type.googleapis.com/google.crypto.tink." ++ t) /\
  exists message, parse (kd_value d) = Some message /\ names_algorithm f (jpk_algorithm message) alg /\
    ck = jpk_custom_kid message.
Proof.
  intros f t parse d alg ck. unfold alg_kid.
  destruct (str_eqb (kd_type_url d) (ulit ("type.googleapis.com/google.crypto.tink." ++ t))) eqn:Eu; cbn [negb].
  - apply str_eqb_spec in Eu. destruct (parse (kd_value d)) as [k |].
    + destruct (alg_text _ (jpk_algorithm k)) as [a |] eqn:Ea.
      * apply alg_text_spec in Ea. split.
        -- intros E. apply ok_inj in E. pose proof (f_equal fst E) as E1. pose proof (f_equal snd E) as E2. cbn in E1, E2. subst.
           split; [exact Eu |]. exists k. auto.
        -- intros (_ & k' & Ek & Ha & ->). apply some_inj in Ek. subst k'.
           apply alg_text_spec in Ha, Ea. rewrite Ha in Ea. apply some_inj in Ea. subst. reflexivity.
      * split; [discriminate |]. intros (_ & k' & Ek & Ha & _). apply some_inj in Ek. subst k'.
        apply alg_text_spec in Ha. congruence.
    + split; [discriminate |]. intros (_ & k' & Ek & _). discriminate.
  - split; [discriminate |]. intros (E & _). apply str_eqb_spec in E. congruence.
Qed.
Lemma private_alg_kid_spec : forall f t akid d alg ck, In (f, t, akid) private_families ->
  akid d = Ok (alg, ck) <->
  kd_type_url d = ulit ("type.googleapis.com/google.crypto.tink." ++ t) /\
  exists message, parse_jwt_private_key (kd_value d) = Some message /\ names_algorithm f (jpk_algorithm message) alg /\
    ck = jpk_custom_kid message.
Proof.
  intros f t akid d alg ck H. destruct H as [E | [E | [E | []]]]; injection E as <- <- <-.
  - exact (alg_kid_spec "ES" "JwtEcdsaPrivateKey" parse_jwt_private_key d alg ck).
  - exact (alg_kid_spec "RS" "JwtRsaSsaPkcs1PrivateKey" parse_jwt_private_key d alg ck).
  - exact (alg_kid_spec "PS" "JwtRsaSsaPssPrivateKey" parse_jwt_private_key d alg ck).
Qed.
Lemma public_alg_kid_spec : forall f t akid d alg ck, In (f, t, akid) public_families ->
  akid d = Ok (alg, ck) <->
  kd_type_url d = ulit ("type.googleapis.com/google.crypto.tink." ++ t) /\
  exists message, parse_jwt_public_key (kd_value d) = Some message /\ names_algorithm f (jpk_algorithm message) alg /\
    ck = jpk_custom_kid message.
Proof.
  intros f t akid d alg ck H. destruct H as [E | [E | [E | []]]]; injection E as <- <- <-.
  - exact (alg_kid_spec "ES" "JwtEcdsaPublicKey" parse_jwt_public_key d alg ck).
  - exact (alg_kid_spec "RS" "JwtRsaSsaPkcs1PublicKey" parse_jwt_public_key d alg ck).
  - exact (alg_kid_spec "PS" "JwtRsaSsaPssPublicKey" parse_jwt_public_key d alg ck).
Qed.

Theorem jwt_sign_manager_spec : forall rt n cc f t akid d p, In (f, t, akid) private_families ->
  km_primitive (jwt_sign_manager rt n cc akid) d = Ok p <->
  exists message alg g,
    kd_type_url d = ulit ("type.googleapis.com/google.crypto.tink." ++ t) /\
    parse_jwt_private_key (kd_value d) = Some message /\ names_algorithm f (jpk_algorithm message) alg /\
    cc_primitive cc (serialize_key_data d) = Ok g /\
    p = PrimJwtSignInternal (jwt_public_key_sign rt alg (jpk_custom_kid message) g).
Proof.
  intros rt n cc f t akid d p Hf. cbn [km_primitive jwt_sign_manager]. rewrite use_tink_ok. split.
  - intros H. apply bind_ok in H. destruct H as (g & Hg & H). apply bind_ok in H. destruct H as ((alg & ck) & Ha & H).
    apply ok_inj in H. apply (private_alg_kid_spec _ _ _ _ _ _ Hf) in Ha. destruct Ha as (Hu & k & Hk & Ha & ->).
    exists k, alg, g. auto.
  - intros (k & alg & g & Hu & Hk & Ha & Hg & ->). rewrite Hg. cbn [bind].
    rewrite (proj2 (private_alg_kid_spec _ _ _ d alg (jpk_custom_kid k) Hf)); [reflexivity |]. eauto.
Qed.
Theorem jwt_verify_manager_spec : forall rt n cc f t akid d p, In (f, t, akid) public_families ->
  km_primitive (jwt_verify_manager rt n cc akid) d = Ok p <->
  exists message alg g,
    kd_type_url d = ulit ("type.googleapis.com/google.crypto.tink." ++ t) /\
    parse_jwt_public_key (kd_value d) = Some message /\ names_algorithm f (jpk_algorithm message) alg /\
    cc_primitive cc (serialize_key_data d) = Ok g /\
    p = PrimJwtVerifyInternal (jwt_public_key_verify rt alg (jpk_custom_kid message) g).
Proof.
  intros rt n cc f t akid d p Hf. cbn [km_primitive jwt_verify_manager]. rewrite use_tink_ok. split.
  - intros H. apply bind_ok in H. destruct H as (g & Hg & H). apply bind_ok in H. destruct H as ((alg & ck) & Ha & H).
    apply ok_inj in H. apply (public_alg_kid_spec _ _ _ _ _ _ Hf) in Ha. destruct Ha as (Hu & k & Hk & Ha & ->).
    exists k, alg, g. auto.
  - intros (k & alg & g & Hu & Hk & Ha & Hg & ->). rewrite Hg. cbn [bind].
    rewrite (proj2 (public_alg_kid_spec _ _ _ d alg (jpk_custom_kid k) Hf)); [reflexivity |]. eauto.
Qed.

(** ** From key_provides to keys with parameters *)

Lemma names_algorithm_fun : forall f a t t', names_algorithm f a t -> names_algorithm f a t' -> t = t'.
Proof. intros f a t t' H H'. apply alg_text_spec in H, H'. congruence. Qed.

Lemma mac_key_alg : forall cc k alg ck m, jwt_mac_key cc k alg ck m -> In alg (map ulit algorithms).
Proof. intros cc k alg ck m (_ & message & _ & Ha & _). eapply names_algorithm_in; [| exact Ha]. cbn. auto. Qed.
Lemma provides_mac_key : forall rt cc reg k p, jwt_mac_registry rt cc reg ->
  key_provides reg ClsJwtMacInternal k (PrimJwtMacInternal p) ->
  exists alg ck m, jwt_mac_key cc k alg ck m /\ p = jwt_hmac rt alg ck m.
Proof.
  intros rt cc reg k p Hr (km & b & Hd & Hc & Hp). rewrite (Hr _ _ _ Hd Hc) in Hp.
  apply jwt_hmac_manager_spec in Hp. destruct Hp as (message & alg & m & Hu & Hm & Ha & Hcc & E).
  exists alg, (jhk_custom_kid message), m. split; [split; [exact Hu |]; exists message; auto |]. injection E as E. exact E.
Qed.
Lemma mac_key_fun : forall cc k alg ck m alg' ck' m', jwt_mac_key cc k alg ck m -> jwt_mac_key cc k alg' ck' m' ->
  alg = alg' /\ ck = ck' /\ m = m'.
Proof.
  intros cc k alg ck m alg' ck' m' (_ & g & Hg & Ha & -> & Hm) (_ & g' & Hg' & Ha' & -> & Hm').
  rewrite Hg in Hg'. apply some_inj in Hg'. subst g'. rewrite Hm in Hm'. apply ok_inj in Hm'.
  pose proof (names_algorithm_fun _ _ _ _ Ha Ha'). auto.
Qed.
Lemma mac_prim_of : forall rt cc reg k p alg ck m, jwt_mac_registry rt cc reg -> jwt_mac_key cc k alg ck m ->
  key_provides reg ClsJwtMacInternal k (PrimJwtMacInternal p) -> p = jwt_hmac rt alg ck m.
Proof.
  intros rt cc reg k p alg ck m Hr Hk Hp. apply (provides_mac_key _ _ _ _ _ Hr) in Hp.
  destruct Hp as (alg' & ck' & m' & Hk' & ->). destruct (mac_key_fun _ _ _ _ _ _ _ _ Hk Hk') as (-> & -> & ->). reflexivity.
Qed.

Lemma private_family_in : forall f t akid, In (f, t, akid) private_families ->
  In (f, t) [("ES", "JwtEcdsaPrivateKey"); ("RS", "JwtRsaSsaPkcs1PrivateKey"); ("PS", "JwtRsaSsaPssPrivateKey")]%string.
Proof. intros f t akid H. destruct H as [H | [H | [H | []]]]; injection H as <- <- _; cbn; auto. Qed.
Lemma sign_key_alg : forall ccs k alg ck g, jwt_sign_key ccs k alg ck g -> In alg (map ulit algorithms).
Proof.
  intros ccs k alg ck g (f & t & message & Hf & _ & _ & Ha & _). eapply names_algorithm_in; [| exact Ha].
  destruct Hf as [E | [E | [E | []]]]; injection E as <- _; cbn; auto.
Qed.
Lemma provides_sign_key : forall rt ccs reg k p, jwt_sign_registry rt ccs reg ->
  key_provides reg ClsJwtSignInternal k (PrimJwtSignInternal p) ->
  exists alg ck g, jwt_sign_key ccs k alg ck g /\ p = jwt_public_key_sign rt alg ck g.
Proof.
  intros rt ccs reg k p Hr (km & b & Hd & Hc & Hp). destruct (Hr _ _ _ Hd Hc) as (n & f & t & akid & Hf & ->).
  apply (jwt_sign_manager_spec rt n (ccs t) f t akid _ _ Hf) in Hp. destruct Hp as (message & alg & g & Hu & Hm & Ha & Hcc & E).
  exists alg, (jpk_custom_kid message), g. split; [exists f, t, message; split; [eapply private_family_in; exact Hf | auto 7] |].
  injection E as E. exact E.
Qed.
Lemma sign_key_fun : forall ccs k alg ck g alg' ck' g', jwt_sign_key ccs k alg ck g -> jwt_sign_key ccs k alg' ck' g' ->
  alg = alg' /\ ck = ck' /\ g = g'.
Proof.
  intros ccs k alg ck g alg' ck' g' (f & t & m & Hf & Hu & Hm & Ha & -> & Hg) (f' & t' & m' & Hf' & Hu' & Hm' & Ha' & -> & Hg').
  assert (E : f = f' /\ t = t').
  { rewrite Hu in Hu'. clear - Hf Hf' Hu'. destruct Hf as [H | [H | [H | []]]]; destruct Hf' as [H' | [H' | [H' | []]]];
    injection H as <- <-; injection H' as <- <-; try (vm_compute in Hu'; discriminate); auto. }
  destruct E as (<- & <-).
  rewrite Hm in Hm'. apply some_inj in Hm'. subst m'. rewrite Hg in Hg'. apply ok_inj in Hg'.
  pose proof (names_algorithm_fun _ _ _ _ Ha Ha'). auto.
Qed.
Lemma sign_prim_of : forall rt ccs reg k p alg ck g, jwt_sign_registry rt ccs reg -> jwt_sign_key ccs k alg ck g ->
  key_provides reg ClsJwtSignInternal k (PrimJwtSignInternal p) -> p = jwt_public_key_sign rt alg ck g.
Proof.
  intros rt ccs reg k p alg ck g Hr Hk Hp. apply (provides_sign_key _ _ _ _ _ Hr) in Hp.
  destruct Hp as (alg' & ck' & g' & Hk' & ->). destruct (sign_key_fun _ _ _ _ _ _ _ _ Hk Hk') as (-> & -> & ->). reflexivity.
Qed.

Lemma public_family_in : forall f t akid, In (f, t, akid) public_families ->
  In (f, t) [("ES", "JwtEcdsaPublicKey"); ("RS", "JwtRsaSsaPkcs1PublicKey"); ("PS", "JwtRsaSsaPssPublicKey")]%string.
Proof. intros f t akid H. destruct H as [H | [H | [H | []]]]; injection H as <- <- _; cbn; auto. Qed.
Lemma verify_key_alg : forall ccs k alg ck g, jwt_verify_key ccs k alg ck g -> In alg (map ulit algorithms).
Proof.
  intros ccs k alg ck g (f & t & message & Hf & _ & _ & Ha & _). eapply names_algorithm_in; [| exact Ha].
  destruct Hf as [E | [E | [E | []]]]; injection E as <- _; cbn; auto.
Qed.
Lemma provides_verify_key : forall rt ccs reg k p, jwt_verify_registry rt ccs reg ->
  key_provides reg ClsJwtVerifyInternal k (PrimJwtVerifyInternal p) ->
  exists alg ck g, jwt_verify_key ccs k alg ck g /\ p = jwt_public_key_verify rt alg ck g.
Proof.
  intros rt ccs reg k p Hr (km & b & Hd & Hc & Hp). destruct (Hr _ _ _ Hd Hc) as (n & f & t & akid & Hf & ->).
  apply (jwt_verify_manager_spec rt n (ccs t) f t akid _ _ Hf) in Hp. destruct Hp as (message & alg & g & Hu & Hm & Ha & Hcc & E).
  exists alg, (jpk_custom_kid message), g. split; [exists f, t, message; split; [eapply public_family_in; exact Hf | auto 7] |].
  injection E as E. exact E.
Qed.
Lemma verify_key_fun : forall ccs k alg ck g alg' ck' g', jwt_verify_key ccs k alg ck g -> jwt_verify_key ccs k alg' ck' g' ->
  alg = alg' /\ ck = ck' /\ g = g'.
Proof.
  intros ccs k alg ck g alg' ck' g' (f & t & m & Hf & Hu & Hm & Ha & -> & Hg) (f' & t' & m' & Hf' & Hu' & Hm' & Ha' & -> & Hg').
  assert (E : f = f' /\ t = t').
  { rewrite Hu in Hu'. clear - Hf Hf' Hu'. destruct Hf as [H | [H | [H | []]]]; destruct Hf' as [H' | [H' | [H' | []]]];
    injection H as <- <-; injection H' as <- <-; try (vm_compute in Hu'; discriminate); auto. }
  destruct E as (<- & <-).
  rewrite Hm in Hm'. apply some_inj in Hm'. subst m'. rewrite Hg in Hg'. apply ok_inj in Hg'.
  pose proof (names_algorithm_fun _ _ _ _ Ha Ha'). auto.
Qed.
Lemma verify_prim_of : forall rt ccs reg k p alg ck g, jwt_verify_registry rt ccs reg -> jwt_verify_key ccs k alg ck g ->
  key_provides reg ClsJwtVerifyInternal k (PrimJwtVerifyInternal p) -> p = jwt_public_key_verify rt alg ck g.
Proof.
  intros rt ccs reg k p alg ck g Hr Hk Hp. apply (provides_verify_key _ _ _ _ _ Hr) in Hp.
  destruct Hp as (alg' & ck' & g' & Hk' & ->). destruct (verify_key_fun _ _ _ _ _ _ _ _ Hk Hk') as (-> & -> & ->). reflexivity.
Qed.

Lemma keys_with_in : forall P (inj : P -> prim) reg c ks l, keys_with inj reg c ks l ->
  (forall k p, In (k, p) l -> In k (enabled_keys ks) /\ key_provides reg c k (inj p)) /\
  (forall k, In k (enabled_keys ks) -> exists p, In (k, p) l).
Proof.
  intros P inj reg c ks l (Hl & Hf). rewrite Forall_forall in Hf. split.
  - intros k p Hi. split; [| exact (Hf _ Hi)]. rewrite <- Hl. apply (in_map fst) in Hi. exact Hi.
  - intros k Hk. rewrite <- Hl in Hk. apply in_map_iff in Hk. destruct Hk as ((k' & p) & <- & Hi). eauto.
Qed.

(** ** Verification of tokens *)

(** A token is accepted by a keyset iff one of its enabled keys accepts it; the claims
    are those of the token. *)
Theorem jwt_mac_verify_iff : forall rt ccm reg h m,
  dict_get pclass_eqb ClsJwtMac (r_wrappers reg) = Some jwt_mac_wrapper ->
  jwt_mac_registry rt ccm reg -> handle_primitive reg h ClsJwtMac = Ok (PrimJwtMac m) ->
  (forall k alg ck cc tag signed, In k (enabled_keys (kh_keyset h)) -> jwt_mac_key ccm k alg ck cc ->
     tink_total (use_tink_errors (mac_verify cc tag signed))) ->
  forall clock token v r, float_times_ok rt ->
  representable (current_time v clock - jv_clock_skew v) ->
  representable (current_time v clock + jv_clock_skew v) ->
  (jm_verify m clock token v = Ok (mk_verified_jwt r) <->
   exists k alg ck cc kid, In k (enabled_keys (kh_keyset h)) /\ jwt_mac_key ccm k alg ck cc /\ kid_of k kid /\
     token_accepted rt alg kid ck (mac_verify cc) clock v token r).
Proof.
  intros rt ccm reg h m Hw Hr Hh Ht clock token v r Hf R1 R2.
  destruct (jwt_mac_handle_spec _ _ _ Hw Hh) as (_ & l & _ & Hv). specialize (Hv clock token v).
  destruct Hv as (Hk & Hp & Ho). destruct (keys_with_in _ _ _ _ _ _ Hk) as (Hin & Hen).
  rewrite (keyset_accepts rt (kh_keyset h) l clock v token (fun p kid => jmi_verify p clock token v kid)
    (jm_verify m clock token v)
    (fun k alg ck check => exists cc, check = mac_verify cc /\ jwt_mac_key ccm k alg ck cc)); auto.
  - split.
    + intros (k & alg & ck & check & kid & H1 & (cc & -> & H2) & H3 & H4). exists k, alg, ck, cc, kid. auto.
    + intros (k & alg & ck & cc & kid & H1 & H2 & H3 & H4). exists k, alg, ck, (mac_verify cc), kid. eauto 6.
  - intros k p Hi. apply Hin in Hi. tauto.
  - intros k p Hi. apply Hin in Hi. destruct Hi as (_ & Hi). apply (provides_mac_key _ _ _ _ _ Hr) in Hi.
    destruct Hi as (alg & ck & cc & H1 & _). exists alg, ck, (mac_verify cc), cc. auto.
  - intros k p alg ck check Hi (cc & -> & Hkk). split; [apply (mac_key_alg _ _ _ _ _ Hkk) |].
    apply Hin in Hi. destruct Hi as (_ & Hi). rewrite (mac_prim_of _ _ _ _ _ _ _ _ Hr Hkk Hi). reflexivity.
  - intros k alg ck check Hke (cc & -> & Hkk) tag signed. eapply Ht; eassumption.
Qed.

Theorem jwt_mac_verify_unauthenticated : forall rt ccm reg h m,
  dict_get pclass_eqb ClsJwtMac (r_wrappers reg) = Some jwt_mac_wrapper ->
  jwt_mac_registry rt ccm reg -> handle_primitive reg h ClsJwtMac = Ok (PrimJwtMac m) ->
  (forall k alg ck cc tag signed, In k (enabled_keys (kh_keyset h)) -> jwt_mac_key ccm k alg ck cc ->
     tink_total (use_tink_errors (mac_verify cc tag signed))) ->
  forall clock token v,
  (forall k alg ck cc signed header payload tag,
     In k (enabled_keys (kh_keyset h)) -> jwt_mac_key ccm k alg ck cc ->
     compact_parts token signed header payload tag -> mac_verify cc tag signed <> Ok tt) ->
  raises_tink (jm_verify m clock token v).
Proof.
  intros rt ccm reg h m Hw Hr Hh Ht clock token v Hno.
  destruct (jwt_mac_handle_spec _ _ _ Hw Hh) as (_ & l & _ & Hv). specialize (Hv clock token v).
  destruct Hv as (Hk & Hp & Ho). destruct (keys_with_in _ _ _ _ _ _ Hk) as (Hin & Hen).
  apply (keyset_rejects rt (kh_keyset h) l clock v token (fun p kid => jmi_verify p clock token v kid)
    (jm_verify m clock token v)
    (fun k alg ck check => exists cc, check = mac_verify cc /\ jwt_mac_key ccm k alg ck cc)); auto.
  - intros k p Hi. apply Hin in Hi. tauto.
  - intros k p Hi. apply Hin in Hi. destruct Hi as (_ & Hi). apply (provides_mac_key _ _ _ _ _ Hr) in Hi.
    destruct Hi as (alg & ck & cc & H1 & _). exists alg, ck, (mac_verify cc), cc. auto.
  - intros k p alg ck check Hi (cc & -> & Hkk). split; [apply (mac_key_alg _ _ _ _ _ Hkk) |].
    apply Hin in Hi. destruct Hi as (_ & Hi). rewrite (mac_prim_of _ _ _ _ _ _ _ _ Hr Hkk Hi). reflexivity.
  - intros k alg ck check Hke (cc & -> & Hkk) tag signed. eapply Ht; eassumption.
  - intros k alg ck check signed header payload tag Hke (cc & -> & Hkk) Hc. eapply Hno; eassumption.
Qed.

Theorem jwt_verify_iff : forall rt ccv reg h vf,
  dict_get pclass_eqb ClsJwtVerify (r_wrappers reg) = Some jwt_verify_wrapper ->
  jwt_verify_registry rt ccv reg -> handle_primitive reg h ClsJwtVerify = Ok (PrimJwtVerify vf) ->
  (forall k alg ck cc tag signed, In k (enabled_keys (kh_keyset h)) -> jwt_verify_key ccv k alg ck cc ->
     tink_total (use_tink_errors (verify cc tag signed))) ->
  forall clock token v r, float_times_ok rt ->
  representable (current_time v clock - jv_clock_skew v) ->
  representable (current_time v clock + jv_clock_skew v) ->
  (jv_verify vf clock token v = Ok (mk_verified_jwt r) <->
   exists k alg ck cc kid, In k (enabled_keys (kh_keyset h)) /\ jwt_verify_key ccv k alg ck cc /\ kid_of k kid /\
     token_accepted rt alg kid ck (verify cc) clock v token r).
Proof.
  intros rt ccv reg h m Hw Hr Hh Ht clock token v r Hf R1 R2.
  destruct (jwt_verify_handle_spec _ _ _ Hw Hh) as (_ & l & Hv). specialize (Hv clock token v).
  destruct Hv as (Hk & Hp & Ho). destruct (keys_with_in _ _ _ _ _ _ Hk) as (Hin & Hen).
  rewrite (keyset_accepts rt (kh_keyset h) l clock v token (fun p kid => jvi_verify p clock token v kid)
    (jv_verify m clock token v)
    (fun k alg ck check => exists cc, check = verify cc /\ jwt_verify_key ccv k alg ck cc)); auto.
  - split.
    + intros (k & alg & ck & check & kid & H1 & (cc & -> & H2) & H3 & H4). exists k, alg, ck, cc, kid. auto.
    + intros (k & alg & ck & cc & kid & H1 & H2 & H3 & H4). exists k, alg, ck, (verify cc), kid. eauto 6.
  - intros k p Hi. apply Hin in Hi. tauto.
  - intros k p Hi. apply Hin in Hi. destruct Hi as (_ & Hi). apply (provides_verify_key _ _ _ _ _ Hr) in Hi.
    destruct Hi as (alg & ck & cc & H1 & _). exists alg, ck, (verify cc), cc. auto.
  - intros k p alg ck check Hi (cc & -> & Hkk). split; [apply (verify_key_alg _ _ _ _ _ Hkk) |].
    apply Hin in Hi. destruct Hi as (_ & Hi). rewrite (verify_prim_of _ _ _ _ _ _ _ _ Hr Hkk Hi). reflexivity.
  - intros k alg ck check Hke (cc & -> & Hkk) tag signed. eapply Ht; eassumption.
Qed.

Theorem jwt_verify_unauthenticated : forall rt ccv reg h vf,
  dict_get pclass_eqb ClsJwtVerify (r_wrappers reg) = Some jwt_verify_wrapper ->
  jwt_verify_registry rt ccv reg -> handle_primitive reg h ClsJwtVerify = Ok (PrimJwtVerify vf) ->
  (forall k alg ck cc tag signed, In k (enabled_keys (kh_keyset h)) -> jwt_verify_key ccv k alg ck cc ->
     tink_total (use_tink_errors (verify cc tag signed))) ->
  forall clock token v,
  (forall k alg ck cc signed header payload tag,
     In k (enabled_keys (kh_keyset h)) -> jwt_verify_key ccv k alg ck cc ->
     compact_parts token signed header payload tag -> verify cc tag signed <> Ok tt) ->
  raises_tink (jv_verify vf clock token v).
Proof.
  intros rt ccv reg h m Hw Hr Hh Ht clock token v Hno.
  destruct (jwt_verify_handle_spec _ _ _ Hw Hh) as (_ & l & Hv). specialize (Hv clock token v).
  destruct Hv as (Hk & Hp & Ho). destruct (keys_with_in _ _ _ _ _ _ Hk) as (Hin & Hen).
  apply (keyset_rejects rt (kh_keyset h) l clock v token (fun p kid => jvi_verify p clock token v kid)
    (jv_verify m clock token v)
    (fun k alg ck check => exists cc, check = verify cc /\ jwt_verify_key ccv k alg ck cc)); auto.
  - intros k p Hi. apply Hin in Hi. tauto.
  - intros k p Hi. apply Hin in Hi. destruct Hi as (_ & Hi). apply (provides_verify_key _ _ _ _ _ Hr) in Hi.
    destruct Hi as (alg & ck & cc & H1 & _). exists alg, ck, (verify cc), cc. auto.
  - intros k p alg ck check Hi (cc & -> & Hkk). split; [apply (verify_key_alg _ _ _ _ _ Hkk) |].
    apply Hin in Hi. destruct Hi as (_ & Hi). rewrite (verify_prim_of _ _ _ _ _ _ _ _ Hr Hkk Hi). reflexivity.
  - intros k alg ck check Hke (cc & -> & Hkk) tag signed. eapply Ht; eassumption.
  - intros k alg ck check signed header payload tag Hke (cc & -> & Hkk) Hc. eapply Hno; eassumption.
Qed.

(** ** Round trip *)

Definition kid_valid (o : option pystr) : Prop := forall x, o = Some x -> valid_unicode x.

Lemma decode_valid : forall x u, utf8_decode x = Some u -> valid_unicode u.
Proof.
  intros x u H. apply utf8_encode_decode in H. apply validate_str_ok. unfold validate_str. rewrite H. reflexivity.
Qed.
Lemma merge_custom_kid_valid : forall o x o', kid_valid o -> merge_custom_kid o x = Some o' -> kid_valid o'.
Proof.
  intros o x o' Ho H. unfold merge_custom_kid in H.
  destruct (merge_message custom_kid_step _ x) as [w |] eqn:E; [| discriminate]. cbn in H. apply some_inj in H. subst o'.
  intros y Hy. apply some_inj in Hy. subst y.
  eapply (merge_message_inv _ valid_unicode); [| | exact E].
  - intros a (n & fv) a' Ha Hs. unfold custom_kid_step in Hs.
    destruct n as [| [| |]]; destruct fv; try (apply some_inj in Hs; subst; assumption).
    apply decode_valid in Hs. exact Hs.
  - destruct o; [apply Ho; reflexivity | constructor].
Qed.
Lemma parse_hmac_kid_valid : forall x k, parse_jwt_hmac_key x = Some k -> kid_valid (jhk_custom_kid k).
Proof.
  intros x k H. eapply (merge_message_inv _ (fun k => kid_valid (jhk_custom_kid k))); [| | exact H].
  - intros a f a' Ha Hs. unfold jwt_hmac_key_step in Hs.
    repeat match type of Hs with context [match ?z with _ => _ end] => is_var z; destruct z end;
      try (apply some_inj in Hs; subst; assumption).
    destruct (merge_custom_kid _ _) eqn:E; [| discriminate]. cbn in Hs. apply some_inj in Hs. subst a'.
    eapply merge_custom_kid_valid; eassumption.
  - intros y Hy. discriminate.
Qed.
Lemma public_step_kid_valid : forall a f a', kid_valid (jpk_custom_kid a) -> jwt_public_key_step a f = Some a' ->
  kid_valid (jpk_custom_kid a').
Proof.
  intros a f a' Ha Hs. unfold jwt_public_key_step in Hs.
  repeat match type of Hs with context [match ?z with _ => _ end] => is_var z; destruct z end;
    try (apply some_inj in Hs; subst; assumption).
  destruct (merge_custom_kid _ _) eqn:E; [| discriminate]. cbn in Hs. apply some_inj in Hs. subst a'.
  eapply merge_custom_kid_valid; eassumption.
Qed.
Lemma parse_private_kid_valid : forall x k, parse_jwt_private_key x = Some k -> kid_valid (jpk_custom_kid k).
Proof.
  intros x k H. unfold parse_jwt_private_key in H.
  destruct (merge_message jwt_private_key_step None x) as [o |] eqn:E; [| discriminate]. cbn in H. apply some_inj in H.
  assert (V : forall p, o = Some p -> kid_valid (jpk_custom_kid p)).
  { eapply (merge_message_inv _ (fun o => forall p, o = Some p -> kid_valid (jpk_custom_kid p))); [| | exact E].
    - intros a f a' Ha Hs. unfold jwt_private_key_step in Hs.
      repeat match type of Hs with context [match ?z with (_, _) => _ end] => is_var z; destruct z end.
      destruct n as [| [| [| |] |]]; destruct w; try (apply some_inj in Hs; subst; assumption).
      match type of Hs with context [merge_message ?u ?y ?z] => destruct (merge_message u y z) as [q |] eqn:Em end; [| discriminate]. cbn in Hs. apply some_inj in Hs. subst a'.
      intros p Hp. apply some_inj in Hp. subst p.
      eapply (merge_message_inv _ (fun p => kid_valid (jpk_custom_kid p))); [exact public_step_kid_valid | | exact Em].
      destruct a as [p |]; [apply Ha; reflexivity | intros y Hy; discriminate].
    - intros p Hp. discriminate. }
  subst k. destruct o; [apply V; reflexivity | intros y Hy; discriminate].
Qed.
Lemma kid_of_valid : forall k kid, kid_of k kid -> kid_valid kid /\ kid <> Some [].
Proof.
  intros k kid [(_ & ->) | (_ & b3 & b2 & b1 & b0 & s & _ & (digits & fill & Hd & -> & Hb & _) & ->)].
  - split; [intros x Hx |]; discriminate.
  - split.
    + intros x Hx. apply some_inj in Hx. subst x. unfold valid_unicode. apply Forall_forall. intros c Hc.
      apply in_map_iff in Hc. destruct Hc as (b & <- & _). pose proof (Byte.to_N_bounded b). lia.
    + intros E. apply some_inj in E. destruct digits as [| d digits]; [| discriminate].
      cbn in Hb. discriminate.
Qed.

(** A token made by a keyset is accepted by any keyset with a key of the same
    parameters whose C++ primitive accepts the tag. *)
Theorem jwt_mac_keyset_round_trip : forall rt ccm ccm' reg reg' h h' m m',
  dict_get pclass_eqb ClsJwtMac (r_wrappers reg) = Some jwt_mac_wrapper ->
  dict_get pclass_eqb ClsJwtMac (r_wrappers reg') = Some jwt_mac_wrapper ->
  jwt_mac_registry rt ccm reg -> jwt_mac_registry rt ccm' reg' ->
  handle_primitive reg h ClsJwtMac = Ok (PrimJwtMac m) ->
  handle_primitive reg' h' ClsJwtMac = Ok (PrimJwtMac m') ->
  (forall k alg ck cc tag signed, In k (enabled_keys (kh_keyset h')) -> jwt_mac_key ccm' k alg ck cc ->
     tink_total (use_tink_errors (mac_verify cc tag signed))) ->
  forall k alg ck cc k' cc',
  In k (enabled_keys (kh_keyset h)) -> k_key_id k = ks_primary_key_id (kh_keyset h) ->
  jwt_mac_key ccm k alg ck cc ->
  In k' (enabled_keys (kh_keyset h')) -> jwt_mac_key ccm' k' alg ck cc' ->
  k_key_id k' = k_key_id k -> k_output_prefix_type k' = k_output_prefix_type k ->
  (forall data tag, mac_compute cc data = Ok tag -> mac_verify cc' tag data = Ok tt) ->
  forall clock token v r r', float_codec rt -> float_times_ok rt -> ordinary_jwt rt r -> well_typed r ->
  representable (current_time v clock - jv_clock_skew v) ->
  representable (current_time v clock + jv_clock_skew v) ->
  jm_compute m r = Ok token -> same_but_empty_type r r' -> accepts rt clock v r' ->
  jm_verify m' clock token v = Ok (mk_verified_jwt r').
Proof.
  intros rt ccm ccm' reg reg' h h' m m' W W' Hr Hr' Hh Hh' Ht k alg ck cc k' cc' Hke Hpr Hkk Hke' Hkk' Hid Hty Hcc
    clock token v r r' Hc Hf Ho Hwt R1 R2 He Hs Ha.
  apply (jwt_mac_verify_iff rt ccm' reg' h' m'); auto.
  destruct (jwt_mac_handle_spec _ _ _ W Hh) as (_ & l & Hm & _). specialize (Hm r). destruct Hm as (Hl & _ & Hm & _).
  destruct (keys_with_in _ _ _ _ _ _ Hl) as (Hin & Hen). destruct (Hen _ Hke) as (p & Hp).
  destruct (Hm k p (conj Hp Hpr)) as (kid & Hkid & E). rewrite He in E. symmetry in E.
  rewrite (mac_prim_of _ _ _ _ _ _ _ _ Hr Hkk (proj2 (Hin _ _ Hp))) in E. cbn [jmi_compute jwt_hmac] in E.
  destruct (kid_of_valid _ _ Hkid) as (Vk & Ne).
  exists k', alg, ck, cc', kid. split; [exact Hke' |]. split; [exact Hkk' |]. split.
  { unfold kid_of in *. rewrite Hid, Hty. exact Hkid. }
  apply verify_sound. apply (jwt_round_trip rt alg ck (mac_compute cc) (mac_verify cc') r r'); auto.
  - apply (mac_key_alg _ _ _ _ _ Hkk).
  - destruct Hkk as (_ & message & Hmsg & _ & -> & _). apply parse_hmac_kid_valid in Hmsg.
    intros x [Hx | Hx]; [apply Hmsg; exact Hx | apply Vk; exact Hx].
Qed.

Theorem jwt_signature_keyset_round_trip : forall rt ccs ccv reg reg' h h' s vf,
  dict_get pclass_eqb ClsJwtSign (r_wrappers reg) = Some jwt_sign_wrapper ->
  dict_get pclass_eqb ClsJwtVerify (r_wrappers reg') = Some jwt_verify_wrapper ->
  jwt_sign_registry rt ccs reg -> jwt_verify_registry rt ccv reg' ->
  handle_primitive reg h ClsJwtSign = Ok (PrimJwtSign s) ->
  handle_primitive reg' h' ClsJwtVerify = Ok (PrimJwtVerify vf) ->
  (forall k alg ck cc tag signed, In k (enabled_keys (kh_keyset h')) -> jwt_verify_key ccv k alg ck cc ->
     tink_total (use_tink_errors (verify cc tag signed))) ->
  forall k alg ck cc k' cc',
  In k (enabled_keys (kh_keyset h)) -> k_key_id k = ks_primary_key_id (kh_keyset h) ->
  jwt_sign_key ccs k alg ck cc ->
  In k' (enabled_keys (kh_keyset h')) -> jwt_verify_key ccv k' alg ck cc' ->
  k_key_id k' = k_key_id k -> k_output_prefix_type k' = k_output_prefix_type k ->
  forall rnd,
  (forall data tag, sign cc rnd data = Ok tag -> verify cc' tag data = Ok tt) ->
  forall clock token v r r', float_codec rt -> float_times_ok rt -> ordinary_jwt rt r -> well_typed r ->
  representable (current_time v clock - jv_clock_skew v) ->
  representable (current_time v clock + jv_clock_skew v) ->
  js_sign s rnd r = Ok token -> same_but_empty_type r r' -> accepts rt clock v r' ->
  jv_verify vf clock token v = Ok (mk_verified_jwt r').
Proof.
  intros rt ccs ccv reg reg' h h' m m' W W' Hr Hr' Hh Hh' Ht k alg ck cc k' cc' Hke Hpr Hkk Hke' Hkk' Hid Hty rnd Hcc
    clock token v r r' Hc Hf Ho Hwt R1 R2 He Hs Ha.
  apply (jwt_verify_iff rt ccv reg' h' m'); auto.
  destruct (jwt_sign_handle_spec _ _ _ W Hh) as (_ & l & Hm). specialize (Hm rnd r). destruct Hm as (Hl & _ & Hm & _).
  destruct (keys_with_in _ _ _ _ _ _ Hl) as (Hin & Hen). destruct (Hen _ Hke) as (p & Hp).
  destruct (Hm k p (conj Hp Hpr)) as (kid & Hkid & E). rewrite He in E. symmetry in E.
  rewrite (sign_prim_of _ _ _ _ _ _ _ _ Hr Hkk (proj2 (Hin _ _ Hp))) in E. cbn [jsi_sign jwt_public_key_sign] in E.
  destruct (kid_of_valid _ _ Hkid) as (Vk & Ne).
  exists k', alg, ck, cc', kid. split; [exact Hke' |]. split; [exact Hkk' |]. split.
  { unfold kid_of in *. rewrite Hid, Hty. exact Hkid. }
  apply verify_sound. apply (jwt_round_trip rt alg ck (sign cc rnd) (verify cc') r r'); auto.
  - apply (sign_key_alg _ _ _ _ _ Hkk).
  - destruct Hkk as (f & t & message & _ & _ & Hmsg & _ & -> & _). apply parse_private_kid_valid in Hmsg.
    intros x [Hx | Hx]; [apply Hmsg; exact Hx | apply Vk; exact Hx].
Qed.

(** What the primary key puts in the token. *)
Theorem jwt_mac_token : forall rt ccm reg h m,
  dict_get pclass_eqb ClsJwtMac (r_wrappers reg) = Some jwt_mac_wrapper ->
  jwt_mac_registry rt ccm reg -> handle_primitive reg h ClsJwtMac = Ok (PrimJwtMac m) ->
  forall k alg ck cc, In k (enabled_keys (kh_keyset h)) -> k_key_id k = ks_primary_key_id (kh_keyset h) ->
  jwt_mac_key ccm k alg ck cc ->
  forall token r, float_codec rt -> ordinary_jwt rt r -> jm_compute m r = Ok token ->
  exists kid signed header payload tag hd, kid_of k kid /\
    compact_parts token signed header payload tag /\
    document rt (JDict hd) header /\
    header_of alg (match kid with Some _ => kid | None => ck end) (rj_type_header r) hd /\
    document rt (JDict (rj_payload r)) payload /\
    mac_compute cc signed = Ok tag.
Proof.
  intros rt ccm reg h m W Hr Hh k alg ck cc Hke Hpr Hkk token r Hc Ho He.
  destruct (jwt_mac_handle_spec _ _ _ W Hh) as (_ & l & Hm & _). specialize (Hm r). destruct Hm as (Hl & _ & Hm & _).
  destruct (keys_with_in _ _ _ _ _ _ Hl) as (Hin & Hen). destruct (Hen _ Hke) as (p & Hp).
  destruct (Hm k p (conj Hp Hpr)) as (kid & Hkid & E). rewrite He in E. symmetry in E.
  rewrite (mac_prim_of _ _ _ _ _ _ _ _ Hr Hkk (proj2 (Hin _ _ Hp))) in E. cbn [jmi_compute jwt_hmac] in E.
  destruct (kid_of_valid _ _ Hkid) as (Vk & Ne).
  assert (Hex : ck = None \/ kid = None).
  { destruct ck as [c |]; [| auto]. destruct kid as [q |]; [| auto].
    destruct (encode_conflict rt alg c (mac_compute cc) r q) as (w & Ew). congruence. }
  destruct (encode_spec rt alg ck (mac_compute cc) r kid Hc) as (signed & header & payload & hd & H1 & H2 & H3 & H4); auto.
  - apply (mac_key_alg _ _ _ _ _ Hkk).
  - destruct Hkk as (_ & message & Hmsg & _ & -> & _). apply parse_hmac_kid_valid in Hmsg.
    intros x [Hx | Hx]; [apply Hmsg; exact Hx | apply Vk; exact Hx].
  - destruct (mac_compute cc signed) as [tag | e] eqn:Et.
    + destruct H4 as (token' & E' & Hp'). rewrite E in E'. apply ok_inj in E'. subst token'.
      exists kid, signed, header, payload, tag, hd. split; [exact Hkid |]. split; [exact Hp' |]. split; [exact H1 |].
      split; [| auto]. unfold effective_kid in H2. destruct Hex as [-> | ->]; [destruct kid; exact H2 | destruct ck; exact H2].
    + rewrite E in H4. discriminate.
Qed.

Theorem jwt_sign_token : forall rt ccs reg h s,
  dict_get pclass_eqb ClsJwtSign (r_wrappers reg) = Some jwt_sign_wrapper ->
  jwt_sign_registry rt ccs reg -> handle_primitive reg h ClsJwtSign = Ok (PrimJwtSign s) ->
  forall k alg ck cc, In k (enabled_keys (kh_keyset h)) -> k_key_id k = ks_primary_key_id (kh_keyset h) ->
  jwt_sign_key ccs k alg ck cc ->
  forall token rnd r, float_codec rt -> ordinary_jwt rt r -> js_sign s rnd r = Ok token ->
  exists kid signed header payload tag hd, kid_of k kid /\
    compact_parts token signed header payload tag /\
    document rt (JDict hd) header /\
    header_of alg (match kid with Some _ => kid | None => ck end) (rj_type_header r) hd /\
    document rt (JDict (rj_payload r)) payload /\
    sign cc rnd signed = Ok tag.
Proof.
  intros rt ccs reg h m W Hr Hh k alg ck cc Hke Hpr Hkk token rnd r Hc Ho He.
  destruct (jwt_sign_handle_spec _ _ _ W Hh) as (_ & l & Hm). specialize (Hm rnd r). destruct Hm as (Hl & _ & Hm & _).
  destruct (keys_with_in _ _ _ _ _ _ Hl) as (Hin & Hen). destruct (Hen _ Hke) as (p & Hp).
  destruct (Hm k p (conj Hp Hpr)) as (kid & Hkid & E). rewrite He in E. symmetry in E.
  rewrite (sign_prim_of _ _ _ _ _ _ _ _ Hr Hkk (proj2 (Hin _ _ Hp))) in E. cbn [jsi_sign jwt_public_key_sign] in E.
  destruct (kid_of_valid _ _ Hkid) as (Vk & Ne).
  assert (Hex : ck = None \/ kid = None).
  { destruct ck as [c |]; [| auto]. destruct kid as [q |]; [| auto].
    destruct (encode_conflict rt alg c (sign cc rnd) r q) as (w & Ew). congruence. }
  destruct (encode_spec rt alg ck (sign cc rnd) r kid Hc) as (signed & header & payload & hd & H1 & H2 & H3 & H4); auto.
  - apply (sign_key_alg _ _ _ _ _ Hkk).
  - destruct Hkk as (f & t & message & _ & _ & Hmsg & _ & -> & _). apply parse_private_kid_valid in Hmsg.
    intros x [Hx | Hx]; [apply Hmsg; exact Hx | apply Vk; exact Hx].
  - destruct (sign cc rnd signed) as [tag | e] eqn:Et.
    + destruct H4 as (token' & E' & Hp'). rewrite E in E'. apply ok_inj in E'. subst token'.
      exists kid, signed, header, payload, tag, hd. split; [exact Hkid |]. split; [exact Hp' |]. split; [exact H1 |].
      split; [| auto]. unfold effective_kid in H2. destruct Hex as [-> | ->]; [destruct kid; exact H2 | destruct ck; exact H2].
    + rewrite E in H4. discriminate.
Qed.

(** The kid ties a token to the id of a TINK key. *)
Theorem accepted_kid : forall rt alg kid ck check clock v token r alg' kid' ck' check' clock' v' r',
  token_accepted rt alg (Some kid) ck check clock v token r ->
  token_accepted rt alg' (Some kid') ck' check' clock' v' token r' -> kid = kid' /\ r = r'.
Proof.
  intros rt alg kid ck check clock v token r alg' kid' ck' check' clock' v' r'
    (s1 & h1 & p1 & t1 & d1 & A1 & A2 & A3 & A4 & A5 & A6 & A7 & A8)
    (s2 & h2 & p2 & t2 & d2 & B1 & B2 & B3 & B4 & B5 & B6 & B7 & B8).
  destruct (compact_parts_fun _ _ _ _ _ _ _ _ _ A1 B1) as (<- & <- & <- & <-).
  pose proof (document_nodup _ _ _ A3) as ND.
  apply document_iff in A3, B3, A6, B6. rewrite A3 in B3. rewrite A6 in B6. apply ok_inj in B3, B6.
  injection B3 as <-. injection B6 as E6.
  destruct A4 as (_ & _ & _ & A4 & _). destruct B4 as (_ & _ & _ & B4 & _).
  specialize (A4 _ eq_refl). specialize (B4 _ eq_refl).
  split.
  - apply payload_get_in in A4, B4; [| exact ND ..]. congruence.
  - destruct r as [th p]. destruct r' as [th' p']. cbn [rj_payload rj_type_header] in *. subst p'. f_equal.
    unfold typ_of in *. destruct A5 as [(x & X1 & X2 & ->) | (-> & X)]; destruct B5 as [(y & Y1 & Y2 & ->) | (-> & Y)]; try reflexivity.
    + apply payload_get_in in X1, Y1; [| exact ND ..]. congruence.
    + exfalso. exact (X2 (Y _ X1)).
    + exfalso. exact (Y2 (X _ Y1)).
Qed.
