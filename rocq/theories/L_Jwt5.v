(** Encoding and verifying with one key. *)
From Coq Require Import Strings.Byte Strings.String List NArith ZArith Bool Lia.
From Verif Require Import M_Base M_Utf8 M_Proto M_Base64 M_JwtTypes M_Prims M_Json M_RawJwt M_JwtValidator M_JwtFormat M_JwtPrims
  L_Base S_Base64 L_Base64 S_Json L_Json L_Json2 L_Json3 L_Json4 S_Keyset S_Jwt L_Jwt L_Jwt2 L_Jwt3 L_Jwt4.
Import ListNotations.
Open Scope string_scope.
Open Scope list_scope.
Open Scope Z_scope.

Lemma use_tink_ok : forall A (x : result A) a, use_tink_errors x = Ok a <-> x = Ok a.
Proof. intros A [a' | e] a; cbn; [tauto |]. destruct e; split; discriminate. Qed.

Lemma document_iff : forall rt v s, document rt v s <-> json_loads rt s = Ok v.
Proof. intros. symmetry. apply json_loads_iff. Qed.
Lemma document_nodup : forall rt h s, document rt (JDict h) s -> NoDup (map fst h).
Proof. intros rt h s (_ & H & _). apply H. constructor. Qed.

(** ** Verification *)

Theorem verify_sound : forall rt alg ck check clock token v kid r,
  verify_with_kid rt alg ck check clock token v kid = Ok (mk_verified_jwt r) ->
  token_accepted rt alg kid ck check clock v token r.
Proof.
  intros rt alg ck check clock token v kid r H. unfold token_accepted. unfold verify_with_kid in H.
  apply bind_ok in H. destruct H as ([[[signed header] payload] tag] & Hs & H). apply split_iff in Hs.
  apply bind_ok in H. destruct H as ([] & Hc & H). rewrite use_tink_ok in Hc.
  apply bind_ok in H. destruct H as (hd & Hh & H). apply bind_ok in H. destruct H as ([] & Hv & H).
  apply bind_ok in H. destruct H as (r' & Hr & H). apply bind_ok in H. destruct H as ([] & Ha & H).
  apply ok_inj in H. assert (r' = r) by congruence. subst r'.
  assert (D : exists h, hd = JDict h).
  { unfold validate_header in Hv. destruct hd; try (apply bind_ok in Hv; destruct Hv as (? & _ & ?); discriminate). eauto. }
  destruct D as (h & ->). apply document_iff in Hh. pose proof (document_nodup _ _ _ Hh) as Hn.
  apply validate_header_iff in Hv; [| exact Hn]. destruct Hv as (_ & Hok).
  unfold raw_jwt_from_json in Hr. apply bind_ok in Hr. destruct Hr as (pv & Hp & Hr). apply document_iff in Hp.
  destruct pv as [| | | | | | p]; try discriminate.
  pose proof (document_nodup _ _ _ Hp) as Hnp. apply raw_jwt_init_iff in Hr; [| exact Hnp].
  destruct Hr as (-> & Hw). cbn [rj_type_header rj_payload]. exists signed, header, payload, tag, h.
  split; [exact Hs |]. split; [exact Hc |]. split; [exact Hh |]. split; [exact Hok |].
  split; [apply get_type_header_spec; auto |]. split; [exact Hp |]. split; [exact Hw |].
  apply validate_sound; assumption.
Qed.

Lemma verify_eq : forall rt alg ck check clock token v kid r signed header payload tag h,
  In alg (map ulit algorithms) ->
  compact_parts token signed header payload tag -> check tag signed = Ok tt ->
  document rt (JDict h) header -> header_ok alg kid ck h -> typ_of h (rj_type_header r) ->
  document rt (JDict (rj_payload r)) payload -> well_typed r ->
  verify_with_kid rt alg ck check clock token v kid =
  (_ <- validate rt clock v r ;; Ok (mk_verified_jwt r)).
Proof.
  intros rt alg ck check clock token v kid r signed header payload tag h Halg Hs Hc Hh Hok Ht Hp Hw.
  unfold verify_with_kid. apply split_iff in Hs. rewrite Hs. cbn [bind]. rewrite Hc. cbn [use_tink_errors bind].
  pose proof (document_nodup _ _ _ Hh) as Hn. pose proof (document_nodup _ _ _ Hp) as Hnp.
  apply document_iff in Hh, Hp. rewrite Hh. cbn [bind].
  rewrite (proj2 (validate_header_iff h alg kid ck Hn)) by auto. cbn [bind].
  apply get_type_header_spec in Ht; [| exact Hn]. rewrite Ht.
  unfold raw_jwt_from_json. rewrite Hp. cbn [bind].
  rewrite (proj2 (raw_jwt_init_iff (rj_type_header r) (rj_payload r) r Hnp)); [reflexivity |].
  split; [destruct r; reflexivity | exact Hw].
Qed.

Theorem verify_complete : forall rt alg ck check clock token v kid r,
  In alg (map ulit algorithms) -> float_times_ok rt ->
  representable (current_time v clock - jv_clock_skew v) ->
  representable (current_time v clock + jv_clock_skew v) ->
  token_accepted rt alg kid ck check clock v token r ->
  verify_with_kid rt alg ck check clock token v kid = Ok (mk_verified_jwt r).
Proof.
  intros rt alg ck check clock token v kid r Ha Hf R1 R2 (signed & header & payload & tag & h & H1 & H2 & H3 & H4 & H5 & H6 & H7 & H8).
  rewrite (verify_eq rt alg ck check clock token v kid r signed header payload tag h) by assumption.
  rewrite validate_complete by assumption. reflexivity.
Qed.

(** A token is decoded to the same claims by all keys that accept it; the others raise
    TinkErrors, like their check of the tag. *)
Theorem verify_agree : forall rt alg ck check clock token v kid r alg' ck' check' kid',
  verify_with_kid rt alg ck check clock token v kid = Ok (mk_verified_jwt r) ->
  (forall tag signed e, use_tink_errors (check' tag signed) = Err e -> is_tink_error e = true) ->
  let out := verify_with_kid rt alg' ck' check' clock token v kid' in
  out = Ok (mk_verified_jwt r) \/ raises_tink out.
Proof.
  intros rt alg ck check clock token v kid r alg' ck' check' kid' H Hc. cbv zeta.
  assert (JT : forall e, is_jwt_invalid_error e = true -> is_tink_error e = true) by (intros []; cbn; congruence).
  unfold verify_with_kid in H |- *.
  apply bind_ok in H. destruct H as ([[[signed header] payload] tag] & Hs & H). rewrite Hs. cbn [bind].
  apply bind_ok in H. destruct H as ([] & _ & H).
  apply bind_ok in H. destruct H as (hd & Hh & H). rewrite Hh.
  apply bind_ok in H. destruct H as ([] & Hv & H).
  apply bind_ok in H. destruct H as (r' & Hr & H). apply bind_ok in H. destruct H as ([] & Ha & H).
  apply ok_inj in H. assert (r' = r) by congruence. subst r'.
  destruct (use_tink_errors (check' tag signed)) as [[] | e] eqn:Ec; cbn [bind].
  - destruct (validate_header hd alg' kid' ck') as [[] | e] eqn:Ev; cbn [bind].
    + rewrite Hr. cbn [bind]. rewrite Ha. cbn [bind]. left. reflexivity.
    + right. exists e. split; [reflexivity |]. apply validate_header_err in Ev. destruct Ev as [Ev | (_ & [Ev | (h & x & -> & Hx & Hns)])]; [auto | |].
      * exfalso. destruct hd; try (unfold validate_header in Hv; apply bind_ok in Hv; destruct Hv as (? & _ & ?); discriminate).
        exact (Ev _ eq_refl).
      * exfalso. apply document_iff, document_nodup in Hh. apply validate_header_iff in Hv; [| exact Hh].
        destruct Hv as (_ & (a & Hin & _) & _). apply Hns. exists a.
        apply payload_get_in in Hin, Hx; [| exact Hh ..]. congruence.
  - right. exists e. split; [reflexivity | apply (Hc _ _ _ Ec)].
Qed.

(** ** Encoding *)

Lemma ascii_encodes : forall t, ascii t -> exists x, utf8_encode t = Some x.
Proof.
  intros t H. assert (V : valid_unicode t).
  { eapply Forall_impl; [| exact H]. cbn. intros c Hc. lia. }
  apply validate_str_ok in V. unfold validate_str in V. destruct (utf8_encode t); [eauto | discriminate].
Qed.

Lemma dumps_encode : forall rt v, float_codec rt -> ordinary rt v ->
  exists t x, json_dumps rt v = Ok t /\ document rt v t /\ utf8_encode t = Some x /\
    encode_text t = Ok (base64_encode x).
Proof.
  intros rt v Hc (H1 & H2 & H3). destruct (json_round_trip rt v Hc H1 H2 H3) as (t & Ed & El).
  assert (A : ascii t).
  { eapply (dumps_ascii rt [44%N] [58%N] Hc); [repeat constructor | repeat constructor | | exact Ed].
    split; [apply H1 |]. intros x Hx. apply valid_unicode_code_points. apply H2. exact Hx. }
  destruct (ascii_encodes t A) as (x & Ex). exists t, x. split; [exact Ed |]. split; [apply document_iff; exact El |].
  split; [exact Ex |]. unfold encode_text. rewrite Ex. reflexivity.
Qed.

Definition header_dict (alg : pystr) (kid : option pystr) (th : option json) : list (pystr * json) :=
  set_if "typ" th (dict_set str_eqb (ulit "alg") (JStr alg) (set_if "kid" (option_map JStr kid) [])).

Lemma truthy_str : forall kid v, truthy_opt (option_map JStr kid) = Some v <->
  exists k, kid = Some k /\ k <> [] /\ v = JStr k.
Proof.
  intros kid v. rewrite truthy_opt_some. destruct kid as [k |]; cbn [option_map].
  - split.
    + intros (E & Hne). apply some_inj in E. subst v. exists k. repeat split. intros ->. apply Hne. cbn. auto 8.
    + intros (k' & E & Hne & ->). apply some_inj in E. subst k'. split; [reflexivity |]. rewrite <- truthy_spec.
      destruct k; [contradiction | discriminate].
  - split; [intros (E & _); discriminate | intros (k & E & _); discriminate].
Qed.

Lemma header_dict_nodup : forall alg kid th, NoDup (map fst (header_dict alg kid th)).
Proof.
  intros. unfold header_dict, set_if. apply set_opt_nodup. apply dict_set_nodup; [apply str_eqb_spec |].
  apply set_opt_nodup. constructor.
Qed.

Lemma header_dict_of : forall alg kid th, header_of alg kid th (header_dict alg kid th).
Proof.
  intros alg kid th n v. rewrite <- get_iff by apply header_dict_nodup.
  unfold header_dict, set_if. rewrite get_set_opt, get_set, get_set_opt. cbn [get dict_get].
  destruct (str_eqb n (ulit "typ")) eqn:K1.
  - apply str_eqb_spec in K1. subst n. change (str_eqb (ulit "typ") (ulit "alg")) with false.
    change (str_eqb (ulit "typ") (ulit "kid")) with false. cbv iota. split.
    + intros K. right. right. split; [reflexivity |]. apply truthy_opt_some. destruct (truthy_opt th); [exact K | discriminate].
    + intros [(K & _) | [(K & _) | (_ & K)]]; try discriminate. apply truthy_opt_some in K. rewrite K. reflexivity.
  - destruct (str_eqb n (ulit "alg")) eqn:K2.
    + apply str_eqb_spec in K2. subst n. split.
      * intros K. apply some_inj in K. subst v. auto.
      * intros [(_ & K) | [(K & _) | (K & _)]]; try discriminate. congruence.
    + destruct (str_eqb n (ulit "kid")) eqn:K3.
      * apply str_eqb_spec in K3. subst n. split.
        -- intros K. right. left. split; [reflexivity |]. apply truthy_str. destruct (truthy_opt _); [exact K | discriminate].
        -- intros [(K & _) | [(_ & K) | (K & _)]]; try discriminate. apply truthy_str in K. rewrite K. reflexivity.
      * split; [discriminate |]. intros [(-> & _) | [(-> & _) | (-> & _)]];
          [vm_compute in K2 | vm_compute in K3 | vm_compute in K1]; discriminate.
Qed.

Lemma ascii_valid : forall x, In x (map ulit algorithms) -> valid_unicode x.
Proof.
  intros x H. destruct (algorithm_plain x H) as (Hp & _). eapply Forall_impl; [| exact Hp].
  intros c Hc. unfold plain in Hc. cbn in Hc. lia.
Qed.

Lemma within_str : forall v x, within v (JStr x) -> v = JStr x.
Proof. intros v x H. remember (JStr x) as w. destruct H; [auto | discriminate ..]. Qed.

Lemma ordinary_str : forall rt x, valid_unicode x -> ordinary rt (JStr x).
Proof.
  intros rt x H. split; [split |split].
  - intros f Hf. apply within_str in Hf. discriminate.
  - intros l Hl. apply within_str in Hl. discriminate.
  - intros y [Hy | (l & w & Hl & _)]; apply within_str in Hy || apply within_str in Hl; [| discriminate].
    congruence.
  - intros z Hz. apply within_str in Hz. discriminate.
Qed.

Lemma within_dict : forall v l, within v (JDict l) -> v = JDict l \/ exists k i, In (k, i) l /\ within v i.
Proof.
  intros v l H. remember (JDict l) as w eqn:E. destruct H as [| l' i Hi H | l' k i Hi H]; [auto | discriminate |].
  injection E as <-. eauto.
Qed.

Lemma ordinary_dict : forall rt l, NoDup (map fst l) -> (forall k v, In (k, v) l -> valid_unicode k /\ ordinary rt v) ->
  ordinary rt (JDict l).
Proof.
  intros rt l Hn H. split; [split |split].
  - intros f Hf. apply within_dict in Hf. destruct Hf as [Hf | (k & i & Hi & Hf)]; [discriminate |].
    apply H in Hi. destruct Hi as (_ & ((K & _) & _)). apply K. exact Hf.
  - intros l' Hf. apply within_dict in Hf. destruct Hf as [Hf | (k & i & Hi & Hf)]; [congruence |].
    apply H in Hi. destruct Hi as (_ & ((_ & K) & _)). apply K. exact Hf.
  - intros x [Hf | (l' & w & Hf & Hx)]; apply within_dict in Hf; destruct Hf as [Hf | (k & i & Hi & Hf)].
    + discriminate.
    + apply H in Hi. destruct Hi as (_ & (_ & K & _)). apply K. left. exact Hf.
    + injection Hf as ->. apply H in Hx. tauto.
    + apply H in Hi. destruct Hi as (_ & (_ & K & _)). apply K. right. eauto.
  - intros z Hf. apply within_dict in Hf. destruct Hf as [Hf | (k & i & Hi & Hf)]; [discriminate |].
    apply H in Hi. destruct Hi as (_ & (_ & _ & K)). apply K. exact Hf.
Qed.

Lemma header_ordinary : forall rt alg kid th, In alg (map ulit algorithms) ->
  (forall k, kid = Some k -> valid_unicode k) -> (forall v, th = Some v -> ordinary rt v) ->
  ordinary rt (JDict (header_dict alg kid th)).
Proof.
  intros rt alg kid th Ha Hk Ht. apply ordinary_dict; [apply header_dict_nodup |]. intros n v Hi.
  apply header_dict_of in Hi.
  assert (U : forall s, In s ["alg"; "kid"; "typ"] -> valid_unicode (ulit s)).
  { intros s Hs. cbn in Hs. destruct Hs as [<- | [<- | [<- | []]]]; repeat (constructor; [vm_compute; split; [discriminate | intros [K1 K2]; auto] |]); constructor. }
  destruct Hi as [(-> & ->) | [(-> & k & Ek & _ & ->) | (-> & Et & _)]].
  - split; [apply U; cbn; auto | apply ordinary_str, ascii_valid, Ha].
  - split; [apply U; cbn; auto | apply ordinary_str, (Hk k Ek)].
  - split; [apply U; cbn; auto | apply Ht, Et].
Qed.

(** What is encoded. *)
Definition effective_kid (ck kid : option pystr) : option pystr := match ck with Some k => Some k | None => kid end.

Lemma encode_eq : forall rt alg ck auth r kid,
  float_codec rt -> In alg (map ulit algorithms) -> ordinary_jwt rt r ->
  (forall k, ck = Some k \/ kid = Some k -> valid_unicode k) ->
  (ck = None \/ kid = None) ->
  exists signed header payload h,
    (forall tag, compact_parts (create_signed_compact signed tag) signed header payload tag) /\
    encode_with_kid rt alg ck auth r kid =
      (tag <- use_tink_errors (auth signed) ;; Ok (create_signed_compact signed tag)) /\
    document rt (JDict h) header /\ header_of alg (effective_kid ck kid) (rj_type_header r) h /\
    document rt (JDict (rj_payload r)) payload.
Proof.
  intros rt alg ck auth r kid Hc Ha (Hp & Ht) Hk Hex. unfold encode_with_kid.
  replace (match ck with
    | Some k => match kid with Some _ => Err (JwtInvalidError "custom_kid must not be set for keys with output prefix type TINK") | None => Ok (Some k) end
    | None => Ok kid end) with (Ok (effective_kid ck kid))
    by (destruct ck, kid; try reflexivity; destruct Hex; discriminate).
  cbn [bind]. unfold create_unsigned_compact, create_header, json_payload.
  rewrite (proj2 (validate_algorithm_ok alg) Ha). cbn [bind].
  fold (header_dict alg (effective_kid ck kid) (rj_type_header r)).
  destruct (dumps_encode rt (JDict (header_dict alg (effective_kid ck kid) (rj_type_header r)))) as (th & xh & Eh1 & Eh2 & Eh3 & Eh4);
    [exact Hc | apply header_ordinary; [exact Ha | | exact Ht] |].
  { intros k Ek. apply Hk. destruct ck; cbn in Ek; auto. }
  destruct (dumps_encode rt (JDict (rj_payload r)) Hc Hp) as (tp & xp & Ep1 & Ep2 & Ep3 & Ep4).
  rewrite Eh1. cbn [bind]. rewrite Eh4. cbn [bind]. rewrite Ep1. cbn [bind]. rewrite Ep4. cbn [bind].
  eexists _, th, tp, _. split; [| split; [reflexivity | split; [exact Eh2 | split; [apply header_dict_of | exact Ep2]]]].
  intros tag. exists (base64_encode xh), (base64_encode xp), (base64_encode tag), xh, xp.
  split; [| split; [reflexivity | split; [apply segment_encode | split; [apply segment_encode | split; [apply segment_encode |]]]]].
  - unfold create_signed_compact, ascii_text, dot. rewrite <- !app_assoc. reflexivity.
  - split; assumption.
Qed.

Theorem encode_spec : forall rt alg ck auth r kid,
  float_codec rt -> In alg (map ulit algorithms) -> ordinary_jwt rt r ->
  (forall k, ck = Some k \/ kid = Some k -> valid_unicode k) ->
  (ck = None \/ kid = None) ->
  exists signed header payload h,
    document rt (JDict h) header /\ header_of alg (effective_kid ck kid) (rj_type_header r) h /\
    document rt (JDict (rj_payload r)) payload /\
    match auth signed with
    | Ok tag => exists token, encode_with_kid rt alg ck auth r kid = Ok token /\
                  compact_parts token signed header payload tag
    | Err e => encode_with_kid rt alg ck auth r kid = Err (match e with CcStatusNotOk m => TinkError m | _ => e end)
    end.
Proof.
  intros rt alg ck auth r kid Hc Ha Ho Hk Hex.
  destruct (encode_eq rt alg ck auth r kid Hc Ha Ho Hk Hex) as (signed & header & payload & h & H1 & H2 & H3 & H4 & H5).
  exists signed, header, payload, h. split; [exact H3 |]. split; [exact H4 |]. split; [exact H5 |]. rewrite H2.
  destruct (auth signed) as [tag | e]; [eexists; split; [reflexivity | apply H1] |]. destruct e; reflexivity.
Qed.

Theorem encode_conflict : forall rt alg c auth r k,
  exists m, encode_with_kid rt alg (Some c) auth r (Some k) = Err (JwtInvalidError m).
Proof. intros. eexists. reflexivity. Qed.

Lemma header_of_ok : forall alg ck kid th h, In alg (map ulit algorithms) -> (ck = None \/ kid = None) -> kid <> Some [] ->
  header_of alg (effective_kid ck kid) th h -> header_ok alg kid ck h.
Proof.
  intros alg ck kid th h Ha Hex Hne H. split; [| split; [| split; [| split]]].
  - exists alg. split; [apply H; auto |]. clear. induction alg; constructor; auto.
  - intros v Hv. apply H in Hv. destruct Hv as [(K & _) | [(K & _) | (K & _)]]; discriminate.
  - tauto.
  - intros k ->. apply H. right. left. split; [reflexivity |]. exists k. destruct Hex as [-> | Hx]; [| discriminate].
    split; [reflexivity |]. split; [intros ->; apply Hne; reflexivity | reflexivity].
  - intros k v -> Hv. apply H in Hv. destruct Hv as [(K & _) | [(_ & k' & E & _ & ->) | (K & _)]]; try discriminate.
    cbn in E. congruence.
Qed.

Lemma header_of_typ : forall alg kid r r' h, same_but_empty_type r r' ->
  header_of alg kid (rj_type_header r) h -> typ_of h (rj_type_header r').
Proof.
  intros alg kid r r' h (_ & Hs) H. unfold typ_of. destruct (rj_type_header r') as [v |].
  - left. exists v. destruct (proj1 (Hs v) eq_refl) as (E & Hne). split; [apply H; auto 6 |].
    split; [| reflexivity]. intros ->. apply Hne. cbn. auto.
  - right. split; [reflexivity |]. intros v Hv. apply H in Hv.
    destruct Hv as [(K & _) | [(K & _) | (_ & K)]]; try discriminate. apply Hs in K. discriminate.
Qed.

Theorem round_trip_eq : forall rt alg ck auth check r r' kid token clock v,
  float_codec rt -> In alg (map ulit algorithms) -> ordinary_jwt rt r -> well_typed r ->
  (forall k, ck = Some k \/ kid = Some k -> valid_unicode k) -> kid <> Some [] ->
  (forall signed tag, auth signed = Ok tag -> check tag signed = Ok tt) ->
  same_but_empty_type r r' ->
  encode_with_kid rt alg ck auth r kid = Ok token ->
  verify_with_kid rt alg ck check clock token v kid =
  (_ <- validate rt clock v r' ;; Ok (mk_verified_jwt r')).
Proof.
  intros rt alg ck auth check r r' kid token clock v Hc Ha Ho Hw Hk Hne Hac Hs He.
  assert (Hex : ck = None \/ kid = None).
  { destruct ck as [c |]; [| auto]. destruct kid as [k |]; [| auto].
    destruct (encode_conflict rt alg c auth r k) as (m & E). congruence. }
  destruct (encode_eq rt alg ck auth r kid Hc Ha Ho Hk Hex) as (signed & header & payload & h & H1 & H2 & H3 & H4 & H5).
  rewrite H2 in He. apply bind_ok in He. destruct He as (tag & Et & He). apply ok_inj in He. subst token.
  rewrite use_tink_ok in Et. pose proof Hs as (Hpl & _). eapply verify_eq.
  - exact Ha.
  - apply H1.
  - apply Hac. exact Et.
  - exact H3.
  - eapply header_of_ok; eassumption.
  - eapply header_of_typ; eassumption.
  - rewrite Hpl. exact H5.
  - destruct Hw as (W1 & W2 & W3 & W4). unfold well_typed, has_value. rewrite Hpl. repeat split; assumption.
Qed.

Theorem jwt_round_trip : forall rt alg ck auth check r r' kid token clock v,
  float_codec rt -> float_times_ok rt -> In alg (map ulit algorithms) -> ordinary_jwt rt r -> well_typed r ->
  (forall k, ck = Some k \/ kid = Some k -> valid_unicode k) -> kid <> Some [] ->
  (forall signed tag, auth signed = Ok tag -> check tag signed = Ok tt) ->
  same_but_empty_type r r' ->
  representable (current_time v clock - jv_clock_skew v) ->
  representable (current_time v clock + jv_clock_skew v) ->
  encode_with_kid rt alg ck auth r kid = Ok token ->
  accepts rt clock v r' ->
  verify_with_kid rt alg ck check clock token v kid = Ok (mk_verified_jwt r').
Proof.
  intros. erewrite round_trip_eq by eassumption. rewrite validate_complete; auto.
  match goal with H : well_typed _, S : same_but_empty_type _ _ |- _ =>
    destruct S as (Hpl & _); destruct H as (W1 & W2 & W3 & W4) end.
  unfold well_typed, has_value. rewrite Hpl. repeat split; assumption.
Qed.

(** ** Errors *)

(** A token that is not authenticated never raises anything but JwtInvalidError or what
    the check of the tag raises. *)
Theorem verify_unauthenticated : forall rt alg ck check clock token v kid,
  (forall signed h p tag, compact_parts token signed h p tag -> check tag signed <> Ok tt) ->
  exists e, verify_with_kid rt alg ck check clock token v kid = Err e /\
    (is_jwt_invalid_error e = true \/
     exists signed tag, use_tink_errors (check tag signed) = Err e).
Proof.
  intros rt alg ck check clock token v kid H. unfold verify_with_kid.
  pose proof (split_total token) as S. destruct (split_signed_compact token) as [[[[signed h] p] tag] | e].
  - cbn [bind]. pose proof (H _ _ _ _ S) as N.
    destruct (use_tink_errors (check tag signed)) as [[] | e] eqn:E; [rewrite use_tink_ok in E; contradiction |].
    cbn [bind]. eauto 6.
  - exists e. cbn [bind]. tauto.
Qed.

(** The errors that a token can raise in addition. *)
Theorem verify_errors : forall rt alg ck check clock token v kid e, float_times_ok rt ->
  representable (current_time v clock - jv_clock_skew v) ->
  representable (current_time v clock + jv_clock_skew v) ->
  verify_with_kid rt alg ck check clock token v kid = Err e ->
  is_jwt_invalid_error e = true \/
  exists signed header payload tag, compact_parts token signed header payload tag /\
   (use_tink_errors (check tag signed) = Err e \/
    (check tag signed = Ok tt /\
     ((e = ValueError "integer string conversion" /\ int_max_str_digits rt <> 0%N) \/
      (e = AttributeError /\ exists hd, document rt hd header /\
         ((forall h, hd <> JDict h) \/ exists h x, hd = JDict h /\ In (ulit "alg", x) h /\ ~ is_string x)) \/
      (exists l n, document rt (JDict l) payload /\ In n ["exp"; "nbf"; "iat"] /\ In (ulit n, JFloat FNaN) l)))).
Proof.
  intros rt alg ck check clock token v kid e Hf R1 R2 H. unfold verify_with_kid in H.
  apply bind_err in H. destruct H as [H | ([[[signed header] payload] tag] & Hs & H)].
  { left. pose proof (split_total token) as S. rewrite H in S. tauto. }
  apply split_iff in Hs. apply bind_err in H. destruct H as [H | ([] & Hc & H)].
  { right. exists signed, header, payload, tag. auto. }
  rewrite use_tink_ok in Hc. apply bind_err in H. destruct H as [H | (hd & Hh & H)].
  { pose proof (json_loads_total rt header) as J. rewrite H in J. destruct J as [J | J]; [auto |].
    right. exists signed, header, payload, tag. auto. }
  apply document_iff in Hh. apply bind_err in H. destruct H as [H | ([] & Hv & H)].
  { apply validate_header_err in H. destruct H as [H | (-> & H)]; [auto |].
    right. exists signed, header, payload, tag. split; [exact Hs |]. right. split; [exact Hc |]. right. left. eauto. }
  apply bind_err in H. destruct H as [H | (r & Hr & H)].
  { unfold raw_jwt_from_json in H. apply bind_err in H. destruct H as [H | (pv & Hp & H)].
    - pose proof (json_loads_total rt payload) as J. rewrite H in J. destruct J as [J | J]; [auto |].
      right. exists signed, header, payload, tag. auto 6.
    - left. eapply raw_jwt_init_err. exact H. }
  apply bind_err in H. destruct H as [H | (? & _ & H)]; [| discriminate].
  unfold raw_jwt_from_json in Hr. apply bind_ok in Hr. destruct Hr as (pv & Hp & Hr). apply document_iff in Hp.
  destruct pv as [| | | | | | p]; try discriminate. pose proof (document_nodup _ _ _ Hp) as Hnp.
  apply raw_jwt_init_iff in Hr; [| exact Hnp]. destruct Hr as (Er & Hw).
  assert (D : no_nan_times r \/ exists n, In n ["exp"; "nbf"; "iat"] /\ In (ulit n, JFloat FNaN) p).
  { assert (Dn : forall n, has_value r n (JFloat FNaN) \/ ~ has_value r n (JFloat FNaN)).
    { intros n. subst r. unfold has_value. cbn [rj_payload]. destruct (payload_get p n) as [w |] eqn:E.
      - apply payload_get_in in E; [| exact Hnp].
        assert (U : forall w', In (ulit n, w') p -> w' = w).
        { intros w' Hw'. apply payload_get_in in E, Hw'; [| exact Hnp ..]. congruence. }
        assert (Dw : w = JFloat FNaN \/ w <> JFloat FNaN).
        { destruct w as [| | | [| | |] | | |]; auto; right; discriminate. }
        destruct Dw as [-> | Dw]; [auto |]. right. intros K. apply Dw. symmetry. apply U. exact K.
      - right. apply (proj1 (payload_get_none p n) E). }
    destruct (Dn "exp") as [D1 | D1]; [right; exists "exp"; subst r; cbn; auto |].
    destruct (Dn "nbf") as [D2 | D2]; [right; exists "nbf"; subst r; cbn; auto |].
    destruct (Dn "iat") as [D3 | D3]; [right; exists "iat"; subst r; cbn; auto |].
    left. intros n [<- | [<- | [<- | []]]]; assumption. }
  destruct D as [D | (n & Hn & Hi)].
  - left. eapply validate_rejects; try eassumption.
  - right. exists signed, header, payload, tag. split; [exact Hs |]. right. split; [exact Hc |]. right. right. eauto.
Qed.
