(** Proofs: the fake KMS. *)
From Coq Require Import Strings.Byte Strings.String List NArith ZArith Bool Lia.
From Verif Require Import M_Base M_Utf8 M_Base64 M_Proto M_Wire M_Prims M_PrimitiveSet M_Registry M_KeysetHandle M_KeysetIO
  M_Kms M_KmsIntegrations M_CcStream M_CcManagers M_Cli M_Walkthrough M_FakeKms
  S_Base64 S_Keyset S_Wire S_Kms S_Handle S_Config S_CcLaws S_Cli S_Walkthrough S_FakeKms
  L_Base L_Utf8 L_Base64 L_Wire L_Keyset L_Handle L_Kms L_KmsIntegrations L_Wrappers L_Config L_Config4 L_Cli3 L_Cli4 L_Cli5 L_Walkthrough.
Import ListNotations.
Open Scope string_scope.
Open Scope list_scope.

Lemma or_none_spec : forall u, or_none u = match u with Some (c :: s) => Some (c :: s) | _ => None end.
Proof. intros [[| c s] |]; reflexivity. Qed.
Lemma fake_prefix : forall u, startswith u FAKE_KMS_PREFIX = true <-> exists id, u = ulit "fake-kms://" ++ id.
Proof. intros u. apply startswith_spec. Qed.

(** ** Clients *)
Theorem fake_client_spec : forall n reg key_uri,
  match FakeKmsClient n reg key_uri with
  | Ok c => (key_uri = None \/ key_uri = Some [] \/ exists id, key_uri = Some (ulit "fake-kms://" ++ id)) /\
      (forall u, kc_does_support c u = true <->
         (exists id, u = ulit "fake-kms://" ++ id) /\ (key_uri = None \/ key_uri = Some [] \/ key_uri = Some u)) /\
      kc_get_aead c = fake_get_aead reg
  | Err e => is_tink_error e = true /\ exists u, key_uri = Some u /\ u <> [] /\ forall id, u <> ulit "fake-kms://" ++ id
  end.
Proof.
  intros n reg key_uri. unfold FakeKmsClient, fake_bound_uri. rewrite or_none_spec.
  assert (D : forall bound u, fake_does_support bound u = true <->
    (exists id, u = ulit "fake-kms://" ++ id) /\ (bound = None \/ bound = Some u)).
  { intros bound u. unfold fake_does_support. rewrite <- fake_prefix.
    destruct (startswith u FAKE_KMS_PREFIX); cbn [negb].
    - destruct bound as [b |]; [| tauto]. rewrite str_eqb_spec. split; [intros ->; auto |].
      intros [_ [H | H]]; congruence.
    - split; [discriminate | intros [H _]; discriminate]. }
  destruct key_uri as [[| c s] |]; cbn [bind kc_does_support kc_get_aead].
  - split; [auto |]. split; [| reflexivity]. intros u. rewrite D. intuition congruence.
  - destruct (startswith (c :: s) FAKE_KMS_PREFIX) eqn:E; cbn [bind kc_does_support kc_get_aead].
    + apply fake_prefix in E. destruct E as (id & E). rewrite E. split; [eauto |]. split; [| reflexivity].
      intros u. rewrite D. rewrite <- E. intuition congruence.
    + split; [reflexivity |]. exists (c :: s). split; [reflexivity |]. split; [discriminate |].
      intros id H. assert (X : startswith (c :: s) FAKE_KMS_PREFIX = true) by (apply fake_prefix; eauto). congruence.
  - split; [auto |]. split; [| reflexivity]. intros u. rewrite D. intuition congruence.
Qed.

Theorem fake_register_spec : forall n reg key_uri clients,
  match fake_register_client n reg key_uri clients with
  | Ok l => exists c, FakeKmsClient n reg key_uri = Ok c /\ l = clients ++ [c]
  | Err e => FakeKmsClient n reg key_uri = Err e
  end.
Proof.
  intros. unfold fake_register_client. destruct (FakeKmsClient n reg key_uri); cbn [bind]; [eauto | reflexivity].
Qed.

(** ** Keysets in URIs *)
Lemma ascii_utf8 : forall x, Forall (fun c => (Byte.to_N c < 128)%N) x -> utf8_encode (map Byte.to_N x) = Some x.
Proof.
  induction 1 as [| c x Hc _ IH]; [reflexivity |]. cbn [map utf8_encode]. rewrite IH.
  unfold utf8_encode_char.
  replace (is_scalar (Byte.to_N c)) with true by (symmetry; apply is_scalar_spec; lia). cbn [negb].
  replace (Byte.to_N c <? 128)%N with true by (symmetry; apply N.ltb_lt; exact Hc).
  cbn [app]. rewrite byte_of_N_of_to_N. reflexivity.
Qed.
Lemma pads_end : forall l n, Forall (fun d => (d < 64)%N) l ->
  a2b_go 0 0 0 (map std_char l ++ pad :: pad :: pad :: repeat pad n) = dec l.
Proof.
  assert (P0 : forall q m n, (q < 2)%N -> a2b_go q m 0 (repeat pad n) = if (q =? 0)%N then Some [] else None).
  { intros q m n Hq. induction n as [| n IH]; [reflexivity |]. cbn [repeat a2b_go].
    change (Byte.eqb pad pad) with true. cbn iota. replace (2 <=? q)%N with false by (symmetry; apply N.leb_gt; exact Hq).
    exact IH. }
  induction l as [| a | a b | a b c | a b c d r IH] using quads_ind; intros n Hl;
    repeat match goal with H : Forall _ (_ :: _) |- _ => inv H end; cbn [map app].
  - exact (P0 0%N 0%N (S (S (S n))) eq_refl).
  - rewrite go0 by assumption. exact (P0 1%N a (S (S (S n))) eq_refl).
  - rewrite go0, go1 by assumption. rewrite go2_pads. reflexivity.
  - rewrite go0, go1, go2 by assumption. rewrite go3_pad. reflexivity.
  - rewrite go0, go1, go2, go3 by assumption. rewrite IH by assumption. cbn [dec]. destruct (dec r); reflexivity.
Qed.
Lemma url_decode_digits : forall l n, Forall (fun d => (d < 64)%N) l ->
  urlsafe_b64decode ((map url_char l ++ repeat pad n) ++ [pad; pad; pad]) = dec l.
Proof.
  intros l n Hl. unfold urlsafe_b64decode, b64decode. rewrite <- app_assoc, map_app.
  change (map _ (map url_char l)) with (map translate (map url_char l)). rewrite map_translate by assumption.
  assert (E : map (fun c => if Byte.eqb c x2d then x2b else if Byte.eqb c x5f then x2f else c)
    (repeat pad n ++ [pad; pad; pad]) = pad :: pad :: pad :: repeat pad n).
  { rewrite map_app. cbn [map]. induction n as [| n IH]; [reflexivity |]. cbn [repeat map app].
    rewrite IH. reflexivity. }
  rewrite E. apply pads_end; assumption.
Qed.
Lemma url_ascii : forall l n, Forall (fun d => (d < 64)%N) l ->
  Forall (fun c => (Byte.to_N c < 128)%N) (map url_char l ++ repeat pad n).
Proof.
  intros l n Hl. apply Forall_app. split.
  - rewrite Forall_map. eapply Forall_impl; [| exact Hl]. intros d Hd. apply N.ltb_lt.
    exact (all64 (fun d => (Byte.to_N (url_char d) <? 128)%N) ltac:(vm_compute; reflexivity) d Hd).
  - rewrite Forall_forall. intros c Hc. apply repeat_spec in Hc. subst c. reflexivity.
Qed.
(** The client of a URI with URL-safe digits and '=' behind them. *)
Lemma fake_get_digits : forall reg l n, Forall (fun d => (d < 64)%N) l ->
  fake_get_aead reg (fake_uri (map url_char l ++ repeat pad n)) =
  match dec l with
  | None => Err (ValueError "binascii.Error")
  | Some x => handle <- proto_parse x SecretKeyAccessToken ;; p <- handle_primitive reg handle ClsAead ;; Ok (as_aead p)
  end.
Proof.
  intros reg l n Hl. unfold fake_get_aead, fake_uri.
  replace (strip_prefix FAKE_KMS_PREFIX (ulit "fake-kms://" ++ map Byte.to_N (map url_char l ++ repeat pad n)))
    with (Some (map Byte.to_N (map url_char l ++ repeat pad n)))
    by (symmetry; apply strip_prefix_spec; reflexivity).
  rewrite ascii_utf8 by (apply url_ascii; assumption). rewrite url_decode_digits by assumption. reflexivity.
Qed.
Lemma proto_parse_iff : forall x h, proto_parse x SecretKeyAccessToken = Ok h <->
  x <> [] /\ parse_keyset x = Some (kh_keyset h) /\ valid_keyset (kh_keyset h).
Proof.
  intros x h. unfold proto_parse. split.
  - intros H. destruct (kr_read (binary_keyset_reader x)) as [ks |] eqn:Hr; [| discriminate]. cbn [bind] in H.
    change (from_proto_keyset ks SecretKeyAccessToken) with (create ks) in H. apply create_ok in H.
    destruct H as [Hv ->]. cbn [kh_keyset]. destruct x as [| c x]; [discriminate |]. split; [discriminate |].
    cbn [binary_keyset_reader kr_read] in Hr. unfold decode_error_to_tink, keyset_from_string in Hr.
    destruct (parse_keyset (c :: x)); [| discriminate]. cbn in Hr. injection Hr as <-. auto.
  - intros (Hx & Hp & Hv). rewrite (binary_reader_read _ _ Hx Hp). cbn [bind]. apply create_ok.
    destruct h. auto.
Qed.

Theorem fake_get_aead_spec : forall reg id n a,
  Forall (fun c => In c url_alphabet) id ->
  (fake_get_aead reg (fake_uri (id ++ repeat "="%byte n)) = Ok a <->
   exists x ks p, base64_text_loose url_alphabet x id /\ x <> [] /\ parse_keyset x = Some ks /\ valid_keyset ks /\
     handle_primitive reg (mk_handle ks) ClsAead = Ok p /\ a = as_aead p).
Proof.
  intros reg id n a Hid.
  assert (Hd : exists l, Forall (fun d => (d < 64)%N) l /\ id = map url_char l).
  { clear - Hid. induction Hid as [| c id Hc _ (l & Hl & ->)]; [exists []; auto |].
    apply In_nth with (d := x00) in Hc. destruct Hc as (k & Hk & <-). change (length url_alphabet) with 64%nat in Hk.
    exists (N.of_nat k :: l). split; [constructor; [lia | exact Hl] |]. cbn [map]. f_equal.
    unfold url_char. rewrite Nnat.Nat2N.id. reflexivity. }
  destruct Hd as (l & Hl & ->). change "="%byte with pad. rewrite fake_get_digits by assumption. split.
  - intros H. destruct (dec l) as [x |] eqn:E; [| discriminate].
    destruct (proto_parse x SecretKeyAccessToken) as [h |] eqn:Ep; [| discriminate]. cbn [bind] in H.
    apply proto_parse_iff in Ep. destruct Ep as (Hx & Hp & Hv).
    destruct (handle_primitive reg h ClsAead) as [p |] eqn:Eh; [| discriminate]. cbn [bind] in H. apply ok_inj in H.
    exists x, (kh_keyset h), p. destruct (dec_bits _ _ Hl E) as (fill & Eb & Hf).
    split; [exists l, fill; auto |]. destruct h. auto 6.
  - intros (x & ks & p & (l' & fill & Hl' & E' & Eb & Hf) & Hx & Hp & Hv & Hh & ->).
    change (map _ l') with (map url_char l') in E'.
    assert (E : dec l' = Some x) by (eapply dec_complete; eassumption).
    assert (T : dec l = dec l').
    { rewrite <- (url_decode_digits l 0 Hl), E', (url_decode_digits l' 0 Hl'). reflexivity. }
    rewrite T, E. assert (Pp : proto_parse x SecretKeyAccessToken = Ok (mk_handle ks)) by (apply proto_parse_iff; auto).
    rewrite Pp. cbn [bind]. rewrite Hh. reflexivity.
Qed.

Theorem fake_get_aead_errors : forall reg uri e, fake_get_aead reg uri = Err e ->
  (forall h, tink_total (handle_primitive reg h ClsAead)) ->
  is_tink_error e = true \/ e = UnicodeError \/ exists m, e = ValueError m.
Proof.
  intros reg uri e H Ht. unfold fake_get_aead in H.
  destruct (strip_prefix FAKE_KMS_PREFIX uri); [| injection H as <-; left; reflexivity].
  destruct (utf8_encode _); [| injection H as <-; auto].
  destruct (urlsafe_b64decode _) as [x |]; [| injection H as <-; eauto].
  destruct (binary_parsers_total x) as (T & _).
  specialize (T SecretKeyAccessToken). destruct (proto_parse x SecretKeyAccessToken) as [h | e']; cbn [bind] in H.
  - specialize (Ht h). destruct (handle_primitive reg h ClsAead); cbn [bind] in H; [discriminate |].
    injection H as <-. left. exact Ht.
  - injection H as <-. left. exact T.
Qed.

(** The AEAD of a URI is the AEAD of the keyset in it. *)
Theorem fake_keyset_spec : forall w env reg uri x ks l, configured w env Aead reg ->
  contains uri x -> x <> [] -> parse_keyset x = Some ks -> valid_keyset ks -> cc_keyset ClsAead (cw_aead w) ks l ->
  exists a, fake_get_aead reg uri = Ok a /\
    (forall rnd pt ad, aead_outcome ks l Encrypt rnd pt ad (aead_encrypt a rnd pt ad)) /\
    (forall ct ad, aead_outcome ks l Decrypt 0 ct ad (aead_decrypt a ct ad)).
Proof.
  intros w env reg uri x ks l Hc (text & n & (ds & fill & Hd & -> & Eb & Hf & _) & ->) Hx Hp Hv Hk.
  change (map _ ds) with (map url_char ds). change "="%byte with pad. rewrite fake_get_digits by assumption.
  rewrite (dec_complete _ _ _ Hd Eb Hf).
  assert (Pp : proto_parse x SecretKeyAccessToken = Ok (mk_handle ks)) by (apply proto_parse_iff; auto).
  rewrite Pp. cbn [bind]. destruct (aead_over_cc_ok _ _ _ _ _ Hc Hk) as (a & Ea & L1 & L2 & L3). rewrite Ea. cbn [bind].
  eexists. split; [reflexivity |]. cbn [as_aead aead_encrypt aead_decrypt call_encrypt call_decrypt aead_outcome]. split.
  - intros rnd pt ad. split; [intros; apply L2; assumption | intros H; apply L3; exact H].
  - intros ct ad. apply L1.
Qed.

Theorem fake_round_trip : forall w env reg w' env' reg' uri uri' x x' ks l l' k q q' rnd pt ad prefix c,
  configured w env Aead reg -> configured w' env' Aead reg' ->
  contains uri x -> contains uri' x' -> x <> [] -> x' <> [] -> parse_keyset x = Some ks -> parse_keyset x' = Some ks ->
  valid_keyset ks -> cc_keyset ClsAead (cw_aead w) ks l -> cc_keyset ClsAead (cw_aead w') ks l' ->
  is_primary ks l k q -> In (k, q') l' -> has_prefix (k_output_prefix_type k) (k_key_id k) prefix ->
  ca_encrypt q rnd pt ad = StOk c -> c <> [] -> ca_decrypt q' c ad = StOk pt ->
  (forall k2 q2 body, In (k2, q2) l' -> k2 <> k -> reaches k2 (prefix ++ c) body ->
     exists s, ca_decrypt q2 body ad = StErr s) ->
  exists a a', fake_get_aead reg uri = Ok a /\ fake_get_aead reg' uri' = Ok a' /\
    aead_encrypt a rnd pt ad = Ok (prefix ++ c) /\ aead_decrypt a' (prefix ++ c) ad = Ok pt.
Proof.
  intros w env reg w' env' reg' uri uri' x x' ks l l' k q q' rnd pt ad prefix c
    Hc Hc' Hu Hu' Hx Hx' Hp Hp' Hv Hk Hk' Hpr Hi Hpf He Hne Hd Ho.
  destruct (fake_keyset_spec w env reg uri x ks l Hc Hu Hx Hp Hv Hk) as (a & Ea & E1 & _).
  destruct (fake_keyset_spec w' env' reg' uri' x' ks l' Hc' Hu' Hx' Hp' Hv Hk') as (a' & Ea' & _ & D1).
  exists a, a'. split; [exact Ea |]. split; [exact Ea' |]. split.
  - destruct (E1 rnd pt ad) as [F1 _]. exact (prefixed_ok _ _ _ _ _ He Hpf (F1 k q Hpr)).
  - eapply (cc_single _ _ _ _ _ _ (fun _ q body => ca_decrypt q body ad) k q' (prefix ++ c) c pt);
      [exact Hk' | exact Hi | apply (produced_reaches _ _ _ Hpf Hne) | exact Hd | exact Ho |].
    exact (D1 (prefix ++ c) ad).
Qed.

(** ** As a KMS *)
Lemma same_outcome_trans : forall A (x y z : result A), same_outcome x y -> same_outcome y z -> same_outcome x z.
Proof.
  intros A x y z [-> | [H1 H2]] [<- | [H3 H4]]; [left; reflexivity | right; auto | right; auto | right; auto].
Qed.
Lemma first_success_same : forall A xs (y z : result A), first_success xs y -> same_outcome y z -> first_success xs z.
Proof. intros A xs y z (o & Ho & Hs) H. exists o. split; [exact Ho | eapply same_outcome_trans; eassumption]. Qed.

Theorem fake_kms_spec : forall w env reg w0 env0 reg0 n key_uri c earlier later uri x ks l rnd raw draws,
  configured w env Aead reg -> configured w0 env0 Aead reg0 ->
  FakeKmsClient n reg0 key_uri = Ok c -> key_uri = None \/ key_uri = Some [] \/ key_uri = Some uri ->
  pe_clients env = earlier ++ c :: later -> (forall d, In d earlier -> kc_does_support d uri = false) ->
  usable_uri uri -> contains uri x -> x <> [] -> parse_keyset x = Some ks -> valid_keyset ks ->
  cc_keyset ClsAead (cw_aead w0) ks l ->
  exists a, GetKmsAead reg rnd (raw :: draws) uri = Some (Ok (PrimAead a)) /\
    (forall rnd pt ad, aead_outcome ks l Encrypt rnd pt ad (aead_encrypt a rnd pt ad)) /\
    (forall ct ad, aead_outcome ks l Decrypt 0 ct ad (aead_decrypt a ct ad)).
Proof.
  intros w env reg w0 env0 reg0 n key_uri c earlier later uri x ks l rnd raw draws
    Hc Hc0 Hn Hb Hcl Hea Hu Hco Hx Hp Hv Hk.
  destruct (fake_keyset_spec w0 env0 reg0 uri x ks l Hc0 Hco Hx Hp Hv Hk) as (r & Er & E1 & D1).
  pose proof (fake_client_spec n reg0 key_uri) as F. rewrite Hn in F. destruct F as (_ & Fs & Fg).
  assert (Hg : kms_gives (pe_clients env) uri (Ok r)).
  { exists c. split; [| rewrite Fg; exact Er]. exists earlier, later. split; [exact Hcl |]. split; [| exact Hea].
    apply Fs. split; [| exact Hb]. destruct Hco as (t & k & _ & ->). eexists. reflexivity. }
  destruct (kms_aead_spec w env reg rnd raw draws uri Hc Hu) as (res & E & H1 & _).
  destruct (H1 r Hg) as (a & -> & Sa & Sd). exists a. split; [exact E |]. split.
  - intros rnd' pt ad. rewrite Sa. apply E1.
  - intros ct ad. eapply first_success_same; [apply D1 | apply Sd].
Qed.
