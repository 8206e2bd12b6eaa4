(** Proofs: the *_basic.py examples. *)
From Coq Require Import Strings.Byte Strings.String List NArith ZArith Bool Lia.
From Verif Require Import M_Base M_Utf8 M_Proto M_Wire M_Prims M_PrimitiveSet M_Registry M_KeysetHandle M_KeysetIO
  M_Wrappers M_Kms M_JwtTypes M_Json M_JsonKeyset M_KeysetStream M_CcStream M_CcManagers M_KeyFormats M_Templates M_Cli
  M_Walkthrough
  S_Keyset S_Wrappers S_Wire S_Json S_JsonKeyset S_Handle S_Config S_CcLaws S_Cli S_Basic
  L_Base L_Utf8 L_Wire L_Json L_Json2 L_Json4 L_JsonKeyset L_JsonKeyset2 L_JsonKeyset3 L_Keyset L_PrimitiveSet L_Registry
  L_Wrappers L_Wrappers2 L_Handle L_Config L_Config2 L_Config4 L_Cli3 L_Cli4 L_Cli5 X_Rt.
Import ListNotations.
Open Scope string_scope.
Open Scope list_scope.

(** ** Short documents do not depend on Python's limit for digits *)
Fixpoint floatless (v : json) : bool :=
  match v with
  | JFloat _ => false
  | JList l => forallb floatless l
  | JDict l => forallb (fun p => floatless (snd p)) l
  | _ => true
  end.

Lemma short_convertible : forall rt rt' i n, python_digit_limit rt -> convertible rt' i -> (length i <= n)%nat ->
  (N.of_nat n <= 640)%N -> convertible rt i.
Proof. intros rt rt' i n [H | H] _ H1 H2; [left; exact H | right; lia]. Qed.

Ltac shorter := unfold pystr in *; repeat (progress (rewrite ?app_length in *; cbn [length] in *)); lia.
Lemma short_json : forall rt0 rt, python_digit_limit rt ->
  (forall v t, json_value rt0 v t -> floatless v = true -> (N.of_nat (length t) <= 640)%N -> json_value rt v t) /\
  (forall l t, json_items rt0 l t -> forallb floatless l = true -> (N.of_nat (length t) <= 640)%N -> json_items rt l t) /\
  (forall l t, json_members rt0 l t -> forallb (fun p => floatless (snd p)) l = true -> (N.of_nat (length t) <= 640)%N ->
     json_members rt l t).
Proof.
  intros rt0 rt Hl. apply json_text_mind; intros; cbn [floatless forallb snd] in *;
    repeat match goal with H : (_ && _)%bool = true |- _ => apply andb_true_iff in H; destruct H end;
    try discriminate; try (constructor; assumption).
  - constructor; [assumption |]. eapply (short_convertible rt rt0); eauto.
  - constructor; [assumption |]. cbn [length] in *. eapply (short_convertible rt rt0 _ (length i)); eauto. lia.
  - apply V_list. apply H; [assumption | shorter].
  - apply V_dict. apply H; [assumption | shorter].
  - apply I_one; auto. apply H; [assumption | shorter].
  - apply I_more; auto. apply H; [assumption | shorter]. apply H0; [assumption | shorter].
  - apply M_one; auto. apply H; [assumption | shorter].
  - apply M_more; auto. apply H; [assumption | shorter]. apply H0; [assumption | shorter].
Qed.

Lemma short_keyset : forall rt pb t v ks, python_digit_limit rt -> loads toy_rt duplicate_checker t = Ok v ->
  (floatless v && (N.of_nat (length t) <=? 640)%N)%bool = true ->
  conv_message (keyset_fields pb) v (mk_keyset 0 []) = Ok ks ->
  kr_read (json_keyset_reader rt pb t) = Ok ks.
Proof.
  intros rt pb t v ks Hl Ht Hs Hc. apply andb_true_iff in Hs. destruct Hs as [Hf Hn]. apply N.leb_le in Hn.
  apply loads_checked in Ht. destruct Ht as [(w1 & t' & w2 & Hw1 & Hv & Hw2 & ->) Hr].
  cbn [json_keyset_reader kr_read]. unfold pb_parse.
  assert (E : loads rt duplicate_checker (w1 ++ t' ++ w2) = Ok v).
  { apply loads_checked. split; [| exact Hr]. exists w1, t', w2. split; [exact Hw1 |]. split; [| auto].
    apply (proj1 (short_json toy_rt rt Hl)); auto. clear - Hn. unfold pystr in *. rewrite !app_length in Hn. lia. }
  rewrite E, Hc. reflexivity.
Qed.

Lemma aead_basic_reads : forall rt pb, python_digit_limit rt ->
  kr_read (json_keyset_reader rt pb aead_basic_keyset) = Ok (one_key aead_basic_key aead_basic_id).
Proof.
  intros rt pb Hl.
  eapply (short_keyset rt pb); [exact Hl | vm_compute; reflexivity | vm_compute; reflexivity | vm_compute; reflexivity].
Qed.
Lemma daead_basic_reads : forall rt pb, python_digit_limit rt ->
  kr_read (json_keyset_reader rt pb daead_basic_keyset) = Ok (one_key daead_basic_key daead_basic_id).
Proof.
  intros rt pb Hl.
  eapply (short_keyset rt pb); [exact Hl | vm_compute; reflexivity | vm_compute; reflexivity | vm_compute; reflexivity].
Qed.
Lemma mac_basic_reads : forall rt pb, python_digit_limit rt ->
  kr_read (json_keyset_reader rt pb mac_basic_keyset) = Ok (one_key mac_basic_key mac_basic_id).
Proof.
  intros rt pb Hl.
  eapply (short_keyset rt pb); [exact Hl | vm_compute; reflexivity | vm_compute; reflexivity | vm_compute; reflexivity].
Qed.
Lemma hybrid_basic_private_reads : forall rt pb, python_digit_limit rt ->
  kr_read (json_keyset_reader rt pb hybrid_basic_private_keyset) = Ok (one_key hybrid_basic_private_key hybrid_basic_private_id).
Proof.
  intros rt pb Hl.
  eapply (short_keyset rt pb); [exact Hl | vm_compute; reflexivity | vm_compute; reflexivity | vm_compute; reflexivity].
Qed.
Lemma hybrid_basic_public_reads : forall rt pb, python_digit_limit rt ->
  kr_read (json_keyset_reader rt pb hybrid_basic_public_keyset) = Ok (one_key hybrid_basic_public_key hybrid_basic_public_id).
Proof.
  intros rt pb Hl.
  eapply (short_keyset rt pb); [exact Hl | vm_compute; reflexivity | vm_compute; reflexivity | vm_compute; reflexivity].
Qed.
Lemma signature_basic_private_reads : forall rt pb, python_digit_limit rt ->
  kr_read (json_keyset_reader rt pb signature_basic_private_keyset) = Ok (one_key signature_basic_private_key signature_basic_private_id).
Proof.
  intros rt pb Hl.
  eapply (short_keyset rt pb); [exact Hl | vm_compute; reflexivity | vm_compute; reflexivity | vm_compute; reflexivity].
Qed.
Lemma signature_basic_public_reads : forall rt pb, python_digit_limit rt ->
  kr_read (json_keyset_reader rt pb signature_basic_public_keyset) = Ok (one_key signature_basic_public_key signature_basic_public_id).
Proof.
  intros rt pb Hl.
  eapply (short_keyset rt pb); [exact Hl | vm_compute; reflexivity | vm_compute; reflexivity | vm_compute; reflexivity].
Qed.

Lemma secret_parse : forall rt pb t d id, kr_read (json_keyset_reader rt pb t) = Ok (one_key d id) ->
  json_proto_parse rt pb t SecretKeyAccessToken = Ok (mk_handle (one_key d id)).
Proof. intros rt pb t d id H. apply json_parse_spec. exists (one_key d id). split; [exact H |]. split; [apply one_key_valid | reflexivity]. Qed.
Lemma public_parse : forall rt pb t d id, kr_read (json_keyset_reader rt pb t) = Ok (one_key d id) ->
  kd_key_material_type d = ASYMMETRIC_PUBLIC ->
  json_proto_parse_without_secret rt pb t = Ok (mk_handle (one_key d id)).
Proof.
  intros rt pb t d id H E. apply json_parse_without_secret_spec. exists (one_key d id). split; [exact H |]. split.
  - intros (k & [<- | []] & Hs). unfold secret_type in Hs.
    change (k_key_data (mk_key (Some d) ENABLED id TINK)) with d in Hs. rewrite E in Hs.
    destruct Hs as [Hs | [Hs | Hs]]; discriminate Hs.
  - split; [apply one_key_valid | reflexivity].
Qed.

(** ** One key *)
Lemma one_key_over : forall P c (lookup : pystr -> option (cc_lib_manager P)) m d id q p name b,
  ~ In p [JwtMac; JwtSignature] -> In (name, c, b) (key_types p) -> kd_type_url d = type_url name ->
  wf_key_data d -> proto_size (serialize_key_data d) -> uint32_range id ->
  lookup (type_url name) = Some m -> cl_get_primitive m d = StOk q ->
  cc_keyset c lookup (one_key d id) [(mk_key (Some d) ENABLED id TINK, q)].
Proof.
  intros P c lookup m d id q p name b Hj Hi Hu Hw Hs Hid Hm Hq. split; [apply one_key_valid |]. split.
  - split; [reflexivity |]. constructor; [| constructor].
    change (fst (mk_key (Some d) ENABLED id TINK, q)) with (mk_key (Some d) ENABLED id TINK).
    change (k_key_data (mk_key (Some d) ENABLED id TINK)) with d. split.
    + split; [exact Hw |]. split; [exact Hs |]. exists p, name, b. auto.
    + exists m. rewrite Hu. auto.
  - constructor; [| constructor]. cbn. apply has_prefix_exists. right. auto.
Qed.
Lemma one_primary : forall P d id (q : P),
  is_primary (one_key d id) [(mk_key (Some d) ENABLED id TINK, q)] (mk_key (Some d) ENABLED id TINK) q.
Proof. intros P d id q. split; [left; reflexivity | reflexivity]. Qed.

(** What the only key produces and how its output is taken apart again. *)
Lemma one_output : forall d id prefix s y, has_prefix TINK id prefix ->
  prefixed (mk_key (Some d) ENABLED id TINK) s y ->
  match s with StOk c => y = Ok (prefix ++ c) | StErr _ => raises_tink y end.
Proof.
  intros d id prefix s y Hp (p' & Hp' & H). cbn [k_output_prefix_type k_key_id] in Hp'.
  rewrite (has_prefix_fun _ _ _ _ Hp Hp'). destruct s; exact H.
Qed.
Lemma one_attempt : forall P A d id prefix (q : P) c (f : key -> P -> bytes -> st_or A) y,
  has_prefix TINK id prefix ->
  first_success (attempts [(mk_key (Some d) ENABLED id TINK, q)] (prefix ++ c) (fun k q body => of_status (f k q body))) y ->
  match c with
  | [] => raises_tink y
  | _ :: _ => answers y (f (mk_key (Some d) ENABLED id TINK) q c)
  end.
Proof.
  intros P A d id prefix q c f y Hp (z & Hz & Hs).
  assert (Hlen : length prefix = 5%nat) by (destruct (has_prefix_length _ _ _ Hp) as [[H _] | [_ H]]; [discriminate H | exact H]).
  assert (R : forall e, z = Err e -> is_tink_error e = true -> raises_tink y).
  { intros e -> He. destruct Hs as [<- | [_ H]]; [exists e; auto | exact H]. }
  destruct c as [| b c].
  - unfold attempts in Hz. cbn [filter fst is_raw_key k_output_prefix_type] in Hz.
    assert (Hc : carries_prefix (mk_key (Some d) ENABLED id TINK) (prefix ++ []) = false).
    { apply carries_short. rewrite app_length, Hlen. cbn. lia. }
    rewrite Hc in Hz. cbn in Hz. inversion Hz; subst. eauto.
  - assert (Hr : attempts [(mk_key (Some d) ENABLED id TINK, q)] (prefix ++ b :: c) (fun k q body => of_status (f k q body)) =
      [of_status (f (mk_key (Some d) ENABLED id TINK) q (b :: c))]).
    { unfold attempts. cbn [filter fst is_raw_key k_output_prefix_type].
      assert (Hc : carries_prefix (mk_key (Some d) ENABLED id TINK) (prefix ++ b :: c) = true).
      { rewrite (carries_prefix_spec (mk_key (Some d) ENABLED id TINK) _ _ Hp), firstn_pre by exact Hlen. rewrite app_length, Hlen.
        rewrite (proj2 (bytes_eqb_spec prefix prefix)) by reflexivity. reflexivity. }
      rewrite Hc. cbn [map app fst snd]. rewrite skipn_pre by exact Hlen. reflexivity. }
    rewrite Hr in Hz. destruct (f (mk_key (Some d) ENABLED id TINK) q (b :: c)) as [v | s]; cbn [of_status] in Hz; cbn [answers].
    + inversion Hz; subst. apply same_outcome_ok in Hs. exact Hs.
    + inversion Hz; subst; [| discriminate]. inversion H3; subst. eauto.
Qed.

(** ** The programs *)
Lemma setup_run_snoc : forall w env l n r c r' xs r'' x, setup_run w env n l r = (r', xs) ->
  perform (setup_action w env (n + N.of_nat (length l)) c) r' = (r'', x) ->
  setup_run w env n (l ++ [c]) r = (r'', xs ++ [x]).
Proof.
  intros w env. induction l as [| c0 l IH]; intros n r c r' xs r'' x E P; cbn [setup_run app length] in *.
  - injection E as <- <-. rewrite N.add_0_r in P. rewrite P. reflexivity.
  - destruct (perform (setup_action w env n c0) r) as [r1 x1].
    destruct (setup_run w env (n + 1) l r1) as [r2 xs2] eqn:E2. injection E as <- <-.
    assert (P' : perform (setup_action w env (n + 1 + N.of_nat (length l)) c) r2 = (r'', x))
      by (rewrite <- P; f_equal; f_equal; lia).
    rewrite (IH _ _ _ _ _ _ _ E2 P'). reflexivity.
Qed.
Lemma after_register_ok : forall w env l r xs c p rest, reached w env l r xs -> sets_up c p -> unrelated c ->
  (forall p', sets_up c p' -> cc_ready w p') ->
  exists r', configured w env p r' /\ after_register w env c (N.of_nat (length l)) r rest = (r', rest r').
Proof.
  intros w env l r xs c p rest (E & R & U) Hs Hu Hr.
  destruct (perform (setup_action w env (N.of_nat (length l)) c) r) as [r' x] eqn:P.
  assert (H : reached w env (l ++ [c]) r' (xs ++ [x])).
  { split; [eapply setup_run_snoc; [exact E | rewrite N.add_0_l; exact P] |]. split.
    - intros c' p' Hi Hp. apply in_app_or in Hi. destruct Hi as [Hi | [<- | []]]; eauto.
    - intros c' Hi. apply in_app_or in Hi. destruct Hi as [Hi | [<- | []]]; auto. }
  destruct (setup_complete _ _ _ _ _ H) as (F & _).
  assert (x = Ok tt).
  { apply Forall2_app_inv_l in F. destruct F as (l1 & l2 & _ & F2 & E2). inversion F2 as [| ? ? ? ? G1 G2 Ec El].
    subst. inversion G2. subst. apply app_inj_tail in E2. destruct E2 as [_ ->]. apply G1. eauto. }
  subst x. exists r'. split.
  - exists (l ++ [c]), (xs ++ [Ok tt]), c. split; [exact H |]. split; [apply in_or_app; right; left; reflexivity | exact Hs].
  - unfold after_register. rewrite P. reflexivity.
Qed.

Lemma text_range : forall u, forallb (fun c => N.ltb c 55296) u = true -> valid_text u.
Proof. intros u B. rewrite forallb_forall in B. intros c Hi. left. apply N.ltb_lt. exact (B c Hi). Qed.
Ltac key_facts := first [split; [apply text_range; vm_compute; reflexivity | cbn; unfold int32_range; cbv; split; congruence]
  | vm_compute; reflexivity].

Lemma ends_as_intro : forall P d id prefix (q : P) enc dec msg y x (decrypt : bytes -> result bytes),
  has_prefix TINK id prefix -> prefixed (mk_key (Some d) ENABLED id TINK) enc y ->
  (forall ct, first_success (attempts [(mk_key (Some d) ENABLED id TINK, q)] ct (fun _ (q : P) body => of_status (dec q body)))
     (decrypt ct)) ->
  x = (ciphertext <- y ;; output <- decrypt ciphertext ;; python_assert (bytes_eqb output msg)) ->
  ends_as enc (dec q) msg x.
Proof.
  intros P d id prefix q enc dec msg y x decrypt Hp Hy Hd ->. unfold ends_as.
  pose proof (one_output _ _ _ _ _ Hp Hy) as Ho. destruct enc as [c | s].
  - subst y. cbn [bind]. pose proof (one_attempt _ _ _ _ _ _ c (fun _ => dec) _ Hp (Hd (prefix ++ c))) as Ha.
    destruct c as [| b c]; [destruct Ha as (e & -> & He); exists e; auto |].
    destruct (dec q (b :: c)) as [output | s]; cbn [answers] in Ha.
    + rewrite Ha. cbn [bind]. unfold python_assert. split.
      * intros ->. rewrite (proj2 (bytes_eqb_spec msg msg)) by reflexivity. reflexivity.
      * intros Hn. destruct (bytes_eqb output msg) eqn:E; [apply bytes_eqb_spec in E; congruence | reflexivity].
    + destruct Ha as (e & -> & He). exists e. auto.
  - destruct Ho as (e & -> & He). exists e. auto.
Qed.

Theorem aead_basic_spec : forall w env pb l r xs rnd m q, reached w env l r xs -> cc_ready w Aead ->
  python_digit_limit (pe_rt env) ->
  cw_aead w (type_url "AesGcmKey") = Some m -> cl_get_primitive m aead_basic_key = StOk q ->
  configured w env Aead (fst (aead_basic w env pb (N.of_nat (length l)) r rnd)) /\
  ends_as (ca_encrypt q rnd (blit "msg") (blit "associated_data")) (fun c => ca_decrypt q c (blit "associated_data"))
    (blit "msg") (snd (aead_basic w env pb (N.of_nat (length l)) r rnd)).
Proof.
  intros w env pb l r xs rnd m q Hre Hr Hl Hm Hq.
  match goal with |- context [aead_basic ?a ?b ?c ?n ?r ?s] => unfold aead_basic end.
  match goal with |- context [after_register _ _ _ _ _ ?rest] =>
    destruct (after_register_ok w env l r xs CallAead Aead rest Hre eq_refl I ltac:(ready)) as (r' & Hc & ->) end.
  cbn [fst snd]. split; [exact Hc |].
  rewrite (secret_parse _ _ _ _ _ (aead_basic_reads (pe_rt env) pb Hl)). cbn [bind].
  assert (Hid : uint32_range aead_basic_id) by reflexivity.
  assert (Hk : cc_keyset ClsAead (cw_aead w) (one_key aead_basic_key aead_basic_id)
    [(mk_key (Some aead_basic_key) ENABLED aead_basic_id TINK, q)]).
  { apply (one_key_over _ _ _ m _ _ _ Aead "AesGcmKey" false);
      [intros [H | [H | []]]; discriminate | cbn; tauto | reflexivity | key_facts | key_facts | exact Hid | exact Hm | exact Hq]. }
  destruct (proj2 (has_prefix_exists TINK aead_basic_id)) as (prefix & Hp); [right; split; [auto | exact Hid] |].
  destruct (aead_over_cc_ok _ _ _ _ _ Hc Hk) as (a & Ea & L1 & L2 & _). rewrite Ea. cbn [bind call_encrypt call_decrypt].
  eapply (ends_as_intro cc_aead aead_basic_key aead_basic_id prefix q _ (fun q c => ca_decrypt q c (blit "associated_data")));
    [exact Hp | apply (L2 _ _ (one_primary _ _ _ _) rnd (blit "msg")) | intros ct; apply L1 | reflexivity].
Qed.
Theorem deterministic_aead_basic_spec : forall w env pb l r xs m q, reached w env l r xs -> cc_ready w Daead ->
  python_digit_limit (pe_rt env) ->
  cw_daead w (type_url "AesSivKey") = Some m -> cl_get_primitive m daead_basic_key = StOk q ->
  configured w env Daead (fst (deterministic_aead_basic w env pb (N.of_nat (length l)) r)) /\
  ends_as (cda_encrypt q (blit "msg") (blit "associated_data")) (fun c => cda_decrypt q c (blit "associated_data"))
    (blit "msg") (snd (deterministic_aead_basic w env pb (N.of_nat (length l)) r)).
Proof.
  intros w env pb l r xs m q Hre Hr Hl Hm Hq. unfold deterministic_aead_basic.
  match goal with |- context [after_register _ _ _ _ _ ?rest] =>
    destruct (after_register_ok w env l r xs CallDaead Daead rest Hre eq_refl I ltac:(ready)) as (r' & Hc & ->) end.
  cbn [fst snd]. split; [exact Hc |].
  rewrite (secret_parse _ _ _ _ _ (daead_basic_reads (pe_rt env) pb Hl)). cbn [bind].
  assert (Hid : uint32_range daead_basic_id) by reflexivity.
  assert (Hk : cc_keyset ClsDaead (cw_daead w) (one_key daead_basic_key daead_basic_id)
    [(mk_key (Some daead_basic_key) ENABLED daead_basic_id TINK, q)]).
  { apply (one_key_over _ _ _ m _ _ _ Daead "AesSivKey" false);
      [intros [H | [H | []]]; discriminate | cbn; tauto | reflexivity | key_facts | key_facts | exact Hid | exact Hm | exact Hq]. }
  destruct (proj2 (has_prefix_exists TINK daead_basic_id)) as (prefix & Hp); [right; split; [auto | exact Hid] |].
  destruct (daead_over_cc_ok _ _ _ _ _ Hc Hk) as (a & Ea & L1 & L2 & _). rewrite Ea.
  cbn [bind call_encrypt_deterministically call_decrypt_deterministically].
  eapply (ends_as_intro cc_daead daead_basic_key daead_basic_id prefix q _ (fun q c => cda_decrypt q c (blit "associated_data")));
    [exact Hp | apply (L2 _ _ (one_primary _ _ _ _) (blit "msg")) | intros ct; apply L1 | reflexivity].
Qed.

Theorem hybrid_basic_spec : forall w env pb l r xs rnd m q m' q', reached w env l r xs -> cc_ready w Hybrid ->
  python_digit_limit (pe_rt env) ->
  cw_hybrid_encrypt w (type_url "HpkePublicKey") = Some m -> cl_get_primitive m hybrid_basic_public_key = StOk q ->
  cw_hybrid_decrypt w (type_url "HpkePrivateKey") = Some m' -> cl_get_primitive m' hybrid_basic_private_key = StOk q' ->
  configured w env Hybrid (fst (hybrid_basic w env pb (N.of_nat (length l)) r rnd)) /\
  ends_as (che_encrypt q rnd (blit "message") (blit "context_info")) (fun c => chd_decrypt q' c (blit "context_info"))
    (blit "message") (snd (hybrid_basic w env pb (N.of_nat (length l)) r rnd)).
Proof.
  intros w env pb l r xs rnd m q m' q' Hre Hr Hl Hm Hq Hm' Hq'. unfold hybrid_basic.
  match goal with |- context [after_register _ _ _ _ _ ?rest] =>
    destruct (after_register_ok w env l r xs CallHybrid Hybrid rest Hre eq_refl I ltac:(ready)) as (r' & Hc & ->) end.
  cbn [fst snd]. split; [exact Hc |].
  rewrite (secret_parse _ _ _ _ _ (hybrid_basic_private_reads (pe_rt env) pb Hl)).
  rewrite (public_parse _ _ _ _ _ (hybrid_basic_public_reads (pe_rt env) pb Hl) eq_refl). cbn [bind].
  assert (Hid : uint32_range hybrid_basic_public_id) by reflexivity.
  assert (Hk : cc_keyset ClsHybridEncrypt (cw_hybrid_encrypt w) (one_key hybrid_basic_public_key hybrid_basic_public_id)
    [(mk_key (Some hybrid_basic_public_key) ENABLED hybrid_basic_public_id TINK, q)]).
  { apply (one_key_over _ _ _ m _ _ _ Hybrid "HpkePublicKey" false);
      [intros [H | [H | []]]; discriminate | cbn; tauto | reflexivity | key_facts | key_facts | exact Hid | exact Hm | exact Hq]. }
  assert (Hk' : cc_keyset ClsHybridDecrypt (cw_hybrid_decrypt w) (one_key hybrid_basic_private_key hybrid_basic_public_id)
    [(mk_key (Some hybrid_basic_private_key) ENABLED hybrid_basic_public_id TINK, q')]).
  { apply (one_key_over _ _ _ m' _ _ _ Hybrid "HpkePrivateKey" true);
      [intros [H | [H | []]]; discriminate | cbn; tauto | reflexivity | key_facts | key_facts | exact Hid | exact Hm' | exact Hq']. }
  destruct (proj2 (has_prefix_exists TINK hybrid_basic_public_id)) as (prefix & Hp); [right; split; [auto | exact Hid] |].
  destruct (hybrid_encrypt_over_cc_ok _ _ _ _ _ Hc Hk) as (a & Ea & L2 & _). rewrite Ea.
  destruct (hybrid_decrypt_over_cc_ok _ _ _ _ _ Hc Hk') as (a' & Ea' & L1).
  change hybrid_basic_private_id with hybrid_basic_public_id. rewrite Ea'.
  cbn [bind call_encrypt call_decrypt].
  pose proof (L2 _ _ (one_primary _ _ _ _) rnd (blit "message") (blit "context_info")) as L2'.
  assert (L3 : prefixed (mk_key (Some hybrid_basic_private_key) ENABLED hybrid_basic_public_id TINK)
    (che_encrypt q rnd (blit "message") (blit "context_info")) (he_encrypt a rnd (blit "message") (blit "context_info"))).
  { exact L2'. }
  eapply (ends_as_intro cc_hybrid_decrypt hybrid_basic_private_key hybrid_basic_public_id prefix q' _
    (fun q c => chd_decrypt q c (blit "context_info")));
    [exact Hp | exact L3 | intros ct; apply L1 | reflexivity].
Qed.

Theorem mac_basic_spec : forall w env pb l r xs m q, reached w env l r xs -> cc_ready w Mac ->
  python_digit_limit (pe_rt env) ->
  cw_mac w (type_url "HmacKey") = Some m -> cl_get_primitive m mac_basic_key = StOk q ->
  configured w env Mac (fst (mac_basic w env pb (N.of_nat (length l)) r)) /\
  ends_checked (cm_compute q (blit "data")) [fun t => cm_verify q t (blit "data")]
    (snd (mac_basic w env pb (N.of_nat (length l)) r)).
Proof.
  intros w env pb l r xs m q Hre Hr Hl Hm Hq. unfold mac_basic.
  match goal with |- context [after_register _ _ _ _ _ ?rest] =>
    destruct (after_register_ok w env l r xs CallMac Mac rest Hre eq_refl I ltac:(ready)) as (r' & Hc & ->) end.
  cbn [fst snd]. split; [exact Hc |].
  rewrite (secret_parse _ _ _ _ _ (mac_basic_reads (pe_rt env) pb Hl)). cbn [bind].
  assert (Hid : uint32_range mac_basic_id) by reflexivity.
  assert (Hk : cc_keyset ClsMac (cw_mac w) (one_key mac_basic_key mac_basic_id)
    [(mk_key (Some mac_basic_key) ENABLED mac_basic_id TINK, q)]).
  { apply (one_key_over _ _ _ m _ _ _ Mac "HmacKey" false);
      [intros [H | [H | []]]; discriminate | cbn; tauto | reflexivity | key_facts | key_facts | exact Hid | exact Hm | exact Hq]. }
  destruct (proj2 (has_prefix_exists TINK mac_basic_id)) as (prefix & Hp); [right; split; [auto | exact Hid] |].
  destruct (mac_over_cc_ok _ _ _ _ _ Hc Hk) as (a & Ea & L0 & L1 & L2 & _). rewrite Ea.
  cbn [bind call_compute_mac call_verify_mac].
  pose proof (one_output _ _ _ _ _ Hp (L2 _ _ (one_primary _ _ _ _) (blit "data"))) as Ho.
  change (legacy_data (mk_key (Some mac_basic_key) ENABLED mac_basic_id TINK) (blit "data")) with (blit "data") in Ho.
  unfold ends_checked. destruct (cm_compute q (blit "data")) as [c | s].
  2: { destruct Ho as (e & -> & He). exists e. auto. }
  rewrite Ho. cbn [bind].
  assert (Hlen : length prefix = 5%nat) by (destruct (has_prefix_length _ _ _ Hp) as [[H _] | [_ H]]; [discriminate H | exact H]).
  destruct c as [| b c]; [apply L0; rewrite app_length, Hlen; cbn; lia |].
  assert (H5 : (5 < length (prefix ++ b :: c))%nat) by (rewrite app_length, Hlen; cbn; lia).
  pose proof (one_attempt _ _ _ _ _ _ (b :: c) (fun k q body => cm_verify q body (legacy_data k (blit "data"))) _ Hp
    (L1 _ (blit "data") H5)) as Ha. cbv beta iota in Ha.
  change (legacy_data (mk_key (Some mac_basic_key) ENABLED mac_basic_id TINK) (blit "data")) with (blit "data") in Ha.
  destruct (cm_verify q (b :: c) (blit "data")) as [[] | s] eqn:Ev; cbn [answers] in Ha.
  - split; [intros _; exact Ha |]. intros H. exfalso. apply H. constructor; [exact Ev | constructor].
  - split; [| intros _; exact Ha]. intros H. inversion H. congruence.
Qed.

Theorem signature_basic_spec : forall w env pb l r xs rnd m q m' q' public d2 q2, reached w env l r xs ->
  cc_ready w Signature -> python_digit_limit (pe_rt env) ->
  cw_sign w (type_url "EcdsaPrivateKey") = Some m -> cl_get_primitive m signature_basic_private_key = StOk q ->
  cw_verify w (type_url "EcdsaPublicKey") = Some m' -> cl_get_primitive m' signature_basic_public_key = StOk q' ->
  cl_public_key_data m = Some public -> public (kd_value signature_basic_private_key) = StOk d2 ->
  kd_type_url d2 = type_url "EcdsaPublicKey" -> wf_key_data d2 -> proto_size (serialize_key_data d2) ->
  cl_get_primitive m' d2 = StOk q2 ->
  configured w env Signature (fst (signature_basic w env pb (N.of_nat (length l)) r rnd)) /\
  ends_checked (cs_sign q rnd (blit "msg")) [fun s => cv_verify q' s (blit "msg"); fun s => cv_verify q2 s (blit "msg")]
    (snd (signature_basic w env pb (N.of_nat (length l)) r rnd)).
Proof.
  intros w env pb l r xs rnd m q m' q' public d2 q2 Hre Hr Hl Hm Hq Hm' Hq' Hpub Hd2 Hu2 Hw2 Hs2 Hq2. unfold signature_basic.
  match goal with |- context [after_register _ _ _ _ _ ?rest] =>
    destruct (after_register_ok w env l r xs CallSignature Signature rest Hre eq_refl I ltac:(ready)) as (r' & Hc & ->) end.
  cbn [fst snd]. split; [exact Hc |].
  rewrite (secret_parse _ _ _ _ _ (signature_basic_private_reads (pe_rt env) pb Hl)).
  rewrite (public_parse _ _ _ _ _ (signature_basic_public_reads (pe_rt env) pb Hl) eq_refl). cbn [bind].
  assert (Hid : uint32_range signature_basic_public_id) by reflexivity.
  change signature_basic_private_id with signature_basic_public_id. set (id := signature_basic_public_id) in *. clearbody id.
  assert (Hk : cc_keyset ClsSign (cw_sign w) (one_key signature_basic_private_key id)
    [(mk_key (Some signature_basic_private_key) ENABLED id TINK, q)]).
  { apply (one_key_over _ _ _ m _ _ _ Signature "EcdsaPrivateKey" true);
      [intros [H | [H | []]]; discriminate | cbn; tauto | reflexivity | key_facts | key_facts | exact Hid | exact Hm | exact Hq]. }
  assert (Hk1 : cc_keyset ClsVerify (cw_verify w) (one_key signature_basic_public_key id)
    [(mk_key (Some signature_basic_public_key) ENABLED id TINK, q')]).
  { apply (one_key_over _ _ _ m' _ _ _ Signature "EcdsaPublicKey" false);
      [intros [H | [H | []]]; discriminate | cbn; tauto | reflexivity | key_facts | key_facts | exact Hid | exact Hm' | exact Hq']. }
  assert (Hk2 : cc_keyset ClsVerify (cw_verify w) (one_key d2 id) [(mk_key (Some d2) ENABLED id TINK, q2)]).
  { apply (one_key_over _ _ _ m' _ _ _ Signature "EcdsaPublicKey" false);
      [intros [H | [H | []]]; discriminate | cbn; tauto | exact Hu2 | exact Hw2 | exact Hs2 | exact Hid | exact Hm' | exact Hq2]. }
  destruct (proj2 (has_prefix_exists TINK id)) as (prefix & Hp); [right; split; [auto | exact Hid] |].
  assert (Hlen : length prefix = 5%nat) by (destruct (has_prefix_length _ _ _ Hp) as [[H _] | [_ H]]; [discriminate H | exact H]).
  assert (Hph : public_keyset_handle r' (mk_handle (one_key signature_basic_private_key id)) = Ok (mk_handle (one_key d2 id))).
  { unfold public_keyset_handle. cbn [kh_keyset one_key ks_key map_result ks_primary_key_id].
    assert (A : answers (registry_public_key_data r' signature_basic_private_key) (public (kd_value signature_basic_private_key))).
    { eapply (configured_public_key w env Signature r' "EcdsaPrivateKey" ClsSign); [exact Hc | cbn; tauto | | reflexivity | reflexivity | key_facts | key_facts |].
      - cbn [cc_functions]. rewrite Hm. cbn [manager_functions]. rewrite Hpub. reflexivity.
      - intros d' E. rewrite Hd2 in E. injection E as <-. auto. }
    rewrite Hd2 in A. cbn [answers] in A.
    assert (K : public_key_of r' (mk_key (Some signature_basic_private_key) ENABLED id TINK) = Ok (mk_key (Some d2) ENABLED id TINK)).
    { unfold public_key_of, validate_key.
      change (k_key_data (mk_key (Some signature_basic_private_key) ENABLED id TINK)) with signature_basic_private_key.
      rewrite A. reflexivity. }
    rewrite K. cbn [bind]. apply create_ok. split; [apply one_key_valid | reflexivity]. }
  destruct (signer_over_cc_ok _ _ _ _ _ Hc Hk) as (a & Ea & L2 & _). rewrite Ea.
  destruct (verifier_over_cc_ok _ _ _ _ _ Hc Hk1) as (v1 & Ev1 & L3 & L4). rewrite Ev1.
  destruct (verifier_over_cc_ok _ _ _ _ _ Hc Hk2) as (v2 & Ev2 & L5 & L6).
  rewrite Hph. cbn [bind call_sign call_verify]. rewrite Ev2. cbn [bind call_verify].
  pose proof (one_output _ _ _ _ _ Hp (L2 _ _ (one_primary _ _ _ _) rnd (blit "msg"))) as Ho.
  change (legacy_data (mk_key (Some signature_basic_private_key) ENABLED id TINK) (blit "msg")) with (blit "msg") in Ho.
  unfold ends_checked. destruct (cs_sign q rnd (blit "msg")) as [c | s].
  2: { destruct Ho as (e & -> & He). exists e. auto. }
  rewrite Ho. cbn [bind].
  destruct c as [| b c].
  { destruct (L3 (prefix ++ []) (blit "msg")) as (e & -> & He); [rewrite app_length, Hlen; cbn; lia |]. exists e. auto. }
  assert (H5 : (5 < length (prefix ++ b :: c))%nat) by (rewrite app_length, Hlen; cbn; lia).
  pose proof (one_attempt _ _ _ _ _ _ (b :: c) (fun k q body => cv_verify q body (legacy_data k (blit "msg"))) _ Hp
    (L4 _ (blit "msg") H5)) as Ha. cbv beta iota in Ha.
  change (legacy_data (mk_key (Some signature_basic_public_key) ENABLED id TINK) (blit "msg")) with (blit "msg") in Ha.
  pose proof (one_attempt _ _ _ _ _ _ (b :: c) (fun k q body => cv_verify q body (legacy_data k (blit "msg"))) _ Hp
    (L6 _ (blit "msg") H5)) as Hb. cbv beta iota in Hb.
  change (legacy_data (mk_key (Some d2) ENABLED id TINK) (blit "msg")) with (blit "msg") in Hb.
  destruct (cv_verify q' (b :: c) (blit "msg")) as [[] | s] eqn:E1; cbn [answers] in Ha.
  - rewrite Ha. cbn [bind]. destruct (cv_verify q2 (b :: c) (blit "msg")) as [[] | s] eqn:E2; cbn [answers] in Hb.
    + split; [intros _; exact Hb |]. intros H. exfalso. apply H. repeat constructor; assumption.
    + split; [| intros _; exact Hb]. intros H. inversion H as [| ? ? G1 G2]. inversion G2. congruence.
  - destruct Ha as (e & -> & He). cbn [bind]. split; [| intros _; exists e; auto]. intros H. inversion H. congruence.
Qed.
