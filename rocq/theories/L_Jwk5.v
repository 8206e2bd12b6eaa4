(** JWK sets: what is imported, what is refused, and how. *)
From Coq Require Import Strings.Byte Strings.String List NArith ZArith Bool Lia.
From Verif Require Import M_Base L_Base M_Utf8 L_Utf8 M_Base64 S_Base64 L_Base64 M_Proto M_Prims
  M_Registry M_KeysetHandle M_KeysetIO M_JwtTypes M_Json S_Json L_Json L_Json2
  L_Json3 L_Json4 S_Wire S_Keyset S_Handle M_Wire L_Wire L_Handle M_JwtKeys M_JwtFormat
  M_KmsIntegrations S_Jwt S_JwtKeys L_Jwt L_JsonKeyset2 M_Jwk S_Jwk L_Jwk L_Jwk2 L_Jwk3 L_Jwk4.
Import ListNotations.
Open Scope string_scope.
Open Scope list_scope.

Lemma resolves_plain_total : forall u, exists w, resolves plain u w.
Proof.
  induction u as [| b | z | f | x | l IH | l IH] using json_nested_ind; try (eexists; apply R_atom; exact I).
  - assert (K : exists l', Forall2 (resolves plain) l l').
    { induction IH as [| a l (a' & Ha) IH (l' & Hl)]; eauto. }
    destruct K as (l' & K). eexists. apply R_list. exact K.
  - assert (K : exists l', Forall2 (fun p q : pystr * json => fst p = fst q /\ resolves plain (snd p) (snd q)) l l').
    { induction IH as [| [k a] l (a' & Ha) IH (l' & Hl)]; [eauto |]. exists ((k, a') :: l'). constructor; [split; [reflexivity | exact Ha] | exact Hl]. }
    destruct K as (l' & K). eexists. eapply R_dict; [exact K | reflexivity].
Qed.

Lemma items_of : forall rt doc text items, json_text rt doc text -> member doc "keys" (JList items) ->
  exists vs, Forall2 (resolves plain) items vs /\ jwk_set_keys rt text = Ok vs.
Proof.
  intros rt doc text items Ht Hm. destruct (resolves_plain_total (JList items)) as (w & Hw).
  pose proof Hw as Hw'. apply resolves_list in Hw'. destruct Hw' as (vs & -> & Hvs). exists vs. split; [exact Hvs |].
  apply jwk_set_keys_ok. exists doc, (JList items), (JList vs). auto.
Qed.

Lemma accepted_keyset : forall items ks, Forall2 jwk_key items (ks_key ks) -> items <> [] ->
  NoDup (map k_key_id (ks_key ks)) -> Forall (fun k => (1 <= k_key_id k <= 2147483647)%N) (ks_key ks) ->
  (ks_primary_key_id ks < 2 ^ 32)%N -> (list_sum (map jsize items) < N.to_nat (2 ^ 23))%nat ->
  proto_parse_without_secret (serialize_keyset ks) = Ok (mk_handle ks).
Proof.
  intros items [pid keys] H Hne Hn Hid Hp Hsz. cbn [ks_key ks_primary_key_id] in *.
  assert (Hk : keys <> []) by (intros ->; inversion H; subst; congruence).
  pose proof (jwk_keys_valid _ _ pid H Hk Hn) as Hv. pose proof (jwk_keys_wf _ _ pid H Hid Hp) as Hw.
  apply proto_parse_without_secret_spec. split; [apply serialize_keyset_nonempty; exact Hv |].
  exists (mk_keyset pid keys). split; [apply keyset_round_trip; [exact Hw |] |].
  - pose proof (keyset_len pid _ _ H) as Hlen. unfold proto_size. change (2 ^ 31)%N with 2147483648%N.
    change (2 ^ 23)%N with 8388608%N in Hsz. lia.
  - split; [eapply jwk_keys_public; exact H |]. auto.
Qed.

Theorem jwk_import_complete : forall rt doc text items, json_text rt doc text -> small_text text ->
  member doc "keys" (JList items) -> items <> [] ->
  Forall (fun j => exists type m, public_jwk j type m) items ->
  (forall draws r, to_public_keyset_handle rt draws text = Some r -> exists h, r = Ok h) /\
  (forall ids, length ids = length items -> NoDup ids ->
     Forall (fun id => (1 <= id <= 2147483647)%N) ids ->
     exists draws h, to_public_keyset_handle rt draws text = Some (Ok h) /\
       map k_key_id (ks_key (kh_keyset h)) = ids).
Proof.
  intros rt doc text items Ht Hs Hm Hne Hj. destruct (items_of _ _ _ _ Ht Hm) as (vs & Hvs & Ek).
  pose proof (member_list_size _ _ _ _ _ Ht Hm) as Hsz.
  assert (Hsz' : (list_sum (map jsize items) < N.to_nat (2 ^ 23))%nat).
  { unfold small_text in Hs. change (2 ^ 23)%N with 8388608%N in *. lia. }
  unfold to_public_keyset_handle. rewrite Ek.
  assert (G : forall draws ks, import_keys draws vs (mk_keyset 0 []) = Some (Ok ks) ->
                proto_parse_without_secret (serialize_keyset ks) = Ok (mk_handle ks)).
  { intros draws ks Ei. apply (import_keys_inv _ _ Hvs) in Ei. destruct Ei as (new & E1 & E2 & E3 & E4 & E5).
    cbn [ks_key ks_primary_key_id app map] in *. rewrite E1 in E3. specialize (E3 (NoDup_nil _)).
    apply (accepted_keyset items); rewrite ?E1; try assumption.
    rewrite E5. clear -E4. assert (0 < 2 ^ 32)%N by lia. destruct new as [| k new] using rev_ind; [exact H |].
    rewrite map_app. cbn [map]. rewrite last_app_one. apply Forall_app in E4. destruct E4 as [_ E4].
    inversion E4; subst. lia. }
  split.
  - intros draws r H. destruct (import_keys draws vs (mk_keyset 0 [])) as [[ks | e] |] eqn:Ei; [| | discriminate].
    + rewrite (G _ _ Ei) in H. apply some_inj in H. eauto.
    + exfalso. apply (import_keys_inv _ _ Hvs) in Ei. destruct Ei as (raw & v & Hi & Hr & Ee).
      rewrite Forall_forall in Hj. destruct (Hj _ Hi) as (type & m & J).
      rewrite (proj2 (jwk_to_key_iff _ _ _ Hr) (ex_intro _ type (ex_intro _ m (conj J eq_refl)))) in Ee. discriminate.
  - intros ids Hl Hn Hid.
    destruct (import_keys_forced _ _ Hvs Hj ids (mk_keyset 0 []) Hl Hn Hid) as (ks & Ei & Em).
    eexists. exists (mk_handle ks). rewrite Ei, (G _ _ Ei). split; [reflexivity | exact Em].
Qed.

(** The ways in which the document [doc] read as [v] is refused before its keys. *)
Theorem jwk_import_errors : forall rt draws doc text items e, json_text rt doc text -> small_text text ->
  member doc "keys" (JList items) -> Forall typed_jwk items ->
  to_public_keyset_handle rt draws text = Some (Err e) -> is_tink_error e = true.
Proof.
  intros rt draws doc text items e Ht Hs Hm Hj H. destruct (items_of _ _ _ _ Ht Hm) as (vs & Hvs & Ek).
  unfold to_public_keyset_handle in H. rewrite Ek in H.
  destruct (import_keys draws vs (mk_keyset 0 [])) as [[ks | e'] |] eqn:Ei; [| | discriminate].
  - apply some_inj in H. destruct (binary_parsers_total (serialize_keyset ks)) as (_ & T & _).
    rewrite H in T. exact T.
  - apply some_inj in H. injection H as ->. apply (import_keys_inv _ _ Hvs) in Ei.
    destruct Ei as (raw & v & Hi & Hr & Ee). rewrite Forall_forall in Hj. eapply jwk_to_key_err; eauto.
Qed.

Theorem jwk_import_not_a_set : forall rt draws text,
  (forall doc, json_text rt doc text -> (exists l, doc = JDict l) /\ ~ has_member doc "keys") ->
  exists e, to_public_keyset_handle rt draws text = Some (Err e) /\
    (is_tink_error e = true \/
     (e = ValueError "integer string conversion" /\ int_max_str_digits rt <> 0%N)).
Proof.
  intros rt draws text H. unfold to_public_keyset_handle, jwk_set_keys.
  destruct (json_loads_plain rt text) as [v | e] eqn:El.
  - apply loads_text in El. destruct El as (doc & Ht & Hr). destruct (H _ Ht) as ((l & ->) & Hn).
    destruct (resolves_view _ _ Hr) as (d & -> & V). cbn [bind py_in].
    pose proof (proj2 (has_false_iff _ _ "keys" V) Hn) as Eh. unfold has in Eh. rewrite Eh. cbn [negb]. eauto.
  - assert (P : e = JSONDecodeError \/ (e = ValueError "integer string conversion" /\ int_max_str_digits rt <> 0%N)).
    { revert El. apply (loads_err rt plain (fun e => e = JSONDecodeError \/
        (e = ValueError "integer string conversion" /\ int_max_str_digits rt <> 0%N))); [auto | auto | discriminate]. }
    destruct P as [-> | (-> & P)]; cbn [bind]; eauto.
Qed.

(** ** What is never imported *)

Lemma bad_jwk_not_public : forall j type m, bad_jwk j -> ~ public_jwk j type m.
Proof.
  intros j type m B (f & kty & n1 & n2 & priv & alg & Hf & Hm & Hn & P1 & Hc & P2 & P3 & P4 & P5 & P6 & P7 & P8).
  assert (Hfam : (f = "ES" /\ kty = "EC" /\ priv = ["d"]) \/
                 ((f = "RS" \/ f = "PS") /\ kty = "RSA" /\ priv = ["p"; "q"; "dp"; "dq"; "d"; "qi"])).
  { unfold jwk_families in Hf. cbn [In] in Hf. destruct Hf as [Hf | [Hf | [Hf | []]]];
      injection Hf as <- <- _ _ _ <-; auto. }
  destruct B as [B | [B | [(B1 & p & Bp & B2) | [(v & B1 & B2) | [(v & B1 & B2) | [(a & B1 & B2) | (a & c & B1 & B2 & B3)]]]]]].
  - apply (B _ Hm). destruct Hfam as [(-> & _) | ([-> | ->] & _)];
      destruct Hn as [(_ & ->) | [(_ & ->) | (_ & ->)]]; cbn [map In]; tauto.
  - destruct Hfam as [(_ & _ & ->) | (_ & _ & ->)]; apply (P4 "d"); cbn [In]; auto 10.
  - pose proof (member_fun _ _ _ _ B1 P1) as E. injection E as E.
    destruct Hfam as [(_ & -> & _) | (_ & _ & ->)]; [vm_compute in E; discriminate |].
    apply (P4 p); [| exact B2]. cbn [In] in *. tauto.
  - apply B2. apply P2. exact B1.
  - apply B2. apply P3. exact B1.
  - pose proof (member_fun _ _ _ _ B1 Hm) as E. injection E as ->.
    destruct Hfam as [(-> & -> & _) | (Hff & -> & _)].
    + destruct B2 as [[Ha _] | [_ B2]]; [| exact (B2 P1)]. cbn [map In] in Ha.
      destruct Hn as [(_ & ->) | [(_ & ->) | (_ & ->)]]; decompose [or] Ha;
        match goal with E : ulit _ = ulit _ |- _ => vm_compute in E; discriminate E | F : False |- _ => destruct F end.
    + destruct B2 as [[_ B2] | [Ha _]]; [exact (B2 P1) |]. cbn [map In] in Ha.
      destruct Hff as [-> | ->]; destruct Hn as [(_ & ->) | [(_ & ->) | (_ & ->)]]; decompose [or] Ha;
        match goal with E : ulit _ = ulit _ |- _ => vm_compute in E; discriminate E | F : False |- _ => destruct F end.
  - pose proof (member_fun _ _ _ _ B2 Hm) as E. injection E as ->.
    assert (f = "ES").
    { destruct Hfam as [(-> & _) | (Hff & _)]; [reflexivity |]. exfalso. unfold jwk_curves in B1. cbn [In] in B1.
      destruct Hff as [-> | ->]; destruct Hn as [(_ & ->) | [(_ & ->) | (_ & ->)]];
        destruct B1 as [B1 | [B1 | [B1 | []]]]; apply (f_equal fst) in B1; vm_compute in B1; discriminate B1. }
    subst f. destruct (Hc eq_refl) as (c' & Hc1 & Hc2). apply B3.
    destruct (es_curve_spec _ _ Hn) as (c0 & _ & _ & U). rewrite (U _ B1), <- (U _ Hc1). exact Hc2.
Qed.

Theorem jwk_import_rejects : forall rt draws doc text items j h, json_text rt doc text -> small_text text ->
  member doc "keys" (JList items) -> In j items -> bad_jwk j ->
  to_public_keyset_handle rt draws text <> Some (Ok h).
Proof.
  intros rt draws doc text items j h Ht Hs Hm Hi Hb H.
  destruct (jwk_import_sound _ _ _ _ Hs H) as (doc' & items' & Ht' & Hm' & (F & _)).
  rewrite (json_text_fun _ _ _ _ Ht' Ht) in Hm'. pose proof (member_fun _ _ _ _ Hm' Hm) as E. injection E as ->.
  clear -F Hi Hb. induction F as [| d k items keys (type & m & J & _) F IH]; [destruct Hi |].
  destruct Hi as [-> | Hi]; [exact (bad_jwk_not_public _ _ _ Hb J) | auto].
Qed.
