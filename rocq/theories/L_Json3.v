(** json_loads and json_dumps. *)
From Coq Require Import Strings.Byte Strings.String List NArith ZArith Bool Lia.
From Verif Require Import M_Base L_Base M_Utf8 L_Utf8 M_JwtTypes M_KmsIntegrations
  L_KmsIntegrations M_Json S_Json L_Json L_Json2.
Import ListNotations.
Open Scope list_scope.
Open Scope N_scope.

(** ** Dicts *)

Lemma str_eqb_neq : forall x y, x <> y -> str_eqb x y = false.
Proof. intros x y H. destruct (str_eqb x y) eqn:E; [apply str_eqb_spec in E; congruence | reflexivity]. Qed.

Lemma dict_set_new : forall (k : pystr) (v : json) d, ~ In k (map fst d) ->
  dict_set str_eqb k v d = d ++ [(k, v)].
Proof.
  induction d as [| [k' v'] d IH]; intros H; [reflexivity |]. cbn [dict_set app].
  cbn [map fst In] in H. rewrite str_eqb_neq by (intros ->; apply H; left; reflexivity).
  rewrite IH by (intros Hi; apply H; right; exact Hi). reflexivity.
Qed.

Lemma dict_of_pairs_nodup_acc : forall (l acc : list (pystr * json)), NoDup (map fst (acc ++ l)) ->
  fold_left (fun d kv => dict_set str_eqb (fst kv) (snd kv) d) l acc = acc ++ l.
Proof.
  induction l as [| [k v] l IH]; intros acc H; cbn [fold_left].
  - symmetry. apply app_nil_r.
  - cbn [fst snd]. rewrite dict_set_new.
    + rewrite IH; rewrite <- app_assoc; [reflexivity | exact H].
    + rewrite map_app in H. apply NoDup_remove_2 in H. intros Hi. apply H. apply in_or_app. left. exact Hi.
Qed.
Lemma dict_of_pairs_nodup : forall l, NoDup (map fst l) -> dict_of_pairs l = l.
Proof. intros l H. apply (dict_of_pairs_nodup_acc l []). exact H. Qed.

(** ** The hook of json_loads *)

Lemma validate_str_ok : forall x, validate_str x = Ok tt <-> valid_unicode x.
Proof.
  intros x. unfold validate_str, valid_unicode.
  assert (K : (exists e, utf8_encode x = Some e) <-> Forall (fun c => c <= 1114111 /\ ~ (55296 <= c <= 57343)) x).
  { rewrite utf8_encode_some. split; apply Forall_impl; intros c H.
    - apply is_scalar_spec in H. lia.
    - apply is_scalar_spec. lia. }
  destruct (utf8_encode x) as [e |] eqn:E.
  - split; [intros _; apply K; eauto | reflexivity].
  - split; [discriminate |]. intros H. apply K in H. destruct H as (e & H). discriminate.
Qed.

Definition value_strings (v : json) : list pystr :=
  match v with
  | JStr x => [x]
  | JList l => flat_map (fun i => match i with JStr x => [x] | _ => [] end) l
  | _ => []
  end.

Lemma validate_value_ok : forall v, validate_value v = Ok tt <-> Forall valid_unicode (value_strings v).
Proof.
  intros [| b | z | f | x | l | l]; cbn [validate_value value_strings]; try (split; [constructor | reflexivity]).
  - rewrite validate_str_ok. split; [intros H; constructor; [exact H | constructor] | inversion 1; assumption].
  - rewrite for_each_ok. induction l as [| i l IH]; [split; constructor |].
    cbn [flat_map]. rewrite Forall_app, <- IH. split.
    + intros H. inversion H as [| ? ? Hi Hl]; subst. split; [| exact Hl].
      destruct i; try constructor; [apply validate_str_ok; exact Hi | constructor].
    + intros [Hi Hl]. constructor; [| exact Hl]. destruct i; try reflexivity.
      inversion Hi; subst. apply validate_str_ok. assumption.
Qed.

Lemma validate_pairs_ok : forall l keys, validate_pairs keys l = Ok tt <->
  (Forall valid_unicode (map fst l) /\ Forall (fun kv => Forall valid_unicode (value_strings (snd kv))) l /\
   NoDup (map fst l) /\ (forall k, In k keys -> ~ In k (map fst l))).
Proof.
  induction l as [| [k v] l IH]; intros keys; cbn [validate_pairs map fst].
  - split; [| reflexivity]. intros _. repeat split; try constructor. intros k _ [].
  - split.
    + intros H. apply bind_ok in H. destruct H as ([] & Hk & H). apply validate_str_ok in Hk.
      destruct (existsb (str_eqb k) keys) eqn:E; [discriminate |].
      apply bind_ok in H. destruct H as ([] & Hv & H). apply validate_value_ok in Hv.
      apply IH in H. destruct H as (H1 & H2 & H3 & H4).
      assert (Hk' : ~ In k (map fst l)) by (apply H4; left; reflexivity).
      repeat split; try (constructor; assumption).
      intros k' Hi [<- | Hi'].
      * assert (existsb (str_eqb k) keys = true) by (apply existsb_exists; exists k; split; [exact Hi | apply str_eqb_refl]).
        congruence.
      * apply (H4 k'); [right; exact Hi | exact Hi'].
    + intros (H1 & H2 & H3 & H4). inversion H1; subst. inversion H2; subst. inversion H3; subst.
      rewrite (proj2 (validate_str_ok k)) by assumption. cbn [bind].
      destruct (existsb (str_eqb k) keys) eqn:E.
      { apply existsb_exists in E. destruct E as (k' & Hi & E). apply str_eqb_spec in E. subst k'.
        exfalso. apply (H4 k Hi). left. reflexivity. }
      rewrite (proj2 (validate_value_ok v)) by assumption. cbn [bind]. apply IH.
      repeat split; try assumption. intros k' [<- | Hi] Hi'; [contradiction |].
      apply (H4 k' Hi). right. exact Hi'.
Qed.

(** One object is fine: names valid and distinct, direct strings valid. *)
Definition good_dict (l : list (pystr * json)) : Prop :=
  NoDup (map fst l) /\
  forall k w, In (k, w) l -> valid_unicode k /\
    forall x, (w = JStr x \/ exists m, w = JList m /\ In (JStr x) m) -> valid_unicode x.

Lemma value_strings_in : forall x w, In x (value_strings w) <->
  (w = JStr x \/ exists m, w = JList m /\ In (JStr x) m).
Proof.
  intros x w. destruct w as [| b | z | f | y | l | l]; cbn [value_strings In].
  1-4,7: split; [intros [] | intros [H | (m & H & _)]; discriminate].
  - split; [intros [-> | []]; auto | intros [H | (m & H & _)]; [injection H as ->; auto | discriminate]].
  - rewrite in_flat_map. split.
    + intros (i & Hi & Hx). destruct i; try destruct Hx; [| contradiction]. subst. right. eauto.
    + intros [H | (m & H & Hi)]; [discriminate |]. injection H as ->. exists (JStr x). split; [exact Hi | left; reflexivity].
Qed.

Lemma dict_with_validation_ok : forall l v, dict_with_validation l = Ok v <-> good_dict l /\ v = JDict l.
Proof.
  intros l v. unfold dict_with_validation, good_dict. split.
  - intros H. apply bind_ok in H. destruct H as ([] & Hp & H). apply ok_inj in H. subst v.
    apply validate_pairs_ok in Hp. destruct Hp as (H1 & H2 & H3 & _).
    split; [| rewrite dict_of_pairs_nodup by assumption; reflexivity].
    split; [exact H3 |]. intros k w Hi. rewrite !Forall_forall in *. split.
    + apply H1. apply in_map_iff. exists (k, w). auto.
    + intros x Hx. specialize (H2 _ Hi). cbn [snd] in H2. rewrite Forall_forall in H2. apply H2.
      apply value_strings_in. exact Hx.
  - intros [[H1 H2] ->]. rewrite (proj2 (validate_pairs_ok l [])).
    + cbn [bind]. rewrite dict_of_pairs_nodup by assumption. reflexivity.
    + repeat split; [| | exact H1 | intros ? []].
      * apply Forall_forall. intros k Hk. apply in_map_iff in Hk. destruct Hk as ([k' w] & <- & Hi).
        exact (proj1 (H2 k' w Hi)).
      * apply Forall_forall. intros [k w] Hi. apply Forall_forall. intros x Hx.
        apply (proj2 (H2 k w Hi)). apply value_strings_in. exact Hx.
Qed.

Lemma within_list : forall v l, within v (JList l) <-> v = JList l \/ exists i, In i l /\ within v i.
Proof.
  intros v l. split.
  - intros H. inversion H; subst; eauto.
  - intros [-> | (i & Hi & H)]; [constructor | econstructor; eassumption].
Qed.
Lemma within_dict : forall v l, within v (JDict l) <-> v = JDict l \/ exists k i, In (k, i) l /\ within v i.
Proof.
  intros v l. split.
  - intros H. inversion H; subst; eauto.
  - intros [-> | (k & i & Hi & H)]; [constructor | econstructor; eassumption].
Qed.
Lemma within_atom : forall v w, atom w -> within v w -> v = w.
Proof. intros v w Ha H. destruct H; [reflexivity | destruct Ha | destruct Ha]. Qed.

Lemma resolves_validated : forall v0 v, resolves dict_with_validation v0 v <->
  v = v0 /\ forall l, within (JDict l) v0 -> good_dict l.
Proof.
  induction v0 as [| b | z | f | x | l IH | l IH] using json_nested_ind; intros v.
  1-5: split;
    [ intros H; apply resolves_atom in H; [| exact I]; split; [exact H |];
      intros l Hl; apply within_atom in Hl; [discriminate | exact I]
    | intros [-> _]; apply R_atom; exact I ].
  - split.
    + intros H. apply resolves_list in H. destruct H as (l' & -> & Hl).
      assert (G : l' = l /\ forall i, In i l -> forall d, within (JDict d) i -> good_dict d).
      { revert l' Hl. induction IH as [| i l Hi IH IHl]; intros l' Hl; inversion Hl as [| ? i' ? l2 Hi' Hl2]; subst.
        - split; [reflexivity | intros ? []].
        - apply Hi in Hi'. destruct Hi' as [-> Hi']. destruct (IHl _ Hl2) as [-> G].
          split; [reflexivity |]. intros j [<- | Hj]; [exact Hi' | apply G; exact Hj]. }
      destruct G as [-> G]. split; [reflexivity |]. intros d Hd. apply within_list in Hd.
      destruct Hd as [Hd | (i & Hi & Hd)]; [discriminate | eapply G; eassumption].
    + intros [-> H]. apply R_list.
      assert (G : forall i, In i l -> forall d, within (JDict d) i -> good_dict d).
      { intros i Hi d Hd. apply H. econstructor; eassumption. }
      clear H. induction IH as [| i l Hi IH IHl]; constructor.
      * apply Hi. split; [reflexivity |]. apply G. left. reflexivity.
      * apply IHl. intros j Hj. apply G. right. exact Hj.
  - split.
    + intros H. apply resolves_dict in H. destruct H as (l' & Hl & Hh).
      assert (G : l' = l /\ forall k i, In (k, i) l -> forall d, within (JDict d) i -> good_dict d).
      { clear Hh. revert l' Hl. induction IH as [| [k i] l Hi IH IHl]; intros l' Hl;
          inversion Hl as [| ? [k' i'] ? l2 [Hk Hi'] Hl2]; subst.
        - split; [reflexivity | intros ? ? []].
        - cbn [fst snd] in *. subst k'. apply Hi in Hi'. destruct Hi' as [-> Hi']. destruct (IHl _ Hl2) as [-> G].
          split; [reflexivity |]. intros k' j [E | Hj]; [injection E as <- <-; exact Hi' | eapply G; exact Hj]. }
      destruct G as [-> G]. apply dict_with_validation_ok in Hh. destruct Hh as [Hg ->].
      split; [reflexivity |]. intros d Hd. apply within_dict in Hd.
      destruct Hd as [Hd | (k & i & Hi & Hd)]; [injection Hd as ->; exact Hg | eapply G; eassumption].
    + intros [-> H]. apply R_dict with (l' := l).
      * assert (G : forall k i, In (k, i) l -> forall d, within (JDict d) i -> good_dict d).
        { intros k i Hi d Hd. apply H. econstructor; eassumption. }
        clear H. induction IH as [| [k i] l Hi IH IHl]; constructor.
        -- split; [reflexivity |]. apply Hi. split; [reflexivity |]. apply (G k). left. reflexivity.
        -- apply IHl. intros k' j Hj. apply (G k'). right. exact Hj.
      * apply dict_with_validation_ok. split; [apply H; constructor | reflexivity].
Qed.

(** C34 *)
Theorem json_loads_iff : forall rt s v, json_loads rt s = Ok v <->
  json_text rt v s /\ no_repeated_names v /\ (forall x, member_string x v -> valid_unicode x).
Proof.
  intros rt s v. unfold json_loads.
  assert (K : loads rt dict_with_validation s = Ok v <->
    json_text rt v s /\ no_repeated_names v /\ (forall x, member_string x v -> valid_unicode x)).
  { rewrite loads_text. split.
    - intros (v0 & Ht & Hr). apply resolves_validated in Hr. destruct Hr as [-> H].
      split; [exact Ht |]. split.
      + intros l Hl. apply H. exact Hl.
      + intros x (l & Hl & k & w & Hi & Hx). destruct (H l Hl) as [_ G]. destruct (G k w Hi) as [Gk Gw].
        destruct Hx as [-> | Hx]; [exact Gk | apply Gw; exact Hx].
    - intros (Ht & Hn & Hs). exists v. split; [exact Ht |]. apply resolves_validated.
      split; [reflexivity |]. intros l Hl. split; [apply Hn; exact Hl |].
      intros k w Hi. split; [apply Hs; exists l; eauto 6 |].
      intros x Hx. apply Hs. exists l. split; [exact Hl |]. exists k, w. split; [exact Hi |]. right. exact Hx. }
  rewrite <- K. destruct (loads rt dict_with_validation s) as [v' | []]; tauto || (split; discriminate).
Qed.

Lemma dict_with_validation_err : forall l e, dict_with_validation l = Err e ->
  e = UnicodeError \/ e = JwtInvalidError "duplicated key".
Proof.
  intros l e H. unfold dict_with_validation in H. apply bind_err in H.
  destruct H as [H | (? & _ & H)]; [| discriminate].
  assert (Vs : forall x e, validate_str x = Err e -> e = UnicodeError).
  { intros x e' Hx. unfold validate_str in Hx. destruct (utf8_encode x); [discriminate | congruence]. }
  revert H. generalize (@nil pystr). induction l as [| [k v] l IH]; intros keys H; [discriminate |].
  cbn [validate_pairs] in H. apply bind_err in H. destruct H as [H | (? & _ & H)]; [left; eapply Vs; exact H |].
  destruct (existsb (str_eqb k) keys); [right; congruence |].
  apply bind_err in H. destruct H as [H | (? & _ & H)]; [| eapply IH; exact H].
  left. destruct v; try discriminate; [eapply Vs; exact H |].
  cbn [validate_value] in H. apply for_each_err in H. destruct H as (i & _ & Hi). destruct i; try discriminate. eapply Vs; exact Hi.
Qed.

Theorem json_loads_total : forall rt s, match json_loads rt s with
  | Ok _ => True
  | Err e => is_jwt_invalid_error e = true \/
      e = ValueError "integer string conversion" /\ int_max_str_digits rt <> 0
  end.
Proof.
  intros rt s. unfold json_loads. destruct (loads rt dict_with_validation s) as [v | e] eqn:E; [exact I |].
  assert (P : e = JSONDecodeError \/ (e = UnicodeError \/ e = JwtInvalidError "duplicated key") \/
      e = ValueError "integer string conversion" /\ int_max_str_digits rt <> 0).
  { revert E. apply loads_err with (P := fun e => e = JSONDecodeError \/
      (e = UnicodeError \/ e = JwtInvalidError "duplicated key") \/
      e = ValueError "integer string conversion" /\ int_max_str_digits rt <> 0).
    - left. reflexivity.
    - intros H. right. right. auto.
    - intros l e' H. right. left. eapply dict_with_validation_err. exact H. }
  destruct P as [-> | [[-> | ->] | [-> H]]]; cbn; auto.
Qed.

(** ** Writing strings *)

Lemma hex_lower_value : forall d, d < 16 -> hex_value (hex_lower d) d.
Proof.
  intros d H. unfold hex_lower, hex_value. destruct (N.ltb_spec d 10); [left | right; left]; lia.
Qed.

Lemma u_escape_text : forall n, n < 65536 -> u_text (u_escape n) n.
Proof.
  intros n H. unfold u_escape, hex4_lower, u_text.
  eexists _, _, _, _, (n / 4096), (n / 256 mod 16), (n / 16 mod 16), (n mod 16).
  split; [reflexivity |].
  assert (n / 4096 < 16) by (apply N.div_lt_upper_bound; lia).
  assert (n / 256 mod 16 < 16) by (apply N.mod_lt; lia).
  assert (n / 16 mod 16 < 16) by (apply N.mod_lt; lia).
  assert (n mod 16 < 16) by (apply N.mod_lt; lia).
  repeat split; try (apply hex_lower_value; assumption).
  assert (E1 : n / 256 = n / 16 / 16) by (rewrite N.div_div by lia; reflexivity).
  assert (E2 : n / 4096 = n / 256 / 16) by (rewrite N.div_div by lia; reflexivity).
  pose proof (N.div_mod n 16 ltac:(lia)). pose proof (N.div_mod (n / 16) 16 ltac:(lia)).
  pose proof (N.div_mod (n / 256) 16 ltac:(lia)). lia.
Qed.

(** A high surrogate directly followed by a low one: such a str does not survive the
    trip through JSON text, where the two become one character. *)
Fixpoint no_split_pair (x : pystr) : Prop :=
  match x with
  | a :: r => match r with b :: _ => ~ (high_surrogate a /\ low_surrogate b) | [] => True end
              /\ no_split_pair r
  | [] => True
  end.

Definition code_points (x : pystr) : Prop := Forall (fun c => c <= 1114111) x.

Lemma escape_char_cases : forall c, c <= 1114111 ->
  (exists e, escape_char c = [92; e] /\ In (e, c) simple_escapes) \/
  (escape_char c = [c] /\ 32 <= c /\ c <> 34 /\ c <> 92) \/
  (escape_char c = u_escape c /\ c < 65536) \/
  (exists u w, escape_char c = u_escape u ++ u_escape w /\ high_surrogate u /\ low_surrogate w /\
     c = 65536 + (u - 55296) * 1024 + (w - 56320)).
Proof.
  intros c Hc. unfold escape_char.
  repeat (match goal with |- context [if ?a =? ?k then [92; ?e] else _] =>
    destruct (N.eqb_spec a k) as [-> |];
      [left; exists e; split; [reflexivity | unfold simple_escapes; cbn [In]; auto 12] |] end).
  destruct ((32 <=? c) && (c <=? 126)) eqn:E.
  { rewrite andb_true_iff, !N.leb_le in E. right. left. repeat split; try assumption. lia. }
  destruct (N.ltb_spec c 65536); [auto |].
  right. right. right. exists (55296 + (c - 65536) / 1024), (56320 + (c - 65536) mod 1024).
  assert ((c - 65536) / 1024 < 1024) by (apply N.div_lt_upper_bound; lia).
  assert ((c - 65536) mod 1024 < 1024) by (apply N.mod_lt; lia).
  pose proof (N.div_mod (c - 65536) 1024 ltac:(lia)).
  unfold high_surrogate, low_surrogate. repeat split; lia.
Qed.

Lemma u_escape_app_inv : forall n a e u t, n < 65536 -> u_text e u -> u_escape n ++ a = e ++ t -> u = n.
Proof.
  intros n a e u t Hn Hu E. pose proof (u_escape_text n Hn) as Hn'.
  destruct (u_text_shape _ _ Hu) as (p & q & r & s & ->). unfold u_escape, hex4_lower in *. cbn [app] in E.
  injection E as E1 E2 E3 E4 _. rewrite E1, E2, E3, E4 in Hn'. eapply u_text_fun; eassumption.
Qed.

Lemma encode_body : forall x, code_points x -> no_split_pair x -> string_body x (flat_map escape_char x).
Proof.
  induction x as [| c x IH]; intros Hc Hn; [constructor |].
  inversion Hc as [| ? ? Hc0 Hc1]; subst. destruct Hn as [Hn0 Hn1]. specialize (IH Hc1 Hn1).
  cbn [flat_map].
  destruct (escape_char_cases c Hc0) as [(e & -> & He) | [(-> & H1 & H2 & H3) | [(-> & H1) | (u & w & -> & Hu & Hw & ->)]]].
  - cbn [app]. constructor; assumption.
  - cbn [app]. constructor; assumption.
  - apply SB_unit; [apply u_escape_text; exact H1 | | exact IH].
    intros Hh e' u' t' Hu' Hl E. destruct x as [| c' x].
    { cbn [flat_map] in E. destruct (u_text_shape _ _ Hu') as (? & ? & ? & ? & ->). discriminate. }
    cbn [flat_map] in E. inversion Hc1 as [| ? ? Hc' _]; subst.
    destruct (escape_char_cases c' Hc') as [(e & Ee & He) | [(Ee & K1 & K2 & K3) | [(Ee & K1) | (u & w & Ee & Ku & Kw & Kc)]]];
      rewrite Ee in E.
    + destruct (u_text_shape _ _ Hu') as (? & ? & ? & ? & ->). cbn [app] in E. injection E as -> _.
      apply escapes_not_u in He. discriminate.
    + destruct (u_text_shape _ _ Hu') as (? & ? & ? & ? & ->). cbn [app] in E. injection E as -> _. congruence.
    + apply (u_escape_app_inv _ _ _ _ _ K1 Hu') in E. subst u'. apply Hn0. auto.
    + rewrite <- app_assoc in E. apply (u_escape_app_inv u _ _ u') in E;
        [| unfold high_surrogate in Ku; lia | exact Hu'].
      subst u'. unfold high_surrogate, low_surrogate in *. lia.
  - rewrite <- app_assoc. unfold high_surrogate, low_surrogate in Hu, Hw.
    apply SB_pair; try assumption; apply u_escape_text; lia.
Qed.

Lemma valid_unicode_code_points : forall x, valid_unicode x -> code_points x /\ no_split_pair x.
Proof.
  intros x H. split.
  - revert H. apply Forall_impl. tauto.
  - induction H as [| c x Hc Hx IH]; [exact I |]. cbn [no_split_pair]. split; [| exact IH].
    destruct x; [exact I |]. unfold high_surrogate. intros [? _]. lia.
Qed.

(** ** Writing values *)

Lemma within_trans_list : forall i l v, In i l -> within v i -> within v (JList l).
Proof. intros i l v Hi H. econstructor; eassumption. Qed.
Lemma within_trans_dict : forall k i l v, In (k, i) l -> within v i -> within v (JDict l).
Proof. intros k i l v Hi H. econstructor; eassumption. Qed.

Lemma int_text_value : forall rt z,
  int_max_str_digits rt = 0 \/ (Z.abs z < 10 ^ Z.of_N (int_max_str_digits rt))%Z ->
  int_text rt z = Ok (dec_Z z) /\ json_value rt (JInt z) (dec_Z z).
Proof.
  intros rt z H. unfold int_text.
  assert (Hc : convertible rt (dec_N (Z.abs_N z))).
  { apply dec_N_convertible. destruct H as [H | H]; [left; exact H | right].
    apply N2Z.inj_lt. rewrite N2Z.inj_abs_N, N2Z.inj_pow. exact H. }
  rewrite (proj2 (over_limit_false _ _) Hc). split; [reflexivity |].
  assert (G : forall n, convertible rt (dec_N n) -> json_value rt (JInt (Z.of_N n)) (dec_N n)).
  { intros n Hn. rewrite <- (dec_N_value n) at 1. constructor; [apply dec_N_int_part | exact Hn]. }
  destruct z as [| p | p]; cbn [dec_Z Z.to_N Z.abs_N] in *.
  - apply (G 0). exact Hc.
  - apply (G (Npos p)). exact Hc.
  - change (JInt (Zneg p)) with (JInt (- Z.of_N (Npos p))). rewrite <- (dec_N_value (Npos p)) at 1.
    constructor; [apply dec_N_int_part | exact Hc].
Qed.

Section Dumps.
  Variable rt : py_rt.
  Variables wi wk : pystr.
  Hypothesis Hwi : white wi.
  Hypothesis Hwk : white wk.
  Hypothesis Hcodec : float_codec rt.
  Let dmp := dumps rt (44 :: wi) (58 :: wk).

  Definition dumpable (v : json) : Prop :=
    (forall f, within (JFloat f) v -> is_double f) /\ ints_convertible rt v /\
    (forall x, any_string x v -> code_points x /\ no_split_pair x).

  Lemma dumpable_item : forall l i, dumpable (JList l) -> In i l -> dumpable i.
  Proof.
    intros l i (H1 & H2 & H3) Hi. repeat split.
    - intros f Hf. apply H1. eapply within_trans_list; eassumption.
    - intros z Hz. apply H2. eapply within_trans_list; eassumption.
    - apply H3. destruct H as [H | (d & w & Hd & Hx)]; [left; eapply within_trans_list; eassumption |].
      right. exists d, w. split; [eapply within_trans_list; eassumption | exact Hx].
    - apply H3. destruct H as [H | (d & w & Hd & Hx)]; [left; eapply within_trans_list; eassumption |].
      right. exists d, w. split; [eapply within_trans_list; eassumption | exact Hx].
  Qed.
  Lemma dumpable_member : forall l k i, dumpable (JDict l) -> In (k, i) l ->
    dumpable i /\ code_points k /\ no_split_pair k.
  Proof.
    intros l k i (H1 & H2 & H3) Hi. split; [repeat split |].
    - intros f Hf. apply H1. eapply within_trans_dict; eassumption.
    - intros z Hz. apply H2. eapply within_trans_dict; eassumption.
    - apply H3. destruct H as [H | (d & w & Hd & Hx)]; [left; eapply within_trans_dict; eassumption |].
      right. exists d, w. split; [eapply within_trans_dict; eassumption | exact Hx].
    - apply H3. destruct H as [H | (d & w & Hd & Hx)]; [left; eapply within_trans_dict; eassumption |].
      right. exists d, w. split; [eapply within_trans_dict; eassumption | exact Hx].
    - apply H3. right. exists l, i. split; [constructor | exact Hi].
  Qed.

  Theorem dumps_text : forall v, dumpable v -> exists t, dumps rt (44 :: wi) (58 :: wk) v = Ok t /\ json_value rt v t.
  Proof.
    induction v as [| [] | z | f | x | l IH | l IH] using json_nested_ind; intros Hd.
    - eexists. split; [reflexivity | constructor].
    - eexists. split; [reflexivity | constructor].
    - eexists. split; [reflexivity | constructor].
    - exists (dec_Z z). cbn [dumps]. apply int_text_value. apply Hd. constructor.
    - exists (float_text rt f). cbn [dumps]. split; [reflexivity |].
      assert (Hf : is_double f) by (apply Hd; constructor).
      destruct f as [| [] | | m]; try (cbn; constructor);
        (destruct (Hcodec _ Hf) as [Hl Hp]; [discriminate | discriminate |]);
        cbn [float_text]; rewrite <- Hp at 1; constructor; exact Hl.
    - exists (encode_str x). split; [reflexivity |]. constructor. apply encode_body.
      + apply Hd. left. constructor.
      + apply Hd. left. constructor.
    - destruct l as [| v0 l]; [exists [91; 93]; split; [reflexivity | apply (V_list0 rt []); constructor] |].
      inversion IH as [| ? ? IH0 IHl]; subst.
      destruct (IH0 (dumpable_item _ _ Hd (or_introl eq_refl))) as (t0 & E0 & V0).
      assert (G : exists t1, (fix go l := match l with
                        | [] => Ok [93]
                        | v1 :: r =>
                            t1 <- dumps rt (44 :: wi) (58 :: wk) v1 ;; t <- go r ;;
                            Ok ((44 :: wi) ++ t1 ++ t)
                        end) l = Ok (t1 ++ [93]) /\
                forall w v t, white w -> json_value rt v t -> json_items rt (v :: l) (w ++ t ++ t1)).
      { assert (Hd' : forall i, In i l -> dumpable i) by (intros i Hi; apply (dumpable_item _ _ Hd); right; exact Hi).
        clear Hd E0 V0 IH IH0. induction IHl as [| i l Hi IHl IHl'].
        - exists []. split; [reflexivity |]. intros w v t Hw Hv. apply I_one; [exact Hw | exact Hv | constructor].
        - destruct (Hi (Hd' i (or_introl eq_refl))) as (ti & Ei & Vi).
          destruct IHl' as (t1 & E1 & V1); [intros j Hj; apply Hd'; right; exact Hj |].
          exists (44 :: wi ++ ti ++ t1). rewrite Ei. cbn [bind]. rewrite E1. cbn [bind]. split.
          + cbn [app]. rewrite <- !app_assoc. reflexivity.
          + intros w v t Hw Hv. apply (I_more rt w v t []); [exact Hw | exact Hv | constructor |].
            apply V1; assumption. }
      destruct G as (t1 & E1 & V1). exists (91 :: (t0 ++ t1) ++ [93]). cbn [dumps]. rewrite E0. cbn [bind].
      rewrite E1. cbn [bind]. split; [rewrite <- app_assoc; reflexivity |].
      constructor. apply (V1 [] v0 t0); [constructor | exact V0].
    - destruct l as [| [k0 v0] l]; [exists [123; 125]; split; [reflexivity | apply (V_dict0 rt []); constructor] |].
      inversion IH as [| ? ? IH0 IHl]; subst. cbn [snd] in IH0.
      destruct (dumpable_member _ _ _ Hd (or_introl eq_refl)) as (Hd0 & Hk0 & Hn0).
      destruct (IH0 Hd0) as (t0 & E0 & V0).
      assert (G : exists t1, (fix go l := match l with
                        | [] => Ok [125]
                        | (k1, v1) :: r =>
                            t1 <- dumps rt (44 :: wi) (58 :: wk) v1 ;; t <- go r ;;
                            Ok ((44 :: wi) ++ encode_str k1 ++ (58 :: wk) ++ t1 ++ t)
                        end) l = Ok (t1 ++ [125]) /\
                forall w k tk v t, white w -> string_body k tk -> json_value rt v t ->
                  json_members rt ((k, v) :: l) (w ++ 34 :: tk ++ 34 :: 58 :: wk ++ t ++ t1)).
      { assert (Hd' : forall k i, In (k, i) l -> dumpable i /\ code_points k /\ no_split_pair k)
          by (intros k i Hi; apply (dumpable_member _ _ _ Hd); right; exact Hi).
        clear Hd E0 V0 IH IH0 Hd0 Hk0 Hn0. induction IHl as [| [k i] l Hi IHl IHl'].
        - exists []. split; [reflexivity |]. intros w k tk v t Hw Hk Hv.
          apply (M_one rt w k tk [] wk v t []); try assumption; constructor.
        - destruct (Hd' k i (or_introl eq_refl)) as (Hdi & Hk & Hn).
          destruct (Hi Hdi) as (ti & Ei & Vi). cbn [snd] in *.
          destruct IHl' as (t1 & E1 & V1); [intros k' j Hj; apply Hd'; right; exact Hj |].
          exists (44 :: wi ++ encode_str k ++ 58 :: wk ++ ti ++ t1). rewrite Ei. cbn [bind]. rewrite E1. cbn [bind]. split.
          + cbn [app]. repeat (rewrite <- !app_assoc; cbn [app]). reflexivity.
          + intros w k' tk v t Hw Hk' Hv.
            apply (M_more rt w k' tk [] wk v t []); try assumption; try constructor.
            unfold encode_str. cbn [app]. rewrite <- app_assoc. cbn [app].
            apply V1; try assumption. apply encode_body; assumption. }
      destruct G as (t1 & E1 & V1).
      exists (123 :: (encode_str k0 ++ 58 :: wk ++ t0 ++ t1) ++ [125]). cbn [dumps]. rewrite E0. cbn [bind].
      rewrite E1. cbn [bind]. split; [repeat (rewrite <- !app_assoc; cbn [app]); reflexivity |].
      constructor. unfold encode_str. cbn [app]. rewrite <- app_assoc. cbn [app].
      apply (V1 [] k0 _ v0 t0); [constructor | apply encode_body; assumption | exact V0].
  Qed.
End Dumps.

(** C33 *)
Theorem json_round_trip : forall rt v, float_codec rt -> python_value v ->
  (forall x, any_string x v -> valid_unicode x) -> ints_convertible rt v ->
  exists t, json_dumps rt v = Ok t /\ json_loads rt t = Ok v.
Proof.
  intros rt v Hc (Hf & Hn) Hs Hi.
  destruct (dumps_text rt [] []) with (v := v) as (t & E & V); [constructor | constructor | exact Hc | |].
  - repeat split; [exact Hf | exact Hi | |]; apply valid_unicode_code_points, Hs; assumption.
  - exists t. split; [exact E |]. apply json_loads_iff. split; [| split].
    + exists [], t, []. rewrite app_nil_r. repeat split; [constructor | exact V | constructor].
    + exact Hn.
    + intros x (l & Hl & k & w & Hi' & Hx). apply Hs. destruct Hx as [-> | [-> | (m & -> & Hm)]].
      * right. eauto.
      * left. clear -Hl Hi'. induction Hl as [| ? ? ? ? IH | ? ? ? ? ? IH]; [econstructor; [eassumption | constructor]
          | eapply within_trans_list; eassumption | eapply within_trans_dict; eassumption].
      * left. clear -Hl Hi' Hm. induction Hl as [| ? ? ? ? IH | ? ? ? ? ? IH];
          [econstructor; [eassumption | econstructor; [eassumption | constructor]]
          | eapply within_trans_list; eassumption | eapply within_trans_dict; eassumption].
Qed.
