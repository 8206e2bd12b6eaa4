(** Further facts on json_dumps: its text is ASCII, and when it fails. *)
From Coq Require Import Strings.Byte Strings.String List NArith ZArith Bool Lia.
From Verif Require Import M_Base L_Base M_Utf8 L_Utf8 M_JwtTypes M_KmsIntegrations
  L_KmsIntegrations M_Json S_Json L_Json L_Json2 L_Json3.
Import ListNotations.
Open Scope list_scope.
Open Scope N_scope.

Definition ascii (t : pystr) : Prop := Forall (fun c => c < 128) t.

Lemma ascii_app : forall s t, ascii (s ++ t) <-> ascii s /\ ascii t.
Proof. intros. apply Forall_app. Qed.
Lemma ascii_cons : forall c t, ascii (c :: t) <-> c < 128 /\ ascii t.
Proof. intros. apply Forall_cons_iff. Qed.

Lemma hex_lower_ascii : forall d, d < 16 -> hex_lower d < 128.
Proof. intros d H. unfold hex_lower. destruct (N.ltb_spec d 10); lia. Qed.
Lemma u_escape_ascii : forall n, n < 65536 -> ascii (u_escape n).
Proof.
  intros n H. unfold u_escape, hex4_lower. repeat (apply ascii_cons; split); try lia;
    try (apply hex_lower_ascii); try (apply N.mod_lt; lia); [| constructor].
  apply N.div_lt_upper_bound; lia.
Qed.
Lemma escape_char_ascii : forall c, c <= 1114111 -> ascii (escape_char c).
Proof.
  intros c Hc. destruct (escape_char_cases c Hc)
    as [(e & -> & He) | [(E & H1 & H2 & H3) | [(-> & H) | (u & w & -> & Hu & Hw & _)]]].
  - cbn in He. repeat (destruct He as [He | He]; [injection He as <- _; repeat constructor |]). destruct He.
  - unfold escape_char in E. 
    repeat (match type of E with (if ?b then _ else _) = _ => destruct b eqn:? end);
      try discriminate; try (cbn in E; discriminate).
    apply andb_true_iff in Heqb6. rewrite !N.leb_le in Heqb6. 
    unfold escape_char. rewrite Heqb, Heqb0, Heqb1, Heqb2, Heqb3, Heqb4, Heqb5.
    replace ((32 <=? c) && (c <=? 126)) with true by (symmetry; apply andb_true_iff; rewrite !N.leb_le; exact Heqb6).
    constructor; [lia | constructor].
  - apply u_escape_ascii. exact H.
  - unfold high_surrogate, low_surrogate in *. apply ascii_app. split; apply u_escape_ascii; lia.
Qed.
Lemma encode_str_ascii : forall x, code_points x -> ascii (encode_str x).
Proof.
  intros x H. unfold encode_str. apply ascii_cons. split; [lia |]. apply ascii_app.
  split; [| repeat constructor]. induction H as [| c x Hc H IH]; [constructor |].
  cbn [flat_map]. apply ascii_app. split; [apply escape_char_ascii; exact Hc | exact IH].
Qed.

Lemma digits_ascii : forall d, digits d -> ascii d.
Proof. intros d. apply Forall_impl. intros. lia. Qed.
Lemma int_part_ascii : forall i, int_part i -> ascii i.
Proof.
  intros i [-> | (c & d & -> & Hc & Hd)]; [repeat constructor |].
  apply ascii_cons. split; [lia | apply digits_ascii; exact Hd].
Qed.
Lemma float_literal_ascii : forall t, float_literal t -> ascii t.
Proof.
  intros t (sg & i & f & e & -> & Hs & Hi & Hf & He & _). rewrite !ascii_app. repeat split.
  - destruct Hs as [-> | ->]; repeat constructor.
  - apply int_part_ascii. exact Hi.
  - destruct Hf as [(d & -> & _ & Hd) | ->]; [| constructor].
    apply ascii_cons. split; [lia | apply digits_ascii; exact Hd].
  - destruct He as [(x & s & d & -> & Hx & Hsg & _ & Hd) | ->]; [| constructor].
    apply ascii_cons. split; [lia |]. apply ascii_app. split; [| apply digits_ascii; exact Hd].
    destruct Hsg as [-> | [-> | ->]]; repeat constructor.
Qed.

Lemma dec_Z_ascii : forall z, ascii (dec_Z z).
Proof.
  intros [| p | p]; cbn [dec_Z]; [apply int_part_ascii, dec_N_int_part .. |].
  apply ascii_cons. split; [lia | apply int_part_ascii, dec_N_int_part].
Qed.

(** Code points and floats as Python has them. *)
Definition python_data (v : json) : Prop :=
  (forall f, within (JFloat f) v -> is_double f) /\
  (forall x, any_string x v -> code_points x).

Lemma python_data_item : forall l i, python_data (JList l) -> In i l -> python_data i.
Proof.
  intros l i (H1 & H2) Hi. split.
  - intros f Hf. apply H1. eapply within_trans_list; eassumption.
  - intros x H. apply H2. destruct H as [H | (d & w & Hd & Hx)]; [left; eapply within_trans_list; eassumption |].
    right. exists d, w. split; [eapply within_trans_list; eassumption | exact Hx].
Qed.
Lemma python_data_member : forall l k i, python_data (JDict l) -> In (k, i) l ->
  python_data i /\ code_points k.
Proof.
  intros l k i (H1 & H2) Hi. split; [split |].
  - intros f Hf. apply H1. eapply within_trans_dict; eassumption.
  - intros x H. apply H2. destruct H as [H | (d & w & Hd & Hx)]; [left; eapply within_trans_dict; eassumption |].
    right. exists d, w. split; [eapply within_trans_dict; eassumption | exact Hx].
  - apply H2. right. exists l, i. split; [constructor | exact Hi].
Qed.

Lemma dumps_ascii : forall rt si sk, float_codec rt -> ascii si -> ascii sk ->
  forall v t, python_data v -> dumps rt si sk v = Ok t -> ascii t.
Proof.
  intros rt si sk Hcodec Hsi Hsk.
  induction v as [| [] | z | f | x | l IH | l IH] using json_nested_ind; intros t Hd E.
  1-3: apply ok_inj in E; subst t; vm_compute; repeat constructor.
  - cbn [dumps] in E. unfold int_text in E. destruct (over_limit _ _); [discriminate |].
    apply ok_inj in E. subst t. apply dec_Z_ascii.
  - cbn [dumps] in E. apply ok_inj in E. subst t.
    assert (Hf : is_double f) by (apply Hd; constructor).
    destruct f as [| [] | | m]; try (vm_compute; repeat constructor; fail);
      (destruct (Hcodec _ Hf) as [Hl _]; [discriminate | discriminate |]);
      apply float_literal_ascii; exact Hl.
  - cbn [dumps] in E. apply ok_inj in E. subst t. apply encode_str_ascii. apply Hd. left. constructor.
  - destruct l as [| v0 l]; [apply ok_inj in E; subst t; vm_compute; repeat constructor |].
    cbn [dumps] in E. apply bind_ok in E. destruct E as (t0 & E0 & E).
    apply bind_ok in E. destruct E as (t1 & E1 & E). apply ok_inj in E. subst t.
    inversion IH as [| ? ? IH0 IHl]; subst.
    apply ascii_cons. split; [lia |]. apply ascii_app. split.
    + eapply IH0; [| exact E0]. eapply python_data_item; [exact Hd | left; reflexivity].
    + assert (Hd' : forall i, In i l -> python_data i) by (intros i Hi; apply (python_data_item _ _ Hd); right; exact Hi).
      clear Hd E0 IH IH0. revert t1 E1. induction IHl as [| i l Hi IHl IHl']; intros t1 E1.
      * apply ok_inj in E1. subst t1. repeat constructor.
      * apply bind_ok in E1. destruct E1 as (ti & Ei & E1). apply bind_ok in E1. destruct E1 as (tr & Er & E1).
        apply ok_inj in E1. subst t1. rewrite !ascii_app. split; [exact Hsi |]. split.
        -- eapply Hi; [| exact Ei]. apply Hd'. left. reflexivity.
        -- apply IHl'; [intros j Hj; apply Hd'; right; exact Hj | exact Er].
  - destruct l as [| [k0 v0] l]; [apply ok_inj in E; subst t; vm_compute; repeat constructor |].
    cbn [dumps] in E. apply bind_ok in E. destruct E as (t0 & E0 & E).
    apply bind_ok in E. destruct E as (t1 & E1 & E). apply ok_inj in E. subst t.
    inversion IH as [| ? ? IH0 IHl]; subst. cbn [snd] in IH0.
    destruct (python_data_member _ _ _ Hd (or_introl eq_refl)) as [Hd0 Hk0].
    apply ascii_cons. split; [lia |]. rewrite !ascii_app.
    split; [apply encode_str_ascii; exact Hk0 |]. split; [exact Hsk |]. split; [eapply IH0; eassumption |].
    assert (Hd' : forall k i, In (k, i) l -> python_data i /\ code_points k)
      by (intros k i Hi; apply (python_data_member _ _ _ Hd); right; exact Hi).
    clear Hd E0 IH IH0 Hd0 Hk0. revert t1 E1. induction IHl as [| [k i] l Hi IHl IHl']; intros t1 E1.
    + apply ok_inj in E1. subst t1. repeat constructor.
    + apply bind_ok in E1. destruct E1 as (ti & Ei & E1). apply bind_ok in E1. destruct E1 as (tr & Er & E1).
      apply ok_inj in E1. subst t1. destruct (Hd' k i (or_introl eq_refl)) as [Hdi Hk].
      rewrite !ascii_app. split; [exact Hsi |]. split; [apply encode_str_ascii; exact Hk |].
      split; [exact Hsk |]. split.
      * eapply Hi; [exact Hdi | exact Ei].
      * apply IHl'; [intros k' j Hj; apply (Hd' k' j); right; exact Hj | exact Er].
Qed.

(** ** When writing fails *)

Theorem dumps_ok_iff : forall rt si sk v,
  (exists t, dumps rt si sk v = Ok t) <-> ints_convertible rt v.
Proof.
  intros rt si sk.
  induction v as [| [] | z | f | x | l IH | l IH] using json_nested_ind.
  1-3,5-6: (split; [intros _ z Hz; apply within_atom in Hz; [discriminate | exact I] | intros _; cbn; eauto]).
  - cbn [dumps]. unfold int_text. destruct (over_limit rt (dec_N (Z.abs_N z))) eqn:Eo.
    + split; [intros (t & H); discriminate |]. intros H. exfalso.
      specialize (H z (W_here _)). destruct (int_text_value rt z H) as [E _]. unfold int_text in E.
      rewrite Eo in E. discriminate.
    + split; [intros _ z' Hz | eauto]. apply within_atom in Hz; [| exact I]. injection Hz as ->.
      apply over_limit_false, dec_N_convertible in Eo. destruct Eo as [Eo | Eo]; [left; exact Eo | right].
      apply N2Z.inj_lt in Eo. rewrite N2Z.inj_abs_N, N2Z.inj_pow in Eo. exact Eo.
  - assert (K : ints_convertible rt (JList l) <-> Forall (ints_convertible rt) l).
    { rewrite Forall_forall. unfold ints_convertible. split.
      - intros H i Hi z Hz. apply H. eapply within_trans_list; eassumption.
      - intros H z Hz. apply within_list in Hz. destruct Hz as [Hz | (i & Hi & Hz)]; [discriminate | eapply H; eassumption]. }
    rewrite K. clear K. destruct l as [| v0 l]; [split; [constructor | cbn; eauto] |].
    inversion IH as [| ? ? IH0 IHl]; subst. rewrite Forall_cons_iff, <- IH0. clear IH IH0. cbn [dumps].
    assert (G : (exists t, (fix go l := match l with
                        | [] => Ok [93]
                        | v1 :: r =>
                            t1 <- dumps rt si sk v1 ;; t <- go r ;;
                            Ok (si ++ t1 ++ t)
                        end) l = Ok t) <-> Forall (ints_convertible rt) l).
    { induction IHl as [| i l Hi IHl IHl']; [split; [constructor | eauto] |].
      rewrite Forall_cons_iff, <- IHl', <- Hi. split.
      - intros (t & H). apply bind_ok in H. destruct H as (ti & Ei & H). apply bind_ok in H. destruct H as (tr & Er & H). eauto.
      - intros ((ti & Ei) & (tr & Er)). rewrite Ei. cbn [bind]. rewrite Er. cbn [bind]. eauto. }
    rewrite <- G. split.
    + intros (t & H). apply bind_ok in H. destruct H as (ti & Ei & H). apply bind_ok in H. destruct H as (tr & Er & H). eauto.
    + intros ((ti & Ei) & (tr & Er)). rewrite Ei. cbn [bind]. rewrite Er. cbn [bind]. eauto.
  - assert (K : ints_convertible rt (JDict l) <-> Forall (fun kv => ints_convertible rt (snd kv)) l).
    { rewrite Forall_forall. unfold ints_convertible. split.
      - intros H [k i] Hi z Hz. apply H. eapply within_trans_dict; eassumption.
      - intros H z Hz. apply within_dict in Hz. destruct Hz as [Hz | (k & i & Hi & Hz)]; [discriminate | exact (H _ Hi _ Hz)]. }
    rewrite K. clear K. destruct l as [| [k0 v0] l]; [split; [constructor | cbn; eauto] |].
    inversion IH as [| ? ? IH0 IHl]; subst. cbn [snd] in IH0. rewrite Forall_cons_iff. cbn [snd]. rewrite <- IH0. clear IH IH0. cbn [dumps].
    assert (G : (exists t, (fix go l := match l with
                        | [] => Ok [125]
                        | (k1, v1) :: r =>
                            t1 <- dumps rt si sk v1 ;; t <- go r ;;
                            Ok (si ++ encode_str k1 ++ sk ++ t1 ++ t)
                        end) l = Ok t) <-> Forall (fun kv => ints_convertible rt (snd kv)) l).
    { induction IHl as [| [k i] l Hi IHl IHl']; [split; [constructor | eauto] |].
      cbn [snd] in Hi. rewrite Forall_cons_iff, <- IHl'. cbn [snd]. rewrite <- Hi. split.
      - intros (t & H). apply bind_ok in H. destruct H as (ti & Ei & H). apply bind_ok in H. destruct H as (tr & Er & H). eauto.
      - intros ((ti & Ei) & (tr & Er)). rewrite Ei. cbn [bind]. rewrite Er. cbn [bind]. eauto. }
    rewrite <- G. split.
    + intros (t & H). apply bind_ok in H. destruct H as (ti & Ei & H). apply bind_ok in H. destruct H as (tr & Er & H). eauto.
    + intros ((ti & Ei) & (tr & Er)). rewrite Ei. cbn [bind]. rewrite Er. cbn [bind]. eauto.
Qed.

Lemma dumps_err : forall rt si sk v e, dumps rt si sk v = Err e ->
  e = ValueError "integer string conversion" /\ int_max_str_digits rt <> 0.
Proof.
  intros rt si sk.
  induction v as [| [] | z | f | x | l IH | l IH] using json_nested_ind; intros e E; try discriminate.
  - cbn [dumps] in E. unfold int_text in E. destruct (over_limit _ _) eqn:Eo; [| discriminate].
    injection E as <-. split; [reflexivity |]. intros H. unfold over_limit in Eo. rewrite H in Eo. discriminate.
  - destruct l as [| v0 l]; [discriminate |]. inversion IH as [| ? ? IH0 IHl]; subst. cbn [dumps] in E.
    apply bind_err in E. destruct E as [E | (t0 & _ & E)]; [apply IH0; exact E |].
    apply bind_err in E. destruct E as [E | (t1 & _ & E)]; [| discriminate].
    clear IH IH0. induction IHl as [| i l Hi IHl IHl']; [discriminate |].
    apply bind_err in E. destruct E as [E | (ti & _ & E)]; [apply Hi; exact E |].
    apply bind_err in E. destruct E as [E | (tr & _ & E)]; [apply IHl'; exact E | discriminate].
  - destruct l as [| [k0 v0] l]; [discriminate |]. inversion IH as [| ? ? IH0 IHl]; subst. cbn [dumps] in E.
    apply bind_err in E. destruct E as [E | (t0 & _ & E)]; [apply IH0; exact E |].
    apply bind_err in E. destruct E as [E | (t1 & _ & E)]; [| discriminate].
    clear IH IH0. induction IHl as [| [k i] l Hi IHl IHl']; [discriminate |].
    apply bind_err in E. destruct E as [E | (ti & _ & E)]; [apply Hi; exact E |].
    apply bind_err in E. destruct E as [E | (tr & _ & E)]; [apply IHl'; exact E | discriminate].
Qed.

(** json_dumps is total but for integers over the digit limit. *)
Theorem json_dumps_total : forall rt v, match json_dumps rt v with
  | Ok _ => ints_convertible rt v
  | Err e => ~ ints_convertible rt v /\ e = ValueError "integer string conversion"
  end.
Proof.
  intros rt v. unfold json_dumps. pose proof (dumps_ok_iff rt [44] [58] v) as K.
  destruct (dumps rt [44] [58] v) as [t | e] eqn:E; [apply K; eauto |].
  split; [| apply dumps_err in E; tauto]. rewrite <- K. intros (t & H). discriminate.
Qed.

(** ** json.loads without validation *)

Lemma resolves_plain_nodup : forall v, no_repeated_names v ->
  resolves (fun l => Ok (JDict (dict_of_pairs l))) v v.
Proof.
  induction v as [| b | z | f | x | l IH | l IH] using json_nested_ind; intros Hn;
    try (apply R_atom; exact I).
  - apply R_list. assert (Hn' : forall i, In i l -> no_repeated_names i).
    { intros i Hi d Hd. apply Hn. eapply within_trans_list; eassumption. }
    clear Hn. induction IH as [| i l Hi IH IHl]; constructor.
    + apply Hi, Hn'. left. reflexivity.
    + apply IHl. intros j Hj. apply Hn'. right. exact Hj.
  - apply R_dict with (l' := l).
    + assert (Hn' : forall k i, In (k, i) l -> no_repeated_names i).
      { intros k i Hi d Hd. apply Hn. eapply within_trans_dict; eassumption. }
      clear Hn. induction IH as [| [k i] l Hi IH IHl]; constructor.
      * split; [reflexivity |]. apply Hi, (Hn' k). left. reflexivity.
      * apply IHl. intros k' j Hj. apply (Hn' k'). right. exact Hj.
    + rewrite dict_of_pairs_nodup; [reflexivity |]. apply Hn. constructor.
Qed.

(** A list or dict given as a custom claim is stored unchanged. *)
Theorem json_copy : forall rt v, float_codec rt -> python_value v ->
  (forall x, any_string x v -> valid_unicode x) -> ints_convertible rt v ->
  exists t, json_dumps_default rt v = Ok t /\ json_loads_plain rt t = Ok v.
Proof.
  intros rt v Hc (Hf & Hn) Hs Hi.
  destruct (dumps_text rt [32] [32]) with (v := v) as (t & E & V);
    [repeat constructor | repeat constructor | exact Hc | |].
  - repeat split; [exact Hf | exact Hi | |]; apply valid_unicode_code_points, Hs; assumption.
  - exists t. split; [exact E |]. apply loads_text. exists v. split.
    + exists [], t, []. rewrite app_nil_r. repeat split; [constructor | exact V | constructor].
    + apply resolves_plain_nodup. exact Hn.
Qed.

(** ** A text of the grammar fails only by the hook *)

Definition keep (l : list (pystr * json)) : result json := Ok (JDict l).

Lemma resolves_keep : forall v0 v, resolves keep v0 v <-> v = v0.
Proof.
  induction v0 as [| b | z | f | x | l IH | l IH] using json_nested_ind; intros v.
  1-5: split; [intros H; apply resolves_atom in H; [exact H | exact I] | intros ->; apply R_atom; exact I].
  - split.
    + intros H. apply resolves_list in H. destruct H as (l' & -> & Hl). f_equal. revert l' Hl.
      induction IH as [| i l Hi IH IHl]; intros l' Hl; inversion Hl; subst; [reflexivity |].
      f_equal; [apply Hi; assumption | apply IHl; assumption].
    + intros ->. apply R_list. induction IH as [| i l Hi IH IHl]; constructor; [apply Hi; reflexivity | exact IHl].
  - split.
    + intros H. apply resolves_dict in H. destruct H as (l' & Hl & Hh). apply ok_inj in Hh. subst v. f_equal.
      revert l' Hl. induction IH as [| [k i] l Hi IH IHl]; intros l' Hl; inversion Hl as [| ? [k' i'] ? ? [Hk Hi'] Hl']; subst; [reflexivity |].
      cbn [fst snd] in *. subst k'. apply Hi in Hi'. subst i'. f_equal. apply IHl. assumption.
    + intros ->. apply R_dict with (l' := l); [| reflexivity].
      induction IH as [| [k i] l Hi IH IHl]; constructor; [split; [reflexivity | apply Hi; reflexivity] | exact IHl].
Qed.

Lemma loads_keep : forall rt s v, loads rt keep s = Ok v <-> json_text rt v s.
Proof.
  intros rt s v. rewrite loads_text. split.
  - intros (v0 & H & Hr). apply resolves_keep in Hr. subst v0. exact H.
  - intros H. exists v. split; [exact H | apply resolves_keep; reflexivity].
Qed.

(** A text has one reading. *)
Theorem json_text_fun : forall rt s v w, json_text rt v s -> json_text rt w s -> v = w.
Proof.
  intros rt s v w Hv Hw. apply loads_keep in Hv. apply loads_keep in Hw. rewrite Hv in Hw.
  apply ok_inj in Hw. exact Hw.
Qed.

Section Simulate.
  Variable rt : py_rt.
  Variable hook : list (pystr * json) -> result json.

  Definition follows {B} (o : result (B * pystr)) (r : pystr) : Prop :=
    (exists v, o = Ok (v, r)) \/ (exists l e, hook l = Err e /\ o = Err e).

  Lemma parse_value_follows : forall fuel s v0 r,
    parse_value rt keep fuel s = Ok (v0, r) -> follows (parse_value rt hook fuel s) r.
  Proof.
    induction fuel as [| f IH]; intros s v0 r H; [discriminate |]. cbn [parse_value] in *.
    assert (Hi : forall n s l0 r, parse_items (parse_value rt keep f) n s = Ok (l0, r) ->
              follows (parse_items (parse_value rt hook f) n s) r).
    { induction n as [| n IHn]; intros s' l0 r' H'; [discriminate |]. cbn [parse_items] in *.
      apply bind_ok in H'. destruct H' as ([v1 r1] & Hv & H').
      destruct (IH _ _ _ Hv) as [(v & ->) | (l & e & Hl & ->)]; [| right; eauto]. cbn [bind].
      destruct (skip_ws r1) as [| c r2]; [discriminate |]. destruct (c =? 93).
      - apply ok_inj in H'. pose proof (f_equal snd H') as E. cbn in E. subst r2. left. eauto.
      - destruct (c =? 44); [| discriminate]. apply bind_ok in H'. destruct H' as ([l1 r3] & Hl & H').
        apply ok_inj in H'. pose proof (f_equal snd H') as E. cbn in E. subst r3.
        destruct (IHn _ _ _ Hl) as [(v' & ->) | (l & e & Hl' & ->)]; [left; cbn; eauto | right; eauto]. }
    assert (Hm : forall n s l0 r, parse_members (parse_value rt keep f) n s = Ok (l0, r) ->
              follows (parse_members (parse_value rt hook f) n s) r).
    { induction n as [| n IHn]; intros s' l0 r' H'; [discriminate |]. cbn [parse_members] in *.
      destruct s' as [| q s1]; [discriminate |]. destruct (q =? 34); [| discriminate].
      destruct (scan_string s1) as [[k r0] |]; [| discriminate].
      destruct (skip_ws r0) as [| c r1]; [discriminate |]. destruct (c =? 58); [| discriminate].
      apply bind_ok in H'. destruct H' as ([v1 r2] & Hv & H').
      destruct (IH _ _ _ Hv) as [(v & ->) | (l & e & Hl & ->)]; [| right; eauto]. cbn [bind].
      destruct (skip_ws r2) as [| d r3]; [discriminate |]. destruct (d =? 125).
      - apply ok_inj in H'. pose proof (f_equal snd H') as E. cbn in E. subst r3. left. eauto.
      - destruct (d =? 44); [| discriminate]. apply bind_ok in H'. destruct H' as ([l1 r4] & Hl & H').
        apply ok_inj in H'. pose proof (f_equal snd H') as E. cbn in E. subst r4.
        destruct (IHn _ _ _ Hl) as [(v' & ->) | (l & e & Hl' & ->)]; [left; cbn; eauto | right; eauto]. }
    destruct s as [| c s]; [discriminate |]. cbn [parse_step] in *.
    destruct (c =? 34).
    { destruct (scan_string s) as [[x r1] |]; [| discriminate].
      apply ok_inj in H. pose proof (f_equal snd H) as E. cbn in E. subst r1. left. eauto. }
    destruct (c =? 123).
    { destruct (skip_ws s) as [| d r1]; [discriminate |]. destruct (d =? 125).
      - apply ok_inj in H. pose proof (f_equal snd H) as E. cbn in E. subst r1.
        destruct (hook []) as [v | e] eqn:Eh; [left; cbn; eauto | right; cbn; eauto].
      - apply bind_ok in H. destruct H as ([l r2] & Hl & H).
        apply ok_inj in H. pose proof (f_equal snd H) as E. cbn in E. subst r2.
        destruct (Hm _ _ _ _ Hl) as [(l' & ->) | (l' & e & Hl' & ->)]; [| right; cbn; eauto]. cbn [bind].
        destruct (hook l') as [v | e] eqn:Eh; [left; cbn; eauto | right; cbn; eauto]. }
    destruct (c =? 91).
    { destruct (skip_ws s) as [| d r1]; [discriminate |]. destruct (d =? 93).
      - apply ok_inj in H. pose proof (f_equal snd H) as E. cbn in E. subst r1. left. eauto.
      - apply bind_ok in H. destruct H as ([l r2] & Hl & H).
        apply ok_inj in H. pose proof (f_equal snd H) as E. cbn in E. subst r2.
        destruct (Hi _ _ _ _ Hl) as [(l' & ->) | (l' & e & Hl' & ->)]; [left; cbn; eauto | right; cbn; eauto]. }
    destruct (scan_constant (c :: s)) as [[v r1] |].
    { apply ok_inj in H. pose proof (f_equal snd H) as E. cbn in E. subst r1. left. eauto. }
    left. eauto.
  Qed.

  Lemma loads_follows : forall s v0, json_text rt v0 s ->
    (exists v, loads rt hook s = Ok v) \/ (exists l e, hook l = Err e /\ loads rt hook s = Err e).
  Proof.
    intros s v0 H. apply loads_keep in H. unfold loads in *.
    destruct (startswith s [65279]); [discriminate |].
    apply bind_ok in H. destruct H as ([v1 r] & Hp & H).
    destruct (parse_value_follows _ _ _ _ Hp) as [(v & ->) | (l & e & Hl & ->)].
    - cbn [bind]. destruct (skip_ws r); [left; eauto | discriminate].
    - right. cbn. eauto.
  Qed.
End Simulate.

(** A JSON document (without over-long integers) that is not accepted raises
    JwtInvalidError. *)
Theorem json_loads_rejects : forall rt s v, json_text rt v s ->
  ~ (no_repeated_names v /\ (forall x, member_string x v -> valid_unicode x)) ->
  exists m, json_loads rt s = Err (JwtInvalidError m).
Proof.
  intros rt s v Ht Hn. destruct (json_loads rt s) as [w | e] eqn:E.
  - exfalso. apply Hn. apply json_loads_iff in E. destruct E as (Hw & H).
    rewrite (json_text_fun rt s v w Ht Hw). exact H.
  - unfold json_loads in E. destruct (loads_follows rt dict_with_validation s v Ht) as [(w & Hw) | (l & e' & Hl & Hw)];
      rewrite Hw in E; [discriminate |].
    apply dict_with_validation_err in Hl. destruct Hl as [-> | ->]; injection E as <-; eauto.
Qed.

