(** The text of json_dumps has no line ends and no other control characters. *)
From Coq Require Import Strings.Byte Strings.String List NArith ZArith Bool Lia.
From Verif Require Import M_Base L_Base M_Utf8 L_Utf8 M_JwtTypes M_KmsIntegrations
  L_KmsIntegrations M_Json S_Json L_Json L_Json2 L_Json3 L_Json4.
Import ListNotations.
Open Scope list_scope.
Open Scope N_scope.

(** Characters from space to tilde. *)
Definition graphic (t : pystr) : Prop := Forall (fun c => 32 <= c < 128) t.

Lemma graphic_app : forall s t, graphic (s ++ t) <-> graphic s /\ graphic t.
Proof. intros. apply Forall_app. Qed.
Lemma graphic_cons : forall c t, graphic (c :: t) <-> 32 <= c < 128 /\ graphic t.
Proof. intros. apply Forall_cons_iff. Qed.
Ltac lits := cbn; repeat (apply graphic_cons; split; [lia |]); constructor.

Lemma hex_lower_graphic : forall d, d < 16 -> 32 <= hex_lower d < 128.
Proof. intros d H. unfold hex_lower. destruct (N.ltb_spec d 10); lia. Qed.
Lemma u_escape_graphic : forall n, n < 65536 -> graphic (u_escape n).
Proof.
  intros n H. unfold u_escape, hex4_lower. repeat (apply graphic_cons; split); try lia;
    try (apply hex_lower_graphic); try (apply N.mod_lt; lia); [| constructor].
  apply N.div_lt_upper_bound; lia.
Qed.
Lemma escape_char_graphic : forall c, c <= 1114111 -> graphic (escape_char c).
Proof.
  intros c Hc. destruct (escape_char_cases c Hc)
    as [(e & -> & He) | [(E & H1 & H2 & H3) | [(-> & H) | (u & w & -> & Hu & Hw & _)]]].
  - cbn in He. repeat (destruct He as [He | He]; [injection He as <- _; lits |]). destruct He.
  - unfold escape_char in E. 
    repeat (match type of E with (if ?b then _ else _) = _ => destruct b eqn:? end);
      try discriminate; try (cbn in E; discriminate).
    apply andb_true_iff in Heqb6. rewrite !N.leb_le in Heqb6. 
    unfold escape_char. rewrite Heqb, Heqb0, Heqb1, Heqb2, Heqb3, Heqb4, Heqb5.
    replace ((32 <=? c) && (c <=? 126)) with true by (symmetry; apply andb_true_iff; rewrite !N.leb_le; exact Heqb6).
    constructor; [lia | constructor].
  - apply u_escape_graphic. exact H.
  - unfold high_surrogate, low_surrogate in *. apply graphic_app. split; apply u_escape_graphic; lia.
Qed.
Lemma encode_str_graphic : forall x, code_points x -> graphic (encode_str x).
Proof.
  intros x H. unfold encode_str. apply graphic_cons. split; [lia |]. apply graphic_app.
  split; [| lits]. induction H as [| c x Hc H IH]; [constructor |].
  cbn [flat_map]. apply graphic_app. split; [apply escape_char_graphic; exact Hc | exact IH].
Qed.

Lemma digits_graphic : forall d, digits d -> graphic d.
Proof. intros d. apply Forall_impl. intros. lia. Qed.
Lemma int_part_graphic : forall i, int_part i -> graphic i.
Proof.
  intros i [-> | (c & d & -> & Hc & Hd)]; [lits |].
  apply graphic_cons. split; [lia | apply digits_graphic; exact Hd].
Qed.
Lemma float_literal_graphic : forall t, float_literal t -> graphic t.
Proof.
  intros t (sg & i & f & e & -> & Hs & Hi & Hf & He & _). rewrite !graphic_app. repeat split.
  - destruct Hs as [-> | ->]; lits.
  - apply int_part_graphic. exact Hi.
  - destruct Hf as [(d & -> & _ & Hd) | ->]; [| constructor].
    apply graphic_cons. split; [lia | apply digits_graphic; exact Hd].
  - destruct He as [(x & s & d & -> & Hx & Hsg & _ & Hd) | ->]; [| constructor].
    apply graphic_cons. split; [lia |]. apply graphic_app. split; [| apply digits_graphic; exact Hd].
    destruct Hsg as [-> | [-> | ->]]; lits.
Qed.

Lemma dec_Z_graphic : forall z, graphic (dec_Z z).
Proof.
  intros [| p | p]; cbn [dec_Z]; [apply int_part_graphic, dec_N_int_part .. |].
  apply graphic_cons. split; [lia | apply int_part_graphic, dec_N_int_part].
Qed.

Lemma dumps_graphic : forall rt si sk, float_codec rt -> graphic si -> graphic sk ->
  forall v t, python_data v -> dumps rt si sk v = Ok t -> graphic t.
Proof.
  intros rt si sk Hcodec Hsi Hsk.
  induction v as [| [] | z | f | x | l IH | l IH] using json_nested_ind; intros t Hd E.
  1-3: apply ok_inj in E; subst t; lits.
  - cbn [dumps] in E. unfold int_text in E. destruct (over_limit _ _); [discriminate |].
    apply ok_inj in E. subst t. apply dec_Z_graphic.
  - cbn [dumps] in E. apply ok_inj in E. subst t.
    assert (Hf : is_double f) by (apply Hd; constructor).
    destruct f as [| [] | | m]; try (lits; fail);
      (destruct (Hcodec _ Hf) as [Hl _]; [discriminate | discriminate |]);
      apply float_literal_graphic; exact Hl.
  - cbn [dumps] in E. apply ok_inj in E. subst t. apply encode_str_graphic. apply Hd. left. constructor.
  - destruct l as [| v0 l]; [apply ok_inj in E; subst t; lits |].
    cbn [dumps] in E. apply bind_ok in E. destruct E as (t0 & E0 & E).
    apply bind_ok in E. destruct E as (t1 & E1 & E). apply ok_inj in E. subst t.
    inversion IH as [| ? ? IH0 IHl]; subst.
    apply graphic_cons. split; [lia |]. apply graphic_app. split.
    + eapply IH0; [| exact E0]. eapply python_data_item; [exact Hd | left; reflexivity].
    + assert (Hd' : forall i, In i l -> python_data i) by (intros i Hi; apply (python_data_item _ _ Hd); right; exact Hi).
      clear Hd E0 IH IH0. revert t1 E1. induction IHl as [| i l Hi IHl IHl']; intros t1 E1.
      * apply ok_inj in E1. subst t1. lits.
      * apply bind_ok in E1. destruct E1 as (ti & Ei & E1). apply bind_ok in E1. destruct E1 as (tr & Er & E1).
        apply ok_inj in E1. subst t1. rewrite !graphic_app. split; [exact Hsi |]. split.
        -- eapply Hi; [| exact Ei]. apply Hd'. left. reflexivity.
        -- apply IHl'; [intros j Hj; apply Hd'; right; exact Hj | exact Er].
  - destruct l as [| [k0 v0] l]; [apply ok_inj in E; subst t; lits |].
    cbn [dumps] in E. apply bind_ok in E. destruct E as (t0 & E0 & E).
    apply bind_ok in E. destruct E as (t1 & E1 & E). apply ok_inj in E. subst t.
    inversion IH as [| ? ? IH0 IHl]; subst. cbn [snd] in IH0.
    destruct (python_data_member _ _ _ Hd (or_introl eq_refl)) as [Hd0 Hk0].
    apply graphic_cons. split; [lia |]. rewrite !graphic_app.
    split; [apply encode_str_graphic; exact Hk0 |]. split; [exact Hsk |]. split; [eapply IH0; eassumption |].
    assert (Hd' : forall k i, In (k, i) l -> python_data i /\ code_points k)
      by (intros k i Hi; apply (python_data_member _ _ _ Hd); right; exact Hi).
    clear Hd E0 IH IH0 Hd0 Hk0. revert t1 E1. induction IHl as [| [k i] l Hi IHl IHl']; intros t1 E1.
    + apply ok_inj in E1. subst t1. lits.
    + apply bind_ok in E1. destruct E1 as (ti & Ei & E1). apply bind_ok in E1. destruct E1 as (tr & Er & E1).
      apply ok_inj in E1. subst t1. destruct (Hd' k i (or_introl eq_refl)) as [Hdi Hk].
      rewrite !graphic_app. split; [exact Hsi |]. split; [apply encode_str_graphic; exact Hk |].
      split; [exact Hsk |]. split.
      * eapply Hi; [exact Hdi | exact Ei].
      * apply IHl'; [intros k' j Hj; apply (Hd' k' j); right; exact Hj | exact Er].
Qed.
