(** Proofs: example programs, files and texts. *)
From Coq Require Import Strings.Byte Strings.String List NArith ZArith Bool Lia.
From Verif Require Import M_Base M_Utf8 M_Proto M_Prims M_PrimitiveSet M_Registry M_KeysetHandle M_KeysetIO
  M_Wrappers M_Kms M_JwtTypes M_Json M_JsonKeyset M_RawJwt M_JwtValidator M_JwtWrappers M_Jwk M_KmsIntegrations
  M_CcStream M_CcManagers M_KeyFormats M_Templates M_Cli
  S_Keyset S_Wire S_Base64 S_Json S_JsonKeyset S_Config S_CcLaws S_Cli
  L_Base L_Utf8 L_Json L_Json2 L_Json3 L_Json4 L_JsonKeyset L_JsonKeyset2 L_JsonKeyset3.
Import ListNotations.
Open Scope string_scope.
Open Scope list_scope.

(** ** Universal newlines *)

Lemma short_first : forall (P : pystr -> Prop),
  (forall a, (forall b, (length b < length a)%nat -> P b) -> P a) -> forall a, P a.
Proof.
  intros P H a. apply H. induction a as [| c a IH]; intros b Hb; cbn in Hb; [lia |].
  apply H. intros d Hd. apply IH. lia.
Qed.
Definition no_lf_head (x : pystr) : Prop := match x with c :: _ => c <> 10%N | [] => True end.
Lemma newlines_app : forall a b, no_lf_head b -> universal_newlines (a ++ b) = universal_newlines a ++ universal_newlines b.
Proof.
  intros a. pattern a; apply short_first; clear a; intros a IH. intros b Hb.
  destruct a as [| c a]; [reflexivity |]. cbn [app universal_newlines]. destruct (N.eqb c 13).
  - destruct a as [| d a]; cbn [app].
    + destruct b as [| d b]; [reflexivity |]. cbn in Hb. apply N.eqb_neq in Hb. rewrite Hb. reflexivity.
    + destruct (N.eqb d 10); cbn [app]; f_equal; [apply IH | apply (IH (d :: a))]; cbn; (exact Hb || lia).
  - cbn [app]. f_equal. apply IH; cbn; (exact Hb || lia).
Qed.
Definition no_cr_last (x : pystr) : Prop := last x 0%N <> 13%N.
Lemma newlines_app2 : forall a b, no_cr_last a -> universal_newlines (a ++ b) = universal_newlines a ++ universal_newlines b.
Proof.
  intros a. pattern a; apply short_first; clear a; intros a IH. intros b Ha. destruct a as [| c a]; [reflexivity |]. cbn [app universal_newlines]. destruct (N.eqb c 13) eqn:E.
  - destruct a as [| d a]; cbn [app].
    + exfalso. apply N.eqb_eq in E. apply Ha. exact E.
    + destruct (N.eqb d 10) eqn:E2; cbn [app]; f_equal.
      * destruct a as [| e a]; [destruct b; reflexivity |]. apply IH; [cbn; lia | exact Ha].
      * apply (IH (d :: a)); [cbn; lia | exact Ha].
  - cbn [app]. f_equal. destruct a as [| d a]; [reflexivity |]. apply IH; [cbn; lia | exact Ha].
Qed.
Lemma newlines_id : forall x, Forall (fun c => c <> 13%N) x -> universal_newlines x = x.
Proof.
  intros x H. induction H as [| c x Hc H IH]; [reflexivity |]. cbn. apply N.eqb_neq in Hc. rewrite Hc. f_equal. exact IH.
Qed.
Lemma newlines_white : forall w, white w -> white (universal_newlines w).
Proof.
  intros w. pattern w; apply short_first; clear w; intros w IH. intros H. destruct w as [| c w]; [constructor |]. inversion H as [| ? ? Hc Hw]. subst. cbn. destruct (N.eqb c 13).
  - constructor; [auto |]. destruct w as [| d w]; [constructor |].
    destruct (N.eqb d 10); [apply IH; [cbn; lia | inversion Hw; assumption] | apply (IH (d :: w)); [cbn; lia | exact Hw]].
  - constructor; [exact Hc | apply IH; [cbn; lia | exact Hw]].
Qed.

Lemma string_body_no_cr : forall x t, string_body x t -> Forall (fun c => c <> 13%N) t.
Proof.
  assert (U : forall e u, u_text e u -> Forall (fun c => c <> 13%N) e).
  { intros e u (a & b & c & d & va & vb & vc & vd & -> & Ha & Hb & Hc & Hd & _). unfold hex_value in *.
    repeat constructor; lia. }
  intros x t H. induction H; try (constructor; fail).
  - constructor; [lia | assumption].
  - constructor; [lia |]. constructor; [| assumption]. cbn in H.
    repeat (destruct H as [H | H]; [injection H as <- <-; discriminate |]). contradiction.
  - apply Forall_app. split; eauto.
  - apply Forall_app. split; [eauto |]. apply Forall_app. split; eauto.
Qed.
Lemma digits_no_cr : forall d, digits d -> Forall (fun c => c <> 13%N) d.
Proof. intros d H. eapply Forall_impl; [| exact H]. cbn. intros. lia. Qed.
Lemma int_part_no_cr : forall i, int_part i -> Forall (fun c => c <> 13%N) i /\ i <> [] /\ no_lf_head i.
Proof.
  intros i [-> | (c & d & -> & Hc & Hd)].
  - split; [repeat constructor; discriminate | split; [discriminate | cbn; discriminate]].
  - split; [constructor; [lia | apply digits_no_cr; exact Hd] | split; [discriminate | cbn; lia]].
Qed.
Lemma float_no_cr : forall t, float_literal t -> Forall (fun c => c <> 13%N) t /\ t <> [] /\ no_lf_head t.
Proof.
  intros t (sg & i & f & e & -> & Hs & Hi & Hf & He & _). destruct (int_part_no_cr i Hi) as (I1 & I2 & I3).
  split; [| split].
  - apply Forall_app. split; [destruct Hs as [-> | ->]; repeat constructor; discriminate |].
    apply Forall_app. split; [exact I1 |]. apply Forall_app. split.
    + destruct Hf as [(d & -> & _ & Hd) | ->]; [| constructor]. constructor; [discriminate | apply digits_no_cr; exact Hd].
    + destruct He as [(x & s & d & -> & Hx & Hsg & _ & Hd) | ->]; [| constructor]. constructor; [lia |].
      apply Forall_app. split; [destruct Hsg as [-> | [-> | ->]]; repeat constructor; discriminate | apply digits_no_cr; exact Hd].
  - destruct i; [contradiction |]. destruct Hs as [-> | ->]; discriminate.
  - destruct Hs as [-> | ->]; cbn; [| discriminate]. destruct i; [contradiction |]. exact I3.
Qed.
Lemma no_cr_last_of : forall t, Forall (fun c => c <> 13%N) t -> no_cr_last t.
Proof.
  unfold no_cr_last. intros t H. induction H as [| c t Hc H IH]; [discriminate |].
  destruct t; [exact Hc | exact IH].
Qed.
Lemma last_snoc : forall (a : pystr) c, no_cr_last (a ++ [c]) <-> c <> 13%N.
Proof. intros. unfold no_cr_last. rewrite last_last. reflexivity. Qed.
Lemma last_app_cons : forall (a b : pystr) c, no_cr_last (c :: b) -> no_cr_last (a ++ c :: b).
Proof.
  intros a b c H. unfold no_cr_last in *. induction a as [| d a IH]; [exact H |].
  cbn [app]. destruct (a ++ c :: b) eqn:E; [destruct a; discriminate |]. exact IH.
Qed.

Lemma newlines_cons : forall c t, c <> 13%N -> universal_newlines (c :: t) = c :: universal_newlines t.
Proof. intros c t H. cbn. apply N.eqb_neq in H. rewrite H. reflexivity. Qed.

Lemma json_newlines : forall rt,
  (forall v t, json_value rt v t -> json_value rt v (universal_newlines t) /\ no_lf_head t /\ t <> [] /\ no_cr_last t) /\
  (forall l t, json_items rt l t -> json_items rt l (universal_newlines t)) /\
  (forall l t, json_members rt l t -> json_members rt l (universal_newlines t)).
Proof.
  intros rt. apply json_text_mind.
  - split; [constructor | split; [discriminate | split; discriminate]].
  - split; [constructor | split; [discriminate | split; discriminate]].
  - split; [constructor | split; [discriminate | split; discriminate]].
  - split; [constructor | split; [discriminate | split; discriminate]].
  - split; [constructor | split; [discriminate | split; discriminate]].
  - split; [constructor | split; [discriminate | split; discriminate]].
  - intros i Hi Hc. destruct (int_part_no_cr i Hi) as (I1 & I2 & I3). rewrite (newlines_id i I1).
    split; [constructor; assumption | split; [exact I3 | split; [exact I2 | apply no_cr_last_of; exact I1]]].
  - intros i Hi Hc. destruct (int_part_no_cr i Hi) as (I1 & I2 & I3).
    assert (I1' : Forall (fun c => c <> 13%N) (45%N :: i)) by (constructor; [discriminate | exact I1]).
    rewrite (newlines_id _ I1').
    split; [constructor; assumption | split; [cbn; discriminate | split; [discriminate | apply no_cr_last_of; exact I1']]].
  - intros t Ht. destruct (float_no_cr t Ht) as (I1 & I2 & I3). rewrite (newlines_id t I1).
    split; [constructor; assumption | split; [exact I3 | split; [exact I2 | apply no_cr_last_of; exact I1]]].
  - intros x t Ht. pose proof (string_body_no_cr _ _ Ht) as I.
    assert (I' : Forall (fun c => c <> 13%N) (34%N :: t ++ [34%N])).
    { constructor; [discriminate |]. apply Forall_app. split; [exact I | repeat constructor; discriminate]. }
    rewrite (newlines_id _ I').
    split; [constructor; assumption | split; [cbn; discriminate | split; [discriminate | apply no_cr_last_of; exact I']]].
  - intros w Hw. rewrite newlines_cons by discriminate. rewrite newlines_app by (cbn; discriminate).
    split; [apply (V_list0 rt); apply newlines_white; exact Hw |].
    split; [cbn; discriminate | split; [discriminate |]]. apply (last_snoc (91%N :: w)). discriminate.
  - intros l t _ IH. rewrite newlines_cons by discriminate. rewrite newlines_app by (cbn; discriminate).
    split; [apply (V_list rt); exact IH |].
    split; [cbn; discriminate | split; [discriminate |]]. apply (last_snoc (91%N :: t)). discriminate.
  - intros w Hw. rewrite newlines_cons by discriminate. rewrite newlines_app by (cbn; discriminate).
    split; [apply (V_dict0 rt); apply newlines_white; exact Hw |].
    split; [cbn; discriminate | split; [discriminate |]]. apply (last_snoc (123%N :: w)). discriminate.
  - intros l t _ IH. rewrite newlines_cons by discriminate. rewrite newlines_app by (cbn; discriminate).
    split; [apply (V_dict rt); exact IH |].
    split; [cbn; discriminate | split; [discriminate |]]. apply (last_snoc (123%N :: t)). discriminate.
  - intros w1 v t w2 H1 _ (V & Hh & Hn & Hl) H2. rewrite newlines_app, newlines_app2.
    + constructor; [apply newlines_white; exact H1 | exact V | apply newlines_white; exact H2].
    + exact Hl.
    + destruct t; [contradiction | exact Hh].
  - intros w1 v t w2 l t' H1 _ (V & Hh & Hn & Hl) H2 _ IH.
    rewrite newlines_app by (destruct t; [contradiction | exact Hh]). rewrite newlines_app2 by exact Hl.
    rewrite newlines_app by (cbn; discriminate). rewrite newlines_cons by discriminate.
    constructor; [apply newlines_white; exact H1 | exact V | apply newlines_white; exact H2 | exact IH].
  - intros w1 k tk w2 w3 v t w4 H1 Hk H2 H3 _ (V & Hh & Hn & Hl) H4.
    rewrite newlines_app by (cbn; discriminate). rewrite newlines_cons by discriminate.
    rewrite newlines_app by (cbn; discriminate). rewrite (newlines_id tk) by (eapply string_body_no_cr; exact Hk).
    rewrite newlines_cons by discriminate. rewrite newlines_app by (cbn; discriminate).
    rewrite newlines_cons by discriminate.
    rewrite newlines_app by (destruct t; [contradiction | exact Hh]). rewrite newlines_app2 by exact Hl.
    constructor; auto using newlines_white.
  - intros w1 k tk w2 w3 v t w4 l t' H1 Hk H2 H3 _ (V & Hh & Hn & Hl) H4 _ IH.
    rewrite newlines_app by (cbn; discriminate). rewrite newlines_cons by discriminate.
    rewrite newlines_app by (cbn; discriminate). rewrite (newlines_id tk) by (eapply string_body_no_cr; exact Hk).
    rewrite newlines_cons by discriminate. rewrite newlines_app by (cbn; discriminate).
    rewrite newlines_cons by discriminate.
    rewrite newlines_app by (destruct t; [contradiction | exact Hh]). rewrite newlines_app2 by exact Hl.
    rewrite newlines_app by (cbn; discriminate). rewrite newlines_cons by discriminate.
    constructor; auto using newlines_white.
Qed.
Lemma json_text_newlines : forall rt v t, json_text rt v t -> json_text rt v (universal_newlines t).
Proof.
  intros rt v s (w1 & t & w2 & H1 & Hv & H2 & ->). destruct (proj1 (json_newlines rt) v t Hv) as (V & Hh & Hn & Hl).
  rewrite newlines_app by (destruct t; [contradiction | exact Hh]). rewrite newlines_app2 by exact Hl.
  exists (universal_newlines w1), (universal_newlines t), (universal_newlines w2).
  auto using newlines_white.
Qed.

(** ** What MessageToJson writes is ASCII *)
Lemma newline_indent_ascii : forall n, ascii (newline_indent n).
Proof.
  intros n. unfold newline_indent. apply ascii_cons. split; [lia |].
  generalize (2 * n)%nat. intros m. induction m as [| m IH]; [constructor |]. cbn. constructor; [lia | exact IH].
Qed.
Lemma dumps_indent_ascii : forall rt v n t, printable rt v -> dumps_indent rt n v = Ok t -> ascii t.
Proof.
  intros rt. assert (S0 : forall x, valid_unicode x -> ascii (encode_str x)).
  { intros x H. apply encode_str_ascii. apply valid_unicode_code_points. exact H. }
  induction v as [| [] | z | f | x | l IH | l IH] using json_nested_ind; intros n t Hd E.
  1-3: apply ok_inj in E; subst t; vm_compute; repeat constructor.
  - cbn [dumps_indent] in E. unfold int_text in E. destruct (over_limit _ _); [discriminate |].
    apply ok_inj in E. subst t. apply dec_Z_ascii.
  - exfalso. apply (proj1 Hd f). constructor.
  - cbn [dumps_indent] in E. apply ok_inj in E. subst t. apply S0. apply Hd. left. constructor.
  - destruct l as [| v0 l]; [apply ok_inj in E; subst t; vm_compute; repeat constructor |].
    cbn [dumps_indent] in E. apply bind_ok in E. destruct E as (t0 & E0 & E).
    apply bind_ok in E. destruct E as (t1 & E1 & E). apply ok_inj in E. subst t.
    inversion IH as [| ? ? IH0 IHl]; subst.
    apply ascii_cons. split; [lia |]. apply ascii_app. split; [apply newline_indent_ascii |]. apply ascii_app. split.
    + exact (IH0 _ _ (printable_item _ _ _ Hd (or_introl eq_refl)) E0).
    + assert (Hd' : forall i, In i l -> printable rt i) by (intros i Hi; apply (printable_item _ _ _ Hd); right; exact Hi).
      clear - E1 IHl Hd'. revert t1 E1. induction IHl as [| i l Hi IHl IH]; intros t1 E1.
      * apply ok_inj in E1. subst t1. apply ascii_app. split; [apply newline_indent_ascii | repeat constructor].
      * apply bind_ok in E1. destruct E1 as (ti & Ei & E1). apply bind_ok in E1. destruct E1 as (t2 & E2 & E1).
        apply ok_inj in E1. subst t1. apply ascii_app. split; [apply ascii_cons; split; [lia | apply newline_indent_ascii] |].
        apply ascii_app. split; [exact (Hi _ _ (Hd' i (or_introl eq_refl)) Ei) |].
        apply IH; [intros j Hj; apply Hd'; right; exact Hj | exact E2].
  - destruct l as [| [k0 v0] l]; [apply ok_inj in E; subst t; vm_compute; repeat constructor |].
    cbn [dumps_indent] in E. apply bind_ok in E. destruct E as (t0 & E0 & E).
    apply bind_ok in E. destruct E as (t1 & E1 & E). apply ok_inj in E. subst t.
    inversion IH as [| ? ? IH0 IHl]; subst. cbn [snd] in IH0.
    destruct (printable_member _ _ _ _ Hd (or_introl eq_refl)) as (Hd0 & Hk0).
    apply ascii_cons. split; [lia |]. apply ascii_app. split; [apply newline_indent_ascii |].
    apply ascii_app. split; [apply S0; exact Hk0 |]. apply ascii_app. split; [repeat constructor |]. apply ascii_app. split.
    + exact (IH0 _ _ Hd0 E0).
    + assert (Hd' : forall k i, In (k, i) l -> printable rt i /\ valid_unicode k) by
        (intros k i Hi; apply (printable_member _ _ _ _ Hd); right; exact Hi).
      clear - E1 IHl Hd' S0. revert t1 E1. induction IHl as [| [k i] l Hi IHl IH]; intros t1 E1.
      * apply ok_inj in E1. subst t1. apply ascii_app. split; [apply newline_indent_ascii | repeat constructor].
      * apply bind_ok in E1. destruct E1 as (ti & Ei & E1). apply bind_ok in E1. destruct E1 as (t2 & E2 & E1).
        apply ok_inj in E1. subst t1. destruct (Hd' k i (or_introl eq_refl)) as (Hdi & Hk).
        apply ascii_app. split; [apply ascii_cons; split; [lia | apply newline_indent_ascii] |].
        apply ascii_app. split; [apply S0; exact Hk |]. apply ascii_app. split; [repeat constructor |].
        apply ascii_app. split; [exact (Hi _ _ Hdi Ei) |].
        apply IH; [intros k' j Hj; apply (Hd' k' j); right; exact Hj | exact E2].
Qed.
