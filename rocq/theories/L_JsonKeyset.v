(** The JSON form of keysets: printing, reading, round trip. *)
From Coq Require Import Strings.Byte Strings.String List NArith ZArith Bool Lia.
From Verif Require Import M_Base L_Base M_Utf8 L_Utf8 M_Base64 S_Base64 L_Base64 M_Proto M_Prims
  M_PrimitiveSet M_Registry M_KeysetHandle M_KeysetIO M_JwtTypes M_Json S_Json L_Json L_Json2
  L_Json3 S_Wire S_Keyset S_Handle M_Wire L_Handle M_JsonKeyset S_JsonKeyset.
Import ListNotations.
Open Scope string_scope.
Open Scope list_scope.

(** ** The indented text *)

Lemma newline_white : forall n, white (newline_indent n).
Proof.
  intros n. unfold newline_indent, white. constructor; [auto |].
  apply Forall_forall. intros c Hc. apply repeat_spec in Hc. auto.
Qed.
#[local] Hint Resolve newline_white : core.
Lemma white_nil : white []. Proof. constructor. Qed.
#[local] Hint Resolve white_nil : core.

Definition printable (rt : py_rt) (v : json) : Prop :=
  (forall f, ~ within (JFloat f) v) /\ ints_convertible rt v /\
  (forall x, any_string x v -> valid_unicode x).

Lemma printable_item : forall rt l i, printable rt (JList l) -> In i l -> printable rt i.
Proof.
  intros rt l i (H1 & H2 & H3) Hi. repeat split.
  - intros f Hf. apply (H1 f). eapply within_trans_list; eassumption.
  - intros z Hz. apply H2. eapply within_trans_list; eassumption.
  - intros x [H | (d & w & Hd & Hx)]; apply H3; [left; eapply within_trans_list; eassumption |].
    right. exists d, w. split; [eapply within_trans_list; eassumption | exact Hx].
Qed.
Lemma printable_member : forall rt l k i, printable rt (JDict l) -> In (k, i) l ->
  printable rt i /\ valid_unicode k.
Proof.
  intros rt l k i (H1 & H2 & H3) Hi. split; [repeat split |].
  - intros f Hf. apply (H1 f). eapply within_trans_dict; eassumption.
  - intros z Hz. apply H2. eapply within_trans_dict; eassumption.
  - intros x [H | (d & w & Hd & Hx)]; apply H3; [left; eapply within_trans_dict; eassumption |].
    right. exists d, w. split; [eapply within_trans_dict; eassumption | exact Hx].
  - apply H3. right. exists l, i. split; [constructor | exact Hi].
Qed.

Lemma encode_valid : forall x, valid_unicode x -> string_body x (flat_map escape_char x).
Proof. intros x H. apply valid_unicode_code_points in H. apply encode_body; apply H. Qed.

Theorem dumps_indent_text : forall rt v n, printable rt v ->
  exists t, dumps_indent rt n v = Ok t /\ json_value rt v t.
Proof.
  intros rt.
  induction v as [| [] | z | f | x | l IH | l IH] using json_nested_ind; intros n Hd.
  - eexists. split; [reflexivity | constructor].
  - eexists. split; [reflexivity | constructor].
  - eexists. split; [reflexivity | constructor].
  - exists (dec_Z z). cbn [dumps_indent]. apply int_text_value. apply Hd. constructor.
  - exfalso. apply (proj1 Hd f). constructor.
  - exists (encode_str x). split; [reflexivity |]. constructor. apply encode_valid.
    apply Hd. left. constructor.
  - destruct l as [| v0 l]; [exists [91; 93]%N; split; [reflexivity | apply (V_list0 rt []); constructor] |].
    inversion IH as [| ? ? IH0 IHl]; subst.
    destruct (IH0 (S n) (printable_item _ _ _ Hd (or_introl eq_refl))) as (t0 & E0 & V0).
    assert (G : exists t1, (fix go l := match l with
                      | [] => Ok (newline_indent n ++ [93%N])
                      | v1 :: r =>
                          t1 <- dumps_indent rt (S n) v1 ;; t <- go r ;;
                          Ok ((44%N :: newline_indent (S n)) ++ t1 ++ t)
                      end) l = Ok (t1 ++ [93%N]) /\
              forall w v t, white w -> json_value rt v t -> json_items rt (v :: l) (w ++ t ++ t1)).
    { assert (Hd' : forall i, In i l -> printable rt i) by (intros i Hi; apply (printable_item _ _ _ Hd); right; exact Hi).
      clear Hd E0 V0 IH IH0. induction IHl as [| i l Hi IHl IHl'].
      - exists (newline_indent n). split; [reflexivity |]. intros w v t Hw Hv. apply I_one; auto.
      - destruct (Hi (S n) (Hd' i (or_introl eq_refl))) as (ti & Ei & Vi).
        destruct IHl' as (t1 & E1 & V1); [intros j Hj; apply Hd'; right; exact Hj |].
        exists (44%N :: newline_indent (S n) ++ ti ++ t1). rewrite Ei. cbn [bind]. rewrite E1. cbn [bind]. split.
        + cbn [app]. rewrite <- !app_assoc. reflexivity.
        + intros w v t Hw Hv. apply (I_more rt w v t []); auto. }
    destruct G as (t1 & E1 & V1). exists (91%N :: (newline_indent (S n) ++ t0 ++ t1) ++ [93%N]).
    cbn [dumps_indent]. rewrite E0. cbn [bind]. rewrite E1. cbn [bind].
    split; [rewrite <- !app_assoc; reflexivity |].
    constructor. apply V1; auto.
  - destruct l as [| [k0 v0] l]; [exists [123; 125]%N; split; [reflexivity | apply (V_dict0 rt []); constructor] |].
    inversion IH as [| ? ? IH0 IHl]; subst. cbn [snd] in IH0.
    destruct (printable_member _ _ _ _ Hd (or_introl eq_refl)) as (Hd0 & Hk0).
    destruct (IH0 (S n) Hd0) as (t0 & E0 & V0).
    assert (G : exists t1, (fix go l := match l with
                      | [] => Ok (newline_indent n ++ [125%N])
                      | (k1, v1) :: r =>
                          t1 <- dumps_indent rt (S n) v1 ;; t <- go r ;;
                          Ok ((44%N :: newline_indent (S n)) ++ encode_str k1 ++ [58%N; 32%N] ++ t1 ++ t)
                      end) l = Ok (t1 ++ [125%N]) /\
              forall w k tk v t, white w -> string_body k tk -> json_value rt v t ->
                json_members rt ((k, v) :: l) (w ++ 34%N :: tk ++ 34%N :: 58%N :: [32%N] ++ t ++ t1)).
    { assert (Hd' : forall k i, In (k, i) l -> printable rt i /\ valid_unicode k)
        by (intros k i Hi; apply (printable_member _ _ _ _ Hd); right; exact Hi).
      clear Hd E0 V0 IH IH0 Hd0 Hk0. induction IHl as [| [k i] l Hi IHl IHl'].
      - exists (newline_indent n). split; [reflexivity |]. intros w k tk v t Hw Hk Hv.
        apply (M_one rt w k tk [] [32%N] v t); auto. constructor; auto.
      - destruct (Hd' k i (or_introl eq_refl)) as (Hdi & Hk).
        destruct (Hi (S n) Hdi) as (ti & Ei & Vi). cbn [snd] in *.
        destruct IHl' as (t1 & E1 & V1); [intros k' j Hj; apply Hd'; right; exact Hj |].
        exists (44%N :: newline_indent (S n) ++ encode_str k ++ 58%N :: 32%N :: ti ++ t1).
        rewrite Ei. cbn [bind]. rewrite E1. cbn [bind]. split.
        + cbn [app]. repeat (rewrite <- !app_assoc; cbn [app]). reflexivity.
        + intros w k' tk v t Hw Hk' Hv.
          apply (M_more rt w k' tk [] [32%N] v t []); auto; [constructor; auto |].
          unfold encode_str. cbn [app]. rewrite <- app_assoc. cbn [app].
          apply V1; auto. apply encode_valid. assumption. }
    destruct G as (t1 & E1 & V1).
    exists (123%N :: (newline_indent (S n) ++ encode_str k0 ++ 58%N :: 32%N :: t0 ++ t1) ++ [125%N]).
    cbn [dumps_indent]. rewrite E0. cbn [bind]. rewrite E1. cbn [bind].
    split; [repeat (rewrite <- !app_assoc; cbn [app]); reflexivity |].
    constructor. unfold encode_str. cbn [app]. rewrite <- app_assoc. cbn [app].
    apply (V1 _ k0 _ v0 t0); auto using encode_valid.
Qed.

(** ** The duplicate check *)

Lemma repeated_name_spec : forall l, repeated_name l = false <-> NoDup (map fst l).
Proof.
  induction l as [| [k v] l IH]; cbn [repeated_name map fst].
  - split; [constructor | reflexivity].
  - rewrite orb_false_iff, IH. split.
    + intros [H1 H2]. constructor; [| exact H2]. intros Hi. apply in_map_iff in Hi.
      destruct Hi as (kv & <- & Hi).
      assert (E : existsb (fun kv0 => str_eqb (fst kv) (fst kv0)) l = true)
        by (apply existsb_exists; exists kv; split; [exact Hi | apply str_eqb_spec; reflexivity]).
      congruence.
    + intros H. inversion H as [| ? ? Hn Hd]; subst. split; [| exact Hd].
      destruct (existsb _ l) eqn:E; [| reflexivity]. apply existsb_exists in E.
      destruct E as (kv & Hi & E). apply str_eqb_spec in E. subst k.
      exfalso. apply Hn. apply in_map. exact Hi.
Qed.

Lemma duplicate_checker_ok : forall l v, duplicate_checker l = Ok v <-> NoDup (map fst l) /\ v = JDict l.
Proof.
  intros l v. unfold duplicate_checker. rewrite <- repeated_name_spec.
  destruct (repeated_name l); split; intros H.
  - discriminate.
  - destruct H. discriminate.
  - apply ok_inj in H. auto.
  - destruct H as [_ ->]. reflexivity.
Qed.

Lemma resolves_checked : forall v0 v, resolves duplicate_checker v0 v <-> v = v0 /\ no_repeated_names v0.
Proof.
  unfold no_repeated_names.
  induction v0 as [| b | z | f | x | l IH | l IH] using json_nested_ind; intros v.
  1-5: split;
    [ intros H; apply resolves_atom in H; [| exact I]; split; [exact H |];
      intros l Hl; apply within_atom in Hl; [discriminate | exact I]
    | intros [-> _]; apply R_atom; exact I ].
  - split.
    + intros H. apply resolves_list in H. destruct H as (l' & -> & Hl).
      assert (G : l' = l /\ forall i, In i l -> forall d, within (JDict d) i -> NoDup (map fst d)).
      { revert l' Hl. induction IH as [| i l Hi IH IHl]; intros l' Hl; inversion Hl as [| ? i' ? l2 Hi' Hl2]; subst.
        - split; [reflexivity | intros ? []].
        - apply Hi in Hi'. destruct Hi' as [-> Hi']. destruct (IHl _ Hl2) as [-> G].
          split; [reflexivity |]. intros j [<- | Hj]; [exact Hi' | apply G; exact Hj]. }
      destruct G as [-> G]. split; [reflexivity |]. intros d Hd. apply within_list in Hd.
      destruct Hd as [Hd | (i & Hi & Hd)]; [discriminate | eapply G; eassumption].
    + intros [-> H]. apply R_list.
      assert (G : forall i, In i l -> forall d, within (JDict d) i -> NoDup (map fst d)).
      { intros i Hi d Hd. apply H. econstructor; eassumption. }
      clear H. induction IH as [| i l Hi IH IHl]; constructor.
      * apply Hi. split; [reflexivity |]. apply G. left. reflexivity.
      * apply IHl. intros j Hj. apply G. right. exact Hj.
  - split.
    + intros H. apply resolves_dict in H. destruct H as (l' & Hl & Hh).
      assert (G : l' = l /\ forall k i, In (k, i) l -> forall d, within (JDict d) i -> NoDup (map fst d)).
      { clear Hh. revert l' Hl. induction IH as [| [k i] l Hi IH IHl]; intros l' Hl;
          inversion Hl as [| ? [k' i'] ? l2 [Hk Hi'] Hl2]; subst.
        - split; [reflexivity | intros ? ? []].
        - cbn [fst snd] in *. subst k'. apply Hi in Hi'. destruct Hi' as [-> Hi']. destruct (IHl _ Hl2) as [-> G].
          split; [reflexivity |]. intros k' j [E | Hj]; [injection E as <- <-; exact Hi' | eapply G; exact Hj]. }
      destruct G as [-> G]. apply duplicate_checker_ok in Hh. destruct Hh as [Hg ->].
      split; [reflexivity |]. intros d Hd. apply within_dict in Hd.
      destruct Hd as [Hd | (k & i & Hi & Hd)]; [injection Hd as ->; exact Hg | eapply G; eassumption].
    + intros [-> H]. apply R_dict with (l' := l).
      * assert (G : forall k i, In (k, i) l -> forall d, within (JDict d) i -> NoDup (map fst d)).
        { intros k i Hi d Hd. apply H. econstructor; eassumption. }
        clear H. induction IH as [| [k i] l Hi IH IHl]; constructor.
        -- split; [reflexivity |]. apply Hi. split; [reflexivity |]. apply (G k). left. reflexivity.
        -- apply IHl. intros k' j Hj. apply (G k'). right. exact Hj.
      * apply duplicate_checker_ok. split; [apply H; constructor | reflexivity].
Qed.

Theorem loads_checked : forall rt t v, loads rt duplicate_checker t = Ok v <->
  json_text rt v t /\ no_repeated_names v.
Proof.
  intros rt t v. rewrite loads_text. split.
  - intros (v0 & Ht & Hr). apply resolves_checked in Hr. destruct Hr as [-> Hn]. auto.
  - intros [Ht Hn]. exists v. split; [exact Ht |]. apply resolves_checked. auto.
Qed.

(** ** Base64 *)

Lemma a2b_go_pads0 : forall n l p, a2b_go 0 l p (repeat pad n) = Some [].
Proof. induction n as [| n IH]; intros l p; [reflexivity |]. cbn. apply IH. Qed.

Lemma a2b_go_more_pads : forall l n, Forall (fun d => (d < 64)%N) l ->
  (Nat.modulo (length l) 4 = 0%nat \/ (Nat.modulo (length l) 4 = 2 /\ 2 <= n)%nat \/
   (Nat.modulo (length l) 4 = 3 /\ 1 <= n)%nat) ->
  a2b_go 0 0 0 (map std_char l ++ repeat pad n) = dec l.
Proof.
  induction l as [| a | a b | a b c | a b c d r IH] using quads_ind; intros n Hl Ht;
    repeat match goal with H : Forall _ (_ :: _) |- _ => apply Forall_cons_iff in H; destruct H end; cbn [map app].
  - apply a2b_go_pads0.
  - destruct Ht as [H1 | [[H1 _] | [H1 _]]]; discriminate.
  - rewrite go0, go1 by assumption.
    destruct Ht as [Hx | [[_ Hn] | [Hx _]]]; try discriminate.
    destruct n as [| [| n]]; [lia | lia |]. cbn [repeat]. rewrite go2_pads. reflexivity.
  - rewrite go0, go1, go2 by assumption.
    destruct Ht as [Hx | [[Hx _] | [_ Hn]]]; try discriminate.
    destruct n as [| n]; [lia |]. cbn [repeat]. rewrite go3_pad. reflexivity.
  - rewrite go0, go1, go2, go3 by assumption. rewrite IH; auto.
    + cbn [dec]. destruct (dec r); reflexivity.
    + cbn [length] in Ht.
      replace (S (S (S (S (length r))))) with (length r + 1 * 4)%nat in Ht by lia.
      rewrite Nat.mod_add in Ht by lia. exact Ht.
Qed.

Lemma pads_repeat : forall p n, (p = [] \/ p = [x3d] \/ p = [x3d; x3d]) ->
  p ++ repeat pad n = repeat pad (length p + n).
Proof. intros p n [-> | [-> | ->]]; reflexivity. Qed.

Definition url_translate (c : byte) : byte :=
  if Byte.eqb c x2d then x2b else if Byte.eqb c x5f then x2f else c.
Lemma translate_digit : forall al d, (al = std_alphabet \/ al = url_alphabet) -> (d < 64)%N ->
  url_translate (nth (N.to_nat d) al x00) = std_char d.
Proof.
  intros al d Ha Hd.
  assert (G : forallb (fun d => Byte.eqb (url_translate (nth (N.to_nat d) std_alphabet x00)) (std_char d)
            && Byte.eqb (url_translate (nth (N.to_nat d) url_alphabet x00)) (std_char d)) (below 64) = true)
    by (vm_compute; reflexivity).
  pose proof (all64 _ G d Hd) as E. cbv beta in E. apply andb_prop in E. destruct E as [E1 E2].
  apply byte_eqb_spec in E1. apply byte_eqb_spec in E2.
  destruct Ha as [-> | ->]; assumption.
Qed.

Lemma digits_ascii : forall al x d c, (al = std_alphabet \/ al = url_alphabet) -> base64_text al x d ->
  In c d -> (Byte.to_N c < 128)%N.
Proof.
  intros al x d c Ha (ds & fill & Hd & -> & _) Hc. apply in_map_iff in Hc. destruct Hc as (i & <- & Hi).
  rewrite Forall_forall in Hd. specialize (Hd i Hi). cbv beta in Hd.
  assert (G : forallb (fun d => (Byte.to_N (nth (N.to_nat d) std_alphabet x00) <? 128)%N
            && (Byte.to_N (nth (N.to_nat d) url_alphabet x00) <? 128)%N) (below 64) = true)
    by (vm_compute; reflexivity).
  pose proof (all64 _ G i Hd) as E. cbv beta in E. apply andb_prop in E. rewrite !N.ltb_lt in E.
  destruct Ha as [-> | ->]; tauto.
Qed.

Lemma utf8_ascii : forall y, Forall (fun c => (Byte.to_N c < 128)%N) y ->
  utf8_encode (map Byte.to_N y) = Some y.
Proof.
  intros y H. induction H as [| c y Hc Hy IH]; [reflexivity |]. cbn [map utf8_encode].
  rewrite IH. unfold utf8_encode_char, is_scalar.
  replace (Byte.to_N c <? 55296)%N with true by (symmetry; apply N.ltb_lt; lia).
  replace (Byte.to_N c <? 128)%N with true by (symmetry; apply N.ltb_lt; lia).
  cbn [orb negb]. unfold byte_of_N. rewrite N.mod_small by lia. rewrite Byte.of_to_N. reflexivity.
Qed.

Lemma urlsafe_translate : forall y, urlsafe_b64decode y = b64decode (map url_translate y).
Proof. reflexivity. Qed.

Theorem conv_bytes_base64 : forall x s, any_base64 x s -> conv_bytes (JStr s) = Ok x.
Proof.
  intros x s (al & d & p & Ha & Hb & -> & Hp). cbn [conv_bytes].
  assert (Hp' : p = [] \/ p = [x3d] \/ p = [x3d; x3d]) by tauto.
  assert (Hasc : Forall (fun c => (Byte.to_N c < 128)%N) (d ++ p)).
  { apply Forall_app. split.
    - apply Forall_forall. intros c Hc. eapply digits_ascii; eassumption.
    - destruct Hp' as [-> | [-> | ->]]; repeat constructor. }
  rewrite (utf8_ascii _ Hasc). rewrite urlsafe_translate, <- app_assoc, (pads_repeat p) by assumption.
  destruct Hb as (ds & fill & Hd & -> & Hbits & Hlen & Hz).
  rewrite map_app, map_map.
  replace (map (fun x0 => url_translate (nth (N.to_nat x0) al x00)) ds) with (map std_char ds).
  2: { apply map_ext_in. intros i Hi. symmetry. apply translate_digit; [assumption |].
       rewrite Forall_forall in Hd. auto. }
  replace (map url_translate (repeat pad (length p + (4 - Nat.modulo (length (map (fun d => nth (N.to_nat d) al x00) ds ++ p)) 4))))
    with (repeat pad (length p + (4 - Nat.modulo (length (map (fun d => nth (N.to_nat d) al x00) ds ++ p)) 4))).
  2: { induction (length p + _)%nat as [| m IH]; [reflexivity |]. cbn [repeat map]. rewrite <- IH. reflexivity. }
  unfold b64decode.
  assert (L : (6 * length ds = 8 * length x + length fill)%nat).
  { apply (f_equal (@length bool)) in Hbits.
    rewrite app_length, bits_of_bytes_length, bits_of_sextets_length in Hbits. exact Hbits. }
  rewrite a2b_go_more_pads; [| exact Hd |].
  - rewrite (dec_complete ds x fill); auto.
  - rewrite app_length, map_length in *. pose proof (Nat.div_mod (length ds) 4 ltac:(lia)) as Hq.
    pose proof (Nat.mod_upper_bound (length ds) 4 ltac:(lia)) as Hr.
    destruct Hp as [-> | [Hp Hm]].
    + cbn [length]. rewrite Nat.add_0_r, Nat.add_0_l.
      destruct (Nat.modulo (length ds) 4) as [| [| [| [| r]]]]; lia.
    + pose proof (Nat.div_mod (length ds + length p) 4 ltac:(lia)) as Hq'.
      assert (Hlp : (1 <= length p)%nat) by (destruct Hp as [-> | ->]; cbn; lia).
      rewrite Hm. destruct (Nat.modulo (length ds) 4) as [| [| [| [| r]]]]; lia.
Qed.

Lemma b64encode_padded : forall x, padded_base64 x (map Byte.to_N (b64encode x)).
Proof.
  intros x. exists (map std_char (enc x)), (padding x).
  unfold b64encode. rewrite (b64_encode_gen_spec _ _ std_char std_char_spec).
  split; [| split; [reflexivity | split]].
  - destruct (enc_bits x) as (fill & E & Hf & Hz). exists (enc x), fill. repeat split; auto using enc_range.
  - unfold padding. destruct (Nat.modulo (length x) 3) as [| [| [| r]]]; auto.
  - assert (Hlen : forall y, exists k, length (enc y) = (4 * k + match Nat.modulo (length y) 3 with
        0 => 0 | S m => S (S m) end)%nat).
    { clear. induction y as [| a | a b | a b c r IH] using triples_ind;
        try (exists 0%nat; reflexivity).
      destruct IH as (k & Hk). exists (S k). cbn [enc length]. rewrite Hk.
      replace (S (S (S (length r)))) with (length r + 1 * 3)%nat by lia.
      rewrite Nat.mod_add by lia. lia. }
    rewrite app_length, map_length. destruct (Hlen x) as (k & ->). unfold padding.
    pose proof (Nat.mod_upper_bound (length x) 3).
    destruct (Nat.modulo (length x) 3) as [| [| [| m]]]; cbn [length]; [| | | lia].
    + replace (4 * k + 0 + 0)%nat with (k * 4)%nat by lia. apply Nat.mod_mul. lia.
    + replace (4 * k + 2 + 2)%nat with ((k + 1) * 4)%nat by lia. apply Nat.mod_mul. lia.
    + replace (4 * k + 3 + 1)%nat with ((k + 1) * 4)%nat by lia. apply Nat.mod_mul. lia.
Qed.

Lemma padded_any : forall x s, padded_base64 x s -> any_base64 x s.
Proof. intros x s (d & p & H & -> & Hp & Hm). exists std_alphabet, d, p. intuition. Qed.

(** ** Scalars *)

Definition names_of (table : list (string * Z)) : list (pystr * Z) :=
  map (fun p => (ulit (fst p), snd p)) table.
Lemma status_names_of : key_status_names = names_of status_table. Proof. reflexivity. Qed.
Lemma prefix_names_of : output_prefix_names = names_of prefix_table. Proof. reflexivity. Qed.
Lemma material_names_of : key_material_names = names_of material_table. Proof. reflexivity. Qed.

Definition good_table (t : list (string * Z)) : Prop :=
  t = status_table \/ t = prefix_table \/ t = material_table.

Lemma table_lookup : forall t s z, good_table t -> In (s, z) t ->
  dict_get str_eqb (ulit s) (names_of t) = Some z.
Proof.
  intros t s z [-> | [-> | ->]] H; cbn [In status_table prefix_table material_table] in H;
    repeat (destruct H as [H | H]; [injection H as <- <-; reflexivity |]); destruct H.
Qed.
Lemma table_find : forall t z, good_table t ->
  match find (fun kv => (snd kv =? z)%Z) (names_of t) with
  | Some (x, _) => exists s, x = ulit s /\ In (s, z) t
  | None => ~ In z (map snd t)
  end.
Proof.
  intros t z _. induction t as [| [s y] t IH]; cbn [names_of map find fst snd]; [intros [] |].
  destruct (Z.eqb_spec y z) as [-> | Hn].
  - exists s. split; [reflexivity | left; reflexivity].
  - fold (names_of t). destruct (find _ (names_of t)) as [[x ?] |].
    + destruct IH as (s' & -> & H). exists s'. split; [reflexivity | right; exact H].
    + intros [H | H]; [congruence | contradiction].
Qed.

Lemma set_enum_range : forall z, int32_range z -> set_enum z = Ok z.
Proof.
  intros z H. unfold int32_range in H. unfold set_enum.
  change (- 2 ^ 31)%Z with (-2147483648)%Z in H. change (2 ^ 31)%Z with 2147483648%Z in H.
  destruct (Z.leb_spec (-2147483648) z); [| lia]. destruct (Z.ltb_spec z 2147483648); [reflexivity | lia].
Qed.
Lemma set_uint32_range : forall n, uint32_range n -> set_uint32 (Z.of_N n) = Ok n.
Proof.
  intros n H. unfold uint32_range in H. unfold set_uint32.
  change (2 ^ 32)%N with 4294967296%N in H.
  destruct (Z.leb_spec 0 (Z.of_N n)); [| lia]. destruct (Z.ltb_spec (Z.of_N n) 4294967296); [| lia].
  cbn [andb]. rewrite N2Z.id. reflexivity.
Qed.

(** Member [name] of l, if there, converts to the target; if not, the target is what the
    message has. *)
Definition field_ok {A} (l : members) (name : string) (conv : json -> result A) (cur tgt : A) : Prop :=
  (no_member l name /\ cur = tgt) \/
  (exists v, has_member l name v /\ v <> JNull /\ conv v = Ok tgt).

Lemma field_ok_tail : forall A x v l name (conv : json -> result A) cur tgt,
  x <> ulit name -> field_ok ((x, v) :: l) name conv cur tgt -> field_ok l name conv cur tgt.
Proof.
  intros A x v l name conv cur tgt Hx [[Hn E] | (w & Hm & Hw & Hc)].
  - left. split; [| exact E]. intros H. apply Hn. right. exact H.
  - right. exists w. split; [| auto]. destruct Hm as [Hm | Hm]; [| exact Hm].
    injection Hm as Hm _. contradiction.
Qed.
Lemma field_ok_head : forall A v l name (conv : json -> result A) cur tgt,
  NoDup (map fst ((ulit name, v) :: l)) -> field_ok ((ulit name, v) :: l) name conv cur tgt ->
  v <> JNull /\ conv v = Ok tgt /\ forall conv' cur', cur' = tgt -> field_ok l name conv' cur' tgt.
Proof.
  intros A v l name conv cur tgt Hnd [[Hn _] | (w & Hm & Hw & Hc)].
  - exfalso. apply Hn. left. reflexivity.
  - inversion Hnd as [| ? ? Hnot Hnd']; subst. destruct Hm as [Hm | Hm].
    + injection Hm as <-. split; [exact Hw |]. split; [exact Hc |]. intros conv' cur' ->. left.
      split; [exact Hnot | reflexivity].
    + exfalso. apply Hnot. apply (in_map fst) in Hm. exact Hm.
Qed.

Lemma only_tail : forall kv l names, only_members (kv :: l) names -> only_members l names.
Proof. intros kv l names H x Hx. apply H. right. exact Hx. Qed.
Lemma nodup_tail : forall (kv : pystr * json) l, NoDup (map fst (kv :: l)) -> NoDup (map fst l).
Proof. intros kv l H. inversion H. assumption. Qed.

Lemma conv_members_cons : forall M (fields : list (field_conv M)) name v l m f m',
  find_field fields name = Some f -> v <> JNull -> fc_set f v m = Ok m' ->
  conv_members fields ((name, v) :: l) m = conv_members fields l m'.
Proof.
  intros M fields name v l m f m' Hf Hv Hs. cbn [conv_members]. rewrite Hf, Hs.
  destruct v; try reflexivity. contradiction.
Qed.

Ltac ulit_neq := let H := fresh in intro H; vm_compute in H; discriminate H.
(** One member of the object: find out which field it is, convert it, go on with the rest. *)
Ltac conv_one IH Hnd H :=
  let Hv := fresh "Hv" in let Hc := fresh "Hc" in let G := fresh "G" in
  destruct (field_ok_head _ _ _ _ _ _ _ Hnd H) as (Hv & Hc & G);
  erewrite conv_members_cons; [| reflexivity | exact Hv | cbn [fc_set]; rewrite Hc; reflexivity];
  apply IH; auto; (apply G; reflexivity) || (eapply field_ok_tail; [| eassumption]; ulit_neq).
Ltac conv_step IH Hnd Ho H1 H2 H3 H4 :=
  pose proof (only_tail _ _ _ Ho); pose proof (nodup_tail _ _ Hnd);
  match goal with |- conv_members _ ((?x, ?v) :: ?l) _ = _ =>
    let n := fresh "n" in let Hn := fresh "Hn" in let Ex := fresh "Ex" in
    destruct (Ho x (or_introl eq_refl)) as (n & Hn & Ex); cbn [In] in Hn;
    repeat (destruct Hn as [<- | Hn]; [subst x |]); try contradiction;
    first [conv_one IH Hnd H1 | conv_one IH Hnd H2 | conv_one IH Hnd H3 | conv_one IH Hnd H4]
  end.

Lemma conv_key_data : forall pb l m d, NoDup (map fst l) ->
  only_members l ["typeUrl"; "value"; "keyMaterialType"] ->
  field_ok l "typeUrl" conv_string (kd_type_url m) (kd_type_url d) ->
  field_ok l "value" conv_bytes (kd_value m) (kd_value d) ->
  field_ok l "keyMaterialType" (conv_enum pb key_material_names) (kd_key_material_type m) (kd_key_material_type d) ->
  conv_members (key_data_fields pb) l m = Ok d.
Proof.
  intros pb. induction l as [| [x v] l IH]; intros m d Hnd Ho H1 H2 H3.
  - destruct H1 as [[_ H1] | (? & [] & _)], H2 as [[_ H2] | (? & [] & _)], H3 as [[_ H3] | (? & [] & _)].
    destruct m, d. cbn in *. congruence.
  - conv_step IH Hnd Ho H1 H2 H3 I.
Qed.

Lemma conv_key : forall pb l m d, NoDup (map fst l) ->
  only_members l ["keyData"; "status"; "keyId"; "outputPrefixType"] ->
  field_ok l "keyData" (fun v => x <- conv_message (key_data_fields pb) v (k_key_data m) ;; Ok (Some x))
    (k_key_data_opt m) (k_key_data_opt d) ->
  field_ok l "status" (conv_enum pb key_status_names) (k_status m) (k_status d) ->
  field_ok l "keyId" (conv_uint32 pb) (k_key_id m) (k_key_id d) ->
  field_ok l "outputPrefixType" (conv_enum pb output_prefix_names) (k_output_prefix_type m) (k_output_prefix_type d) ->
  conv_members (key_fields pb) l m = Ok d.
Proof.
  intros pb. induction l as [| [x v] l IH]; intros m d Hnd Ho H1 H2 H3 H4.
  - destruct H1 as [[_ H1] | (? & [] & _)], H2 as [[_ H2] | (? & [] & _)], H3 as [[_ H3] | (? & [] & _)],
      H4 as [[_ H4] | (? & [] & _)].
    destruct m, d. cbn in *. congruence.
  - pose proof (only_tail _ _ _ Ho) as Ho'. pose proof (nodup_tail _ _ Hnd) as Hnd'.
    destruct (Ho x (or_introl eq_refl)) as (n & Hn & Ex). cbn [In] in Hn.
    destruct Hn as [<- | Hn].
    { subst x. destruct (field_ok_head _ _ _ _ _ _ _ Hnd H1) as (Hv & Hc & G).
      apply bind_ok in Hc. destruct Hc as (y & Hc & E). apply ok_inj in E.
      erewrite conv_members_cons; [| reflexivity | exact Hv | cbn [fc_set]; rewrite Hc; reflexivity].
      apply IH; auto; try (apply G; auto; fail); eapply field_ok_tail; try eassumption; ulit_neq. }
    repeat (destruct Hn as [<- | Hn]; [subst x |]); try contradiction;
      first [conv_one IH Hnd H2 | conv_one IH Hnd H3 | conv_one IH Hnd H4].
Qed.

Lemma conv_keyset : forall pb l m d, NoDup (map fst l) ->
  only_members l ["primaryKeyId"; "key"] ->
  field_ok l "primaryKeyId" (conv_uint32 pb) (ks_primary_key_id m) (ks_primary_key_id d) ->
  field_ok l "key" (conv_repeated (conv_message (key_fields pb)) default_key) (ks_key m) (ks_key d) ->
  conv_members (keyset_fields pb) l m = Ok d.
Proof.
  intros pb. induction l as [| [x v] l IH]; intros m d Hnd Ho H1 H2.
  - destruct H1 as [[_ H1] | (? & [] & _)], H2 as [[_ H2] | (? & [] & _)].
    destruct m, d. cbn in *. congruence.
  - conv_step IH Hnd Ho H1 H2 I I.
Qed.

Lemma conv_key_info : forall pb l m d, NoDup (map fst l) ->
  only_members l ["typeUrl"; "status"; "keyId"; "outputPrefixType"] ->
  field_ok l "typeUrl" conv_string (ki_type_url m) (ki_type_url d) ->
  field_ok l "status" (conv_enum pb key_status_names) (ki_status m) (ki_status d) ->
  field_ok l "keyId" (conv_uint32 pb) (ki_key_id m) (ki_key_id d) ->
  field_ok l "outputPrefixType" (conv_enum pb output_prefix_names) (ki_output_prefix_type m) (ki_output_prefix_type d) ->
  conv_members (key_info_fields pb) l m = Ok d.
Proof.
  intros pb. induction l as [| [x v] l IH]; intros m d Hnd Ho H1 H2 H3 H4.
  - destruct H1 as [[_ H1] | (? & [] & _)], H2 as [[_ H2] | (? & [] & _)], H3 as [[_ H3] | (? & [] & _)],
      H4 as [[_ H4] | (? & [] & _)].
    destruct m, d. cbn in *. congruence.
  - conv_step IH Hnd Ho H1 H2 H3 H4.
Qed.

Lemma conv_keyset_info : forall pb l m d, NoDup (map fst l) ->
  only_members l ["primaryKeyId"; "keyInfo"] ->
  field_ok l "primaryKeyId" (conv_uint32 pb) (ksi_primary_key_id m) (ksi_primary_key_id d) ->
  field_ok l "keyInfo" (conv_repeated (conv_message (key_info_fields pb)) default_key_info) (ksi_key_info m) (ksi_key_info d) ->
  conv_members (keyset_info_fields pb) l m = Ok d.
Proof.
  intros pb. induction l as [| [x v] l IH]; intros m d Hnd Ho H1 H2.
  - destruct H1 as [[_ H1] | (? & [] & _)], H2 as [[_ H2] | (? & [] & _)].
    destruct m, d. cbn in *. congruence.
  - conv_step IH Hnd Ho H1 H2 I I.
Qed.

Lemma conv_encrypted_keyset : forall pb l m d, NoDup (map fst l) ->
  only_members l ["encryptedKeyset"; "keysetInfo"] ->
  field_ok l "encryptedKeyset" conv_bytes (ek_encrypted_keyset m) (ek_encrypted_keyset d) ->
  field_ok l "keysetInfo" (fun v => x <- conv_message (keyset_info_fields pb) v
      (match ek_keyset_info m with Some i => i | None => default_keyset_info end) ;; Ok (Some x))
    (ek_keyset_info m) (ek_keyset_info d) ->
  conv_members (encrypted_keyset_fields pb) l m = Ok d.
Proof.
  intros pb. induction l as [| [x v] l IH]; intros m d Hnd Ho H1 H2.
  - destruct H1 as [[_ H1] | (? & [] & _)], H2 as [[_ H2] | (? & [] & _)].
    destruct m, d. cbn in *. congruence.
  - pose proof (only_tail _ _ _ Ho) as Ho'. pose proof (nodup_tail _ _ Hnd) as Hnd'.
    destruct (Ho x (or_introl eq_refl)) as (n & Hn & Ex). cbn [In] in Hn.
    destruct Hn as [<- | Hn]; [subst x; conv_one IH Hnd H1 |].
    destruct Hn as [<- | []]. subst x. destruct (field_ok_head _ _ _ _ _ _ _ Hnd H2) as (Hv & Hc & G).
    apply bind_ok in Hc. destruct Hc as (y & Hc & E). apply ok_inj in E.
    erewrite conv_members_cons; [| reflexivity | exact Hv | cbn [fc_set]; rewrite Hc; reflexivity].
    apply IH; auto. eapply field_ok_tail; [| eassumption]. ulit_neq.
Qed.

(** From what a document shows to what is read. *)

Lemma valid_text_utf8 : forall x, valid_text x -> exists e, utf8_encode x = Some e.
Proof.
  intros x H. apply utf8_encode_some. apply Forall_forall. intros c Hc. specialize (H c Hc). apply is_scalar_spec. lia.
Qed.

Lemma shows_uint_ok : forall pb l name n, uint32_range n -> shows_uint l name n ->
  field_ok l name (conv_uint32 pb) 0%N n.
Proof.
  intros pb l name n Hr [[-> Hn] | [Hn Hm]]; [left; auto | right].
  eexists. split; [exact Hm |]. split; [discriminate |]. cbn [conv_uint32]. apply set_uint32_range. exact Hr.
Qed.
Lemma shows_string_ok : forall l name x, valid_text x -> shows_string l name x ->
  field_ok l name conv_string [] x.
Proof.
  intros l name n Hr [[-> Hn] | [Hn Hm]]; [left; auto | right].
  eexists. split; [exact Hm |]. split; [discriminate |]. cbn [conv_string].
  destruct (valid_text_utf8 _ Hr) as (e & ->). reflexivity.
Qed.
Lemma shows_bytes_ok : forall l name x, shows_bytes any_base64 l name x ->
  field_ok l name conv_bytes [] x.
Proof.
  intros l name n [[-> Hn] | (Hn & s & Hs & Hm)]; [left; auto | right].
  eexists. split; [exact Hm |]. split; [discriminate |]. apply conv_bytes_base64. exact Hs.
Qed.
Lemma shows_enum_ok : forall pb t l name z, good_table t -> int32_range z -> shows_enum t l name z ->
  field_ok l name (conv_enum pb (names_of t)) 0%Z z.
Proof.
  intros pb t l name z Ht Hr [[-> Hn] | [(Hz & s & Hs & Hm) | (Hz & Hn & Hm)]]; [left; auto | right | right].
  - eexists. split; [exact Hm |]. split; [discriminate |]. cbn [conv_enum].
    rewrite (table_lookup _ _ _ Ht Hs). reflexivity.
  - eexists. split; [exact Hm |]. split; [discriminate |]. cbn [conv_enum]. apply set_enum_range. exact Hr.
Qed.

Lemma no_repeated_member : forall l k v, no_repeated_names (JDict l) -> In (k, v) l -> no_repeated_names v.
Proof. intros l k v H Hi d Hd. apply H. eapply within_trans_dict; eassumption. Qed.
Lemma no_repeated_item : forall l v, no_repeated_names (JList l) -> In v l -> no_repeated_names v.
Proof. intros l v H Hi d Hd. apply H. eapply within_trans_list; eassumption. Qed.

Lemma shows_list_ok : forall M (shows : json -> M -> Prop) conv init l name (m : list M),
  no_repeated_names (JDict l) ->
  (forall v x, In x m -> no_repeated_names v -> shows v x -> v <> JNull /\ conv v init = Ok x) ->
  shows_list shows l name m -> field_ok l name (conv_repeated conv init) [] m.
Proof.
  intros M shows conv init l name m Hr Hc [[-> Hn] | (Hn & vs & Hm & Hf)]; [left; auto | right].
  exists (JList vs). split; [exact Hm |]. split; [discriminate |]. cbn [conv_repeated].
  pose proof (no_repeated_member _ _ _ Hr Hm) as Hr'. clear Hr Hm Hn.
  induction Hf as [| v x vs m Hv Hf IH]; [reflexivity |]. cbn [map_result].
  destruct (Hc v x (or_introl eq_refl)) as [Hnn Hx]; [eapply no_repeated_item; [exact Hr' | left; reflexivity] | exact Hv |].
  destruct v; try contradiction; rewrite Hx; cbn [bind];
    (rewrite IH; [reflexivity | intros; apply Hc; [right; assumption | assumption | assumption] |
       intros d Hd; apply Hr'; apply within_list in Hd; destruct Hd as [Hd | (i & Hi & Hd)]; [discriminate |];
       eapply within_trans_list; [right; exact Hi | exact Hd]]).
Qed.

Lemma conv_shows_key_data : forall pb v d, no_repeated_names v -> wf_key_data d ->
  shows_key_data any_base64 v d ->
  v <> JNull /\ conv_message (key_data_fields pb) v default_key_data = Ok d.
Proof.
  intros pb v d Hr [Hw1 Hw2] (l & -> & Ho & H1 & H2 & H3). split; [discriminate |].
  apply conv_key_data; cbn [default_key_data kd_type_url kd_value kd_key_material_type].
  - apply Hr. constructor.
  - exact Ho.
  - apply shows_string_ok; assumption.
  - apply shows_bytes_ok; assumption.
  - rewrite material_names_of. apply shows_enum_ok; [right; right; reflexivity | assumption | assumption].
Qed.

Lemma conv_shows_key : forall pb v d, no_repeated_names v -> wf_key d ->
  shows_key any_base64 v d ->
  v <> JNull /\ conv_message (key_fields pb) v default_key = Ok d.
Proof.
  intros pb v d Hr (Hw1 & Hw2 & Hw3 & Hw4) (l & -> & Ho & H1 & H2 & H3 & H4). split; [discriminate |].
  apply conv_key; cbn [default_key k_key_data_opt k_status k_key_id k_output_prefix_type].
  - apply Hr. constructor.
  - exact Ho.
  - unfold shows_message in H1. destruct (k_key_data_opt d) as [kd |]; [right | left; auto].
    destruct H1 as (w & Hm & Hs).
    destruct (conv_shows_key_data pb w kd) as [Hn Hc]; auto; [eapply no_repeated_member; eassumption |].
    exists w. split; [exact Hm |]. split; [exact Hn |].
    change (k_key_data default_key) with default_key_data. rewrite Hc. reflexivity.
  - rewrite status_names_of. apply shows_enum_ok; [left; reflexivity | assumption | assumption].
  - apply shows_uint_ok; assumption.
  - rewrite prefix_names_of. apply shows_enum_ok; [right; left; reflexivity | assumption | assumption].
Qed.

Lemma conv_shows_keyset : forall pb v d, no_repeated_names v -> wf_keyset d ->
  shows_keyset any_base64 v d ->
  conv_message (keyset_fields pb) v (mk_keyset 0 []) = Ok d.
Proof.
  intros pb v d Hr (Hw1 & Hw2) (l & -> & Ho & H1 & H2).
  apply conv_keyset; cbn [ks_primary_key_id ks_key].
  - apply Hr. constructor.
  - exact Ho.
  - apply shows_uint_ok; assumption.
  - eapply shows_list_ok; [exact Hr | | exact H2]. intros w x Hx Hrw Hs. apply conv_shows_key; auto.
Qed.

Lemma conv_shows_key_info : forall pb v d, no_repeated_names v -> wf_key_info d ->
  shows_key_info v d ->
  v <> JNull /\ conv_message (key_info_fields pb) v default_key_info = Ok d.
Proof.
  intros pb v d Hr (Hw1 & Hw2 & Hw3 & Hw4) (l & -> & Ho & H1 & H2 & H3 & H4). split; [discriminate |].
  apply conv_key_info; cbn [default_key_info ki_type_url ki_status ki_key_id ki_output_prefix_type].
  - apply Hr. constructor.
  - exact Ho.
  - apply shows_string_ok; assumption.
  - rewrite status_names_of. apply shows_enum_ok; [left; reflexivity | assumption | assumption].
  - apply shows_uint_ok; assumption.
  - rewrite prefix_names_of. apply shows_enum_ok; [right; left; reflexivity | assumption | assumption].
Qed.

Lemma conv_shows_keyset_info : forall pb v d, no_repeated_names v -> wf_keyset_info d ->
  shows_keyset_info v d ->
  v <> JNull /\ conv_message (keyset_info_fields pb) v default_keyset_info = Ok d.
Proof.
  intros pb v d Hr (Hw1 & Hw2) (l & -> & Ho & H1 & H2). split; [discriminate |].
  apply conv_keyset_info; cbn [default_keyset_info ksi_primary_key_id ksi_key_info].
  - apply Hr. constructor.
  - exact Ho.
  - apply shows_uint_ok; assumption.
  - eapply shows_list_ok; [exact Hr | | exact H2]. intros w x Hx Hrw Hs. apply conv_shows_key_info; auto.
Qed.

Lemma conv_shows_encrypted_keyset : forall pb v d, no_repeated_names v -> wf_encrypted_keyset d ->
  shows_encrypted_keyset any_base64 v d ->
  conv_message (encrypted_keyset_fields pb) v (mk_encrypted_keyset [] None) = Ok d.
Proof.
  intros pb v d Hr Hw (l & -> & Ho & H1 & H2).
  apply conv_encrypted_keyset; cbn [ek_encrypted_keyset ek_keyset_info].
  - apply Hr. constructor.
  - exact Ho.
  - apply shows_bytes_ok; assumption.
  - unfold shows_message in H2. destruct (ek_keyset_info d) as [i |] eqn:Ei; [right | left; auto].
    destruct H2 as (w & Hm & Hs).
    destruct (conv_shows_keyset_info pb w i) as [Hn Hc]; auto; [eapply no_repeated_member; eassumption |].
    exists w. split; [exact Hm |]. split; [exact Hn |]. rewrite Hc. reflexivity.
Qed.

(** C55: every document that shows a keyset is read as that keyset. *)
Theorem json_reader_reads : forall rt pb v t ks, json_text rt v t -> no_repeated_names v ->
  shows_keyset any_base64 v ks -> wf_keyset ks ->
  kr_read (json_keyset_reader rt pb t) = Ok ks.
Proof.
  intros rt pb v t ks Ht Hn Hs Hw. cbn [json_keyset_reader kr_read]. unfold pb_parse.
  rewrite (proj2 (loads_checked rt t v) (conj Ht Hn)).
  rewrite (conv_shows_keyset pb v ks Hn Hw Hs). reflexivity.
Qed.
Theorem json_reader_reads_encrypted : forall rt pb v t ek, json_text rt v t -> no_repeated_names v ->
  shows_encrypted_keyset any_base64 v ek -> wf_encrypted_keyset ek ->
  kr_read_encrypted (json_keyset_reader rt pb t) = Ok ek.
Proof.
  intros rt pb v t ks Ht Hn Hs Hw. cbn [json_keyset_reader kr_read_encrypted]. unfold pb_parse.
  rewrite (proj2 (loads_checked rt t v) (conj Ht Hn)).
  rewrite (conv_shows_encrypted_keyset pb v ks Hn Hw Hs). reflexivity.
Qed.
