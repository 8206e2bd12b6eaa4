(** Proofs for incomplete files: no strict prefix of a JSON object is a JSON text, and a
    prefix of a protobuf message parses only at field boundaries. *)
From Coq Require Import Strings.Byte Strings.String List NArith ZArith Bool Lia.
From Verif Require Import M_Base M_Proto M_Utf8 M_Wire M_JwtTypes M_Json S_Json S_Wire L_Base L_Wire L_Json L_Json2
  L_Json4 M_KeysetStream S_Torn.
Import ListNotations.
Open Scope list_scope.
Open Scope N_scope.

(** ** JSON *)

Lemma dict_parse : forall rt l t fuel r, json_value rt (JDict l) t -> (length t < fuel)%nat ->
  parse_value rt keep fuel (t ++ r) = Ok (JDict l, r).
Proof.
  intros rt l t fuel r H Hf. inversion H; subst.
  - destruct fuel as [| f]; [lia |]. cbn [parse_value app parse_step]. change (123 =? 34) with false. change (123 =? 123) with true.
    cbv iota. rewrite <- app_assoc. cbn [app]. rewrite skip_ws_app by assumption.
    rewrite skip_ws_stop by reflexivity. reflexivity.
  - destruct fuel as [| f]; [lia |]. cbn [parse_value app parse_step]. change (123 =? 34) with false. change (123 =? 123) with true.
    cbv iota. rewrite <- app_assoc. cbn [app].
    cbn [length] in Hf. rewrite app_length in Hf. cbn [length] in Hf.
    destruct (proj2 (proj2 (parse_complete rt keep)) l t0 H1 f f l r) as (c & t' & -> & Hc & E); [lia | lia | |].
    + clear. induction l as [| [k v] l IH]; constructor; [| exact IH]. split; [reflexivity |]. apply resolves_keep. reflexivity.
    + rewrite (proj2 (N.eqb_neq _ _) Hc), E. reflexivity.
Qed.

Lemma brace_dict : forall rt v t, json_value rt v (123 :: t) -> exists l, v = JDict l.
Proof.
  intros rt v t H. remember (123 :: t) as s eqn:E. destruct H; try discriminate E; eauto.
  - apply int_part_head in H. destruct H as (c & d & -> & Hc). injection E as -> _. lia.
  - destruct H as (sg & i & f & e & -> & [-> | ->] & Hi & _); [| discriminate E].
    apply int_part_head in Hi. destruct Hi as (c & d & -> & Hc). injection E as -> _. lia.
Qed.

(** What follows an object in a text of which a front part already is a text is white
    space. *)
Lemma json_text_front : forall rt v l w t w' p q, white w -> json_value rt (JDict l) t ->
  w ++ t ++ w' = p ++ q -> json_text rt v p -> exists w2, w' = w2 ++ q /\ v = JDict l.
Proof.
  intros rt v l w t w' p q Hw Ht E (w1 & t1 & w2 & Hw1 & Ht1 & Hw2 & ->).
  rewrite <- !app_assoc in E.
  assert (E' : t ++ w' = t1 ++ w2 ++ q).
  { rewrite <- (skip_ws_value _ _ _ w' Ht), <- (skip_ws_app w) by exact Hw.
    rewrite E, skip_ws_app by exact Hw1. apply (skip_ws_value _ _ _ _ Ht1). }
  assert (D : exists l1, v = JDict l1).
  { destruct (value_head _ _ _ Ht1) as (c & t1' & -> & _). inversion Ht; subst; cbn [app] in E';
      injection E' as <- _; eapply brace_dict; exact Ht1. }
  destruct D as (l1 & ->).
  pose proof (dict_parse rt l t (S (length t + length t1)) w' Ht ltac:(lia)) as P1.
  pose proof (dict_parse rt l1 t1 (S (length t + length t1)) (w2 ++ q) Ht1 ltac:(lia)) as P2.
  rewrite E', P2 in P1. apply ok_inj in P1. injection P1 as -> <-. exists w2. auto.
Qed.

(** No strict prefix of a JSON object is a JSON text. *)
Theorem torn_json : forall rt l t p v, json_value rt (JDict l) t -> strict_prefix p t -> ~ json_text rt v p.
Proof.
  intros rt l t p v Ht (q & Hq & E) Hp.
  destruct (json_text_front rt v l [] t [] p q) as (w2 & E2 & _); auto.
  - constructor.
  - cbn [app]. rewrite app_nil_r. exact E.
  - destruct w2, q; try discriminate E2. apply Hq. reflexivity.
Qed.

(** Two JSON objects, one after the other, are not a JSON text. *)
Theorem double_json : forall rt l t l' t' v, json_value rt (JDict l) t -> json_value rt (JDict l') t' ->
  ~ json_text rt v (t ++ t').
Proof.
  intros rt l t l' t' v Ht Ht' (w1 & t1 & w2 & Hw1 & Ht1 & Hw2 & E).
  assert (E' : t ++ t' = t1 ++ w2).
  { rewrite <- (skip_ws_value _ _ _ t' Ht), E, skip_ws_app by exact Hw1. apply (skip_ws_value _ _ _ _ Ht1). }
  assert (D : exists l1, v = JDict l1).
  { destruct (value_head _ _ _ Ht1) as (c & t1' & -> & _). inversion Ht; subst; cbn [app] in E';
      injection E' as <- _; eapply brace_dict; exact Ht1. }
  destruct D as (l1 & ->).
  pose proof (dict_parse rt l t (S (length t + length t1)) t' Ht ltac:(lia)) as P1.
  pose proof (dict_parse rt l1 t1 (S (length t + length t1)) w2 Ht1 ltac:(lia)) as P2.
  rewrite E', P2 in P1. apply ok_inj in P1. injection P1 as -> ->.
  destruct (value_head _ _ _ Ht') as (c & t'' & -> & Hc & _).
  inversion Hw2 as [| ? ? Hx _]; subst. apply is_ws_spec in Hx. congruence.
Qed.

(** ** Protobuf *)

Lemma read_varint_short : forall fuel n p q, q <> [] -> varint_fuel fuel n = p ++ q ->
  forall fuel', read_varint_fuel fuel' p = None.
Proof.
  induction fuel as [| f IH]; intros n p q Hq E fuel'.
  - cbn in E. destruct p, q; try discriminate E. contradiction.
  - cbn [varint_fuel] in E. destruct fuel' as [| f']; [reflexivity |]. destruct p as [| c p]; [reflexivity |].
    destruct (n <? 128) eqn:En.
    + injection E as _ E. destruct p, q; try discriminate E. contradiction.
    + injection E as Ec E. subst c. cbn [read_varint_fuel].
      rewrite byte_of_N_to_N. rewrite (N.mod_small (128 + n mod 128)) by (pose proof (N.mod_lt n 128); lia).
      destruct (128 + n mod 128 <? 128) eqn:El; [apply N.ltb_lt in El; lia |].
      rewrite (IH _ _ _ Hq E). reflexivity.
Qed.
Lemma read_varint_torn : forall n p, strict_prefix p (varint n) -> read_varint p = None.
Proof.
  intros n p (q & Hq & E). unfold read_varint. rewrite (read_varint_short 10 n p q Hq E). reflexivity.
Qed.

Lemma app_split : forall A (a b p q : list A), a ++ b = p ++ q ->
  (exists r, p = a ++ r /\ b = r ++ q) \/ (exists r, r <> [] /\ a = p ++ r /\ q = r ++ b).
Proof.
  induction a as [| x a IH]; intros b p q E.
  - left. exists p. auto.
  - destruct p as [| y p].
    + right. exists (x :: a). repeat split; [discriminate | auto].
    + cbn [app] in E. injection E as -> E. destruct (IH _ _ _ E) as [(r & -> & ->) | (r & Hr & -> & ->)].
      * left. exists r. auto.
      * right. exists r. auto.
Qed.

Lemma take_short : forall n p, (length p < n)%nat -> take n p = None.
Proof. intros n p H. unfold take. replace (n <=? length p)%nat with false by lia. reflexivity. Qed.

Lemma torn_length : forall A (p x : list A), strict_prefix p x -> (length p < length x)%nat.
Proof. intros A p x (q & Hq & ->). rewrite app_length. destruct q; [contradiction |]. cbn [length]. lia. Qed.

Lemma read_wval_torn : forall n v p, wf_field (n, v) -> strict_prefix p (encode_wval v) ->
  read_wval (wire_type v) p = None.
Proof.
  intros n v p [_ H] Hp. pose proof (torn_length _ _ _ Hp) as Hl. cbn [snd] in H.
  destruct v; cbn [wire_type encode_wval] in *; unfold read_wval.
  - change (0 =? 0) with true. cbv iota. rewrite (read_varint_torn _ _ Hp). reflexivity.
  - change (1 =? 0) with false. change (1 =? 1) with true. cbv iota. rewrite take_short by lia. reflexivity.
  - change (2 =? 0) with false. change (2 =? 1) with false. change (2 =? 2) with true. cbv iota.
    destruct Hp as (q & Hq & E). destruct (app_split _ _ _ _ _ E) as [(r & -> & Ex) | (r & Hr & Ev & _)].
    + rewrite read_varint_varint by assumption. subst x. rewrite !app_length in *.
      destruct q as [| c q]; [contradiction |]. cbn [length] in *.
      replace (_ <=? _) with false by lia. reflexivity.
    + rewrite (read_varint_torn (N.of_nat (length x)) p); [reflexivity |]. exists r. auto.
  - change (5 =? 0) with false. change (5 =? 1) with false. change (5 =? 2) with false.
    change (5 =? 5) with true. cbv iota. rewrite take_short by lia. reflexivity.
Qed.

(** A front part of serialized fields that parses ends between two fields. *)
Theorem torn_fields : forall l p fuel l', Forall wf_field l -> prefix_of p (encode_fields l) ->
  parse_fields_fuel fuel p = Some l' -> exists l2, l = l' ++ l2 /\ p = encode_fields l'.
Proof.
  induction l as [| [n v] l IH]; intros p fuel l' Hw (q & E) H.
  - destruct p; [| discriminate E]. exists []. destruct fuel; injection H as <-; auto.
  - destruct p as [| c p]; [exists ((n, v) :: l); destruct fuel; injection H as <-; auto |].
    inversion Hw as [| ? ? Hwf Hw']; subst.
    unfold encode_fields in E. cbn [map concat] in E. fold (encode_fields l) in E.
    unfold encode_field in E. cbn [fst snd] in E.
    pose proof (wire_type_lt v) as Hwt. pose proof (proj1 Hwf) as Hn. cbn [fst] in Hn.
    assert (Ht : n * 8 + wire_type v < 2 ^ 64) by (change (2 ^ 64) with 18446744073709551616; lia).
    destruct fuel as [| fuel]; [discriminate H |]. cbn [parse_fields_fuel] in H.
    rewrite <- app_assoc in E. destruct (app_split _ _ _ _ _ E) as [(r & Ep & E1) | (r & Hr & Ep & _)].
    + rewrite Ep, read_varint_varint in H by exact Ht.
      replace ((n * 8 + wire_type v) / 8) with n in H by lia.
      replace ((n * 8 + wire_type v) mod 8) with (wire_type v) in H by lia.
      replace ((n =? 0) || (536870912 <=? n)) with false in H by lia.
      destruct (app_split _ _ _ _ _ E1) as [(r1 & -> & E2) | (r1 & Hr1 & Ev & _)].
      * rewrite (read_wval_encode n) in H by exact Hwf. unfold ocons in H.
        destruct (parse_fields_fuel fuel r1) as [l1 |] eqn:E3; [| discriminate H].
        apply some_inj in H. subst l'.
        destruct (IH r1 fuel l1 Hw') as (l2 & -> & E4); [exists q; exact E2 | exact E3 |].
        exists l2. split; [reflexivity |]. rewrite Ep, E4. unfold encode_fields. cbn [map concat].
        unfold encode_field at 2. cbn [fst snd]. rewrite <- app_assoc. reflexivity.
      * rewrite (read_wval_torn n) in H; [discriminate H | exact Hwf |]. exists r1. auto.
    + rewrite (read_varint_torn (n * 8 + wire_type v)) in H; [discriminate H |]. exists r. auto.
Qed.
