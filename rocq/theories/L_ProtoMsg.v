From Coq Require Import Strings.Byte Strings.String List NArith ZArith Bool Lia.
From Verif Require Import M_Base M_Proto M_Utf8 M_Wire M_ProtoMsg S_Wire S_ProtoMsg L_Utf8 L_Wire.
Import ListNotations.
Open Scope list_scope.

Scheme holds_mind := Induction for holds Sort Prop
  with holds_all_mind := Induction for holds_all Sort Prop.
Combined Scheme holds_mutind from holds_mind, holds_all_mind.

Lemma distinct_spec : forall l, distinct l = true -> NoDup l.
Proof.
  induction l as [| n l IH]; intros H; constructor; cbn in H; apply andb_prop in H; destruct H as [H1 H2]; auto.
  intros Hi. apply negb_true_iff in H1. rewrite <- not_true_iff_false in H1. apply H1.
  apply existsb_exists. exists n. split; [assumption | apply N.eqb_refl].
Qed.

(** All fields written for a value carry its number. *)
Lemma fields_of_value_num : forall t n v f, In f (fields_of_value t n v) -> fst f = n.
Proof.
  intros t n v f H. destruct t, v as [[] |]; cbn [fields_of_value] in H;
    unfold f_uint32, f_enum, f_bytes, f_string in H;
    try contradiction;
    repeat match type of H with
           | In _ (if ?c then _ else _) => destruct c
           | In _ (match ?c with _ => _ end) => destruct c
           end; cbn [In] in H; try contradiction;
    destruct H as [H | []]; subst; reflexivity.
Qed.

Lemma fields_of_message_fix : forall fs vs,
  (fix go (fs : list (string * N * ptype)) (vs : list (option pval)) : list field :=
     match fs, vs with
     | (_, k, t') :: fr, v' :: vr => fields_of_value t' k v' ++ go fr vr
     | _, _ => []
     end) fs vs = fields_of_message fs vs.
Proof.
  induction fs as [| [[n k] t] fs IH]; intros [| v vs]; reflexivity.
Qed.
Lemma fields_of_value_msg : forall fs n vs,
  fields_of_value (TMsg fs) n (Some (VMsg vs)) = [(n, WLen (serialize_message fs vs))].
Proof. intros. cbn [fields_of_value]. rewrite fields_of_message_fix. reflexivity. Qed.

Lemma decode_value_msg : forall fs occ,
  decode_value (TMsg fs) occ =
  match lens_of occ with
  | [] => Some None
  | xs => match all_some parse_fields xs with
          | Some ls => match decode_fields fs (concat ls) with
                       | Some vs => Some (Some (VMsg vs))
                       | None => None
                       end
          | None => None
          end
  end.
Proof.
  intros fs occ. cbn [decode_value].
  assert (G : forall ls fs,
    (fix go (fs : list (string * N * ptype)) : option (list (option pval)) :=
       match fs with
       | [] => Some []
       | (_, k, t') :: fr =>
           match decode_value t' (occurrences k (concat ls)), go fr with
           | Some v, Some r => Some (v :: r)
           | _, _ => None
           end
       end) fs = decode_fields fs (concat ls)).
  { intros ls. induction fs0 as [| [[n k] t] fs0 IH]; [reflexivity |].
    cbn [decode_fields]. rewrite <- IH. reflexivity. }
  destruct (lens_of occ); [reflexivity |]. destruct (all_some parse_fields (b :: l)); [| reflexivity].
  rewrite G. reflexivity.
Qed.

Lemma schema_ok_msg : forall fs, schema_ok (TMsg fs) = true ->
  NoDup (map (fun f => snd (fst f)) fs) /\
  (forall f, In f fs -> (1 <= snd (fst f) < 536870912)%N) /\
  (forall f, In f fs -> schema_ok (snd f) = true).
Proof.
  intros fs H. cbn [schema_ok] in H. apply andb_prop in H. destruct H as [H H3].
  apply andb_prop in H. destruct H as [H H2]. apply andb_prop in H. destruct H as [H H1].
  repeat split.
  - apply distinct_spec; assumption.
  - rewrite forallb_forall in H2. specialize (H2 _ H0). apply andb_prop in H2. destruct H2 as [A B].
    apply N.leb_le in A. assumption.
  - rewrite forallb_forall in H2. specialize (H2 _ H0). apply andb_prop in H2. destruct H2 as [A B].
    apply N.ltb_lt in B. assumption.
  - clear H H1 H2. induction fs as [| f fs IH]; [intros ? [] |].
    apply andb_prop in H3. destruct H3 as [A B]. intros g [E | E]; [subst; assumption | apply IH; assumption].
Qed.

Lemma occurrences_app : forall n a b, occurrences n (a ++ b) = occurrences n a ++ occurrences n b.
Proof. intros. unfold occurrences. rewrite filter_app, map_app. reflexivity. Qed.
Lemma occurrences_none : forall n l, (forall f, In f l -> fst f <> n) -> occurrences n l = [].
Proof.
  intros n l. induction l as [| f l IH]; intros H; [reflexivity |].
  unfold occurrences in *. cbn [filter]. destruct (N.eqb_spec (fst f) n) as [E | E].
  - exfalso. apply (H f); [left; reflexivity | assumption].
  - apply IH. intros g Hg. apply H. right. assumption.
Qed.
Lemma occurrences_all : forall n l, (forall f, In f l -> fst f = n) -> occurrences n l = map snd l.
Proof.
  intros n l. induction l as [| f l IH]; intros H; [reflexivity |].
  unfold occurrences in *. cbn [filter]. rewrite (H f) by (left; reflexivity). rewrite N.eqb_refl.
  cbn [map]. f_equal. apply IH. intros g Hg. apply H. right. assumption.
Qed.

Lemma fields_of_message_num : forall fs vs f, In f (fields_of_message fs vs) ->
  In (fst f) (map (fun g => snd (fst g)) fs).
Proof.
  induction fs as [| [[n k] t] fs IH]; intros [| v vs] f H; try contradiction.
  cbn [fields_of_message] in H. apply in_app_or in H. destruct H as [H | H].
  - left. symmetry. apply (fields_of_value_num _ _ _ _ H).
  - right. apply (IH _ _ H).
Qed.

Lemma shape_value : forall t n v, (1 <= n < 536870912)%N -> holds t v ->
  Forall shape_ok (fields_of_value t n v).
Proof.
  intros t n v Hn H. destruct H; cbn [fields_of_value].
  - apply shape_uint32; [assumption |]. unfold uint32_range. lia.
  - apply shape_enum; assumption.
  - apply shape_enum; assumption.
  - apply shape_bytes; assumption.
  - apply shape_string; assumption.
  - constructor.
  - constructor; [| constructor]. split; [assumption | exact I].
Qed.
Lemma shape_message : forall fs vs, (forall f, In f fs -> (1 <= snd (fst f) < 536870912)%N) ->
  holds_all fs vs -> Forall shape_ok (fields_of_message fs vs).
Proof.
  induction fs as [| [[n k] t] fs IH]; intros vs Hn H; inversion H; subst; [constructor |].
  cbn [fields_of_message]. apply Forall_app. split.
  - apply shape_value; [apply (Hn (n, k, t)); left; reflexivity | assumption].
  - apply IH; [intros f Hf; apply Hn; right; assumption | assumption].
Qed.

Lemma last_single : forall (A : Type) (a d : A), last [a] d = a.
Proof. reflexivity. Qed.

(** Round trip, by mutual induction on the value. *)
Lemma decode_encode :
  (forall t v, holds t v -> schema_ok t = true -> forall n, (1 <= n < 536870912)%N ->
     proto_size (encode_fields (fields_of_value t n v)) ->
     decode_value t (map snd (fields_of_value t n v)) = Some v) /\
  (forall fs vs, holds_all fs vs ->
     NoDup (map (fun f => snd (fst f)) fs) ->
     (forall f, In f fs -> (1 <= snd (fst f) < 536870912)%N) ->
     (forall f, In f fs -> schema_ok (snd f) = true) ->
     proto_size (encode_fields (fields_of_message fs vs)) ->
     decode_fields fs (fields_of_message fs vs) = Some vs /\
     forall l, (forall f, In f l -> ~ In (fst f) (map (fun g => snd (fst g)) fs)) ->
       decode_fields fs (l ++ fields_of_message fs vs) = Some vs).
Proof.
  apply holds_mutind.
  - intros z Hz _ n Hn Hs. cbn [fields_of_value decode_value]. unfold f_uint32.
    destruct (N.eqb_spec (Z.to_N z) 0) as [E | E].
    + cbn. do 2 f_equal. f_equal. lia.
    + cbn [map snd varints_of]. rewrite last_single, uint32_of_varint_of by (unfold uint32_range; lia).
      do 2 f_equal. f_equal. lia.
  - intros z Hz _ n Hn Hs. cbn [fields_of_value decode_value]. unfold f_enum.
    destruct (Z.eqb_spec z 0) as [E | E].
    + subst. reflexivity.
    + cbn [map snd varints_of]. rewrite last_single, int32_of_varint_of by assumption. reflexivity.
  - intros z Hz _ n Hn Hs. cbn [fields_of_value decode_value]. unfold f_enum.
    destruct (Z.eqb_spec z 0) as [E | E].
    + subst. reflexivity.
    + cbn [map snd varints_of]. rewrite last_single, int32_of_varint_of by assumption. reflexivity.
  - intros x _ n Hn Hs. cbn [fields_of_value decode_value]. unfold f_bytes. destruct x; reflexivity.
  - intros s Hv _ n Hn Hs. cbn [fields_of_value decode_value]. unfold f_string. destruct s as [| c s]; [reflexivity |].
    destruct (valid_text_encode _ Hv) as [e He]. rewrite He. cbn [map snd lens_of all_some].
    rewrite (utf8_decode_encode _ _ He). reflexivity.
  - intros fs _ n Hn Hs. rewrite decode_value_msg. reflexivity.
  - intros fs vs Ha IH Hok n Hn Hs. rewrite fields_of_value_msg in *. cbn [map snd].
    rewrite decode_value_msg. cbn [lens_of all_some].
    assert (Hs' : proto_size (serialize_message fs vs)).
    { refine (size_part n _ _ _ Hs). left. reflexivity. }
    destruct (schema_ok_msg _ Hok) as [H1 [H2 H3]].
    destruct (IH H1 H2 H3 Hs') as [D _].
    unfold serialize_message in *. rewrite parse_fields_encode by (apply shape_wf; [apply shape_message; assumption | assumption]).
    cbn [concat]. rewrite app_nil_r, D. reflexivity.
  - intros _ _ _ _. split; [reflexivity |]. intros l _. reflexivity.
  - intros f t fs v vs E Hv IHv Hvs IHvs Hnd Hn Hok Hs.
    destruct f as [[name k] t']. cbn [snd] in E. subst t'.
    cbn [map fst snd] in Hnd. inversion Hnd as [| ? ? Hni Hnd']; subst.
    cbn [fields_of_message] in *.
    assert (Hk : (1 <= k < 536870912)%N) by (apply (Hn (name, k, t)); left; reflexivity).
    rewrite encode_fields_app in Hs. unfold proto_size in Hs. rewrite app_length in Hs.
    assert (Hs1 : proto_size (encode_fields (fields_of_value t k v))) by (unfold proto_size; lia).
    assert (Hs2 : proto_size (encode_fields (fields_of_message fs vs))) by (unfold proto_size; lia).
    assert (G : forall l, (forall f, In f l -> ~ In (fst f) (k :: map (fun g => snd (fst g)) fs)) ->
      decode_fields ((name, k, t) :: fs) (l ++ fields_of_value t k v ++ fields_of_message fs vs) = Some (v :: vs)).
    { intros l Hl. cbn [decode_fields].
      rewrite !occurrences_app.
      rewrite (occurrences_none k l) by (intros g Hg E; apply (Hl g Hg); left; auto).
      rewrite (occurrences_all k (fields_of_value t k v)) by (intros g Hg; apply (fields_of_value_num _ _ _ _ Hg)).
      rewrite (occurrences_none k (fields_of_message fs vs)).
      2: { intros g Hg E. apply Hni. rewrite <- E. apply (fields_of_message_num _ _ _ Hg). }
      rewrite app_nil_r. cbn [app].
      rewrite IHv; [| apply (Hok (name, k, t)); left; reflexivity | assumption | assumption].
      destruct (IHvs Hnd' (fun f Hf => Hn f (or_intror Hf)) (fun f Hf => Hok f (or_intror Hf)) Hs2) as [_ IH2].
      rewrite app_assoc. rewrite IH2; [reflexivity |].
      intros g Hg. apply in_app_or in Hg. destruct Hg as [Hg | Hg].
      - intros Hi. apply (Hl g Hg). right. assumption.
      - rewrite (fields_of_value_num _ _ _ _ Hg). assumption. }
    split.
    + apply (G []). intros ? [].
    + exact G.
Qed.

Theorem message_round_trip : forall fs vs, schema_ok (TMsg fs) = true -> holds_all fs vs ->
  proto_size (serialize_message fs vs) ->
  parse_message fs (serialize_message fs vs) = Some vs.
Proof.
  intros fs vs Hok Ha Hs. destruct (schema_ok_msg _ Hok) as [H1 [H2 H3]].
  unfold parse_message, serialize_message in *.
  rewrite parse_fields_encode by (apply shape_wf; [apply shape_message; assumption | assumption]).
  apply (proj2 decode_encode); assumption.
Qed.
