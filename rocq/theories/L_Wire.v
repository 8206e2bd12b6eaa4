(** The wire format: parsing inverts serialization. *)
From Coq Require Import Strings.Byte List NArith ZArith Bool Lia ZifyBool ZifyN ZifyNat.
From Verif Require Import M_Base M_Proto M_Utf8 M_Wire S_Wire L_Base L_Utf8.
Import ListNotations.
Open Scope N_scope.
Ltac Zify.zify_post_hook ::= Z.div_mod_to_equations.

(** ** Varints *)

Lemma varint_fuel_read : forall fuel n rest, n < 2 ^ (7 * N.of_nat fuel) ->
  fuel <> 0%nat ->
  read_varint_fuel fuel (varint_fuel fuel n ++ rest) = Some (n, rest).
Proof.
  induction fuel as [| f IH]; intros n rest Hn Hf; [congruence |].
  cbn [varint_fuel]. destruct (n <? 128) eqn:E.
  - cbn [app read_varint_fuel]. rewrite to_N_of_small by lia. rewrite E. reflexivity.
  - cbn [app read_varint_fuel]. rewrite to_N_of_small by lia.
    replace (128 + n mod 128 <? 128) with false by lia.
    destruct f as [| f].
    { exfalso. change (2 ^ (7 * N.of_nat 1)) with 128 in Hn. lia. }
    rewrite IH; [| | discriminate].
    + f_equal. f_equal. lia.
    + replace (7 * N.of_nat (S (S f))) with (7 + 7 * N.of_nat (S f)) in Hn by lia.
      rewrite N.pow_add_r in Hn. change (2 ^ 7) with 128 in Hn.
      apply N.div_lt_upper_bound; lia.
Qed.

Lemma read_varint_varint : forall n rest, n < 2 ^ 64 -> read_varint (varint n ++ rest) = Some (n, rest).
Proof.
  intros n rest Hn. unfold read_varint, varint. rewrite varint_fuel_read.
  - rewrite N.mod_small; [reflexivity | exact Hn].
  - eapply N.lt_trans; [exact Hn | reflexivity].
  - discriminate.
Qed.

Lemma varint_nonempty : forall n, varint n <> [].
Proof. intros n. unfold varint. cbn [varint_fuel]. destruct (n <? 128); discriminate. Qed.

Lemma varint_length : forall n, (1 <= length (varint n))%nat.
Proof.
  intros n. pose proof (varint_nonempty n). destruct (varint n); [congruence | simpl; lia].
Qed.

(** ** Fields *)

Lemma take_app : forall x rest, take (length x) (x ++ rest) = Some (x, rest).
Proof.
  intros x rest. unfold take. rewrite app_length.
  replace (length x <=? length x + length rest)%nat with true by lia.
  rewrite firstn_app, skipn_app, Nat.sub_diag, firstn_all, skipn_all. simpl.
  rewrite app_nil_r. reflexivity.
Qed.

Definition wf_field (f : field) : Prop :=
  1 <= fst f < 536870912 /\
  match snd f with
  | WVarint n => n < 2 ^ 64
  | WFix64 x => length x = 8%nat
  | WLen x => N.of_nat (length x) < 2 ^ 64
  | WFix32 x => length x = 4%nat
  end.

Lemma read_wval_encode : forall n v rest, wf_field (n, v) ->
  read_wval (wire_type v) (encode_wval v ++ rest) = Some (v, rest).
Proof.
  intros n v rest [_ H]. cbn [snd] in H. destruct v; cbn [wire_type encode_wval]; unfold read_wval.
  - change (0 =? 0) with true. cbv iota. rewrite read_varint_varint by assumption. reflexivity.
  - change (1 =? 0) with false. change (1 =? 1) with true. cbv iota. rewrite <- H, take_app. reflexivity.
  - change (2 =? 0) with false. change (2 =? 1) with false. change (2 =? 2) with true. cbv iota.
    rewrite <- app_assoc, read_varint_varint by assumption.
    rewrite app_length. replace (_ <=? _) with true by lia.
    rewrite Nat2N.id, take_app. reflexivity.
  - change (5 =? 0) with false. change (5 =? 1) with false. change (5 =? 2) with false.
    change (5 =? 5) with true. cbv iota. rewrite <- H, take_app. reflexivity.
Qed.

Lemma wire_type_lt : forall v, wire_type v < 8.
Proof. intros []; reflexivity. Qed.

Lemma parse_fields_fuel_encode : forall l fuel, (length l <= fuel)%nat -> Forall wf_field l ->
  parse_fields_fuel fuel (encode_fields l) = Some l.
Proof.
  induction l as [| [n v] l IH]; intros fuel Hf Hw.
  - destruct fuel; reflexivity.
  - destruct fuel as [| fuel]; [simpl in Hf; lia |].
    inversion Hw as [| ? ? Hwf Hw']; subst.
    unfold encode_fields. cbn [map concat]. unfold encode_field at 1. cbn [fst snd].
    rewrite <- !app_assoc. fold (encode_fields l).
    pose proof (varint_nonempty (n * 8 + wire_type v)) as Hne.
    pose proof (wire_type_lt v) as Hwt. pose proof (proj1 Hwf) as Hn. cbn [fst] in Hn.
    assert (Hrv : read_varint (varint (n * 8 + wire_type v) ++ encode_wval v ++ encode_fields l)
                  = Some (n * 8 + wire_type v, encode_wval v ++ encode_fields l)).
    { apply read_varint_varint. change (2 ^ 64) with 18446744073709551616. lia. }
    destruct (varint (n * 8 + wire_type v)) as [| c r] eqn:Ev; [congruence |].
    cbn [app] in *. cbn [parse_fields_fuel]. rewrite Hrv.
    replace ((n * 8 + wire_type v) / 8) with n by lia.
    replace ((n * 8 + wire_type v) mod 8) with (wire_type v) by lia.
    replace ((n =? 0) || (536870912 <=? n)) with false by lia.
    rewrite (read_wval_encode n) by assumption.
    rewrite IH; [reflexivity | simpl in Hf; lia | assumption].
Qed.

Lemma encode_fields_length : forall l, (length l <= length (encode_fields l))%nat.
Proof.
  induction l as [| f l IH]; [reflexivity |].
  unfold encode_fields. cbn [map concat length]. rewrite app_length.
  fold (encode_fields l). unfold encode_field. rewrite app_length.
  pose proof (varint_length (fst f * 8 + wire_type (snd f))). lia.
Qed.

Lemma parse_fields_encode : forall l, Forall wf_field l -> parse_fields (encode_fields l) = Some l.
Proof. intros l H. apply parse_fields_fuel_encode; [apply encode_fields_length | assumption]. Qed.

Lemma merge_encode : forall A (step : A -> field -> option A) init l, Forall wf_field l ->
  merge_message step init (encode_fields l) = fold_option step l init.
Proof. intros. unfold merge_message. rewrite parse_fields_encode by assumption. reflexivity. Qed.

Lemma fold_option_app : forall A B (f : A -> B -> option A) l1 l2 a,
  fold_option f (l1 ++ l2) a =
  match fold_option f l1 a with Some a' => fold_option f l2 a' | None => None end.
Proof.
  induction l1 as [| x l1 IH]; intros l2 a; [reflexivity |].
  simpl. destruct (f a x); auto.
Qed.

Lemma encode_fields_app : forall l1 l2, encode_fields (l1 ++ l2) = encode_fields l1 ++ encode_fields l2.
Proof. intros. unfold encode_fields. rewrite map_app, concat_app. reflexivity. Qed.

(** The length of a length-delimited field is below the length of the message. *)
Lemma wlen_length : forall l n x, In (n, WLen x) l -> (length x <= length (encode_fields l))%nat.
Proof.
  induction l as [| f l IH]; intros n x H; [contradiction |].
  unfold encode_fields. cbn [map concat]. rewrite app_length. fold (encode_fields l).
  destruct H as [-> | H]; [| apply IH in H; lia].
  unfold encode_field. cbn [snd encode_wval]. rewrite !app_length. lia.
Qed.

(** Well-formedness of field lists that have admissible shape and fit. *)
Definition shape_ok (f : field) : Prop :=
  1 <= fst f < 536870912 /\
  match snd f with
  | WVarint n => n < 2 ^ 64
  | WLen x => True
  | _ => False
  end.

Lemma shape_wf : forall l, Forall shape_ok l -> proto_size (encode_fields l) -> Forall wf_field l.
Proof.
  intros l Hs Hsz. rewrite Forall_forall in *. intros [n v] Hi. pose proof (Hs _ Hi) as [H1 H2].
  split; [assumption |]. cbn [snd] in *. destruct v; auto; try contradiction.
  pose proof (wlen_length _ _ _ Hi). unfold proto_size in Hsz.
  change (2 ^ 31) with 2147483648 in Hsz. change (2 ^ 64) with 18446744073709551616. lia.
Qed.

Lemma shape_string : forall n v, 1 <= n < 536870912 -> Forall shape_ok (f_string n v).
Proof.
  intros n [| c v] H; [constructor |]. unfold f_string.
  destruct (utf8_encode (c :: v)); constructor; [| constructor]. split; simpl; auto.
Qed.
Lemma shape_bytes : forall n v, 1 <= n < 536870912 -> Forall shape_ok (f_bytes n v).
Proof. intros n [| c v] H; constructor; [| constructor]. split; simpl; auto. Qed.
Lemma shape_uint32 : forall n v, 1 <= n < 536870912 -> uint32_range v -> Forall shape_ok (f_uint32 n v).
Proof.
  intros n v H Hv. unfold f_uint32. destruct (v =? 0); constructor; [| constructor].
  split; cbn [snd fst]; auto. unfold uint32_range in Hv.
  eapply N.lt_trans; [exact Hv | reflexivity].
Qed.
Lemma varint_of_int32_lt : forall z, varint_of_int32 z < 2 ^ 64.
Proof.
  intros z. unfold varint_of_int32. change (2 ^ 64) with 18446744073709551616. lia.
Qed.
Lemma shape_enum : forall n v, 1 <= n < 536870912 -> Forall shape_ok (f_enum n v).
Proof.
  intros n v H. unfold f_enum. destruct (v =? 0)%Z; constructor; [| constructor].
  split; cbn [snd fst]; auto. apply varint_of_int32_lt.
Qed.

Lemma int32_of_varint_of : forall z, int32_range z -> int32_of_varint (varint_of_int32 z) = z.
Proof.
  intros z H. unfold int32_range in H. unfold int32_of_varint, varint_of_int32.
  change (2 ^ 31)%Z with 2147483648%Z in H.
  destruct (_ <? 2147483648)%Z eqn:E; lia.
Qed.
Lemma uint32_of_varint_of : forall n, uint32_range n -> uint32_of_varint n = n.
Proof. intros n H. apply N.mod_small. exact H. Qed.

Lemma valid_text_scalar : forall s, valid_text s <-> Forall (fun c => is_scalar c = true) s.
Proof.
  intros s. unfold valid_text. rewrite Forall_forall. split; intros H c Hc.
  - apply is_scalar_spec. auto.
  - apply is_scalar_spec. auto.
Qed.
Lemma valid_text_encode : forall s, valid_text s -> exists e, utf8_encode s = Some e.
Proof. intros s H. apply utf8_encode_some, valid_text_scalar, H. Qed.

(** ** Folding the fields of a message *)

Ltac fold_string H :=
  let e := fresh "e" in let He := fresh "He" in
  destruct (valid_text_encode _ H) as [e He];
  rewrite ?He; cbn [fold_option];
  rewrite ?(utf8_decode_encode _ _ He).

Lemma fold_f_string : forall A (step : A -> field -> option A) (get : A -> pystr) (set : A -> pystr -> A)
  n v a, valid_text v ->
  (forall a x, step a (n, WLen x) = match utf8_decode x with Some u => Some (set a u) | None => None end) ->
  (v = [] -> set a v = a) ->
  fold_option step (f_string n v) a = Some (set a v).
Proof.
  intros A step get set n v a Hv Hstep Hd. unfold f_string. destruct v as [| c v].
  - simpl. rewrite Hd; reflexivity.
  - destruct (valid_text_encode _ Hv) as [e He]. rewrite He. simpl.
    rewrite Hstep, (utf8_decode_encode _ _ He). reflexivity.
Qed.

Lemma fold_f_bytes : forall A (step : A -> field -> option A) (set : A -> bytes -> A) n v a,
  (forall a x, step a (n, WLen x) = Some (set a x)) ->
  (v = [] -> set a v = a) ->
  fold_option step (f_bytes n v) a = Some (set a v).
Proof.
  intros A step set n v a Hstep Hd. unfold f_bytes. destruct v as [| c v].
  - simpl. rewrite Hd; reflexivity.
  - simpl. rewrite Hstep. reflexivity.
Qed.

Lemma fold_f_uint32 : forall A (step : A -> field -> option A) (set : A -> N -> A) n v a,
  uint32_range v ->
  (forall a x, step a (n, WVarint x) = Some (set a (uint32_of_varint x))) ->
  (v = 0 -> set a v = a) ->
  fold_option step (f_uint32 n v) a = Some (set a v).
Proof.
  intros A step set n v a Hr Hstep Hd. unfold f_uint32. destruct (N.eqb_spec v 0).
  - simpl. rewrite Hd; auto.
  - simpl. rewrite Hstep, uint32_of_varint_of by assumption. reflexivity.
Qed.

Lemma fold_f_enum : forall A (step : A -> field -> option A) (set : A -> Z -> A) n v a,
  int32_range v ->
  (forall a x, step a (n, WVarint x) = Some (set a (int32_of_varint x))) ->
  (v = 0%Z -> set a v = a) ->
  fold_option step (f_enum n v) a = Some (set a v).
Proof.
  intros A step set n v a Hr Hstep Hd. unfold f_enum. destruct (Z.eqb_spec v 0).
  - cbn [fold_option]. rewrite Hd; auto.
  - cbn [fold_option]. rewrite Hstep, int32_of_varint_of by assumption. reflexivity.
Qed.

(** ** Messages *)

Lemma size_part : forall n x l, In (n, WLen x) l -> proto_size (encode_fields l) -> proto_size x.
Proof. intros n x l Hi Hs. pose proof (wlen_length _ _ _ Hi). unfold proto_size in *. lia. Qed.

Ltac shapes :=
  repeat match goal with
  | |- Forall _ (_ ++ _) => apply Forall_app; split
  | |- Forall shape_ok (f_string _ _) => apply shape_string; lia
  | |- Forall shape_ok (f_bytes _ _) => apply shape_bytes; lia
  | |- Forall shape_ok (f_enum _ _) => apply shape_enum; lia
  | |- Forall shape_ok (f_uint32 _ _) => apply shape_uint32; [lia | assumption]
  end.

Theorem key_template_round_trip : forall t, wf_key_template t -> proto_size (serialize_key_template t) ->
  parse_key_template (serialize_key_template t) = Some t.
Proof.
  intros [u v z] [Hu Hz] Hsz. unfold parse_key_template, serialize_key_template in *.
  rewrite merge_encode.
  2: { apply shape_wf; [unfold fields_of_key_template; shapes | assumption]. }
  unfold fields_of_key_template. cbn [kt_type_url kt_value kt_output_prefix_type] in *.
  rewrite ?fold_option_app.
  rewrite (fold_f_string _ key_template_step (fun _ => u)
    (fun a x => mk_key_template x (kt_value a) (kt_output_prefix_type a))); auto.
  2: intros ->; reflexivity.
  cbv beta iota; rewrite ?fold_option_app.
  rewrite (fold_f_bytes _ key_template_step
    (fun a x => mk_key_template (kt_type_url a) x (kt_output_prefix_type a))); auto.
  2: intros ->; reflexivity.
  cbv beta iota; rewrite ?fold_option_app.
  rewrite (fold_f_enum _ key_template_step
    (fun a x => mk_key_template (kt_type_url a) (kt_value a) x)); auto.
  intros ->; reflexivity.
Qed.

Lemma key_data_merge : forall d init, wf_key_data d -> proto_size (serialize_key_data d) ->
  init = default_key_data ->
  merge_message key_data_step init (serialize_key_data d) = Some d.
Proof.
  intros [u v z] init [Hu Hz] Hsz ->. unfold serialize_key_data in *.
  rewrite merge_encode.
  2: { apply shape_wf; [unfold fields_of_key_data; shapes | assumption]. }
  unfold fields_of_key_data. cbn [kd_type_url kd_value kd_key_material_type] in *.
  rewrite ?fold_option_app.
  rewrite (fold_f_string _ key_data_step (fun _ => u)
    (fun a x => mk_key_data x (kd_value a) (kd_key_material_type a))); auto.
  2: intros ->; reflexivity.
  cbv beta iota; rewrite ?fold_option_app.
  rewrite (fold_f_bytes _ key_data_step
    (fun a x => mk_key_data (kd_type_url a) x (kd_key_material_type a))); auto.
  2: intros ->; reflexivity.
  cbv beta iota; rewrite ?fold_option_app.
  rewrite (fold_f_enum _ key_data_step
    (fun a x => mk_key_data (kd_type_url a) (kd_value a) x)); auto.
  intros ->; reflexivity.
Qed.

Theorem key_data_round_trip : forall d, wf_key_data d -> proto_size (serialize_key_data d) ->
  parse_key_data (serialize_key_data d) = Some d.
Proof. intros. apply key_data_merge; auto. Qed.

Theorem key_round_trip : forall k, wf_key k -> proto_size (serialize_key k) ->
  parse_key (serialize_key k) = Some k.
Proof.
  intros [d st id t] (Hd & Hst & Hid & Ht) Hsz. unfold parse_key.
  unfold serialize_key in *. cbn [k_key_data_opt k_status k_key_id k_output_prefix_type] in *.
  rewrite merge_encode.
  2: { apply shape_wf; [| assumption]. unfold fields_of_key.
       cbn [k_key_data_opt k_status k_key_id k_output_prefix_type].
       shapes. destruct d; constructor; [| constructor]. split; cbn; auto; lia. }
  unfold fields_of_key in *. cbn [k_key_data_opt k_status k_key_id k_output_prefix_type] in *.
  rewrite fold_option_app.
  match goal with |- match ?x with _ => _ end = _ => replace x with (Some (mk_key d 0 0 0)) end.
  2: { destruct d as [d |]; [| reflexivity]. cbn [fold_option key_step].
       rewrite key_data_merge; auto.
       eapply size_part; [| exact Hsz]. apply in_or_app. left. left. reflexivity. }
  cbv beta iota; rewrite ?fold_option_app.
  rewrite (fold_f_enum _ key_step
    (fun a x => mk_key (k_key_data_opt a) x (k_key_id a) (k_output_prefix_type a))); auto.
  2: intros ->; reflexivity.
  cbv beta iota; rewrite ?fold_option_app.
  rewrite (fold_f_uint32 _ key_step
    (fun a x => mk_key (k_key_data_opt a) (k_status a) x (k_output_prefix_type a))); auto.
  2: intros ->; reflexivity.
  cbv beta iota; rewrite ?fold_option_app.
  rewrite (fold_f_enum _ key_step
    (fun a x => mk_key (k_key_data_opt a) (k_status a) (k_key_id a) x)); auto.
  intros ->; reflexivity.
Qed.

Lemma fold_keys : forall l acc pid, (forall k, In k l -> parse_key (serialize_key k) = Some k) ->
  fold_option keyset_step (map (fun k => (2, WLen (serialize_key k))) l) (mk_keyset pid acc) =
  Some (mk_keyset pid (acc ++ l)).
Proof.
  induction l as [| k l IH]; intros acc pid H.
  - rewrite app_nil_r. reflexivity.
  - cbn [map fold_option keyset_step]. rewrite H by (left; reflexivity). cbn [ks_primary_key_id ks_key].
    rewrite IH by (intros; apply H; right; assumption). rewrite <- app_assoc. reflexivity.
Qed.

Theorem keyset_round_trip : forall ks, wf_keyset ks -> proto_size (serialize_keyset ks) ->
  parse_keyset (serialize_keyset ks) = Some ks.
Proof.
  intros [pid keys] [Hp Hk] Hsz. unfold parse_keyset. unfold serialize_keyset in *.
  cbn [ks_primary_key_id ks_key] in *. rewrite merge_encode.
  2: { apply shape_wf; [| assumption]. unfold fields_of_keyset. shapes.
       rewrite Forall_map, Forall_forall. intros k _. split; cbn; auto; lia. }
  unfold fields_of_keyset in *. cbn [ks_primary_key_id ks_key] in *.
  rewrite fold_option_app.
  rewrite (fold_f_uint32 _ keyset_step (fun a x => mk_keyset x (ks_key a))); auto.
  2: intros ->; reflexivity.
  cbv beta iota; rewrite ?fold_option_app.
  cbn [ks_key]. rewrite fold_keys; [reflexivity |].
  intros k Hi. apply key_round_trip; auto. eapply size_part; [| exact Hsz].
  apply in_or_app. right. apply in_map_iff. eauto.
Qed.

Theorem key_info_round_trip : forall k, wf_key_info k -> proto_size (serialize_key_info k) ->
  parse_key_info (serialize_key_info k) = Some k.
Proof.
  intros [u st id t] (Hu & Hst & Hid & Ht) Hsz. unfold parse_key_info.
  unfold serialize_key_info in *. cbn [ki_type_url ki_status ki_key_id ki_output_prefix_type] in *.
  rewrite merge_encode.
  2: { apply shape_wf; [| assumption]. unfold fields_of_key_info. shapes. }
  unfold fields_of_key_info. cbn [ki_type_url ki_status ki_key_id ki_output_prefix_type].
  rewrite ?fold_option_app.
  rewrite (fold_f_string _ key_info_step (fun _ => u)
    (fun a x => mk_key_info x (ki_status a) (ki_key_id a) (ki_output_prefix_type a))); auto.
  2: intros ->; reflexivity.
  cbv beta iota; rewrite ?fold_option_app.
  rewrite (fold_f_enum _ key_info_step
    (fun a x => mk_key_info (ki_type_url a) x (ki_key_id a) (ki_output_prefix_type a))); auto.
  2: intros ->; reflexivity.
  cbv beta iota; rewrite ?fold_option_app.
  rewrite (fold_f_uint32 _ key_info_step
    (fun a x => mk_key_info (ki_type_url a) (ki_status a) x (ki_output_prefix_type a))); auto.
  2: intros ->; reflexivity.
  cbv beta iota; rewrite ?fold_option_app.
  rewrite (fold_f_enum _ key_info_step
    (fun a x => mk_key_info (ki_type_url a) (ki_status a) (ki_key_id a) x)); auto.
  intros ->; reflexivity.
Qed.

Lemma fold_key_infos : forall l acc pid,
  (forall k, In k l -> parse_key_info (serialize_key_info k) = Some k) ->
  fold_option keyset_info_step (map (fun k => (2, WLen (serialize_key_info k))) l)
    (mk_keyset_info pid acc) = Some (mk_keyset_info pid (acc ++ l)).
Proof.
  induction l as [| k l IH]; intros acc pid H.
  - rewrite app_nil_r. reflexivity.
  - cbn [map fold_option keyset_info_step]. rewrite H by (left; reflexivity).
    cbn [ksi_primary_key_id ksi_key_info].
    rewrite IH by (intros; apply H; right; assumption). rewrite <- app_assoc. reflexivity.
Qed.

Theorem keyset_info_merge : forall i, wf_keyset_info i -> proto_size (serialize_keyset_info i) ->
  merge_message keyset_info_step empty_keyset_info (serialize_keyset_info i) = Some i.
Proof.
  intros [pid keys] [Hp Hk] Hsz. unfold serialize_keyset_info in *.
  cbn [ksi_primary_key_id ksi_key_info] in *. rewrite merge_encode.
  2: { apply shape_wf; [| assumption]. unfold fields_of_keyset_info. shapes.
       rewrite Forall_map, Forall_forall. intros k _. split; cbn; auto; lia. }
  unfold fields_of_keyset_info in *. cbn [ksi_primary_key_id ksi_key_info] in *.
  rewrite fold_option_app.
  rewrite (fold_f_uint32 _ keyset_info_step (fun a x => mk_keyset_info x (ksi_key_info a))); auto.
  2: intros ->; reflexivity.
  cbv beta iota; rewrite ?fold_option_app.
  cbn [ksi_key_info empty_keyset_info]. rewrite fold_key_infos; [reflexivity |].
  intros k Hi. apply key_info_round_trip; auto. eapply size_part; [| exact Hsz].
  apply in_or_app. right. apply in_map_iff. eauto.
Qed.

Theorem encrypted_keyset_round_trip : forall e, wf_encrypted_keyset e ->
  proto_size (serialize_encrypted_keyset e) ->
  parse_encrypted_keyset (serialize_encrypted_keyset e) = Some e.
Proof.
  intros [ct i] Hi Hsz. unfold parse_encrypted_keyset. unfold serialize_encrypted_keyset in *.
  rewrite merge_encode.
  2: { apply shape_wf; [| assumption]. unfold fields_of_encrypted_keyset. shapes.
       cbn [ek_keyset_info]. destruct i; constructor; [| constructor]. split; cbn; auto; lia. }
  unfold fields_of_encrypted_keyset in *. cbn [ek_keyset_info ek_encrypted_keyset] in *.
  rewrite fold_option_app.
  rewrite (fold_f_bytes _ encrypted_keyset_step
    (fun a x => mk_encrypted_keyset x (ek_keyset_info a))); auto.
  2: intros ->; reflexivity.
  cbv beta iota; rewrite ?fold_option_app.
  cbn [ek_keyset_info]. destruct i as [i |]; [| reflexivity].
  cbn [fold_option encrypted_keyset_step ek_keyset_info].
  rewrite keyset_info_merge; [reflexivity | |].
  - apply Hi. reflexivity.
  - eapply size_part; [| exact Hsz]. apply in_or_app. right. left. reflexivity.
Qed.

(** ** What comes out of a parser is a message Python can hold *)

Lemma int32_of_varint_range : forall n, int32_range (int32_of_varint n).
Proof.
  intros n. unfold int32_range, int32_of_varint. change (2 ^ 31)%Z with 2147483648%Z.
  destruct (_ <? _)%Z eqn:E; lia.
Qed.
Lemma uint32_of_varint_range : forall n, uint32_range (uint32_of_varint n).
Proof. intros n. unfold uint32_range, uint32_of_varint. change (2 ^ 32) with 4294967296. lia. Qed.
Lemma utf8_decode_valid : forall x u, utf8_decode x = Some u -> valid_text u.
Proof.
  intros x u H. apply valid_text_scalar, utf8_encode_some. exists x. apply utf8_encode_decode, H.
Qed.

Lemma fold_option_inv : forall A B (P : A -> Prop) (f : A -> B -> option A),
  (forall a x a', P a -> f a x = Some a' -> P a') ->
  forall l a a', P a -> fold_option f l a = Some a' -> P a'.
Proof.
  intros A B P f Hf. induction l as [| x l IH]; intros a a' Ha H.
  - inversion H; subst; assumption.
  - cbn [fold_option] in H. destruct (f a x) as [a1 |] eqn:E; [| discriminate]. eauto.
Qed.
Lemma merge_message_inv : forall A (P : A -> Prop) (step : A -> field -> option A),
  (forall a x a', P a -> step a x = Some a' -> P a') ->
  forall x a a', P a -> merge_message step a x = Some a' -> P a'.
Proof.
  intros A P step Hs x a a' Ha H. unfold merge_message in H. destruct (parse_fields x); [| discriminate].
  eapply fold_option_inv; eauto.
Qed.

Lemma wf_default_key_data : wf_key_data default_key_data.
Proof. split; [intros c [] | unfold int32_range; simpl; lia]. Qed.

Ltac field_cases f :=
  destruct f as [?fn ?fv];
  repeat match goal with
  | H : match ?x with _ => _ end = Some _ |- _ => destruct x eqn:?; try discriminate H
  end.

Lemma key_data_step_wf : forall d f d', wf_key_data d -> key_data_step d f = Some d' -> wf_key_data d'.
Proof.
  intros d f d' [H1 H2] H. unfold key_data_step in H. field_cases f;
    injection H as <-; split; cbn [kd_type_url kd_key_material_type];
    eauto using utf8_decode_valid, int32_of_varint_range.
Qed.

Lemma wf_k_key_data : forall k, wf_key k -> wf_key_data (k_key_data k).
Proof.
  intros k (H & _). unfold k_key_data. destruct (k_key_data_opt k); [auto | apply wf_default_key_data].
Qed.

Lemma key_step_wf : forall k f k', wf_key k -> key_step k f = Some k' -> wf_key k'.
Proof.
  intros k f k' Hk H. pose proof (wf_k_key_data _ Hk) as Hkd. destruct Hk as (H1 & H2 & H3 & H4).
  unfold key_step in H.
  field_cases f; injection H as <-;
    refine (conj _ (conj _ (conj _ _))); cbn [k_key_data_opt k_status k_key_id k_output_prefix_type];
    try (apply int32_of_varint_range); try (apply uint32_of_varint_range); auto.
  intros d Hd. injection Hd as <-.
  eapply (merge_message_inv _ wf_key_data); [apply key_data_step_wf | exact Hkd | eassumption].
Qed.

Lemma parse_key_wf : forall x k, parse_key x = Some k -> wf_key k.
Proof.
  intros x k. apply (merge_message_inv _ wf_key); [apply key_step_wf |].
  refine (conj _ (conj _ (conj _ _))); try (unfold int32_range; simpl; lia).
  - discriminate.
  - reflexivity.
Qed.

Lemma keyset_step_wf : forall ks f ks', wf_keyset ks -> keyset_step ks f = Some ks' -> wf_keyset ks'.
Proof.
  intros ks f ks' [H1 H2] H. unfold keyset_step in H.
  field_cases f; injection H as <-; split; cbn [ks_primary_key_id ks_key]; auto;
    try apply uint32_of_varint_range.
  intros k' Hi. apply in_app_or in Hi. destruct Hi as [Hi | [<- | []]]; auto.
  eapply parse_key_wf. eassumption.
Qed.

Theorem parse_keyset_wf : forall x ks, parse_keyset x = Some ks -> wf_keyset ks.
Proof.
  intros x ks. apply (merge_message_inv _ wf_keyset); [apply keyset_step_wf |].
  split; [reflexivity | intros k []].
Qed.

Lemma key_info_step_wf : forall d f d', wf_key_info d -> key_info_step d f = Some d' -> wf_key_info d'.
Proof.
  intros d f d' (H1 & H2 & H3 & H4) H. unfold key_info_step in H.
  field_cases f; injection H as <-;
    refine (conj _ (conj _ (conj _ _))); cbn [ki_type_url ki_status ki_key_id ki_output_prefix_type];
    try (apply int32_of_varint_range); try (apply uint32_of_varint_range);
    eauto using utf8_decode_valid.
Qed.

Lemma keyset_info_step_wf : forall i f i', wf_keyset_info i -> keyset_info_step i f = Some i' ->
  wf_keyset_info i'.
Proof.
  intros i f i' [H1 H2] H. unfold keyset_info_step in H.
  field_cases f; injection H as <-; split; cbn [ksi_primary_key_id ksi_key_info]; auto;
    try apply uint32_of_varint_range.
  intros k' Hi. apply in_app_or in Hi. destruct Hi as [Hi | [<- | []]]; auto.
  eapply (merge_message_inv _ wf_key_info);
    [apply key_info_step_wf | | unfold parse_key_info in *; eassumption].
  refine (conj _ (conj _ (conj _ _))); try (unfold int32_range; simpl; lia).
  - intros c [].
  - reflexivity.
Qed.

Theorem parse_encrypted_keyset_wf : forall x e, parse_encrypted_keyset x = Some e ->
  wf_encrypted_keyset e.
Proof.
  intros x e. apply (merge_message_inv _ wf_encrypted_keyset); [| discriminate].
  clear. intros a f a' Ha H. unfold encrypted_keyset_step in H.
  field_cases f; injection H as <-; auto.
  intros i Hi. cbn [ek_keyset_info] in Hi. injection Hi as <-.
  eapply (merge_message_inv _ wf_keyset_info);
    [apply keyset_info_step_wf | | eassumption].
  destruct (ek_keyset_info a) eqn:E; [auto |]. split; [reflexivity | intros ? []].
Qed.

(** The serializations are injective. *)
Theorem serialize_keyset_inj : forall a b, wf_keyset a -> wf_keyset b ->
  proto_size (serialize_keyset a) -> serialize_keyset a = serialize_keyset b -> a = b.
Proof.
  intros a b Ha Hb Hs He. pose proof (keyset_round_trip a Ha Hs) as H1.
  rewrite He in Hs. pose proof (keyset_round_trip b Hb Hs) as H2. rewrite He in H1. congruence.
Qed.
