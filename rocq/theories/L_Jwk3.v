(** JWK sets: import. *)
From Coq Require Import Strings.Byte Strings.String List NArith ZArith Bool Lia.
From Verif Require Import M_Base L_Base M_Utf8 L_Utf8 M_Base64 S_Base64 L_Base64 M_Proto M_Prims
  M_Registry M_KeysetHandle M_KeysetIO M_JwtTypes M_Json S_Json L_Json L_Json2
  L_Json3 L_Json4 S_Wire S_Keyset S_Handle M_Wire L_Wire L_Handle M_JwtKeys M_JwtFormat
  M_KmsIntegrations S_Jwt S_JwtKeys L_Jwt L_JsonKeyset2 M_Jwk S_Jwk L_Jwk L_Jwk2.
Import ListNotations.
Open Scope string_scope.
Open Scope list_scope.
Open Scope nat_scope.

(** ** The wire format of public keys *)

Definition wf_jwt_public_key (m : jwt_public_key) : Prop :=
  uint32_range (jpk_version m) /\ int32_range (jpk_algorithm m) /\
  (forall kid, jpk_custom_kid m = Some kid -> valid_text kid).

Lemma custom_kid_round_trip : forall v, valid_text v -> proto_size (serialize_custom_kid v) ->
  merge_message custom_kid_step [] (serialize_custom_kid v) = Some v.
Proof.
  intros v Hv Hsz. unfold serialize_custom_kid in *. rewrite merge_encode.
  2: { apply shape_wf; [shapes | assumption]. }
  rewrite (fold_f_string _ custom_kid_step (fun _ => v) (fun a x => x)); auto.
  intros a x. cbn. destruct (utf8_decode x); reflexivity.
Qed.

Theorem jwt_public_key_round_trip : forall m, wf_jwt_public_key m ->
  proto_size (serialize_jwt_public_key m) ->
  parse_jwt_public_key (serialize_jwt_public_key m) = Some m.
Proof.
  intros [ver alg x y kid] (Hv & Ha & Hk) Hsz. unfold parse_jwt_public_key, serialize_jwt_public_key in *.
  rewrite merge_encode.
  2: { apply shape_wf; [| assumption]. unfold fields_of_jwt_public_key.
       cbn [jpk_version jpk_algorithm jpk_3 jpk_4 jpk_custom_kid] in *. shapes.
       destruct kid; constructor; [| constructor]. split; cbn; auto; lia. }
  unfold fields_of_jwt_public_key in *. cbn [jpk_version jpk_algorithm jpk_3 jpk_4 jpk_custom_kid] in *.
  rewrite ?fold_option_app.
  rewrite (fold_f_uint32 _ jwt_public_key_step
    (fun a x => mk_jwt_public_key x (jpk_algorithm a) (jpk_3 a) (jpk_4 a) (jpk_custom_kid a))); auto.
  2: intros ->; reflexivity.
  cbv beta iota; rewrite ?fold_option_app.
  rewrite (fold_f_enum _ jwt_public_key_step
    (fun a x => mk_jwt_public_key (jpk_version a) x (jpk_3 a) (jpk_4 a) (jpk_custom_kid a))); auto.
  2: intros ->; reflexivity.
  cbv beta iota; rewrite ?fold_option_app.
  rewrite (fold_f_bytes _ jwt_public_key_step
    (fun a x => mk_jwt_public_key (jpk_version a) (jpk_algorithm a) x (jpk_4 a) (jpk_custom_kid a))); auto.
  2: intros ->; reflexivity.
  cbv beta iota; rewrite ?fold_option_app.
  rewrite (fold_f_bytes _ jwt_public_key_step
    (fun a x => mk_jwt_public_key (jpk_version a) (jpk_algorithm a) (jpk_3 a) x (jpk_custom_kid a))); auto.
  2: intros ->; reflexivity.
  cbv beta iota. cbn [jpk_version jpk_algorithm jpk_3 jpk_4 jpk_custom_kid empty_jwt_public_key].
  destruct kid as [kid |]; [| reflexivity].
  cbn [fold_option jwt_public_key_step jpk_custom_kid]. unfold merge_custom_kid.
  rewrite custom_kid_round_trip; [reflexivity | auto |].
  eapply size_part; [| exact Hsz]. rewrite !in_app_iff. right. right. right. right. left. reflexivity.
Qed.

(** ** Lengths *)

Lemma varint_fuel_length : forall fuel n, (length (varint_fuel fuel n) <= fuel)%nat.
Proof.
  induction fuel as [| f IH]; intros n; cbn [varint_fuel]; [auto |].
  destruct (n <? 128)%N; cbn [length]; [lia |]. specialize (IH (n / 128)%N). lia.
Qed.
Lemma varint_short : forall n, (length (varint n) <= 10)%nat.
Proof. intros. apply varint_fuel_length. Qed.

Lemma encode_len : forall n x, (length (encode_fields [(n, WLen x)]) <= 20 + length x)%nat.
Proof.
  intros n x. unfold encode_fields. cbn [map concat]. rewrite app_nil_r. unfold encode_field. cbn [fst snd encode_wval].
  rewrite !app_length. pose proof (varint_short (n * 8 + wire_type (WLen x))%N).
  pose proof (varint_short (N.of_nat (length x))). lia.
Qed.
Lemma encode_var : forall n v, (length (encode_fields [(n, WVarint v)]) <= 20)%nat.
Proof.
  intros n x. unfold encode_fields. cbn [map concat]. rewrite app_nil_r. unfold encode_field. cbn [fst snd encode_wval].
  rewrite !app_length. pose proof (varint_short (n * 8 + wire_type (WVarint x))%N).
  pose proof (varint_short x). lia.
Qed.
Lemma bytes_len : forall n x, (length (encode_fields (f_bytes n x)) <= 20 + length x)%nat.
Proof. intros n [| c x]; [cbn; lia | apply encode_len]. Qed.
Lemma enum_len : forall n v, (length (encode_fields (f_enum n v)) <= 20)%nat.
Proof. intros n v. unfold f_enum. destruct (v =? 0)%Z; [cbn; lia | apply encode_var]. Qed.
Lemma uint32_len : forall n v, (length (encode_fields (f_uint32 n v)) <= 20)%nat.
Proof. intros n v. unfold f_uint32. destruct (v =? 0)%N; [cbn; lia | apply encode_var]. Qed.
Lemma utf8_len : forall x e, utf8_encode x = Some e -> (length e <= 4 * length x)%nat.
Proof.
  induction x as [| c x IH]; intros e H; cbn [utf8_encode] in H; [inv H; cbn; lia |].
  destruct (utf8_encode_char c) as [ec |] eqn:Ec; [| discriminate].
  destruct (utf8_encode x) as [ex |] eqn:Ex; [| discriminate]. apply some_inj in H. subst e.
  rewrite app_length. specialize (IH _ eq_refl). cbn [length].
  assert (length ec <= 4)%nat; [| lia]. unfold utf8_encode_char in Ec.
  repeat match type of Ec with context [if ?b then _ else _] => destruct b end; inv Ec; cbn; lia.
Qed.
Lemma string_len : forall n x, (length (encode_fields (f_string n x)) <= 20 + 4 * length x)%nat.
Proof.
  intros n x. unfold f_string. destruct x as [| c x]; [cbn; lia |].
  destruct (utf8_encode (c :: x)) as [e |] eqn:E; [| cbn; lia].
  pose proof (utf8_len _ _ E). pose proof (encode_len n e). lia.
Qed.

Definition message_size (m : jwt_public_key) : nat :=
  length (jpk_3 m) + length (jpk_4 m) + 4 * match jpk_custom_kid m with Some v => length v | None => 0 end.
Lemma message_len : forall m, (length (serialize_jwt_public_key m) <= 120 + message_size m)%nat.
Proof.
  intros [ver alg x y kid]. unfold serialize_jwt_public_key, fields_of_jwt_public_key, message_size.
  cbn [jpk_version jpk_algorithm jpk_3 jpk_4 jpk_custom_kid]. rewrite !encode_fields_app, !app_length.
  pose proof (uint32_len 1 ver). pose proof (enum_len 2 alg). pose proof (bytes_len 3 x). pose proof (bytes_len 4 y).
  destruct kid as [v |]; [| cbn [encode_fields map concat length]; lia].
  pose proof (encode_len 5 (serialize_custom_kid v)). pose proof (string_len 1 v) as Hs.
  change (encode_fields (f_string 1 v)) with (serialize_custom_kid v) in Hs. lia.
Qed.

Definition jkey (type : string) (m : jwt_public_key) (id : N) : key :=
  mk_key (Some (mk_key_data (tink_url type) (serialize_jwt_public_key m) ASYMMETRIC_PUBLIC)) ENABLED id RAW.
Lemma jkey_len : forall type m id, (length (tink_url type) <= 70)%nat ->
  (length (serialize_key (jkey type m id)) <= 540 + message_size m)%nat.
Proof.
  intros type m id Hu. unfold serialize_key, fields_of_key, jkey.
  cbn [k_key_data_opt k_status k_key_id k_output_prefix_type]. rewrite !encode_fields_app, !app_length.
  pose proof (enum_len 2 ENABLED). pose proof (uint32_len 3 id). pose proof (enum_len 4 RAW).
  set (d := mk_key_data _ _ _).
  pose proof (encode_len 1 (serialize_key_data d)).
  assert (Hd : (length (serialize_key_data d) <= 460 + message_size m)%nat).
  { unfold serialize_key_data, fields_of_key_data, d. cbn [kd_type_url kd_value kd_key_material_type].
    rewrite !encode_fields_app, !app_length. pose proof (string_len 1 (tink_url type)).
    pose proof (bytes_len 2 (serialize_jwt_public_key m)). pose proof (enum_len 3 ASYMMETRIC_PUBLIC).
    pose proof (message_len m). lia. }
  lia.
Qed.

(** How much of the text a value takes at least. *)
Fixpoint jsize (v : json) : nat :=
  match v with
  | JStr x => length x
  | JList l => list_sum (map jsize l)
  | JDict l => list_sum (map (fun kv => length (fst kv) + jsize (snd kv)) l)
  | _ => 0
  end.
Lemma string_body_len : forall x t, string_body x t -> (length x <= length t)%nat.
Proof.
  intros x t H. induction H; cbn [length]; try lia.
  - rewrite app_length. destruct H as (a & b & c & d & va & vb & vc & vd & -> & _). cbn [length]. lia.
  - rewrite !app_length. destruct H as (a & b & c & d & va & vb & vc & vd & -> & _). cbn [length]. lia.
Qed.
Lemma json_text_len : forall rt,
  (forall v t, json_value rt v t -> (jsize v <= length t)%nat) /\
  (forall l t, json_items rt l t -> (list_sum (map jsize l) <= length t)%nat) /\
  (forall l t, json_members rt l t ->
     (list_sum (map (fun kv => length (fst kv) + jsize (snd kv)) l) <= length t)%nat).
Proof.
  intros rt. apply (json_text_mind rt
    (fun v t _ => (jsize v <= length t)%nat)
    (fun l t _ => (list_sum (map jsize l) <= length t)%nat)
    (fun l t _ => (list_sum (map (fun kv => length (fst kv) + jsize (snd kv)) l) <= length t)%nat)).
  all: intros; cbn [jsize map list_sum fold_right length fst snd]; try lia.
  - apply string_body_len in s. rewrite app_length. cbn [length]. lia.
  - rewrite app_length. cbn [length jsize] in *. lia.
  - rewrite app_length. cbn [length jsize] in *. lia.
  - unfold list_sum in *. cbn [map fold_right]. rewrite !app_length. lia.
  - unfold list_sum in *. cbn [map fold_right]. rewrite !app_length. cbn [length]. lia.
  - apply string_body_len in s. unfold list_sum in *. cbn [map fold_right fst snd]. rewrite !app_length. cbn [length].
    rewrite !app_length. cbn [length]. rewrite !app_length. cbn [length]. rewrite ?app_length. lia.
  - apply string_body_len in s. unfold list_sum in *. cbn [map fold_right fst snd]. rewrite !app_length. cbn [length].
    rewrite !app_length. cbn [length]. rewrite !app_length. cbn [length]. rewrite ?app_length. cbn [length]. rewrite ?app_length. lia.
Qed.
Lemma member_size : forall doc name v, member doc name v -> (length (ulit name) + jsize v <= jsize doc)%nat.
Proof.
  intros doc name v (l1 & l2 & -> & _). cbn [jsize]. rewrite map_app. unfold list_sum.
  rewrite fold_right_app. cbn [map fold_right fst snd].
  assert (G : forall l n, (n <= fold_right Nat.add n l)%nat) by (induction l as [| a l IH]; intros n; cbn; [lia | specialize (IH n); lia]).
  match goal with |- (_ <= fold_right _ ?n ?l)%nat => pose proof (G l n) end. lia.
Qed.
Lemma base64url_len : forall x t, base64url_loose x t -> (length x <= length t)%nat.
Proof.
  intros x t (s & -> & l & fill & _ & -> & E & _). apply (f_equal (@length bool)) in E.
  rewrite app_length, bits_of_bytes_length, bits_of_sextets_length in E. rewrite !map_length. lia.
Qed.

Lemma public_jwk_size : forall doc type m, public_jwk doc type m ->
  (540 + message_size m + 20 <= 200 * jsize doc)%nat /\ (length (tink_url type) <= 70)%nat.
Proof.
  intros doc type m (f & kty & n1 & n2 & priv & alg & Hf & Hm & Hn & P1 & _ & _ & _ & _ & P5 & P6 & P7 & _).
  split.
  - unfold message_size. destruct P5 as (t1 & M1 & B1). destruct P6 as (t2 & M2 & B2).
    apply member_size in M1, M2, Hm. apply base64url_len in B1, B2. cbn [jsize] in *.
    assert (length (ulit "alg") = 3)%nat by reflexivity.
    assert (match jpk_custom_kid m with Some v => length v | None => 0 end <= jsize doc)%nat.
    { destruct (jpk_custom_kid m) as [v |]; [| lia]. destruct P7 as [P7 _]. apply member_size in P7. cbn [jsize] in P7. lia. }
    lia.
  - unfold jwk_families in Hf. cbn [In] in Hf. destruct Hf as [Hf | [Hf | [Hf | []]]];
      injection Hf as _ _ <- _ _ _; vm_compute; lia.
Qed.

Lemma keyset_len : forall pid docs keys,
  Forall2 (fun doc k => exists type m id, public_jwk doc type m /\ k = jkey type m id) docs keys ->
  (length (serialize_keyset (mk_keyset pid keys)) <= 20 + 200 * list_sum (map jsize docs))%nat.
Proof.
  intros pid docs keys H. unfold serialize_keyset, fields_of_keyset. cbn [ks_primary_key_id ks_key].
  rewrite encode_fields_app, app_length. pose proof (uint32_len 1 pid).
  assert (G : (length (encode_fields (map (fun k => (2%N, WLen (serialize_key k))) keys))
               <= 200 * list_sum (map jsize docs))%nat); [| lia].
  clear -H. induction H as [| doc k docs keys (type & m & id & Hj & ->) H IH]; [cbn; lia |].
  cbn [map]. unfold list_sum in *. cbn [fold_right].
  change (?a :: ?l) with ([a] ++ l). rewrite encode_fields_app, app_length.
  pose proof (encode_len 2 (serialize_key (jkey type m id))). destruct (public_jwk_size _ _ _ Hj) as [H1 H2].
  pose proof (jkey_len type m id H2). lia.
Qed.

Lemma member_list_size : forall rt doc text name items, json_text rt doc text -> member doc name (JList items) ->
  (list_sum (map jsize items) <= length text)%nat.
Proof.
  intros rt doc text name items (w1 & t & w2 & _ & Hv & _ & ->) Hm. apply member_size in Hm. cbn [jsize] in Hm.
  apply (json_text_len rt) in Hv. rewrite !app_length. lia.
Qed.
