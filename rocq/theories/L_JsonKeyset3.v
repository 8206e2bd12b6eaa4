(** Tink's JSON keyset readers, writers and parsers. *)
From Coq Require Import Strings.Byte Strings.String List NArith ZArith Bool Lia.
From Verif Require Import M_Base L_Base M_Utf8 L_Utf8 M_Base64 S_Base64 L_Base64 M_Proto M_Prims
  M_PrimitiveSet M_Registry M_KeysetHandle M_KeysetIO M_JwtTypes M_Json S_Json L_Json L_Json2
  L_Json3 S_Wire S_Keyset S_Handle M_Wire L_Wire L_Keyset L_Handle M_JsonKeyset S_JsonKeyset L_JsonKeyset
  L_JsonKeyset2.
Import ListNotations.
Open Scope string_scope.
Open Scope list_scope.

Lemma describes_wf : forall ks info, wf_keyset ks -> describes ks info -> wf_keyset_info info.
Proof.
  intros ks info [Hp Hk] [E F]. split; [rewrite E; exact Hp |]. revert Hk F.
  generalize (ks_key ks), (ksi_key_info info). intros l li Hk F.
  induction F as [| k i l li (E1 & E2 & E3 & E4) F IH]; intros x Hx; [destruct Hx |].
  destruct Hx as [<- | Hx]; [| apply IH; [intros; apply Hk; right; assumption | exact Hx]].
  destruct (Hk k (or_introl eq_refl)) as (W1 & W2 & W3 & W4).
  unfold wf_key_info. rewrite E1, E2, E3, E4. repeat split; try assumption; try apply W2; try apply W4.
  unfold k_key_data. destruct (k_key_data_opt k) as [d |] eqn:Ed.
  - apply (W1 d eq_refl).
  - intros c [].
Qed.

(** C16: either everything was checked to be readable and the JSON form of the encrypted
    keyset is appended to the stream, or the stream is left as it was. *)
Theorem json_write_encrypted_spec : forall rt h a rnd ad st, python_digit_limit rt ->
  (exists ct pt info v t,
     aead_encrypt a rnd (serialize_keyset (kh_keyset h)) ad = Ok ct /\
     aead_decrypt a ct ad = Ok pt /\ parse_keyset pt = Some (kh_keyset h) /\
     describes (kh_keyset h) info /\
     write_with_associated_data h (json_keyset_writer rt) a rnd ad st = (Ok tt, st ++ t) /\
     json_text rt v t /\ no_repeated_names v /\
     shows_encrypted_keyset padded_base64 v (mk_encrypted_keyset ct (Some info))) \/
  ((forall ct pt, aead_encrypt a rnd (serialize_keyset (kh_keyset h)) ad = Ok ct ->
      aead_decrypt a ct ad = Ok pt -> parse_keyset pt <> Some (kh_keyset h)) /\
   exists e, write_with_associated_data h (json_keyset_writer rt) a rnd ad st = (Err e, st) /\
     (tink_total (aead_encrypt a rnd (serialize_keyset (kh_keyset h)) ad) ->
      (forall ct, tink_total (aead_decrypt a ct ad)) -> is_tink_error e = true)).
Proof.
  intros rt h a rnd ad st Hl.
  destruct (write_encrypted_spec _ h (json_keyset_writer rt) a rnd ad st)
    as [(ct & pt & info & H1 & H2 & H3 & H4 & H5) | H]; [left | right; exact H].
  assert (Hw : wf_encrypted_keyset (mk_encrypted_keyset ct (Some info))).
  { intros i Hi. cbn [ek_keyset_info] in Hi. apply some_inj in Hi. subst i.
    eapply describes_wf; [| exact H4]. eapply parse_keyset_wf. exact H3. }
  destruct (json_writer_writes_encrypted rt _ st Hl Hw) as (v & t & E & Ht & Hn & Hs).
  exists ct, pt, info, v, t. rewrite H5. auto 10.
Qed.

(** C15: JSON round trip of encrypted keysets. *)
Theorem encrypted_json_round_trip : forall rt pb h a rnd ad st st', python_digit_limit rt ->
  valid_keyset (kh_keyset h) ->
  (forall pt ct, aead_encrypt a rnd pt ad = Ok ct -> ct <> []) ->
  write_with_associated_data h (json_keyset_writer rt) a rnd ad st = (Ok tt, st') ->
  exists x, st' = st ++ x /\
    read_with_associated_data (json_keyset_reader rt pb x) a ad = Ok h.
Proof.
  intros rt pb h a rnd ad st st' Hl Hv Hne H.
  destruct (json_write_encrypted_spec rt h a rnd ad st Hl)
    as [(ct & pt & info & v & t & H1 & H2 & H3 & H4 & H5 & H6 & H7 & H8) | (_ & e & H4 & _)]; [| congruence].
  rewrite H5 in H. injection H as <-. exists t. split; [reflexivity |].
  apply read_with_associated_data_ok. exists (mk_encrypted_keyset ct (Some info)), pt, (kh_keyset h).
  cbn [ek_encrypted_keyset]. split; [| split; [| split; [| split; [| split]]]]; eauto.
  - eapply json_reader_reads_encrypted; eauto.
    + eapply shows_encrypted_keyset_mono; [exact padded_any | exact H8].
    + intros i Hi. cbn [ek_keyset_info] in Hi. apply some_inj in Hi. subst i.
      eapply describes_wf; [| exact H4]. eapply parse_keyset_wf. exact H3.
  - destruct h; reflexivity.
Qed.
(** The same for the functions of json_proto_keyset_format. *)
Theorem json_encrypted_format_round_trip : forall rt pb h a rnd ad x, python_digit_limit rt ->
  valid_keyset (kh_keyset h) ->
  (forall pt ct, aead_encrypt a rnd pt ad = Ok ct -> ct <> []) ->
  json_proto_serialize_encrypted rt h a rnd ad = Ok x ->
  json_proto_parse_encrypted rt pb x a ad = Ok h.
Proof.
  intros rt pb h a rnd ad x Hl Hv Hne H. unfold json_proto_serialize_encrypted, text_value in H.
  destruct (write_with_associated_data h (json_keyset_writer rt) a rnd ad []) as [[[] | e] st] eqn:E; [| discriminate].
  apply ok_inj in H. subst st.
  destruct (encrypted_json_round_trip rt pb h a rnd ad [] x Hl Hv Hne E) as (y & -> & G). exact G.
Qed.

(** C17 *)
Theorem json_serialize_without_secret_spec : forall rt h, python_digit_limit rt ->
  (has_secret (kh_keyset h) -> raises_tink (json_proto_serialize_without_secret rt h)) /\
  (~ has_secret (kh_keyset h) -> wf_keyset (kh_keyset h) ->
   exists v t, json_proto_serialize_without_secret rt h = Ok t /\ json_text rt v t /\
     no_repeated_names v /\ shows_keyset padded_base64 v (kh_keyset h)).
Proof.
  intros rt h Hl. unfold json_proto_serialize_without_secret.
  destruct (write_no_secret_spec _ h (json_keyset_writer rt) []) as [H1 H2]. split.
  - intros Hs. destruct (H1 Hs) as (e & -> & Ht). exists e. auto.
  - intros Hs Hw. rewrite (H2 Hs). destruct (json_writer_writes rt (kh_keyset h) [] Hl Hw) as (v & t & E & Ht & Hn & Hsh).
    exists v, t. rewrite E. auto.
Qed.
Theorem json_parse_without_secret_spec : forall rt pb x h,
  json_proto_parse_without_secret rt pb x = Ok h <->
  exists ks, kr_read (json_keyset_reader rt pb x) = Ok ks /\ ~ has_secret ks /\ valid_keyset ks /\
    h = mk_handle ks.
Proof. intros. unfold json_proto_parse_without_secret. apply read_no_secret_spec. Qed.
Theorem no_secret_json_round_trip : forall rt pb h, python_digit_limit rt ->
  valid_keyset (kh_keyset h) -> wf_keyset (kh_keyset h) -> ~ has_secret (kh_keyset h) ->
  exists x, json_proto_serialize_without_secret rt h = Ok x /\
    json_proto_parse_without_secret rt pb x = Ok h.
Proof.
  intros rt pb h Hl Hv Hw Hn.
  destruct (proj2 (json_serialize_without_secret_spec rt h Hl) Hn Hw) as (v & t & E & Ht & Hnr & Hs).
  exists t. split; [exact E |]. apply json_parse_without_secret_spec. exists (kh_keyset h).
  split; [| destruct h; auto]. eapply json_reader_reads; eauto.
  eapply shows_keyset_mono; [exact padded_any | exact Hs].
Qed.

(** C18: the JSON form of an encrypted keyset depends only on the ciphertext and on what
    keyset_info shows. *)
Theorem json_encrypted_output_no_key_material : forall rt h1 h2 a1 a2 rnd1 rnd2 ad1 ad2 ct,
  same_public_view (kh_keyset h1) (kh_keyset h2) ->
  aead_encrypt a1 rnd1 (serialize_keyset (kh_keyset h1)) ad1 = Ok ct ->
  aead_encrypt a2 rnd2 (serialize_keyset (kh_keyset h2)) ad2 = Ok ct ->
  forall st st1 st2,
  write_with_associated_data h1 (json_keyset_writer rt) a1 rnd1 ad1 st = (Ok tt, st1) ->
  write_with_associated_data h2 (json_keyset_writer rt) a2 rnd2 ad2 st = (Ok tt, st2) ->
  st1 = st2.
Proof.
  intros rt h1 h2 a1 a2 rnd1 rnd2 ad1 ad2 ct Hv E1 E2 st st1 st2 W1 W2.
  apply keyset_info_no_key_material in Hv. unfold handle_keyset_info in Hv.
  unfold write_with_associated_data in W1, W2.
  destruct (encrypt_keyset (kh_keyset h1) a1 rnd1 ad1) as [e1 |] eqn:F1; [| congruence].
  destruct (encrypt_keyset (kh_keyset h2) a2 rnd2 ad2) as [e2 |] eqn:F2; [| congruence].
  apply encrypt_keyset_ok in F1. destruct F1 as (c1 & p1 & G1 & _ & _ & ->).
  apply encrypt_keyset_ok in F2. destruct F2 as (c2 & p2 & G2 & _ & _ & ->).
  assert (c1 = ct) by congruence. assert (c2 = ct) by congruence. subst c1 c2.
  rewrite Hv in W1. congruence.
Qed.

(** C19 *)
Theorem json_token_required : forall rt pb t, t <> SecretKeyAccessToken ->
  (forall h, raises_tink (json_proto_serialize rt h t)) /\
  (forall x h, json_proto_parse rt pb x t <> Ok h) /\
  (forall x, tink_total (kr_read (json_keyset_reader rt pb x)) -> raises_tink (json_proto_parse rt pb x t)) /\
  (forall h1 h2, json_proto_serialize rt h1 t = json_proto_serialize rt h2 t).
Proof.
  intros rt pb t Ht.
  assert (Hf : forall ks, from_proto_keyset ks t = Err (TinkError "no secret access.")).
  { intros ks. destruct t; [congruence | |]; reflexivity. }
  assert (Hp : forall h, to_proto_keyset h t = Err (TinkError "no secret access.")).
  { intros ks. destruct t; [congruence | |]; reflexivity. }
  unfold json_proto_serialize, json_proto_parse. repeat split.
  - intros h. rewrite Hp. eexists; split; reflexivity.
  - intros x h. destruct (kr_read (json_keyset_reader rt pb x)); cbn [bind]; [rewrite Hf |]; discriminate.
  - intros x Hx. destruct (kr_read (json_keyset_reader rt pb x)) as [ks | e]; cbn [bind].
    + rewrite Hf. eexists; split; reflexivity.
    + exists e. auto.
  - intros h1 h2. rewrite !Hp. reflexivity.
Qed.
Theorem json_token_round_trip : forall rt pb h, python_digit_limit rt ->
  valid_keyset (kh_keyset h) -> wf_keyset (kh_keyset h) ->
  exists x, json_proto_serialize rt h SecretKeyAccessToken = Ok x /\
    json_proto_parse rt pb x SecretKeyAccessToken = Ok h.
Proof.
  intros rt pb h Hl Hv Hw. destruct (json_keyset_round_trip rt pb (kh_keyset h) [] Hl Hw) as (t & E & R).
  exists t. unfold json_proto_serialize, json_proto_parse.
  destruct token_accepted as (T1 & T2 & _). rewrite T2. cbn [bind]. rewrite E, R. split; [reflexivity |].
  cbn [bind]. rewrite T1. apply create_ok. destruct h; auto.
Qed.
(** Parsing accepts exactly what the reader reads as a valid keyset. *)
Theorem json_parse_spec : forall rt pb x h,
  json_proto_parse rt pb x SecretKeyAccessToken = Ok h <->
  exists ks, kr_read (json_keyset_reader rt pb x) = Ok ks /\ valid_keyset ks /\ h = mk_handle ks.
Proof.
  intros rt pb x h. unfold json_proto_parse. destruct token_accepted as (T1 & _).
  destruct (kr_read (json_keyset_reader rt pb x)) as [ks | e]; cbn [bind].
  - rewrite T1, create_ok. split.
    + intros [Hv ->]. exists ks. auto.
    + intros (k & E & Hv & ->). apply ok_inj in E. subst. auto.
  - split; [discriminate |]. intros (ks & E & _). discriminate.
Qed.

(** ** C22: errors *)

Definition field_error (e : exn) : Prop :=
  e = ParseError \/ (exists m, e = ValueError m) \/ (exists m, e = TypeError m) \/ e = UnicodeError.

Lemma field_errors_parse : forall A (r : result A) e,
  (forall e', r = Err e' -> field_error e') -> field_errors r = Err e -> e = ParseError.
Proof.
  intros A [x | e'] e H E; [discriminate |].
  destruct (H e' eq_refl) as [-> | [[m ->] | [[m ->] | ->]]]; cbn [field_errors] in E; congruence.
Qed.

Lemma conv_members_err : forall M (fields : list (field_conv M)),
  (forall f v m e, In f fields -> finite_json v -> fc_set f v m = Err e -> field_error e) ->
  forall l m e, finite_json (JDict l) -> conv_members fields l m = Err e -> e = ParseError.
Proof.
  intros M fields Hf l. induction l as [| [name v] l IH]; intros m e Hfin H; [discriminate |].
  cbn [conv_members] in H.
  assert (Hv : finite_json v).
  { intros b Hb. apply (Hfin b). apply within_dict. right. exists name, v. split; [left; reflexivity | exact Hb]. }
  assert (Hl : finite_json (JDict l)).
  { intros b Hb. apply (Hfin b). apply within_dict. apply within_dict in Hb.
    destruct Hb as [Hb | (k & w & Hi & Hb)]; [discriminate | right]. exists k, w. split; [right; exact Hi | exact Hb]. }
  apply bind_err in H. destruct H as [H | (m' & _ & H)]; [| eapply IH; eassumption].
  destruct (find_field fields name) as [f |] eqn:Ef; [| congruence].
  assert (Hi : In f fields).
  { unfold find_field in Ef.
    destruct (find (fun f => str_eqb name (ulit (fc_json_name f))) fields) as [g |] eqn:Eg.
    - apply some_inj in Ef. subst g. apply find_some in Eg. apply Eg.
    - apply find_some in Ef. apply Ef. }
  assert (G : field_errors (fc_set f v m) = Err e -> e = ParseError).
  { apply field_errors_parse. intros e' He. exact (Hf f v m e' Hi Hv He). }
  destruct v; try (exact (G H)). discriminate.
Qed.
Lemma conv_message_err : forall M (fields : list (field_conv M)),
  (forall f v m e, In f fields -> finite_json v -> fc_set f v m = Err e -> field_error e) ->
  forall v m e, finite_json v -> conv_message fields v m = Err e -> field_error e.
Proof.
  intros M fields Hf v m e Hfin H. destruct v as [| | | | [| c s] | [| i l] | l]; cbn [conv_message] in H; try discriminate;
    try (injection H as <-); try (left; reflexivity); try (right; right; left; eexists; reflexivity).
  left. eapply conv_members_err; eassumption.
Qed.

Lemma set_uint32_err : forall z e, set_uint32 z = Err e -> field_error e.
Proof.
  intros z e H. unfold set_uint32 in H. destruct (_ && _); [discriminate |]. injection H as <-.
  right. left. eexists. reflexivity.
Qed.
Lemma set_enum_err : forall z e, set_enum z = Err e -> field_error e.
Proof.
  intros z e H. unfold set_enum in H. destruct (_ && _); [discriminate |]. injection H as <-.
  right. left. eexists. reflexivity.
Qed.
Ltac field_error_tac :=
  first [discriminate | eapply set_uint32_err; eassumption | eapply set_enum_err; eassumption
        | match goal with H : Err _ = Err _ |- _ => injection H as <- end;
          first [left; reflexivity | right; left; eexists; reflexivity
                | right; right; left; eexists; reflexivity | right; right; right; reflexivity]].
Lemma conv_uint32_err : forall pb v e, conv_uint32 pb v = Err e -> field_error e.
Proof.
  intros pb v e H. unfold conv_uint32 in H.
  destruct v as [| | | f | x | |]; try field_error_tac.
  - destruct f as [| | | z]; try field_error_tac. destruct (float_is_integer z); field_error_tac.
  - destruct (existsb _ x); [field_error_tac |]. destruct (pb_int_of_str pb x); field_error_tac.
Qed.
Lemma conv_enum_err : forall pb names v e, finite_json v -> conv_enum pb names v = Err e -> field_error e.
Proof.
  intros pb names v e Hf H. unfold conv_enum in H.
  destruct v as [| | | f | x | |]; try field_error_tac.
  - destruct f as [| b | |]; try field_error_tac. exfalso. apply (Hf b). apply W_here.
  - destruct (dict_get _ _ _); [discriminate |]. destruct (pb_int_of_str pb x); field_error_tac.
Qed.
Lemma conv_string_err : forall v e, conv_string v = Err e -> field_error e.
Proof. intros v e H. unfold conv_string in H. destruct v as [| | | | x | |]; try field_error_tac. destruct (utf8_encode x); field_error_tac. Qed.
Lemma conv_bytes_err : forall v e, conv_bytes v = Err e -> field_error e.
Proof.
  intros v e H. unfold conv_bytes in H. destruct v as [| | | | x | |]; try field_error_tac.
  destruct (utf8_encode x) as [y |]; [| field_error_tac].
  destruct (urlsafe_b64decode _); field_error_tac.
Qed.
Lemma map_result_err : forall A B (f : A -> result B) l e, map_result f l = Err e -> exists x, In x l /\ f x = Err e.
Proof.
  intros A B f l. induction l as [| x l IH]; intros e H; [discriminate |]. cbn [map_result] in H.
  apply bind_err in H. destruct H as [H | (y & _ & H)]; [exists x; split; [left; reflexivity | exact H] |].
  apply bind_err in H. destruct H as [H | (y' & _ & H)]; [| discriminate].
  destruct (IH e H) as (z & Hz & Ez). exists z. split; [right; exact Hz | exact Ez].
Qed.
Lemma conv_repeated_err : forall M (conv : json -> M -> result M) init v e,
  (forall i e', finite_json i -> conv i init = Err e' -> field_error e') -> finite_json v ->
  conv_repeated conv init v = Err e -> field_error e.
Proof.
  intros M conv init v e Hc Hf H. destruct v as [| | | | | l |]; cbn [conv_repeated] in H; try field_error_tac.
  apply map_result_err in H. destruct H as (i & Hi & H).
  assert (Hfi : finite_json i). { intros b Hb. apply (Hf b). apply within_list. right. eauto. }
  destruct i; try (eapply Hc; eassumption). field_error_tac.
Qed.

Ltac fields_tac Hi :=
  repeat (destruct Hi as [<- | Hi];
    [match goal with H : fc_set _ _ _ = Err _ |- _ => cbn [fc_set] in H; apply bind_err in H;
       destruct H as [H | (? & _ & H)]; [| discriminate] end |]); [.. | destruct Hi].
Lemma key_data_fields_err : forall pb f v m e, In f (key_data_fields pb) -> finite_json v ->
  fc_set f v m = Err e -> field_error e.
Proof.
  intros pb f v m e Hi Hf H. unfold key_data_fields in Hi. cbn [In] in Hi. fields_tac Hi.
  - eapply conv_string_err; eassumption.
  - eapply conv_bytes_err; eassumption.
  - eapply conv_enum_err; eassumption.
Qed.
Lemma key_fields_err : forall pb f v m e, In f (key_fields pb) -> finite_json v ->
  fc_set f v m = Err e -> field_error e.
Proof.
  intros pb f v m e Hi Hf H. unfold key_fields in Hi. cbn [In] in Hi. fields_tac Hi.
  - eapply conv_message_err; [apply key_data_fields_err | eassumption | eassumption].
  - eapply conv_enum_err; eassumption.
  - eapply conv_uint32_err; eassumption.
  - eapply conv_enum_err; eassumption.
Qed.
Lemma keyset_fields_err : forall pb f v m e, In f (keyset_fields pb) -> finite_json v ->
  fc_set f v m = Err e -> field_error e.
Proof.
  intros pb f v m e Hi Hf H. unfold keyset_fields in Hi. cbn [In] in Hi. fields_tac Hi.
  - eapply conv_uint32_err; eassumption.
  - eapply conv_repeated_err; [| exact Hf | exact H]. intros i e' Hfi. apply conv_message_err; [apply key_fields_err | exact Hfi].
Qed.
Lemma key_info_fields_err : forall pb f v m e, In f (key_info_fields pb) -> finite_json v ->
  fc_set f v m = Err e -> field_error e.
Proof.
  intros pb f v m e Hi Hf H. unfold key_info_fields in Hi. cbn [In] in Hi. fields_tac Hi.
  - eapply conv_string_err; eassumption.
  - eapply conv_enum_err; eassumption.
  - eapply conv_uint32_err; eassumption.
  - eapply conv_enum_err; eassumption.
Qed.
Lemma keyset_info_fields_err : forall pb f v m e, In f (keyset_info_fields pb) -> finite_json v ->
  fc_set f v m = Err e -> field_error e.
Proof.
  intros pb f v m e Hi Hf H. unfold keyset_info_fields in Hi. cbn [In] in Hi. fields_tac Hi.
  - eapply conv_uint32_err; eassumption.
  - eapply conv_repeated_err; [| exact Hf | exact H]. intros i e' Hfi. apply conv_message_err; [apply key_info_fields_err | exact Hfi].
Qed.
Lemma encrypted_keyset_fields_err : forall pb f v m e, In f (encrypted_keyset_fields pb) -> finite_json v ->
  fc_set f v m = Err e -> field_error e.
Proof.
  intros pb f v m e Hi Hf H. unfold encrypted_keyset_fields in Hi. cbn [In] in Hi. fields_tac Hi.
  - eapply conv_bytes_err; eassumption.
  - eapply conv_message_err; [apply keyset_info_fields_err | eassumption | eassumption].
Qed.

(** With a protobuf runtime that turns every failure into a ParseError. *)
Lemma pb_parse_catch_all : forall M rt pb (fields : list (field_conv M)) init x,
  pb_catch_all pb = true -> tink_total (parse_error_to_tink (pb_parse rt pb fields init x)).
Proof.
  intros M rt pb fields init x H. unfold pb_parse. rewrite H.
  destruct (loads rt duplicate_checker x) as [js | e]; [| reflexivity].
  destruct (conv_message fields js init); [exact I | reflexivity].
Qed.
Theorem json_reader_total : forall rt pb x, pb_catch_all pb = true ->
  tink_total (kr_read (json_keyset_reader rt pb x)) /\
  tink_total (kr_read_encrypted (json_keyset_reader rt pb x)).
Proof. intros rt pb x H. split; apply pb_parse_catch_all; exact H. Qed.

(** With the others, for texts that are not JSON at all, and for JSON objects, lists and
    strings without infinite numbers. *)
Lemma pb_parse_err : forall M rt pb (fields : list (field_conv M)) init x,
  (forall f v m e, In f fields -> finite_json v -> fc_set f v m = Err e -> field_error e) ->
  (forall v, json_text rt v x -> finite_json v /\
     match v with JDict _ | JList _ | JStr _ => True | _ => False end) ->
  tink_total (parse_error_to_tink (pb_parse rt pb fields init x)).
Proof.
  intros M rt pb fields init x Hf Hx. unfold pb_parse.
  destruct (loads rt duplicate_checker x) as [js | e] eqn:El; [| reflexivity].
  apply loads_checked in El. destruct El as [Ht _]. destruct (Hx js Ht) as [Hfin Htop].
  destruct (conv_message fields js init) as [m | e] eqn:E; [exact I |].
  destruct (pb_catch_all pb); [reflexivity |].
  assert (e = ParseError) as ->; [| reflexivity].
  destruct js as [| | | | [| c s] | [| i l] | l]; try destruct Htop; cbn [conv_message] in E; try congruence.
  eapply conv_members_err; eassumption.
Qed.
Theorem json_reader_total_old : forall rt pb x,
  (forall v, json_text rt v x -> finite_json v /\
     match v with JDict _ | JList _ | JStr _ => True | _ => False end) ->
  tink_total (kr_read (json_keyset_reader rt pb x)) /\
  tink_total (kr_read_encrypted (json_keyset_reader rt pb x)).
Proof.
  intros rt pb x H. split; (apply pb_parse_err; [| exact H]).
  - apply keyset_fields_err.
  - apply encrypted_keyset_fields_err.
Qed.

Theorem json_parsers_total : forall rt pb x,
  tink_total (kr_read (json_keyset_reader rt pb x)) ->
  tink_total (kr_read_encrypted (json_keyset_reader rt pb x)) ->
  (forall t, tink_total (json_proto_parse rt pb x t)) /\
  tink_total (json_proto_parse_without_secret rt pb x) /\
  tink_total (cleartext_read (json_keyset_reader rt pb x)) /\
  (forall a ad, (forall ct, tink_total (aead_decrypt a ct ad)) ->
     tink_total (json_proto_parse_encrypted rt pb x a ad)).
Proof.
  intros rt pb x Hr He.
  assert (Hc : forall ks, tink_total (create ks)).
  { intros ks. destruct (create ks) eqn:E; [exact I |]. eapply create_err; eauto. }
  split; [| split; [| split]].
  - intros t. unfold json_proto_parse. destruct (kr_read (json_keyset_reader rt pb x)); cbn [bind]; [| exact Hr].
    unfold from_proto_keyset. destruct (negb _); [reflexivity | apply Hc].
  - unfold json_proto_parse_without_secret, read_no_secret_keyset_handle.
    destruct (read_no_secret (json_keyset_reader rt pb x)) eqn:E; [exact I |].
    eapply read_no_secret_err; eauto.
  - unfold cleartext_read. destruct (kr_read (json_keyset_reader rt pb x)); cbn [bind]; [apply Hc | exact Hr].
  - intros a ad Ha. unfold json_proto_parse_encrypted, read_keyset_handle_with_associated_data.
    destruct (read_with_associated_data (json_keyset_reader rt pb x) a ad) eqn:E; [exact I |].
    eapply read_with_associated_data_err; eauto.
Qed.
Theorem json_parsers_total_new : forall rt pb x, pb_catch_all pb = true ->
  (forall t, tink_total (json_proto_parse rt pb x t)) /\
  tink_total (json_proto_parse_without_secret rt pb x) /\
  tink_total (cleartext_read (json_keyset_reader rt pb x)) /\
  (forall a ad, (forall ct, tink_total (aead_decrypt a ct ad)) ->
     tink_total (json_proto_parse_encrypted rt pb x a ad)).
Proof. intros rt pb x H. destruct (json_reader_total rt pb x H). apply json_parsers_total; assumption. Qed.

(** The property fails with an older runtime: the text [null] is a TypeError. *)
Theorem json_reader_total_old_refuted : forall rt pb, pb_catch_all pb = false ->
  exists x, ~ tink_total (json_proto_parse_without_secret rt pb x) /\
    ~ tink_total (kr_read_encrypted (json_keyset_reader rt pb x)).
Proof.
  intros rt pb H. exists (ulit "null").
  assert (E : loads rt duplicate_checker (ulit "null") = Ok JNull).
  { apply loads_checked. split.
    - exists [], (ulit "null"), []. split; [constructor |]. split; [constructor |]. split; [constructor | reflexivity].
    - intros l Hl. apply within_atom in Hl; [discriminate | exact I]. }
  assert (P : forall M (fields : list (field_conv M)) init,
    pb_parse rt pb fields init (ulit "null") = Err (TypeError "object is not iterable")).
  { intros M fields init. unfold pb_parse. rewrite E. cbn [conv_message]. rewrite H. reflexivity. }
  unfold json_proto_parse_without_secret, read_no_secret_keyset_handle, read_no_secret, json_keyset_reader.
  cbn [kr_read kr_read_encrypted]. rewrite !P.
  cbn [parse_error_to_tink bind tink_total is_tink_error]. split; discriminate.
Qed.

(** ** C59: strictness *)

Lemma pb_parse_strict : forall M rt pb (fields : list (field_conv M)) init x m,
  parse_error_to_tink (pb_parse rt pb fields init x) = Ok m ->
  exists v, json_text rt v x /\ no_repeated_names v /\ conv_message fields v init = Ok m.
Proof.
  intros M rt pb fields init x m H. unfold pb_parse in H.
  destruct (loads rt duplicate_checker x) as [js | e] eqn:El; [| discriminate].
  apply loads_checked in El. destruct El as [Ht Hn]. exists js. split; [exact Ht |]. split; [exact Hn |].
  destruct (conv_message fields js init) as [m' | e]; [exact H |].
  destruct (pb_catch_all pb); [discriminate |]. destruct e; discriminate.
Qed.

Lemma find_field_some : forall M (fields : list (field_conv M)) name f, find_field fields name = Some f ->
  In f fields /\ (name = ulit (fc_json_name f) \/ name = ulit (fc_name f)).
Proof.
  intros M fields name f H. unfold find_field in H.
  destruct (find (fun f => str_eqb name (ulit (fc_json_name f))) fields) as [g |] eqn:Eg.
  - apply some_inj in H. subst g. apply find_some in Eg. destruct Eg as [Hi E]. apply str_eqb_spec in E. auto.
  - apply find_some in H. destruct H as [Hi E]. apply str_eqb_spec in E. auto.
Qed.
(** Every member converts. *)
Lemma conv_members_each : forall M (fields : list (field_conv M)) l m m', conv_members fields l m = Ok m' ->
  forall name v, In (name, v) l -> exists f m1, In f fields /\
    (name = ulit (fc_json_name f) \/ name = ulit (fc_name f)) /\
    (v = JNull \/ exists m2, fc_set f v m1 = Ok m2).
Proof.
  intros M fields l. induction l as [| [n w] l IH]; intros m m' H name v Hi; [destruct Hi |].
  cbn [conv_members] in H. apply bind_ok in H. destruct H as (m1 & H1 & H2).
  destruct Hi as [Hi | Hi]; [injection Hi as -> -> | eapply IH; eassumption].
  destruct (find_field fields name) as [f |] eqn:Ef; [| discriminate].
  apply find_field_some in Ef. destruct Ef as [Hf Hn]. exists f, m. split; [exact Hf |]. split; [exact Hn |].
  assert (G : field_errors (fc_set f v m) = Ok m1 -> exists m2, fc_set f v m = Ok m2).
  { destruct (fc_set f v m) as [m2 | e]; [eauto |]. destruct e; discriminate. }
  destruct v; auto.
Qed.
Lemma conv_message_strict : forall M (fields : list (field_conv M)) v m m' names (inner : pystr -> json -> Prop),
  (forall f, In f fields -> In (fc_json_name f) names /\ In (fc_name f) names) ->
  (forall f n w m1 m2, In f fields -> (n = ulit (fc_json_name f) \/ n = ulit (fc_name f)) ->
     fc_set f w m1 = Ok m2 -> inner n w) ->
  (forall n, inner n JNull) ->
  conv_message fields v m = Ok m' -> strict_object names inner v.
Proof.
  intros M fields v m m' names inner Hn Hi H0 H. unfold strict_object.
  destruct v as [| | | | [| c s] | [| i l] | l]; cbn [conv_message] in H; try discriminate; auto.
  right. right. exists l. split; [reflexivity |]. pose proof (conv_members_each _ _ _ _ _ H) as G. split.
  - intros x Hx. apply in_map_iff in Hx. destruct Hx as ([n w] & <- & Hx).
    destruct (G n w Hx) as (f & m1 & Hf & [-> | ->] & _);
      [exists (fc_json_name f) | exists (fc_name f)]; (split; [apply Hn; exact Hf | reflexivity]).
  - intros n w Hx. destruct (G n w Hx) as (f & m1 & Hf & E & [-> | (m2 & Hs)]); [apply H0 | eapply Hi; eassumption].
Qed.
Ltac names_tac :=
  let f := fresh in let H := fresh in intros f H; cbn [In] in H;
  repeat (destruct H as [<- | H]; [cbn; tauto |]); destruct H.

Lemma strict_key_data_ok : forall pb v m m', conv_message (key_data_fields pb) v m = Ok m' -> strict_key_data v.
Proof.
  intros pb v m m'. apply conv_message_strict; [unfold key_data_fields; names_tac | |]; auto.
Qed.
Lemma strict_key_ok : forall pb v m m', conv_message (key_fields pb) v m = Ok m' -> strict_key v.
Proof.
  intros pb v m m'. apply conv_message_strict; [unfold key_fields; names_tac | | auto].
  intros f n w m1 m2 Hf Hn Hs Hk. right. unfold key_fields in Hf. cbn [In] in Hf.
  destruct Hf as [<- | Hf].
  - cbn [fc_set] in Hs. apply bind_ok in Hs. destruct Hs as (d & Hs & _). eapply strict_key_data_ok; exact Hs.
  - exfalso. repeat (destruct Hf as [<- | Hf];
      [cbn [fc_json_name fc_name] in Hn; destruct Hn as [-> | ->]; destruct Hk as [Hk | Hk]; revert Hk; ulit_neq |]).
    destruct Hf.
Qed.
Lemma map_result_each : forall A B (f : A -> result B) l r, map_result f l = Ok r -> forall x, In x l -> exists y, f x = Ok y.
Proof.
  intros A B f l. induction l as [| x l IH]; intros r H y Hy; [destruct Hy |]. cbn [map_result] in H.
  apply bind_ok in H. destruct H as (z & H1 & H2). apply bind_ok in H2. destruct H2 as (r' & H2 & _).
  destruct Hy as [<- | Hy]; eauto.
Qed.
Lemma strict_keyset_ok : forall pb v m m', conv_message (keyset_fields pb) v m = Ok m' -> strict_keyset v.
Proof.
  intros pb v m m'. apply conv_message_strict; [unfold keyset_fields; names_tac | | auto].
  intros f n w m1 m2 Hf Hn Hs Hk. right. unfold keyset_fields in Hf. cbn [In] in Hf.
  destruct Hf as [<- | [<- | []]].
  - exfalso. cbn [fc_json_name fc_name] in Hn. destruct Hn as [-> | ->]; revert Hk; ulit_neq.
  - cbn [fc_set] in Hs. apply bind_ok in Hs. destruct Hs as (d & Hs & _).
    destruct w as [| | | | | vs |]; try discriminate. exists vs. split; [reflexivity |]. cbn [conv_repeated] in Hs.
    apply Forall_forall. intros i Hi. destruct (map_result_each _ _ _ _ _ Hs i Hi) as (y & Hy).
    destruct i; try discriminate; eapply strict_key_ok; exact Hy.
Qed.
Theorem json_reader_strict : forall rt pb x ks, kr_read (json_keyset_reader rt pb x) = Ok ks ->
  exists v, json_text rt v x /\ no_repeated_names v /\ strict_keyset v.
Proof.
  intros rt pb x ks H. cbn [json_keyset_reader kr_read] in H. apply pb_parse_strict in H.
  destruct H as (v & Ht & Hn & Hc). exists v. split; [exact Ht |]. split; [exact Hn |]. eapply strict_keyset_ok; exact Hc.
Qed.

(** What is read is representable: it can be written again. *)
Lemma conv_members_inv : forall M (P : M -> Prop) (fields : list (field_conv M)),
  (forall f m, In f fields -> P m -> P (fc_clear f m)) ->
  (forall f v m m', In f fields -> P m -> fc_set f v m = Ok m' -> P m') ->
  forall l m m', P m -> conv_members fields l m = Ok m' -> P m'.
Proof.
  intros M P fields Hc Hs l. induction l as [| [n w] l IH]; intros m m' Hm H; [apply ok_inj in H; subst; exact Hm |].
  cbn [conv_members] in H. apply bind_ok in H. destruct H as (m1 & H1 & H2).
  eapply IH; [| exact H2]. destruct (find_field fields n) as [f |] eqn:Ef; [| discriminate].
  apply find_field_some in Ef. destruct Ef as [Hf _].
  assert (G : field_errors (fc_set f w m) = Ok m1 -> P m1).
  { destruct (fc_set f w m) as [m2 | e] eqn:E2; [| destruct e; discriminate].
    intros E. apply ok_inj in E. subst m2. eapply Hs; eassumption. }
  destruct w; auto. apply ok_inj in H1. subst m1. apply Hc; assumption.
Qed.
Lemma conv_message_inv : forall M (P : M -> Prop) (fields : list (field_conv M)),
  (forall f m, In f fields -> P m -> P (fc_clear f m)) ->
  (forall f v m m', In f fields -> P m -> fc_set f v m = Ok m' -> P m') ->
  forall v m m', P m -> conv_message fields v m = Ok m' -> P m'.
Proof.
  intros M P fields Hc Hs v m m' Hm H.
  destruct v as [| | | | [| c s] | [| i l] | l]; cbn [conv_message] in H; try discriminate; try (apply ok_inj in H; subst; exact Hm).
  eapply conv_members_inv; eassumption.
Qed.
Lemma set_uint32_ok : forall z n, set_uint32 z = Ok n -> uint32_range n.
Proof.
  intros z n H. unfold set_uint32 in H. destruct (_ && _) eqn:E; [| discriminate]. apply ok_inj in H. subst n.
  apply andb_true_iff in E. rewrite Z.leb_le, Z.ltb_lt in E. unfold uint32_range.
  change (2 ^ 32)%N with 4294967296%N. lia.
Qed.
Lemma set_enum_ok : forall z n, set_enum z = Ok n -> int32_range n.
Proof.
  intros z n H. unfold set_enum in H. destruct (_ && _) eqn:E; [| discriminate]. apply ok_inj in H. subst n.
  apply andb_true_iff in E. rewrite Z.leb_le, Z.ltb_lt in E. unfold int32_range.
  change (2 ^ 31)%Z with 2147483648%Z. lia.
Qed.
Lemma conv_uint32_range : forall pb v n, conv_uint32 pb v = Ok n -> uint32_range n.
Proof.
  intros pb v n H. unfold conv_uint32 in H.
  destruct v as [| | | f | x | |]; try discriminate; try (eapply set_uint32_ok; eassumption).
  - destruct f as [| | | z]; try discriminate; try (eapply set_uint32_ok; eassumption).
    destruct (float_is_integer z); [eapply set_uint32_ok; eassumption | discriminate].
  - destruct (existsb _ x); [discriminate |]. destruct (pb_int_of_str pb x); [eapply set_uint32_ok; eassumption | discriminate].
Qed.
Lemma conv_enum_range : forall pb t v n, good_table t -> conv_enum pb (names_of t) v = Ok n -> int32_range n.
Proof.
  intros pb t v n Ht H. unfold conv_enum in H.
  destruct v as [| | | f | x | |]; try discriminate; try (eapply set_enum_ok; eassumption).
  - destruct f; try discriminate; eapply set_enum_ok; eassumption.
  - destruct (dict_get str_eqb x (names_of t)) as [z |] eqn:E.
    + apply ok_inj in H. subst z. revert E. clear - Ht.
      assert (G : Forall (fun p => int32_range (snd p)) (names_of t)).
      { destruct Ht as [-> | [-> | ->]]; repeat constructor; cbn; discriminate. }
      induction G as [| [k z] l Hz G IH]; cbn [dict_get]; [discriminate |].
      destruct (str_eqb x k); [intros E; apply some_inj in E; subst; exact Hz | exact IH].
    + destruct (pb_int_of_str pb x); [eapply set_enum_ok; eassumption | discriminate].
Qed.

Lemma conv_string_valid : forall v x, conv_string v = Ok x -> valid_text x.
Proof.
  intros v x H. unfold conv_string in H. destruct v as [| | | | y | |]; try discriminate.
  destruct (utf8_encode y) as [e |] eqn:E; [| discriminate]. apply ok_inj in H. subst y.
  apply valid_text_scalar, utf8_encode_some. eauto.
Qed.
Lemma zero_int32 : int32_range 0. Proof. split; discriminate || reflexivity. Qed.
Lemma zero_uint32 : uint32_range 0. Proof. reflexivity. Qed.
Ltac inv_fields Hf :=
  cbn [In] in Hf;
  repeat (destruct Hf as [<- | Hf]; [cbn [fc_clear fc_set] in * |]); [.. | destruct Hf].
Ltac set_inv H := apply bind_ok in H; destruct H as (? & ? & H); apply ok_inj in H; subst.

Lemma conv_key_data_wf : forall pb v m m', wf_key_data m -> conv_message (key_data_fields pb) v m = Ok m' -> wf_key_data m'.
Proof.
  intros pb. apply conv_message_inv.
  - intros f m Hf [H1 H2]. unfold key_data_fields in Hf. inv_fields Hf; split; cbn; auto using zero_int32.
    intros c [].
  - intros f v m m' Hf [H1 H2] H. unfold key_data_fields in Hf. inv_fields Hf; set_inv H; split; cbn; auto.
    + eapply conv_string_valid; eassumption.
    + eapply (conv_enum_range pb material_table); [right; right; reflexivity | eassumption].
Qed.
Lemma default_key_data_wf : wf_key_data default_key_data.
Proof. split; [intros c [] | exact zero_int32]. Qed.
Lemma conv_key_wf : forall pb v m m', wf_key m -> conv_message (key_fields pb) v m = Ok m' -> wf_key m'.
Proof.
  intros pb. apply conv_message_inv.
  - intros f m Hf (H1 & H2 & H3 & H4). unfold key_fields in Hf.
    inv_fields Hf; (split; [| split; [| split]]); cbn; auto using zero_int32, zero_uint32; discriminate.
  - intros f v m m' Hf (H1 & H2 & H3 & H4) H. unfold key_fields in Hf.
    inv_fields Hf; set_inv H; (split; [| split; [| split]]); cbn; auto.
    + intros d E. apply some_inj in E. subst d. eapply conv_key_data_wf; [| eassumption].
      unfold k_key_data. destruct (k_key_data_opt m) as [d |] eqn:Ed; [apply H1; reflexivity | apply default_key_data_wf].
    + eapply (conv_enum_range pb status_table); [left; reflexivity | eassumption].
    + eapply conv_uint32_range; eassumption.
    + eapply (conv_enum_range pb prefix_table); [right; left; reflexivity | eassumption].
Qed.
Lemma map_result_all : forall A B (P : B -> Prop) (f : A -> result B) l r, (forall x y, In x l -> f x = Ok y -> P y) ->
  map_result f l = Ok r -> forall y, In y r -> P y.
Proof.
  intros A B P f l. induction l as [| x l IH]; intros r Hp H y Hy; cbn [map_result] in H.
  - apply ok_inj in H. subst r. destruct Hy.
  - apply bind_ok in H. destruct H as (z & H1 & H2). apply bind_ok in H2. destruct H2 as (r' & H2 & H3).
    apply ok_inj in H3. subst r. destruct Hy as [<- | Hy].
    + eapply Hp; [left; reflexivity | exact H1].
    + eapply IH; [| exact H2 | exact Hy]. intros. eapply Hp; [right |]; eassumption.
Qed.
Lemma conv_repeated_all : forall M (P : M -> Prop) (conv : json -> M -> result M) init v r,
  P init -> (forall i m m', P m -> conv i m = Ok m' -> P m') ->
  conv_repeated conv init v = Ok r -> forall y, In y r -> P y.
Proof.
  intros M P conv init v r Hi Hc H. destruct v as [| | | | | l |]; try discriminate. cbn [conv_repeated] in H.
  eapply map_result_all; [| exact H]. intros x y _ Hx. destruct x; try discriminate; eapply Hc; eassumption.
Qed.
Lemma conv_keyset_wf : forall pb v m m', wf_keyset m -> conv_message (keyset_fields pb) v m = Ok m' -> wf_keyset m'.
Proof.
  intros pb. apply conv_message_inv.
  - intros f m Hf (H1 & H2). unfold keyset_fields in Hf.
    inv_fields Hf; split; cbn; auto using zero_uint32; intros ? [].
  - intros f v m m' Hf (H1 & H2) H. unfold keyset_fields in Hf.
    inv_fields Hf; set_inv H; split; cbn; auto.
    + eapply conv_uint32_range; eassumption.
    + eapply conv_repeated_all; [| | eassumption].
      * split; [discriminate | repeat split; discriminate || reflexivity].
      * apply conv_key_wf.
Qed.
Theorem json_reader_wf : forall rt pb x ks, kr_read (json_keyset_reader rt pb x) = Ok ks -> wf_keyset ks.
Proof.
  intros rt pb x ks H. cbn [json_keyset_reader kr_read] in H. apply pb_parse_strict in H.
  destruct H as (v & _ & _ & Hc). eapply conv_keyset_wf; [| exact Hc]. split; [reflexivity | intros ? []].
Qed.
(** Whatever was read can be written again, and is read back as the same keyset. *)
Theorem json_read_write_read : forall rt pb x ks st, python_digit_limit rt ->
  kr_read (json_keyset_reader rt pb x) = Ok ks ->
  exists t, kw_write (json_keyset_writer rt) ks st = (Ok tt, st ++ t) /\ kr_read (json_keyset_reader rt pb t) = Ok ks.
Proof. intros rt pb x ks st Hl H. apply json_keyset_round_trip; [exact Hl | eapply json_reader_wf; exact H]. Qed.
