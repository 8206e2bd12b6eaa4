(** Proofs for incomplete keyset files: the keyset readers on them. *)
From Coq Require Import Strings.Byte Strings.String List NArith ZArith Bool Lia.
From Verif Require Import M_Base M_Proto M_Utf8 M_Wire M_Prims M_KeysetHandle M_KeysetIO M_JwtTypes M_Json M_JsonKeyset
  S_Keyset S_Handle S_Json S_Wire S_JsonKeyset L_Base L_Wire L_Keyset L_Handle L_Json L_Json2 L_Json4 L_JsonKeyset L_JsonKeyset2 L_JsonKeyset3
  M_KeysetStream S_Torn L_Torn.
Import ListNotations.
Open Scope list_scope.
Open Scope N_scope.

(** ** Streams *)

Lemma prefix_cases : forall A (p x : list A), prefix_of p x -> p = x \/ strict_prefix p x.
Proof. intros A p x ([| c q] & ->); [left; symmetry; apply app_nil_r | right]. exists (c :: q). split; [discriminate | reflexivity]. Qed.

Lemma written_prefix : forall A St (io : out_stream A St) content data st,
  stores_prefixes io content -> content st = [] ->
  content (snd (write_and_flush io data st)) = data \/ strict_prefix (content (snd (write_and_flush io data st))) data.
Proof.
  intros A St io content data st [H1 H2] H0. apply prefix_cases. unfold write_and_flush.
  destruct (H1 data st) as (p & Hp & E). rewrite H0 in E.
  destruct (os_write io data st) as [[? | ?] st']; cbn [snd] in *; [rewrite H2 |]; rewrite E; exact Hp.
Qed.

(** ** The protobuf readers *)

Lemma keyset_fields_wf : forall ks, wf_keyset ks -> proto_size (serialize_keyset ks) -> Forall wf_field (fields_of_keyset ks).
Proof.
  intros ks [Hp Hk] Hs. apply shape_wf; [| exact Hs]. unfold fields_of_keyset. apply Forall_app. split.
  - apply shape_uint32; [lia | exact Hp].
  - rewrite Forall_map, Forall_forall. intros k _. split; cbn; auto; lia.
Qed.

Lemma map_split : forall A B (f : A -> B) l x y, map f l = x ++ y ->
  exists l1 l2, l = l1 ++ l2 /\ x = map f l1 /\ y = map f l2.
Proof.
  induction l as [| a l IH]; intros x y E.
  - destruct x, y; try discriminate E. exists [], []. auto.
  - destruct x as [| b x].
    + exists [], (a :: l). auto.
    + cbn [map app] in E. injection E as <- E. destruct (IH _ _ E) as (l1 & l2 & -> & -> & ->).
      exists (a :: l1), l2. auto.
Qed.

Theorem torn_keyset : forall ks p ks', wf_keyset ks -> proto_size (serialize_keyset ks) ->
  prefix_of p (serialize_keyset ks) -> p <> [] -> parse_keyset p = Some ks' ->
  p = serialize_keyset ks' /\ ks_primary_key_id ks' = ks_primary_key_id ks /\
  exists rest, ks_key ks = ks_key ks' ++ rest.
Proof.
  intros ks p ks' Hw Hs Hp Hne H. pose proof (keyset_fields_wf ks Hw Hs) as Hf.
  unfold parse_keyset, merge_message in H. destruct (parse_fields p) as [l' |] eqn:E; [| discriminate H].
  destruct (torn_fields _ _ _ _ Hf Hp E) as (l2 & El & Ep).
  assert (G : exists k1 k2, ks_key ks = k1 ++ k2 /\ l' = fields_of_keyset (mk_keyset (ks_primary_key_id ks) k1)).
  { unfold fields_of_keyset, f_uint32 in *. cbn [ks_primary_key_id ks_key].
    destruct (ks_primary_key_id ks =? 0).
    - cbn [app] in *. destruct (map_split _ _ _ _ _ _ El) as (k1 & k2 & Ek & -> & _). exists k1, k2. auto.
    - destruct l' as [| f l']; [exfalso; apply Hne; exact Ep |]. cbn [app] in *. injection El as <- El.
      destruct (map_split _ _ _ _ _ _ El) as (k1 & k2 & Ek & -> & _). exists k1, k2. auto. }
  destruct G as (k1 & k2 & Ek & ->).
  set (ks1 := mk_keyset (ks_primary_key_id ks) k1) in *.
  assert (Hw1 : wf_keyset ks1).
  { destruct Hw as [W1 W2]. split; [exact W1 |]. intros k Hk. apply W2. rewrite Ek. apply in_or_app. left. exact Hk. }
  assert (Hs1 : proto_size (serialize_keyset ks1)).
  { destruct Hp as (q & Eq). unfold proto_size in *. rewrite Eq, app_length in Hs. change (serialize_keyset ks1) with (encode_fields (fields_of_keyset ks1)).
    rewrite <- Ep. lia. }
  pose proof (keyset_round_trip ks1 Hw1 Hs1) as R. unfold parse_keyset, merge_message, serialize_keyset in R.
  rewrite <- Ep, E in R. rewrite R in H. apply some_inj in H. subst ks'.
  repeat split; [exact Ep |]. exists k2. exact Ek.
Qed.

Theorem torn_encrypted_keyset : forall ct p, proto_size (serialize_encrypted_keyset (mk_encrypted_keyset ct None)) ->
  strict_prefix p (serialize_encrypted_keyset (mk_encrypted_keyset ct None)) -> p <> [] ->
  parse_encrypted_keyset p = None.
Proof.
  intros ct p Hs (q & Hq & E) Hne. unfold parse_encrypted_keyset, merge_message.
  destruct (parse_fields p) as [l' |] eqn:Ep; [exfalso | reflexivity].
  assert (Hf : Forall wf_field (fields_of_encrypted_keyset (mk_encrypted_keyset ct None))).
  { apply shape_wf; [| exact Hs]. unfold fields_of_encrypted_keyset. cbn [ek_keyset_info]. rewrite app_nil_r. apply shape_bytes. lia. }
  destruct (torn_fields _ _ _ _ Hf (ex_intro _ q E) Ep) as (l2 & El & E').
  unfold fields_of_encrypted_keyset in El. cbn [ek_keyset_info ek_encrypted_keyset] in El. rewrite app_nil_r in El.
  destruct l' as [| f l']; [apply Hne; exact E' |].
  unfold f_bytes in El. destruct ct as [| c ct]; [discriminate El |].
  cbn [app] in El. injection El as <- El. destruct l', l2; try discriminate El.
  unfold serialize_encrypted_keyset, fields_of_encrypted_keyset in E. cbn [ek_keyset_info ek_encrypted_keyset f_bytes app] in E.
  rewrite <- E' in E. apply (f_equal (@length _)) in E. rewrite app_length in E.
  destruct q; [apply Hq; reflexivity |]. cbn [length] in E. lia.
Qed.

Lemma empty_binary : forall A (f : keyset -> result A) (g : encrypted_keyset -> result A),
  raises_tink (bind (kr_read (binary_keyset_reader [])) f) /\
  raises_tink (bind (kr_read_encrypted (binary_keyset_reader [])) g).
Proof. intros. split; eexists; split; reflexivity. Qed.

(** ** C60: binary files *)

Theorem cleartext_binary_file : forall St (io : out_stream byte St) content h st,
  stores_prefixes io content -> content st = [] ->
  wf_keyset (kh_keyset h) -> proto_size (serialize_keyset (kh_keyset h)) ->
  match cleartext_read (binary_keyset_reader (content (snd (cleartext_write (binary_keyset_writer_on io) h st)))) with
  | Ok h' => valid_keyset (kh_keyset h') /\ ks_primary_key_id (kh_keyset h') = ks_primary_key_id (kh_keyset h) /\
             exists rest, ks_key (kh_keyset h) = ks_key (kh_keyset h') ++ rest
  | Err e => is_tink_error e = true
  end.
Proof.
  intros St io content h st Hio H0 Hw Hs.
  set (p := content _).
  assert (Hp : prefix_of p (serialize_keyset (kh_keyset h))).
  { destruct (written_prefix _ _ io content (serialize_keyset (kh_keyset h)) st Hio H0) as [E | (q & _ & E)].
    - exists []. rewrite app_nil_r. symmetry. exact E.
    - exists q. exact E. }
  clearbody p. destruct (cleartext_read (binary_keyset_reader p)) as [h' | e] eqn:E.
  - unfold cleartext_read in E. apply bind_ok in E. destruct E as (ks' & Er & Ec).
    cbn [binary_keyset_reader kr_read] in Er. destruct p as [| c p]; [discriminate Er |].
    unfold decode_error_to_tink, except_decode_error, keyset_from_string in Er.
    destruct (parse_keyset (c :: p)) as [k |] eqn:Ek; [| discriminate Er]. apply ok_inj in Er. subst k.
    apply create_ok in Ec. destruct Ec as [Hv ->]. cbn [kh_keyset]. split; [exact Hv |].
    destruct (torn_keyset _ _ _ Hw Hs Hp ltac:(discriminate) Ek) as (_ & H1 & H2). auto.
  - destruct (binary_parsers_total p) as (_ & _ & T & _). rewrite E in T. exact T.
Qed.

Theorem encrypted_binary_file : forall St (io : out_stream byte St) content h a rnd ad st,
  stores_prefixes io content -> content st = [] ->
  (forall x, proto_serialize_encrypted h a rnd ad = Ok x -> proto_size x) ->
  let x := content (snd (write_with_associated_data h (binary_keyset_writer_on io) a rnd ad st)) in
  proto_serialize_encrypted h a rnd ad = Ok x \/
  forall a' ad', raises_tink (read_with_associated_data (binary_keyset_reader x) a' ad').
Proof.
  intros St io content h a rnd ad st Hio H0 Hs x. subst x.
  unfold proto_serialize_encrypted, write_with_associated_data in *.
  destruct (encrypt_keyset (kh_keyset h) a rnd ad) as [ek | e].
  - cbn [binary_keyset_writer_on binary_keyset_writer kw_write_encrypted getvalue app] in *.
    set (data := serialize_encrypted_keyset _) in *. specialize (Hs data eq_refl).
    destruct (written_prefix _ _ io content data st Hio H0) as [E | Hp].
    + left. rewrite E. reflexivity.
    + right. intros a' ad'. remember (content (snd (write_and_flush io data st))) as p eqn:Ep. clear Ep.
      unfold read_with_associated_data. cbn [binary_keyset_reader kr_read_encrypted].
      destruct p as [| c p]; [eexists; split; reflexivity |].
      subst data. unfold decode_error_to_tink, except_decode_error, encrypted_keyset_from_string.
      rewrite (torn_encrypted_keyset _ _ Hs Hp) by discriminate. eexists; split; reflexivity.
  - right. intros a' ad'. cbn [snd]. rewrite H0. eexists. split; reflexivity.
Qed.

(** ** C60: JSON files *)

Lemma not_json_raises : forall rt pb p, (forall v, ~ json_text rt v p) ->
  raises_tink (kr_read (json_keyset_reader rt pb p)) /\
  raises_tink (kr_read_encrypted (json_keyset_reader rt pb p)).
Proof.
  intros rt pb p H. cbn [json_keyset_reader kr_read kr_read_encrypted]. unfold pb_parse.
  destruct (loads rt duplicate_checker p) as [v | e] eqn:E.
  - apply loads_checked in E. exfalso. apply (H v). apply E.
  - split; eexists; split; reflexivity.
Qed.

Lemma not_json_nil : forall rt v, ~ json_text rt v [].
Proof.
  intros rt v (w1 & t & w2 & _ & Ht & _ & E). destruct (value_head _ _ _ Ht) as (c & t' & -> & _).
  destruct w1; discriminate E.
Qed.

Lemma raises_bind : forall A B (r : result A) (f : A -> result B), raises_tink r -> raises_tink (bind r f).
Proof. intros A B r f (e & -> & H). exists e. split; [reflexivity | exact H]. Qed.

(** Every way of reading x as a JSON keyset raises TinkError. *)
Lemma json_readers_raise : forall rt pb p,
  raises_tink (kr_read (json_keyset_reader rt pb p)) ->
  raises_tink (kr_read_encrypted (json_keyset_reader rt pb p)) ->
  (forall t, raises_tink (json_proto_parse rt pb p t)) /\
  raises_tink (json_proto_parse_without_secret rt pb p) /\
  raises_tink (cleartext_read (json_keyset_reader rt pb p)) /\
  (forall a ad, raises_tink (json_proto_parse_encrypted rt pb p a ad)).
Proof.
  intros rt pb p H1 H2. repeat split; intros; apply raises_bind; assumption.
Qed.

Lemma json_dict_file : forall rt l St (io : out_stream N St) content st,
  stores_prefixes io content -> content st = [] -> printable rt (JDict l) ->
  exists t, dumps_indent rt 0 (JDict l) = Ok t /\
    (content (snd (write_and_flush io t st)) = t \/
     forall v, ~ json_text rt v (content (snd (write_and_flush io t st)))).
Proof.
  intros rt l St io content st Hio H0 Hp. destruct (dumps_indent_text rt (JDict l) 0 Hp) as (t & E & Hv).
  exists t. split; [exact E |]. destruct (written_prefix _ _ io content t st Hio H0) as [Ew | Hs]; [left; exact Ew |].
  right. intros v. apply (torn_json rt l t); assumption.
Qed.

Theorem json_file : forall rt pb St (io : out_stream N St) content ks st, python_digit_limit rt ->
  stores_prefixes io content -> content st = [] -> wf_keyset ks ->
  let x := content (snd (kw_write (json_keyset_writer_on rt io) ks st)) in
  kw_write (json_keyset_writer rt) ks [] = (Ok tt, x) \/
  ((forall t, raises_tink (json_proto_parse rt pb x t)) /\
   raises_tink (json_proto_parse_without_secret rt pb x) /\
   raises_tink (cleartext_read (json_keyset_reader rt pb x)) /\
   (forall a ad, raises_tink (json_proto_parse_encrypted rt pb x a ad))).
Proof.
  intros rt pb St io content ks st Hl Hio H0 Hw x. subst x.
  destruct (good_keyset rt ks Hl Hw) as [_ Hp].
  destruct (json_dict_file rt _ St io content st Hio H0 Hp) as (t & E & [Ew | Hn]);
    cbn [json_keyset_writer_on json_keyset_writer kw_write]; unfold write_json; fold (keyset_json ks) in E; rewrite E.
  - left. rewrite Ew. reflexivity.
  - right. destruct (not_json_raises rt pb _ Hn) as [R1 R2]. apply json_readers_raise; assumption.
Qed.

Theorem encrypted_json_file : forall rt pb St (io : out_stream N St) content h a rnd ad st, python_digit_limit rt ->
  stores_prefixes io content -> content st = [] ->
  let x := content (snd (write_with_associated_data h (json_keyset_writer_on rt io) a rnd ad st)) in
  json_proto_serialize_encrypted rt h a rnd ad = Ok x \/
  ((forall t, raises_tink (json_proto_parse rt pb x t)) /\
   raises_tink (json_proto_parse_without_secret rt pb x) /\
   raises_tink (cleartext_read (json_keyset_reader rt pb x)) /\
   (forall a' ad', raises_tink (json_proto_parse_encrypted rt pb x a' ad'))).
Proof.
  intros rt pb St io content h a rnd ad st Hl Hio H0 x. subst x.
  unfold json_proto_serialize_encrypted, write_with_associated_data.
  destruct (encrypt_keyset (kh_keyset h) a rnd ad) as [ek | e] eqn:Ee.
  - apply encrypt_keyset_ok in Ee. destruct Ee as (ct & pt & _ & _ & H3 & ->).
    set (info := make_keyset_info (kh_keyset h)).
    assert (Hw : wf_encrypted_keyset (mk_encrypted_keyset ct (Some info))).
    { intros i Hi. cbn [ek_keyset_info] in Hi. apply some_inj in Hi. subst i.
      eapply describes_wf; [| apply keyset_info_exact]. eapply parse_keyset_wf. exact H3. }
    destruct (good_encrypted_keyset rt _ Hl Hw) as [_ Hp].
    destruct (json_dict_file rt _ St io content st Hio H0 Hp) as (t & Et & [Ew | Hn]);
      cbn [json_keyset_writer_on json_keyset_writer kw_write_encrypted]; unfold write_json;
      fold (encrypted_keyset_json (mk_encrypted_keyset ct (Some info))) in Et; rewrite Et.
    + left. rewrite Ew. reflexivity.
    + right. destruct (not_json_raises rt pb _ Hn) as [R1 R2]. apply json_readers_raise; assumption.
  - right. cbn [snd]. rewrite H0.
    destruct (not_json_raises rt pb [] (not_json_nil rt)) as [R1 R2]. apply json_readers_raise; assumption.
Qed.

(** ** C60: a file that is written again without being emptied first *)

Theorem binary_written_twice : forall h1 h2 st1 st2,
  wf_keyset (kh_keyset h1) -> wf_keyset (kh_keyset h2) -> proto_size st2 ->
  cleartext_write binary_keyset_writer h1 [] = (Ok tt, st1) ->
  cleartext_write binary_keyset_writer h2 st1 = (Ok tt, st2) -> st2 <> [] ->
  let both := mk_keyset (if N.eqb (ks_primary_key_id (kh_keyset h2)) 0 then ks_primary_key_id (kh_keyset h1)
                         else ks_primary_key_id (kh_keyset h2))
                (ks_key (kh_keyset h1) ++ ks_key (kh_keyset h2)) in
  (valid_keyset both -> cleartext_read (binary_keyset_reader st2) = Ok (mk_handle both)) /\
  (~ valid_keyset both -> raises_tink (cleartext_read (binary_keyset_reader st2))).
Proof.
  intros h1 h2 st1 st2 W1 W2 Hs E1 E2 Hne both.
  cbn [cleartext_write binary_keyset_writer kw_write app] in E1, E2. unfold cleartext_write in *. cbn [binary_keyset_writer kw_write app] in E1, E2.
  injection E1 as <-. injection E2 as <-.
  assert (S1 : proto_size (serialize_keyset (kh_keyset h1))) by (unfold proto_size in *; rewrite app_length in Hs; lia).
  assert (S2 : proto_size (serialize_keyset (kh_keyset h2))) by (unfold proto_size in *; rewrite app_length in Hs; lia).
  assert (P : parse_keyset (serialize_keyset (kh_keyset h1) ++ serialize_keyset (kh_keyset h2)) = Some both).
  { pose proof (keyset_round_trip _ W1 S1) as R1. unfold parse_keyset, serialize_keyset in *.
    rewrite merge_encode in R1 by (apply keyset_fields_wf; assumption).
    rewrite <- encode_fields_app, merge_encode by (apply Forall_app; split; apply keyset_fields_wf; assumption).
    rewrite fold_option_app, R1. subst both.
    destruct h1 as [[p1 k1]], h2 as [[p2 k2]]. cbn [kh_keyset ks_primary_key_id ks_key] in *.
    unfold fields_of_keyset, f_uint32. cbn [ks_primary_key_id ks_key]. destruct W2 as [W2 W2k]. cbn [ks_primary_key_id ks_key] in *.
    assert (K : forall k, In k k2 -> parse_key (serialize_key k) = Some k).
    { intros k Hk. apply key_round_trip; [apply W2k; exact Hk |]. eapply size_part; [| exact S2].
      unfold serialize_keyset, fields_of_keyset. cbn [ks_key]. apply in_or_app. right. apply in_map_iff. eauto. }
    destruct (p2 =? 0); cbn [app fold_option keyset_step].
    - apply fold_keys. exact K.
    - rewrite uint32_of_varint_of by exact W2. cbn [ks_key]. apply fold_keys. exact K. }
  unfold cleartext_read. cbn [binary_keyset_reader kr_read].
  destruct (serialize_keyset (kh_keyset h1) ++ serialize_keyset (kh_keyset h2)) as [| c r]; [contradiction |].
  unfold keyset_from_string. rewrite P. cbn [decode_error_to_tink except_decode_error bind].
  split; intros V.
  - apply create_ok. auto.
  - destruct (create both) as [h | e] eqn:Ec; [exfalso; apply V; apply create_ok in Ec; apply Ec |].
    exists e. split; [reflexivity |]. eapply create_err. exact Ec.
Qed.

Theorem encrypted_binary_written_twice : forall h1 a1 rnd1 ad1 h2 a2 rnd2 ad2 st1 st2,
  (forall pt ct, aead_encrypt a2 rnd2 pt ad2 = Ok ct -> ct <> []) ->
  write_with_associated_data h1 binary_keyset_writer a1 rnd1 ad1 [] = (Ok tt, st1) ->
  write_with_associated_data h2 binary_keyset_writer a2 rnd2 ad2 st1 = (Ok tt, st2) ->
  proto_size st2 ->
  exists x2, proto_serialize_encrypted h2 a2 rnd2 ad2 = Ok x2 /\
  forall a ad, read_with_associated_data (binary_keyset_reader st2) a ad = proto_parse_encrypted x2 a ad.
Proof.
  intros h1 a1 rnd1 ad1 h2 a2 rnd2 ad2 st1 st2 Hc E1 E2 Hs.
  unfold proto_serialize_encrypted, write_with_associated_data in *.
  destruct (encrypt_keyset (kh_keyset h1) a1 rnd1 ad1) as [ek1 |]; [| discriminate E1].
  destruct (encrypt_keyset (kh_keyset h2) a2 rnd2 ad2) as [ek2 |] eqn:Ee; [| discriminate E2].
  apply encrypt_keyset_ok in Ee. destruct Ee as (ct2 & pt2 & G1 & _ & _ & ->). apply Hc in G1.
  cbn [binary_keyset_writer kw_write_encrypted ek_encrypted_keyset getvalue app] in *.
  injection E1 as <-. injection E2 as <-. eexists. split; [reflexivity |]. intros a ad.
  unfold proto_parse_encrypted, read_keyset_handle_with_associated_data, read_with_associated_data.
  cbn [binary_keyset_reader kr_read_encrypted].
  set (e1 := mk_encrypted_keyset (ek_encrypted_keyset ek1) None) in *. set (e2 := mk_encrypted_keyset ct2 None) in *.
  assert (S1 : proto_size (serialize_encrypted_keyset e1)) by (unfold proto_size in *; rewrite app_length in Hs; lia).
  assert (S2 : proto_size (serialize_encrypted_keyset e2)) by (unfold proto_size in *; rewrite app_length in Hs; lia).
  assert (F : forall c, let e := mk_encrypted_keyset c None in proto_size (serialize_encrypted_keyset e) ->
            Forall wf_field (fields_of_encrypted_keyset e)).
  { intros c e He. apply shape_wf; [| exact He]. unfold e, fields_of_encrypted_keyset. cbn [ek_keyset_info]. rewrite app_nil_r. apply shape_bytes. lia. }
  assert (W : forall c, wf_encrypted_keyset (mk_encrypted_keyset c None)) by (intros c i Hi; discriminate Hi).
  assert (P2 : parse_encrypted_keyset (serialize_encrypted_keyset e2) = Some e2) by (apply encrypted_keyset_round_trip; [apply W | exact S2]).
  assert (P : parse_encrypted_keyset (serialize_encrypted_keyset e1 ++ serialize_encrypted_keyset e2) = Some e2).
  { pose proof (encrypted_keyset_round_trip e1 (W _) S1) as R1. unfold parse_encrypted_keyset, serialize_encrypted_keyset in *.
    rewrite merge_encode in R1 by (apply F; assumption).
    rewrite <- encode_fields_app, merge_encode by (apply Forall_app; split; apply F; assumption).
    rewrite fold_option_app, R1. unfold fields_of_encrypted_keyset, e2, f_bytes. cbn [ek_encrypted_keyset ek_keyset_info].
    destruct ct2; [contradiction |]. reflexivity. }
  assert (N2 : serialize_encrypted_keyset e2 <> []).
  { intros Z. rewrite Z in P2. unfold e2 in P2. destruct ct2; [contradiction | discriminate P2]. }
  unfold encrypted_keyset_from_string. rewrite P, P2.
  destruct (serialize_encrypted_keyset e2) as [| c r]; [contradiction |].
  destruct (serialize_encrypted_keyset e1); reflexivity.
Qed.

Theorem json_written_twice : forall rt pb ks1 ks2 st1 st2, python_digit_limit rt -> wf_keyset ks1 -> wf_keyset ks2 ->
  kw_write (json_keyset_writer rt) ks1 [] = (Ok tt, st1) ->
  kw_write (json_keyset_writer rt) ks2 st1 = (Ok tt, st2) ->
  (forall t, raises_tink (json_proto_parse rt pb st2 t)) /\
  raises_tink (json_proto_parse_without_secret rt pb st2) /\
  raises_tink (cleartext_read (json_keyset_reader rt pb st2)) /\
  (forall a ad, raises_tink (json_proto_parse_encrypted rt pb st2 a ad)).
Proof.
  intros rt pb ks1 ks2 st1 st2 Hl W1 W2 E1 E2.
  destruct (dumps_indent_text rt _ 0 (proj2 (good_keyset rt ks1 Hl W1))) as (t1 & D1 & V1).
  destruct (dumps_indent_text rt _ 0 (proj2 (good_keyset rt ks2 Hl W2))) as (t2 & D2 & V2).
  cbn [json_keyset_writer kw_write] in E1, E2. unfold write_json in E1, E2. rewrite D1 in E1. rewrite D2 in E2.
  cbn [app] in E1. injection E1 as <-. injection E2 as <-.
  assert (H : forall v, ~ json_text rt v (t1 ++ t2)).
  { intros v. unfold keyset_json in V1, V2. eapply double_json; [exact V1 | exact V2]. }
  destruct (not_json_raises rt pb _ H) as [R1 R2]. apply json_readers_raise; assumption.
Qed.

(** The writers of M_KeysetIO and M_JsonKeyset are these writers on a stream in memory. *)
Theorem memory_writers : forall rt ks ek (x : bytes) (s : pystr),
  kw_write binary_keyset_writer ks x = kw_write (binary_keyset_writer_on memory_stream) ks x /\
  kw_write_encrypted binary_keyset_writer ek x = kw_write_encrypted (binary_keyset_writer_on memory_stream) ek x /\
  kw_write (json_keyset_writer rt) ks s = kw_write (json_keyset_writer_on rt memory_stream) ks s /\
  kw_write_encrypted (json_keyset_writer rt) ek s = kw_write_encrypted (json_keyset_writer_on rt memory_stream) ek s.
Proof. intros. repeat split. Qed.
