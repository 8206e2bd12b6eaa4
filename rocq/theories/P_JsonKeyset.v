(** C15-C19, C22, C55, C59: the JSON form of keysets. *)
From Coq Require Import Strings.Byte Strings.String List NArith ZArith Bool Lia.
From Verif Require Import M_Base L_Base M_Proto M_Wire M_Prims M_PrimitiveSet M_Registry M_KeysetHandle M_KeysetIO
  M_JwtTypes M_Json S_Json S_Base64 S_Wire S_Keyset S_Handle M_JsonKeyset S_JsonKeyset L_Keyset L_Handle
  L_JsonKeyset L_JsonKeyset2 L_JsonKeyset3 X_Toy L_Toy X_Rt P_Keyset.
Import ListNotations.
Open Scope string_scope.
Open Scope list_scope.

Definition new_pb : pb_rt := mk_pb_rt true (fun _ => None).
Definition old_pb : pb_rt := mk_pb_rt false (fun _ => None).

(** * C55 *)
Theorem C55_writer_output : forall rt ks st, python_digit_limit rt -> wf_keyset ks ->
  exists v t, kw_write (json_keyset_writer rt) ks st = (Ok tt, st ++ t) /\
    json_text rt v t /\ no_repeated_names v /\ shows_keyset padded_base64 v ks.
Proof. exact json_writer_writes. Qed.
Print Assumptions C55_writer_output.
Theorem C55_writer_output_encrypted : forall rt ek st, python_digit_limit rt -> wf_encrypted_keyset ek ->
  exists v t, kw_write_encrypted (json_keyset_writer rt) ek st = (Ok tt, st ++ t) /\
    json_text rt v t /\ no_repeated_names v /\ shows_encrypted_keyset padded_base64 v ek.
Proof. exact json_writer_writes_encrypted. Qed.
Print Assumptions C55_writer_output_encrypted.
Theorem C55_reader_accepts_any_layout : forall rt pb v t ks, json_text rt v t -> no_repeated_names v ->
  shows_keyset any_base64 v ks -> wf_keyset ks ->
  kr_read (json_keyset_reader rt pb t) = Ok ks.
Proof. exact json_reader_reads. Qed.
Print Assumptions C55_reader_accepts_any_layout.
Theorem C55_reader_accepts_any_layout_encrypted : forall rt pb v t ek, json_text rt v t -> no_repeated_names v ->
  shows_encrypted_keyset any_base64 v ek -> wf_encrypted_keyset ek ->
  kr_read_encrypted (json_keyset_reader rt pb t) = Ok ek.
Proof. exact json_reader_reads_encrypted. Qed.
Print Assumptions C55_reader_accepts_any_layout_encrypted.
Theorem C55_json_round_trip : forall rt pb ks st, python_digit_limit rt -> wf_keyset ks ->
  exists t, kw_write (json_keyset_writer rt) ks st = (Ok tt, st ++ t) /\
    kr_read (json_keyset_reader rt pb t) = Ok ks.
Proof. exact json_keyset_round_trip. Qed.
Print Assumptions C55_json_round_trip.
Theorem C55_json_encrypted_round_trip : forall rt pb ek st, python_digit_limit rt -> wf_encrypted_keyset ek ->
  exists t, kw_write_encrypted (json_keyset_writer rt) ek st = (Ok tt, st ++ t) /\
    kr_read_encrypted (json_keyset_reader rt pb t) = Ok ek.
Proof. exact json_encrypted_keyset_round_trip. Qed.
Print Assumptions C55_json_encrypted_round_trip.
Theorem C55_read_keysets_are_representable : forall rt pb x ks, kr_read (json_keyset_reader rt pb x) = Ok ks -> wf_keyset ks.
Proof. exact json_reader_wf. Qed.
Print Assumptions C55_read_keysets_are_representable.
Theorem C55_read_write_read : forall rt pb x ks st, python_digit_limit rt ->
  kr_read (json_keyset_reader rt pb x) = Ok ks ->
  exists t, kw_write (json_keyset_writer rt) ks st = (Ok tt, st ++ t) /\ kr_read (json_keyset_reader rt pb t) = Ok ks.
Proof. exact json_read_write_read. Qed.
Print Assumptions C55_read_write_read.
Theorem C55_parse_exactly : forall rt pb x h,
  json_proto_parse rt pb x SecretKeyAccessToken = Ok h <->
  exists ks, kr_read (json_keyset_reader rt pb x) = Ok ks /\ valid_keyset ks /\ h = mk_handle ks.
Proof. exact json_parse_spec. Qed.
Print Assumptions C55_parse_exactly.

Lemma toy_limit : python_digit_limit toy_rt.
Proof. right. vm_compute. discriminate. Qed.

(** Extreme values: unknown enum numbers, the largest id, absent key data and an empty
    key data, text outside of ASCII, and base64 of every length. *)
Definition odd_keyset : keyset :=
  mk_keyset 4294967295
    [mk_key None (-1) 0 2147483647; mk_key (Some (mk_key_data [] [] 0)) 77 4294967295 (-2147483648);
     mk_key (Some (mk_key_data [233; 8364; 128512; 34; 92; 10]%N [x00; xff] 2)) 1 128 3;
     mk_key (Some (mk_key_data [] [xfb; xff; xfe] 1)) 2 7 4].
Lemma odd_keyset_wf : wf_keyset odd_keyset.
Proof.
  split; [vmr |]. intros k [<- | [<- | [<- | [<- | []]]]]; cbn [k_key_data_opt];
    (split; [intros d E; try discriminate E; apply some_inj in E; subst d |]);
    repeat split; try (vm_compute; congruence).
  - intros c [].
  - intros c Hc. cbn [kd_type_url In] in Hc. repeat (destruct Hc as [<- | Hc]; [lia |]). destruct Hc.
  - intros c [].
Qed.
Definition reads_back (ks : keyset) : bool :=
  match kw_write (json_keyset_writer toy_rt) ks [] with
  | (Ok _, t) => match kr_read (json_keyset_reader toy_rt old_pb t) with
                 | Ok ks' => keyset_eqb ks ks'
                 | Err _ => false
                 end
  | _ => false
  end.
Example C55_hypotheses_met :
  python_digit_limit toy_rt /\ wf_keyset odd_keyset /\ reads_back odd_keyset = true.
Proof. split; [exact toy_limit |]. split; [exact odd_keyset_wf | vmr]. Qed.

(** Another layout of a keyset: other order, white space, base64 alphabet, no padding. *)
Definition hand_text : pystr :=
  ulit " { ""key"" :[ { ""keyId"":7,""status"":""ENABLED"", ""outputPrefixType"":""RAW"",
    ""keyData"":{""value"":""-_8"",""keyMaterialType"":""ASYMMETRIC_PUBLIC"",""typeUrl"":""u""}}],
    ""primaryKeyId"": 7}".
Definition hand_keyset : keyset :=
  mk_keyset 7 [mk_key (Some (mk_key_data (ulit "u") [xfb; xff] 3)) 1 7 3].
Example C55_other_layout :
  kr_read (json_keyset_reader toy_rt new_pb hand_text) = Ok hand_keyset /\
  json_proto_parse toy_rt new_pb hand_text SecretKeyAccessToken = Ok (mk_handle hand_keyset).
Proof. split; vmr. Qed.

(** * C15 C16 *)
Theorem C15_encrypted_json_round_trip : forall rt pb h a rnd ad st st', python_digit_limit rt ->
  valid_keyset (kh_keyset h) ->
  (forall pt ct, aead_encrypt a rnd pt ad = Ok ct -> ct <> []) ->
  write_with_associated_data h (json_keyset_writer rt) a rnd ad st = (Ok tt, st') ->
  exists x, st' = st ++ x /\
    read_with_associated_data (json_keyset_reader rt pb x) a ad = Ok h.
Proof. exact encrypted_json_round_trip. Qed.
Print Assumptions C15_encrypted_json_round_trip.
Theorem C15_encrypted_json_format_round_trip : forall rt pb h a rnd ad x, python_digit_limit rt ->
  valid_keyset (kh_keyset h) ->
  (forall pt ct, aead_encrypt a rnd pt ad = Ok ct -> ct <> []) ->
  json_proto_serialize_encrypted rt h a rnd ad = Ok x ->
  json_proto_parse_encrypted rt pb x a ad = Ok h.
Proof. exact json_encrypted_format_round_trip. Qed.
Print Assumptions C15_encrypted_json_format_round_trip.
Theorem C16_write_encrypted_json : forall rt h a rnd ad st, python_digit_limit rt ->
  (exists ct pt info v t,
     aead_encrypt a rnd (serialize_keyset (kh_keyset h)) ad = Ok ct /\
     aead_decrypt a ct ad = Ok pt /\ parse_keyset pt = Some (kh_keyset h) /\
     describes (kh_keyset h) info /\
     write_with_associated_data h (json_keyset_writer rt) a rnd ad st = (Ok tt, st ++ t) /\
     json_text rt v t /\ no_repeated_names v /\
     shows_encrypted_keyset padded_base64 v (mk_encrypted_keyset ct (Some info))) \/
  ((forall ct pt, aead_encrypt a rnd (serialize_keyset (kh_keyset h)) ad = Ok ct ->
      aead_decrypt a ct ad = Ok pt -> parse_keyset pt <> Some (kh_keyset h)) /\
   exists e, write_with_associated_data h (json_keyset_writer rt) a rnd ad st = (Err e, st) /\
     (tink_total (aead_encrypt a rnd (serialize_keyset (kh_keyset h)) ad) ->
      (forall ct, tink_total (aead_decrypt a ct ad)) -> is_tink_error e = true)).
Proof. exact json_write_encrypted_spec. Qed.
Print Assumptions C16_write_encrypted_json.

Definition toy_written : result unit * pystr :=
  write_with_associated_data (toy_handle u_aead SYMMETRIC) (json_keyset_writer toy_rt) toy_master 0%N (blit "ad") [].
Definition written_ok : bool := match fst toy_written with Ok _ => true | _ => false end.
Definition reading_ok (ad : string) : bool :=
  match read_with_associated_data (json_keyset_reader toy_rt new_pb (snd toy_written)) toy_master (blit ad) with
  | Ok h => keyset_eqb (kh_keyset h) (toy_keyset u_aead SYMMETRIC)
  | Err e => false
  end.
Example C15_json_hypotheses_met :
  valid_keyset (toy_keyset u_aead SYMMETRIC) /\
  (forall pt ct, aead_encrypt toy_master 0%N pt (blit "ad") = Ok ct -> ct <> []) /\
  written_ok = true /\ reading_ok "ad" = true /\ reading_ok "da" = false.
Proof.
  split; [apply validate_keyset_ok; vmr |]. split.
  { intros pt ct E. apply ok_inj in E. subst ct. discriminate. }
  repeat split; vmr.
Qed.
Example C16_json_refusal_met :
  let bad := mk_aead (fun _ pt _ => Ok pt) (fun _ _ => Ok [x08; x01]) in
  match write_with_associated_data (toy_handle u_aead SYMMETRIC) (json_keyset_writer toy_rt) bad 0%N []
    (ulit "before") with
  | (Err e, st) => is_tink_error e && str_eqb st (ulit "before")
  | _ => false
  end = true.
Proof. vmr. Qed.

(** * C17 *)
Theorem C17_json_serialize_without_secret : forall rt h, python_digit_limit rt ->
  (has_secret (kh_keyset h) -> raises_tink (json_proto_serialize_without_secret rt h)) /\
  (~ has_secret (kh_keyset h) -> wf_keyset (kh_keyset h) ->
   exists v t, json_proto_serialize_without_secret rt h = Ok t /\ json_text rt v t /\
     no_repeated_names v /\ shows_keyset padded_base64 v (kh_keyset h)).
Proof. exact json_serialize_without_secret_spec. Qed.
Print Assumptions C17_json_serialize_without_secret.
Theorem C17_json_parse_without_secret : forall rt pb x h,
  json_proto_parse_without_secret rt pb x = Ok h <->
  exists ks, kr_read (json_keyset_reader rt pb x) = Ok ks /\ ~ has_secret ks /\ valid_keyset ks /\
    h = mk_handle ks.
Proof. exact json_parse_without_secret_spec. Qed.
Print Assumptions C17_json_parse_without_secret.
Theorem C17_json_no_secret_round_trip : forall rt pb h, python_digit_limit rt ->
  valid_keyset (kh_keyset h) -> wf_keyset (kh_keyset h) -> ~ has_secret (kh_keyset h) ->
  exists x, json_proto_serialize_without_secret rt h = Ok x /\
    json_proto_parse_without_secret rt pb x = Ok h.
Proof. exact no_secret_json_round_trip. Qed.
Print Assumptions C17_json_no_secret_round_trip.

Example C17_json_hypotheses_met :
  let h := toy_handle u_verify ASYMMETRIC_PUBLIC in
  valid_keyset (kh_keyset h) /\ wf_keyset (kh_keyset h) /\ ~ has_secret (kh_keyset h) /\
  has_secret (kh_keyset (toy_handle u_aead SYMMETRIC)) /\
  raises_tink (json_proto_serialize_without_secret toy_rt (toy_handle u_aead SYMMETRIC)).
Proof.
  destruct C17_hypotheses_met as (H1 & H2 & H3 & _ & _ & H6 & _). cbv zeta.
  split; [exact H1 |]. split; [exact H2 |]. split; [exact H3 |]. split; [exact H6 |].
  apply (json_serialize_without_secret_spec toy_rt (toy_handle u_aead SYMMETRIC) toy_limit). exact H6.
Qed.

(** * C18 *)
Theorem C18_json_encrypted_output_no_key_material : forall rt h1 h2 a1 a2 rnd1 rnd2 ad1 ad2 ct,
  same_public_view (kh_keyset h1) (kh_keyset h2) ->
  aead_encrypt a1 rnd1 (serialize_keyset (kh_keyset h1)) ad1 = Ok ct ->
  aead_encrypt a2 rnd2 (serialize_keyset (kh_keyset h2)) ad2 = Ok ct ->
  forall st st1 st2,
  write_with_associated_data h1 (json_keyset_writer rt) a1 rnd1 ad1 st = (Ok tt, st1) ->
  write_with_associated_data h2 (json_keyset_writer rt) a2 rnd2 ad2 st = (Ok tt, st2) ->
  st1 = st2.
Proof. exact json_encrypted_output_no_key_material. Qed.
Print Assumptions C18_json_encrypted_output_no_key_material.

(** * C19 *)
Theorem C19_json_token_required : forall rt pb t, t <> SecretKeyAccessToken ->
  (forall h, raises_tink (json_proto_serialize rt h t)) /\
  (forall x h, json_proto_parse rt pb x t <> Ok h) /\
  (forall x, tink_total (kr_read (json_keyset_reader rt pb x)) -> raises_tink (json_proto_parse rt pb x t)) /\
  (forall h1 h2, json_proto_serialize rt h1 t = json_proto_serialize rt h2 t).
Proof. exact json_token_required. Qed.
Print Assumptions C19_json_token_required.
Theorem C19_json_token_accepted : forall rt pb h, python_digit_limit rt ->
  valid_keyset (kh_keyset h) -> wf_keyset (kh_keyset h) ->
  exists x, json_proto_serialize rt h SecretKeyAccessToken = Ok x /\
    json_proto_parse rt pb x SecretKeyAccessToken = Ok h.
Proof. exact json_token_round_trip. Qed.
Print Assumptions C19_json_token_accepted.

(** * C22 *)
Theorem C22_json_reader_total : forall rt pb x, pb_catch_all pb = true ->
  tink_total (kr_read (json_keyset_reader rt pb x)) /\
  tink_total (kr_read_encrypted (json_keyset_reader rt pb x)).
Proof. exact json_reader_total. Qed.
Print Assumptions C22_json_reader_total.
Theorem C22_json_parsers_total : forall rt pb x, pb_catch_all pb = true ->
  (forall t, tink_total (json_proto_parse rt pb x t)) /\
  tink_total (json_proto_parse_without_secret rt pb x) /\
  tink_total (cleartext_read (json_keyset_reader rt pb x)) /\
  (forall a ad, (forall ct, tink_total (aead_decrypt a ct ad)) ->
     tink_total (json_proto_parse_encrypted rt pb x a ad)).
Proof. exact json_parsers_total_new. Qed.
Print Assumptions C22_json_parsers_total.
Theorem C22_json_reader_total_older_protobuf : forall rt pb x,
  (forall v, json_text rt v x -> finite_json v /\
     match v with JDict _ | JList _ | JStr _ => True | _ => False end) ->
  tink_total (kr_read (json_keyset_reader rt pb x)) /\
  tink_total (kr_read_encrypted (json_keyset_reader rt pb x)).
Proof. exact json_reader_total_old. Qed.
Print Assumptions C22_json_reader_total_older_protobuf.
Theorem C22_json_older_protobuf_refuted : forall rt pb, pb_catch_all pb = false ->
  exists x, ~ tink_total (json_proto_parse_without_secret rt pb x) /\
    ~ tink_total (kr_read_encrypted (json_keyset_reader rt pb x)).
Proof. exact json_reader_total_old_refuted. Qed.
Print Assumptions C22_json_older_protobuf_refuted.

Definition outcome {A} (r : result A) : nat :=
  match r with
  | Ok _ => 0
  | Err (TypeError _) => 2
  | Err OverflowError => 3
  | Err e => if is_tink_error e then 1 else 4
  end.
Example C22_json_garbage :
  map (fun t => outcome (kr_read (json_keyset_reader toy_rt new_pb t)))
    [ulit ""; ulit "{"; ulit "5"; ulit "{""key"":[{""status"":Infinity}]}"; ulit "{""a"":1}"; ulit "[1]"] =
    [1; 1; 1; 1; 1; 1]%nat /\
  map (fun t => outcome (kr_read (json_keyset_reader toy_rt old_pb t)))
    [ulit ""; ulit "{"; ulit "5"; ulit "{""key"":[{""status"":Infinity}]}"; ulit "{""a"":1}"; ulit "[1]"] =
    [1; 1; 2; 3; 1; 1]%nat.
Proof. split; vmr. Qed.

(** * C59 *)
Theorem C59_reader_strict : forall rt pb x ks, kr_read (json_keyset_reader rt pb x) = Ok ks ->
  exists v, json_text rt v x /\ no_repeated_names v /\ strict_keyset v.
Proof. exact json_reader_strict. Qed.
Print Assumptions C59_reader_strict.

Example C59_met :
  map (fun t => outcome (kr_read (json_keyset_reader toy_rt new_pb t)))
    [hand_text; ulit "{""primaryKeyId"":1}"; ulit "{""primaryKeyId"":1,""primaryKeyId"":1}";
     ulit "{""primaryKeyID"":1}"; ulit "{""key"":[{""keyData"":{""extra"":1}}]}"] = [0; 0; 1; 1; 1]%nat.
Proof. vmr. Qed.
