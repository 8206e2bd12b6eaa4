(** C15-C19, C22, C55, C59: the JSON form of keysets. *)
From Coq Require Import Strings.Byte Strings.String List NArith ZArith Bool Lia.
From Verif Require Import M_Base L_Base M_Proto M_Wire M_Prims M_PrimitiveSet M_Registry M_KeysetHandle M_KeysetIO
  M_JwtTypes M_Json S_Json S_Base64 S_Wire S_Keyset S_Handle M_JsonKeyset S_JsonKeyset L_Keyset L_Handle
  L_JsonKeyset L_JsonKeyset2 L_JsonKeyset3 X_Toy L_Toy X_Rt P_Keyset.
Import ListNotations.
Open Scope string_scope.
Open Scope list_scope.

Definition new_pb : pb_rt := mk_pb_rt true (fun _ => None).
Definition old_pb : pb_rt := mk_pb_rt false (fun _ => None).

(** * C55 *)
@thm C55_writer_output json_writer_writes
@thm C55_writer_output_encrypted json_writer_writes_encrypted
@thm C55_reader_accepts_any_layout json_reader_reads
@thm C55_reader_accepts_any_layout_encrypted json_reader_reads_encrypted
@thm C55_json_round_trip json_keyset_round_trip
@thm C55_json_encrypted_round_trip json_encrypted_keyset_round_trip
@thm C55_read_keysets_are_representable json_reader_wf
@thm C55_read_write_read json_read_write_read
@thm C55_parse_exactly json_parse_spec

Lemma toy_limit : python_digit_limit toy_rt.
Proof. right. vm_compute. discriminate. Qed.

(** Extreme values: unknown enum numbers, the largest id, absent key data and an empty
    key data, text outside of ASCII, and base64 of every length. *)
Definition odd_keyset : keyset :=
  mk_keyset 4294967295
    [mk_key None (-1) 0 2147483647; mk_key (Some (mk_key_data [] [] 0)) 77 4294967295 (-2147483648);
     mk_key (Some (mk_key_data [233; 8364; 128512; 34; 92; 10]%N [x00; xff] 2)) 1 128 3;
     mk_key (Some (mk_key_data [] [xfb; xff; xfe] 1)) 2 7 4].
Lemma odd_keyset_wf : wf_keyset odd_keyset.
Proof.
  split; [vmr |]. intros k [<- | [<- | [<- | [<- | []]]]]; cbn [k_key_data_opt];
    (split; [intros d E; try discriminate E; apply some_inj in E; subst d |]);
    repeat split; try (vm_compute; congruence).
  - intros c [].
  - intros c Hc. cbn [kd_type_url In] in Hc. repeat (destruct Hc as [<- | Hc]; [lia |]). destruct Hc.
  - intros c [].
Qed.
Definition reads_back (ks : keyset) : bool :=
  match kw_write (json_keyset_writer toy_rt) ks [] with
  | (Ok _, t) => match kr_read (json_keyset_reader toy_rt old_pb t) with
                 | Ok ks' => keyset_eqb ks ks'
                 | Err _ => false
                 end
  | _ => false
  end.
Example C55_hypotheses_met :
  python_digit_limit toy_rt /\ wf_keyset odd_keyset /\ reads_back odd_keyset = true.
Proof. split; [exact toy_limit |]. split; [exact odd_keyset_wf | vmr]. Qed.

(** Another layout of a keyset: other order, white space, base64 alphabet, no padding. *)
Definition hand_text : pystr :=
  ulit " { ""key"" :[ { ""keyId"":7,""status"":""ENABLED"", ""outputPrefixType"":""RAW"",
    ""keyData"":{""value"":""-_8"",""keyMaterialType"":""ASYMMETRIC_PUBLIC"",""typeUrl"":""u""}}],
    ""primaryKeyId"": 7}".
Definition hand_keyset : keyset :=
  mk_keyset 7 [mk_key (Some (mk_key_data (ulit "u") [xfb; xff] 3)) 1 7 3].
Example C55_other_layout :
  kr_read (json_keyset_reader toy_rt new_pb hand_text) = Ok hand_keyset /\
  json_proto_parse toy_rt new_pb hand_text SecretKeyAccessToken = Ok (mk_handle hand_keyset).
Proof. split; vmr. Qed.

(** * C15 C16 *)
@thm C15_encrypted_json_round_trip encrypted_json_round_trip
@thm C15_encrypted_json_format_round_trip json_encrypted_format_round_trip
@thm C16_write_encrypted_json json_write_encrypted_spec

Definition toy_written : result unit * pystr :=
  write_with_associated_data (toy_handle u_aead SYMMETRIC) (json_keyset_writer toy_rt) toy_master 0%N (blit "ad") [].
Definition written_ok : bool := match fst toy_written with Ok _ => true | _ => false end.
Definition reading_ok (ad : string) : bool :=
  match read_with_associated_data (json_keyset_reader toy_rt new_pb (snd toy_written)) toy_master (blit ad) with
  | Ok h => keyset_eqb (kh_keyset h) (toy_keyset u_aead SYMMETRIC)
  | Err e => false
  end.
Example C15_json_hypotheses_met :
  valid_keyset (toy_keyset u_aead SYMMETRIC) /\
  (forall pt ct, aead_encrypt toy_master 0%N pt (blit "ad") = Ok ct -> ct <> []) /\
  written_ok = true /\ reading_ok "ad" = true /\ reading_ok "da" = false.
Proof.
  split; [apply validate_keyset_ok; vmr |]. split.
  { intros pt ct E. apply ok_inj in E. subst ct. discriminate. }
  repeat split; vmr.
Qed.
Example C16_json_refusal_met :
  let bad := mk_aead (fun _ pt _ => Ok pt) (fun _ _ => Ok [x08; x01]) in
  match write_with_associated_data (toy_handle u_aead SYMMETRIC) (json_keyset_writer toy_rt) bad 0%N []
    (ulit "before") with
  | (Err e, st) => is_tink_error e && str_eqb st (ulit "before")
  | _ => false
  end = true.
Proof. vmr. Qed.

(** * C17 *)
@thm C17_json_serialize_without_secret json_serialize_without_secret_spec
@thm C17_json_parse_without_secret json_parse_without_secret_spec
@thm C17_json_no_secret_round_trip no_secret_json_round_trip

Example C17_json_hypotheses_met :
  let h := toy_handle u_verify ASYMMETRIC_PUBLIC in
  valid_keyset (kh_keyset h) /\ wf_keyset (kh_keyset h) /\ ~ has_secret (kh_keyset h) /\
  has_secret (kh_keyset (toy_handle u_aead SYMMETRIC)) /\
  raises_tink (json_proto_serialize_without_secret toy_rt (toy_handle u_aead SYMMETRIC)).
Proof.
  destruct C17_hypotheses_met as (H1 & H2 & H3 & _ & _ & H6 & _). cbv zeta.
  split; [exact H1 |]. split; [exact H2 |]. split; [exact H3 |]. split; [exact H6 |].
  apply (json_serialize_without_secret_spec toy_rt (toy_handle u_aead SYMMETRIC) toy_limit). exact H6.
Qed.

(** * C18 *)
@thm C18_json_encrypted_output_no_key_material json_encrypted_output_no_key_material

(** * C19 *)
@thm C19_json_token_required json_token_required
@thm C19_json_token_accepted json_token_round_trip

(** * C22 *)
@thm C22_json_reader_total json_reader_total
@thm C22_json_parsers_total json_parsers_total_new
@thm C22_json_reader_total_older_protobuf json_reader_total_old
@thm C22_json_older_protobuf_refuted json_reader_total_old_refuted

Definition outcome {A} (r : result A) : nat :=
  match r with
  | Ok _ => 0
  | Err (TypeError _) => 2
  | Err OverflowError => 3
  | Err e => if is_tink_error e then 1 else 4
  end.
Example C22_json_garbage :
  map (fun t => outcome (kr_read (json_keyset_reader toy_rt new_pb t)))
    [ulit ""; ulit "{"; ulit "5"; ulit "{""key"":[{""status"":Infinity}]}"; ulit "{""a"":1}"; ulit "[1]"] =
    [1; 1; 1; 1; 1; 1]%nat /\
  map (fun t => outcome (kr_read (json_keyset_reader toy_rt old_pb t)))
    [ulit ""; ulit "{"; ulit "5"; ulit "{""key"":[{""status"":Infinity}]}"; ulit "{""a"":1}"; ulit "[1]"] =
    [1; 1; 2; 3; 1; 1]%nat.
Proof. split; vmr. Qed.

(** * C59 *)
@thm C59_reader_strict json_reader_strict

Example C59_met :
  map (fun t => outcome (kr_read (json_keyset_reader toy_rt new_pb t)))
    [hand_text; ulit "{""primaryKeyId"":1}"; ulit "{""primaryKeyId"":1,""primaryKeyId"":1}";
     ulit "{""primaryKeyID"":1}"; ulit "{""key"":[{""keyData"":{""extra"":1}}]}"] = [0; 0; 1; 1; 1]%nat.
Proof. vmr. Qed.
