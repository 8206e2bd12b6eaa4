(** Proofs about keyset handles: generation, reading and writing, public keys. *)
From Coq Require Import Strings.Byte Strings.String List NArith ZArith Bool Lia.
From Verif Require Import M_Base M_Proto M_Wire M_Prims M_PrimitiveSet M_Registry M_KeysetHandle
  M_KeysetIO S_Keyset S_PrimitiveSet S_Wire S_Handle L_Base L_PrimitiveSet L_Keyset L_Wrappers L_Wire.
Import ListNotations.
Open Scope list_scope.

(** ** generate_new *)

Lemma randint_range : forall lo hi raw, (lo <= hi)%N ->
  (lo <= randint lo hi raw <= hi)%N.
Proof.
  intros lo hi raw H. unfold randint.
  pose proof (N.mod_upper_bound raw (hi - lo + 1)). lia.
Qed.
Lemma randint_surj : forall lo hi n, (lo <= n <= hi)%N -> randint lo hi (n - lo) = n.
Proof.
  intros lo hi n H. unfold randint. rewrite N.mod_small by lia. lia.
Qed.

Lemma generate_unused_fresh : forall draws ks id,
  generate_unused_key_id draws ks = Some id ->
  (1 <= id <= 2147483647)%N /\ ~ In id (map k_key_id (ks_key ks)).
Proof.
  induction draws as [| raw draws IH]; intros ks id H; [discriminate |].
  cbn [generate_unused_key_id] in H.
  destruct (mem_N (randint 1 MAX_INT32 raw) (map k_key_id (ks_key ks))) eqn:E.
  - cbn [negb] in H. auto.
  - cbn [negb] in H. apply some_inj in H. subst id. split.
    + apply randint_range. unfold MAX_INT32. lia.
    + intro Hi. apply mem_N_spec in Hi. congruence.
Qed.

Lemma single_valid : forall d id t,
  valid_keyset (single_key_keyset d id t) <-> t <> UNKNOWN_PREFIX.
Proof.
  intros d id t. unfold valid_keyset, single_key_keyset. cbn [ks_key ks_primary_key_id]. split.
  - intros (_ & H & _). destruct (H _ (or_introl eq_refl)) as (_ & Ht & _); [discriminate |].
    exact Ht.
  - intro Ht. split; [| split; [| split]].
    + eexists. split; [left; reflexivity | discriminate].
    + intros k [<- | []] _. split; [eexists; reflexivity | split; [exact Ht | discriminate]].
    + intros i j (k & Hk & _) (k' & Hk' & _). cbn [ks_key] in *.
      destruct i as [| [|]], j as [| [|]]; try discriminate; reflexivity.
    + left. exists 0%nat. eexists. split; [reflexivity |]. split; reflexivity.
Qed.

Theorem generate_new_result : forall reg rnd raw draws t r,
  generate_new reg rnd (raw :: draws) t = Some r ->
  (forall h, r = Ok h <->
     exists km d, dict_get str_eqb (kt_type_url t) (r_key_managers reg) = Some (km, true) /\
       km_new_key_data km rnd t = Ok d /\ kt_output_prefix_type t <> UNKNOWN_PREFIX /\
       h = mk_handle (single_key_keyset d (1 + raw mod 2147483647) (kt_output_prefix_type t))).
Proof.
  intros reg rnd raw draws t r H h. unfold generate_new in H.
  assert (Hid : generate_unused_key_id (raw :: draws) (mk_keyset 0 []) = Some (1 + raw mod 2147483647)%N)
    by reflexivity.
  rewrite Hid in H. clear Hid.
  change (mk_keyset ?i [mk_key (Some ?d) ENABLED ?i ?p]) with (single_key_keyset d i p) in H.
  unfold registry_new_key_data, key_manager_internal in H.
  destruct (dict_get str_eqb (kt_type_url t) (r_key_managers reg)) as [[km b] |] eqn:E.
  2: { simpl in H. injection H as <-. split; [discriminate |].
       intros (km & d & Hx & _). discriminate. }
  cbn [bind] in H. destruct b; cbn [negb] in H.
  2: { injection H as <-. split; [discriminate |].
       intros (km' & d & Hx & _). discriminate. }
  destruct (km_new_key_data km rnd t) as [d | e] eqn:Ed.
  2: { injection H as <-. split; [discriminate |].
       intros (km' & d & Hx & Hy & _). injection Hx as <-. congruence. }
  injection H as <-.
  change (mk_keyset ?i [mk_key (Some ?d) ENABLED ?i ?p]) with (single_key_keyset d i p).
  rewrite create_ok, single_valid. split.
  - intros [Hp ->]. exists km, d. auto.
  - intros (km' & d' & Hx & Hy & Hz & ->). injection Hx as <-.
    rewrite Ed in Hy. injection Hy as <-. auto.
Qed.

(** A draw is always enough. *)
Theorem generate_new_terminates : forall reg rnd raw draws t,
  generate_new reg rnd (raw :: draws) t <> None.
Proof.
  intros reg rnd raw draws t. unfold generate_new.
  destruct (registry_new_key_data reg rnd t); [| discriminate].
  cbn [generate_unused_key_id ks_key map mem_N existsb negb]. discriminate.
Qed.

Theorem generate_new_err : forall reg rnd draws t e,
  generate_new reg rnd draws t = Some (Err e) ->
  (forall km b, dict_get str_eqb (kt_type_url t) (r_key_managers reg) = Some (km, b) ->
     tink_total (km_new_key_data km rnd t)) ->
  is_tink_error e = true.
Proof.
  intros reg rnd draws t e H Htot. unfold generate_new, registry_new_key_data, key_manager_internal in H.
  destruct (dict_get str_eqb (kt_type_url t) (r_key_managers reg)) as [[km b] |] eqn:E.
  2: { injection H as <-. reflexivity. }
  cbn [bind] in H. destruct b; cbn [negb] in H; [| injection H as <-; reflexivity].
  specialize (Htot _ _ eq_refl).
  destruct (km_new_key_data km rnd t) as [d | e'].
  - destruct (generate_unused_key_id draws (mk_keyset 0 [])); [| discriminate].
    injection H as H. eapply create_err; eauto.
  - injection H as <-. exact Htot.
Qed.

(** ** Encrypted keysets *)

Lemma encrypt_keyset_ok : forall ks a rnd ad ek,
  encrypt_keyset ks a rnd ad = Ok ek <->
  exists ct pt, aead_encrypt a rnd (serialize_keyset ks) ad = Ok ct /\
    aead_decrypt a ct ad = Ok pt /\ parse_keyset pt = Some ks /\
    ek = mk_encrypted_keyset ct (Some (make_keyset_info ks)).
Proof.
  intros ks a rnd ad ek. unfold encrypt_keyset.
  destruct (aead_encrypt a rnd (serialize_keyset ks) ad) as [ct | e]; cbn [bind].
  2: { split; [discriminate |]. intros (ct & pt & H & _). discriminate. }
  destruct (aead_decrypt a ct ad) as [pt | e] eqn:Ed; cbn [bind].
  2: { split.
       - destruct e; discriminate.
       - intros (ct' & pt & H1 & H2 & _). injection H1 as <-. congruence. }
  unfold keyset_from_string. destruct (parse_keyset pt) as [ks2 |] eqn:Ep; cbn [bind].
  2: { split; [discriminate |]. intros (ct' & pt' & H1 & H2 & H3 & _).
       injection H1 as <-. rewrite Ed in H2. injection H2 as <-. congruence. }
  destruct (keyset_eqb ks ks2) eqn:Ee; cbn.
  - apply keyset_eqb_spec in Ee. subst ks2. split.
    + intro H. injection H as <-. exists ct, pt. auto.
    + intros (ct' & pt' & H1 & H2 & H3 & ->). injection H1 as <-. reflexivity.
  - apply (eqb_false_of _ _ keyset_eqb_spec) in Ee. split; [discriminate |].
    intros (ct' & pt' & H1 & H2 & H3 & _). injection H1 as <-. rewrite Ed in H2.
    injection H2 as <-. congruence.
Qed.

Lemma encrypt_keyset_err : forall ks a rnd ad e,
  encrypt_keyset ks a rnd ad = Err e ->
  tink_total (aead_encrypt a rnd (serialize_keyset ks) ad) ->
  (forall ct, aead_encrypt a rnd (serialize_keyset ks) ad = Ok ct -> tink_total (aead_decrypt a ct ad)) ->
  is_tink_error e = true.
Proof.
  intros ks a rnd ad e H He Hd. unfold encrypt_keyset in H.
  destruct (aead_encrypt a rnd (serialize_keyset ks) ad) as [ct | e']; cbn [bind] in H.
  2: { injection H as <-. exact He. }
  specialize (Hd ct eq_refl). destruct (aead_decrypt a ct ad) as [pt | e']; cbn [bind] in H.
  2: { destruct e'; simpl in *; try discriminate; injection H as <-; reflexivity. }
  unfold keyset_from_string in H. destruct (parse_keyset pt) as [ks2 |]; cbn [bind] in H.
  2: { injection H as <-. reflexivity. }
  destruct (keyset_eqb ks ks2); cbn in H; [discriminate |]. injection H as <-. reflexivity.
Qed.

Lemma decrypt_keyset_ok : forall ek a ad ks,
  decrypt_keyset ek a ad = Ok ks <->
  exists pt, aead_decrypt a (ek_encrypted_keyset ek) ad = Ok pt /\ parse_keyset pt = Some ks /\
    ks_key ks <> [].
Proof.
  intros ek a ad ks. unfold decrypt_keyset.
  destruct (aead_decrypt a (ek_encrypted_keyset ek) ad) as [pt | e]; cbn [bind].
  2: { split; [destruct e; discriminate |]. intros (pt & H & _). discriminate. }
  unfold keyset_from_string. destruct (parse_keyset pt) as [ks2 |] eqn:Ep; cbn [bind].
  2: { split; [discriminate |]. intros (pt' & H1 & H2 & _). injection H1 as <-. congruence. }
  unfold assert_enough_key_material. destruct (ks_key ks2) as [| k l] eqn:Ek; cbn.
  - split; [discriminate |]. intros (pt' & H1 & H2 & H3). injection H1 as <-. congruence.
  - split.
    + intro H. injection H as <-. exists pt. repeat split; auto. congruence.
    + intros (pt' & H1 & H2 & H3). injection H1 as <-. congruence.
Qed.

Lemma decrypt_keyset_err : forall ek a ad e,
  decrypt_keyset ek a ad = Err e ->
  tink_total (aead_decrypt a (ek_encrypted_keyset ek) ad) -> is_tink_error e = true.
Proof.
  intros ek a ad e H Hd. unfold decrypt_keyset in H.
  destruct (aead_decrypt a (ek_encrypted_keyset ek) ad) as [pt | e']; cbn [bind] in H.
  2: { destruct e'; simpl in *; try discriminate; injection H as <-; reflexivity. }
  unfold keyset_from_string in H. destruct (parse_keyset pt) as [ks2 |]; cbn [bind] in H.
  2: { injection H as <-. reflexivity. }
  unfold assert_enough_key_material in H. destruct (ks_key ks2); cbn in H; [| discriminate].
  injection H as <-. reflexivity.
Qed.

(** Reading an encrypted keyset, for any reader. *)
Theorem read_with_associated_data_ok : forall r a ad h,
  read_with_associated_data r a ad = Ok h <->
  exists ek pt ks, kr_read_encrypted r = Ok ek /\ ek_encrypted_keyset ek <> [] /\
    aead_decrypt a (ek_encrypted_keyset ek) ad = Ok pt /\ parse_keyset pt = Some ks /\
    valid_keyset ks /\ h = mk_handle ks.
Proof.
  intros r a ad h. unfold read_with_associated_data.
  destruct (kr_read_encrypted r) as [ek | e]; cbn [bind].
  2: { split; [discriminate |]. intros (ek & pt & ks & H & _). discriminate. }
  unfold assert_enough_encrypted_key_material.
  destruct (ek_encrypted_keyset ek) as [| c ct] eqn:Ect; cbn [bind].
  { split; [discriminate |]. intros (ek' & pt & ks & H & Hn & _). injection H as <-. congruence. }
  split.
  - intro H. apply bind_ok in H. destruct H as (ks & H1 & H2). apply decrypt_keyset_ok in H1.
    apply create_ok in H2. destruct H1 as (pt & H1 & H3 & _). rewrite Ect in H1.
    exists ek, pt, ks. rewrite Ect. intuition discriminate.
  - intros (ek' & pt & ks & H & Hn & H1 & H2 & H3 & ->). injection H as <-.
    assert (Hd : decrypt_keyset ek a ad = Ok ks).
    { apply decrypt_keyset_ok. exists pt. split; [assumption |]. split; [assumption |].
      destruct H3 as ((k & Hk & _) & _). intro E. rewrite E in Hk. destruct Hk. }
    rewrite Hd. cbn [bind]. apply create_ok. auto.
Qed.

Theorem read_with_associated_data_err : forall r a ad e,
  read_with_associated_data r a ad = Err e ->
  tink_total (kr_read_encrypted r) ->
  (forall ct, tink_total (aead_decrypt a ct ad)) -> is_tink_error e = true.
Proof.
  intros r a ad e H Hr Ha. unfold read_with_associated_data in H.
  destruct (kr_read_encrypted r) as [ek | e']; cbn [bind] in H.
  2: { injection H as <-. exact Hr. }
  apply bind_err in H. destruct H as [H | (u & _ & H)].
  { unfold assert_enough_encrypted_key_material in H.
    destruct (ek_encrypted_keyset ek); [injection H as <-; reflexivity | discriminate]. }
  apply bind_err in H. destruct H as [H | (ks & _ & H)].
  - eapply decrypt_keyset_err; eauto.
  - eapply create_err; eauto.
Qed.

(** Writing: either everything was checked to be readable and the encrypted
    keyset is handed to the writer, or nothing is. *)
Theorem write_encrypted_spec : forall S h (w : keyset_writer S) a rnd ad st,
  (exists ct pt info, aead_encrypt a rnd (serialize_keyset (kh_keyset h)) ad = Ok ct /\
     aead_decrypt a ct ad = Ok pt /\ parse_keyset pt = Some (kh_keyset h) /\
     describes (kh_keyset h) info /\
     write_with_associated_data h w a rnd ad st =
       kw_write_encrypted w (mk_encrypted_keyset ct (Some info)) st) \/
  ((forall ct pt, aead_encrypt a rnd (serialize_keyset (kh_keyset h)) ad = Ok ct ->
      aead_decrypt a ct ad = Ok pt -> parse_keyset pt <> Some (kh_keyset h)) /\
   exists e, write_with_associated_data h w a rnd ad st = (Err e, st) /\
     (tink_total (aead_encrypt a rnd (serialize_keyset (kh_keyset h)) ad) ->
      (forall ct, tink_total (aead_decrypt a ct ad)) -> is_tink_error e = true)).
Proof.
  intros S h w a rnd ad st. unfold write_with_associated_data.
  destruct (encrypt_keyset (kh_keyset h) a rnd ad) as [ek | e] eqn:E.
  - left. apply encrypt_keyset_ok in E. destruct E as (ct & pt & H1 & H2 & H3 & ->).
    exists ct, pt, (make_keyset_info (kh_keyset h)). repeat split; auto.
    unfold make_keyset_info. cbn [ksi_key_info].
    induction (ks_key (kh_keyset h)) as [| k l IH]; cbn [map]; constructor; auto.
  - right. split.
    + intros ct pt H1 H2 H3.
      assert (Hok : encrypt_keyset (kh_keyset h) a rnd ad =
        Ok (mk_encrypted_keyset ct (Some (make_keyset_info (kh_keyset h)))))
        by (apply encrypt_keyset_ok; exists ct, pt; auto).
      congruence.
    + exists e. split; [reflexivity |]. intros Ht Hd. eapply encrypt_keyset_err; eauto.
Qed.

Lemma serialize_encrypted_nonempty : forall ct,
  ct <> [] -> serialize_encrypted_keyset (mk_encrypted_keyset ct None) <> [].
Proof.
  intros ct Hct. destruct ct as [| c ct]; [congruence |].
  unfold serialize_encrypted_keyset, fields_of_encrypted_keyset. cbn [ek_encrypted_keyset ek_keyset_info].
  unfold f_bytes. cbn [app]. unfold encode_fields, encode_field. cbn [map concat].
  intro H. apply app_eq_nil in H. destruct H as [H _]. apply app_eq_nil in H.
  destruct H as [H _]. apply varint_nonempty in H. contradiction.
Qed.

Lemma binary_reader_encrypted : forall x ek, x <> [] -> parse_encrypted_keyset x = Some ek ->
  kr_read_encrypted (binary_keyset_reader x) = Ok ek.
Proof.
  intros x ek Hx Hp. destruct x as [| c x]; [congruence |].
  unfold binary_keyset_reader. cbn [kr_read_encrypted]. unfold encrypted_keyset_from_string.
  rewrite Hp. reflexivity.
Qed.
Lemma binary_reader_read : forall x ks, x <> [] -> parse_keyset x = Some ks ->
  kr_read (binary_keyset_reader x) = Ok ks.
Proof.
  intros x ek Hx Hp. destruct x as [| c x]; [congruence |].
  unfold binary_keyset_reader. cbn [kr_read]. unfold keyset_from_string.
  rewrite Hp. reflexivity.
Qed.

(** Binary round trip of encrypted keysets. *)
Theorem encrypted_binary_round_trip : forall h a rnd ad st st',
  valid_keyset (kh_keyset h) ->
  (forall pt ct, aead_encrypt a rnd pt ad = Ok ct -> ct <> []) ->
  write_with_associated_data h binary_keyset_writer a rnd ad st = (Ok tt, st') ->
  exists x, st' = st ++ x /\
    (proto_size x -> read_with_associated_data (binary_keyset_reader x) a ad = Ok h).
Proof.
  intros h a rnd ad st st' Hv Hne H.
  destruct (write_encrypted_spec _ h binary_keyset_writer a rnd ad st)
    as [(ct & pt & info & H1 & H2 & H3 & _ & H4) | (_ & e & H4 & _)]; [| congruence].
  rewrite H4 in H. cbn [binary_keyset_writer kw_write_encrypted ek_encrypted_keyset] in H.
  injection H as <-. eexists. split; [reflexivity |]. intro Hsz.
  apply read_with_associated_data_ok.
  exists (mk_encrypted_keyset ct None), pt, (kh_keyset h). cbn [ek_encrypted_keyset].
  split; [| split; [| split; [| split; [| split]]]]; eauto.
  - apply binary_reader_encrypted.
    + apply serialize_encrypted_nonempty. eauto.
    + apply encrypted_keyset_round_trip; auto. discriminate.
  - destruct h; reflexivity.
Qed.

(** ** No-secret APIs *)

Lemma assert_no_secret_ok : forall ks, assert_no_secret_key_material ks = Ok tt <-> ~ has_secret ks.
Proof.
  intros ks. unfold assert_no_secret_key_material. rewrite for_each_ok, Forall_forall. split.
  - intros H (k & Hk & Ht). specialize (H k Hk). cbv beta zeta in H.
    destruct Ht as [E | [E | E]]; rewrite E in H; discriminate.
  - intros H k Hk. destruct (_ || _) eqn:E; [| reflexivity]. exfalso. apply H. exists k.
    split; [assumption |]. unfold secret_type.
    rewrite !orb_true_iff, !Z.eqb_eq in E. tauto.
Qed.
Lemma assert_no_secret_err : forall ks e, assert_no_secret_key_material ks = Err e ->
  is_tink_error e = true.
Proof.
  intros ks e H. apply for_each_err in H. destruct H as (k & _ & H). cbv zeta in H.
  destruct (_ || _) in H; [| discriminate]. injection H as <-. reflexivity.
Qed.
Lemma assert_no_secret_cases : forall ks,
  (assert_no_secret_key_material ks = Ok tt /\ ~ has_secret ks) \/
  (exists e, assert_no_secret_key_material ks = Err e /\ is_tink_error e = true /\ has_secret ks).
Proof.
  intros ks. destruct (assert_no_secret_key_material ks) as [[] | e] eqn:E.
  - left. split; [reflexivity |]. apply assert_no_secret_ok. assumption.
  - right. exists e. split; [reflexivity |]. split; [eapply assert_no_secret_err; eauto |].
    unfold assert_no_secret_key_material in E. apply for_each_err in E.
    destruct E as (k & Hk & E). exists k. split; [assumption |]. cbv zeta in E.
    match type of E with (if ?c then _ else _) = _ => destruct c eqn:Eb end; [| discriminate]. unfold secret_type.
    rewrite !orb_true_iff, !Z.eqb_eq in Eb. tauto.
Qed.

Theorem write_no_secret_spec : forall S h (w : keyset_writer S) st,
  (has_secret (kh_keyset h) -> exists e, write_no_secret h w st = (Err e, st) /\ is_tink_error e = true) /\
  (~ has_secret (kh_keyset h) -> write_no_secret h w st = kw_write w (kh_keyset h) st).
Proof.
  intros S h w st. unfold write_no_secret.
  destruct (assert_no_secret_cases (kh_keyset h)) as [[-> Hn] | (e & -> & Ht & Hs)].
  - split; [contradiction | reflexivity].
  - split; [eauto | contradiction].
Qed.

Theorem read_no_secret_spec : forall r h,
  read_no_secret r = Ok h <->
  exists ks, kr_read r = Ok ks /\ ~ has_secret ks /\ valid_keyset ks /\ h = mk_handle ks.
Proof.
  intros r h. unfold read_no_secret. destruct (kr_read r) as [ks | e]; cbn [bind].
  2: { split; [discriminate |]. intros (ks & H & _). discriminate. }
  destruct (assert_no_secret_cases ks) as [[-> Hn] | (e & -> & Ht & Hs)]; cbn [bind].
  - rewrite create_ok. split.
    + intros [Hv ->]. exists ks. auto.
    + intros (ks' & H & _ & Hv & ->). injection H as <-. auto.
  - split; [discriminate |]. intros (ks' & H & Hn & _). injection H as <-. contradiction.
Qed.

Theorem read_no_secret_err : forall r e, read_no_secret r = Err e -> tink_total (kr_read r) ->
  is_tink_error e = true.
Proof.
  intros r e H Hr. unfold read_no_secret in H. destruct (kr_read r) as [ks | e']; cbn [bind] in H.
  2: { injection H as <-. exact Hr. }
  apply bind_err in H. destruct H as [H | (u & _ & H)].
  - eapply assert_no_secret_err; eauto.
  - eapply create_err; eauto.
Qed.

Lemma serialize_keyset_nonempty : forall ks, valid_keyset ks -> serialize_keyset ks <> [].
Proof.
  intros ks ((k & Hk & _) & _) H. unfold serialize_keyset, fields_of_keyset in H.
  rewrite encode_fields_app in H. apply app_eq_nil in H. destruct H as [_ H].
  destruct (ks_key ks) as [| k' l]; [destruct Hk |].
  unfold encode_fields, encode_field in H. cbn [map concat] in H.
  apply app_eq_nil in H. destruct H as [H _]. apply app_eq_nil in H.
  destruct H as [H _]. apply varint_nonempty in H. contradiction.
Qed.

(** Binary proto format without secrets: refusal and round trip. *)
Theorem proto_serialize_without_secret_spec : forall h,
  (has_secret (kh_keyset h) -> raises_tink (proto_serialize_without_secret h)) /\
  (~ has_secret (kh_keyset h) ->
   proto_serialize_without_secret h = Ok (serialize_keyset (kh_keyset h))).
Proof.
  intros h. unfold proto_serialize_without_secret.
  destruct (write_no_secret_spec _ h binary_keyset_writer []) as [H1 H2]. split; intro Hs.
  - destruct (H1 Hs) as (e & -> & Ht). exists e. auto.
  - rewrite (H2 Hs). reflexivity.
Qed.

Theorem proto_parse_without_secret_spec : forall x h,
  proto_parse_without_secret x = Ok h <->
  x <> [] /\ exists ks, parse_keyset x = Some ks /\ ~ has_secret ks /\ valid_keyset ks /\
    h = mk_handle ks.
Proof.
  intros x h. unfold proto_parse_without_secret, read_no_secret_keyset_handle.
  rewrite read_no_secret_spec. split.
  - intros (ks & Hr & Hn & Hv & ->). destruct x as [| c x]; [discriminate |].
    split; [discriminate |]. exists ks. cbn [binary_keyset_reader kr_read] in Hr.
    unfold decode_error_to_tink, keyset_from_string in Hr.
    destruct (parse_keyset (c :: x)); [| discriminate]. cbn in Hr. injection Hr as <-. auto.
  - intros (Hx & ks & Hp & Hn & Hv & ->). exists ks. split; [| auto].
    apply binary_reader_read; auto.
Qed.

Theorem no_secret_binary_round_trip : forall h, valid_keyset (kh_keyset h) -> wf_keyset (kh_keyset h) ->
  ~ has_secret (kh_keyset h) -> proto_size (serialize_keyset (kh_keyset h)) ->
  exists x, proto_serialize_without_secret h = Ok x /\ proto_parse_without_secret x = Ok h.
Proof.
  intros h Hv Hw Hn Hs. eexists. split; [apply proto_serialize_without_secret_spec; assumption |].
  apply proto_parse_without_secret_spec. split; [apply serialize_keyset_nonempty; assumption |].
  exists (kh_keyset h). split; [apply keyset_round_trip; assumption |]. destruct h; auto.
Qed.

(** ** Keyset info *)

Theorem keyset_info_exact : forall h, describes (kh_keyset h) (handle_keyset_info h).
Proof.
  intros h. split; [reflexivity |]. unfold handle_keyset_info, make_keyset_info. cbn [ksi_key_info].
  induction (ks_key (kh_keyset h)) as [| k l IH]; cbn [map]; constructor; auto.
Qed.

Theorem keyset_info_no_key_material : forall h1 h2,
  same_public_view (kh_keyset h1) (kh_keyset h2) ->
  handle_keyset_info h1 = handle_keyset_info h2.
Proof.
  intros h1 h2 [Hp Hf]. unfold handle_keyset_info, make_keyset_info. rewrite Hp. f_equal.
  induction Hf as [| k1 k2 l1 l2 (H1 & H2 & H3 & H4) Hf IH]; [reflexivity |].
  cbn [map]. rewrite H1, H2, H3, H4, IH. reflexivity.
Qed.

(** What the binary writer emits depends only on the ciphertext. *)
Theorem encrypted_output_no_key_material : forall h1 h2 a1 a2 rnd1 rnd2 ad1 ad2 ct,
  aead_encrypt a1 rnd1 (serialize_keyset (kh_keyset h1)) ad1 = Ok ct ->
  aead_encrypt a2 rnd2 (serialize_keyset (kh_keyset h2)) ad2 = Ok ct ->
  forall st st1 st2,
  write_with_associated_data h1 binary_keyset_writer a1 rnd1 ad1 st = (Ok tt, st1) ->
  write_with_associated_data h2 binary_keyset_writer a2 rnd2 ad2 st = (Ok tt, st2) ->
  st1 = st2.
Proof.
  intros h1 h2 a1 a2 rnd1 rnd2 ad1 ad2 ct E1 E2 st st1 st2 W1 W2.
  destruct (write_encrypted_spec _ h1 binary_keyset_writer a1 rnd1 ad1 st)
    as [(ct1 & pt1 & i1 & H1 & _ & _ & _ & H4) | (_ & e & H4 & _)]; [| congruence].
  destruct (write_encrypted_spec _ h2 binary_keyset_writer a2 rnd2 ad2 st)
    as [(ct2 & pt2 & i2 & G1 & _ & _ & _ & G4) | (_ & e & G4 & _)]; [| congruence].
  rewrite H4 in W1. rewrite G4 in W2. cbn in W1, W2.
  assert (ct1 = ct) by congruence. assert (ct2 = ct) by congruence. subst.
  injection W1 as <-. injection W2 as <-. reflexivity.
Qed.

(** ** Tokens *)

Theorem token_required : forall t, t <> SecretKeyAccessToken ->
  (forall ks, raises_tink (from_proto_keyset ks t)) /\
  (forall h, raises_tink (to_proto_keyset h t)) /\
  (forall x, raises_tink (proto_parse x t)) /\
  (forall h, raises_tink (proto_serialize h t)).
Proof.
  intros t Ht.
  assert (Hf : forall ks, from_proto_keyset ks t = Err (TinkError "no secret access.")).
  { intros ks. destruct t; [congruence | |]; reflexivity. }
  assert (Hp : forall h, to_proto_keyset h t = Err (TinkError "no secret access.")).
  { intros ks. destruct t; [congruence | |]; reflexivity. }
  split; [| split; [| split]].
  - intros ks. rewrite Hf. eexists; split; reflexivity.
  - intros ks. rewrite Hp. eexists; split; reflexivity.
  - intros x. unfold proto_parse. destruct (kr_read (binary_keyset_reader x)) as [ks | e] eqn:E.
    + cbn [bind]. rewrite Hf. eexists; split; reflexivity.
    + cbn [bind]. exists e. split; [reflexivity |].
      destruct x as [| c x]; cbn in E; [injection E as <-; reflexivity |].
      unfold decode_error_to_tink, keyset_from_string in E.
      destruct (parse_keyset (c :: x)); cbn in E; [discriminate |]. injection E as <-. reflexivity.
  - intros h. unfold proto_serialize. rewrite Hp. eexists; split; reflexivity.
Qed.

(** The refusal does not depend on the keyset. *)
Theorem token_refusal_uniform : forall t, t <> SecretKeyAccessToken ->
  (forall ks1 ks2, from_proto_keyset ks1 t = from_proto_keyset ks2 t) /\
  (forall h1 h2, to_proto_keyset h1 t = to_proto_keyset h2 t) /\
  (forall h1 h2, proto_serialize h1 t = proto_serialize h2 t).
Proof. intros [| n | n] Ht; [congruence | |]; repeat split. Qed.

Theorem token_accepted :
  (forall ks, from_proto_keyset ks SecretKeyAccessToken = create ks) /\
  (forall h, to_proto_keyset h SecretKeyAccessToken = Ok (kh_keyset h)) /\
  (forall h, valid_keyset (kh_keyset h) -> wf_keyset (kh_keyset h) ->
     proto_size (serialize_keyset (kh_keyset h)) ->
     exists x, proto_serialize h SecretKeyAccessToken = Ok x /\
               proto_parse x SecretKeyAccessToken = Ok h).
Proof.
  split; [reflexivity |]. split; [reflexivity |]. intros h Hv Hw Hs.
  eexists. split; [reflexivity |]. unfold proto_parse.
  cbn [app binary_keyset_writer kw_write].
  rewrite (binary_reader_read _ (kh_keyset h)).
  - cbn [bind]. apply create_ok. destruct h; auto.
  - apply serialize_keyset_nonempty; assumption.
  - apply keyset_round_trip; assumption.
Qed.

(** ** Readers never raise anything but TinkError *)

Theorem binary_reader_total : forall x,
  tink_total (kr_read (binary_keyset_reader x)) /\
  tink_total (kr_read_encrypted (binary_keyset_reader x)).
Proof.
  intros [| c x]; [split; reflexivity |]. unfold binary_keyset_reader. cbn [kr_read kr_read_encrypted].
  unfold decode_error_to_tink, keyset_from_string, encrypted_keyset_from_string.
  split; [destruct (parse_keyset _) | destruct (parse_encrypted_keyset _)]; exact I || reflexivity.
Qed.

Theorem binary_parsers_total : forall x,
  (forall t, tink_total (proto_parse x t)) /\
  tink_total (proto_parse_without_secret x) /\
  tink_total (cleartext_read (binary_keyset_reader x)) /\
  (forall a ad, (forall ct, tink_total (aead_decrypt a ct ad)) -> tink_total (proto_parse_encrypted x a ad)).
Proof.
  intros x. destruct (binary_reader_total x) as [Hr He].
  assert (Hc : forall ks, tink_total (create ks)).
  { intros ks. destruct (create ks) eqn:E; [exact I |]. eapply create_err; eauto. }
  split; [| split; [| split]].
  - intros t. unfold proto_parse. destruct (kr_read (binary_keyset_reader x)); cbn [bind]; [| exact Hr].
    unfold from_proto_keyset. destruct (negb _); [reflexivity | apply Hc].
  - unfold proto_parse_without_secret, read_no_secret_keyset_handle.
    destruct (read_no_secret (binary_keyset_reader x)) eqn:E; [exact I |].
    eapply read_no_secret_err; eauto.
  - unfold cleartext_read. destruct (kr_read (binary_keyset_reader x)); cbn [bind]; [apply Hc | exact Hr].
  - intros a ad Ha. unfold proto_parse_encrypted, read_keyset_handle_with_associated_data.
    destruct (read_with_associated_data (binary_keyset_reader x) a ad) eqn:E; [exact I |].
    eapply read_with_associated_data_err; eauto.
Qed.

(** ** Public handles *)

Lemma registry_public_key_data_ok : forall reg k d,
  registry_public_key_data reg (k_key_data k) = Ok d <-> public_data_of reg k d.
Proof.
  intros reg k d. unfold registry_public_key_data, registry_key_manager, key_manager_internal,
    public_data_of.
  destruct (kd_key_material_type (k_key_data k) =? ASYMMETRIC_PRIVATE)%Z eqn:Em; cbn [negb].
  2: { apply Z.eqb_neq in Em. split; [discriminate | intros [H _]; congruence]. }
  apply Z.eqb_eq in Em.
  destruct (dict_get str_eqb (kd_type_url (k_key_data k)) (r_key_managers reg)) as [[km b] |];
    cbn [bind fst].
  2: { split; [discriminate |]. intros (_ & km & b & f & H & _). discriminate. }
  destruct (km_public_key_data km) as [f |] eqn:Ef.
  - split.
    + intro H. split; [assumption |]. exists km, b, f. auto.
    + intros (_ & km' & b' & f' & H1 & H2 & H3). injection H1 as <- <-. congruence.
  - split; [discriminate |]. intros (_ & km' & b' & f' & H1 & H2 & H3). injection H1 as <- <-. congruence.
Qed.

Lemma public_key_of_ok : forall reg k pk,
  public_key_of reg k = Ok pk <->
  public_counterpart reg k pk /\ k_output_prefix_type k <> UNKNOWN_PREFIX /\ k_status k <> UNKNOWN_STATUS.
Proof.
  intros reg k pk. unfold public_key_of, public_counterpart. split.
  - intro H. apply bind_ok in H. destruct H as (d & Hd & H). cbv zeta in H.
    apply bind_ok in H. destruct H as ([] & Hv & H). injection H as <-.
    apply registry_public_key_data_ok in Hd. apply validate_key_ok in Hv.
    destruct Hv as (_ & H1 & H2). cbn in *. split; [| auto].
    split; [eauto | auto].
  - intros (((d & Hd & Hp) & H1 & H2 & H3) & H4 & H5).
    apply registry_public_key_data_ok in Hp. rewrite Hp. cbn [bind].
    assert (Hpk : mk_key (Some d) (k_status k) (k_key_id k) (k_output_prefix_type k) = pk).
    { destruct pk; cbn in *. congruence. }
    rewrite Hpk.
    assert (Hv : validate_key pk = Ok tt).
    { apply validate_key_ok. unfold usable_key. rewrite H1, H3. eauto. }
    rewrite Hv. reflexivity.
Qed.

Theorem public_keyset_handle_ok : forall reg h ph,
  public_keyset_handle reg h = Ok ph <->
  ks_primary_key_id (kh_keyset ph) = ks_primary_key_id (kh_keyset h) /\
  Forall2 (public_counterpart reg) (ks_key (kh_keyset h)) (ks_key (kh_keyset ph)) /\
  (forall k, In k (ks_key (kh_keyset h)) ->
     k_output_prefix_type k <> UNKNOWN_PREFIX /\ k_status k <> UNKNOWN_STATUS) /\
  valid_keyset (kh_keyset ph).
Proof.
  intros reg h ph. unfold public_keyset_handle. split.
  - intro H. apply bind_ok in H. destruct H as (keys & Hk & H). apply create_ok in H.
    destruct H as [Hv ->]. cbn [kh_keyset ks_primary_key_id ks_key]. apply map_result_ok in Hk.
    split; [reflexivity |]. split; [| split; [| assumption]].
    + clear Hv. induction Hk as [| k pk l m Hx Hk IH]; constructor; auto.
      apply public_key_of_ok in Hx. tauto.
    + clear Hv. induction Hk as [| k pk l m Hx Hk IH]; intros k' [].
      * subst k'. apply public_key_of_ok in Hx. tauto.
      * auto.
  - intros (Hp & Hf & Hu & Hv).
    assert (Hm : map_result (public_key_of reg) (ks_key (kh_keyset h)) = Ok (ks_key (kh_keyset ph))).
    { apply map_result_ok. clear Hv. revert Hu.
      induction Hf as [| k pk l m Hx Hf IH]; intros Hu; constructor.
      - apply public_key_of_ok. split; [assumption |]. apply Hu. left. reflexivity.
      - apply IH. intros k' Hk'. apply Hu. right. assumption. }
    rewrite Hm. cbn [bind]. apply create_ok. rewrite <- Hp.
    destruct ph as [[pid keys]]. cbn in *. auto.
Qed.

Theorem public_keyset_handle_err : forall reg h e,
  public_keyset_handle reg h = Err e ->
  (forall k km b f, In k (ks_key (kh_keyset h)) ->
     dict_get str_eqb (kd_type_url (k_key_data k)) (r_key_managers reg) = Some (km, b) ->
     km_public_key_data km = Some f -> tink_total (f (k_key_data k))) ->
  is_tink_error e = true.
Proof.
  intros reg h e H Htot. unfold public_keyset_handle in H. apply bind_err in H.
  destruct H as [H | (keys & _ & H)]; [| eapply create_err; eauto].
  apply map_result_err in H. destruct H as (k & Hk & H). unfold public_key_of in H.
  apply bind_err in H. destruct H as [H | (d & _ & H)].
  - unfold registry_public_key_data, registry_key_manager, key_manager_internal in H.
    destruct (negb _); [injection H as <-; reflexivity |].
    destruct (dict_get str_eqb _ _) as [[km b] |] eqn:E; cbn [bind fst] in H.
    2: { injection H as <-. reflexivity. }
    destruct (km_public_key_data km) as [f |] eqn:Ef; [| injection H as <-; reflexivity].
    specialize (Htot k km b f Hk E Ef). rewrite H in Htot. exact Htot.
  - cbv zeta in H. apply bind_err in H. destruct H as [H | (u & _ & H)]; [| discriminate].
    eapply validate_key_err; eauto.
Qed.

(** A key that is not a private key, or whose manager is not a private-key
    manager, makes the call fail. *)
Theorem public_keyset_handle_refuses : forall reg h k,
  In k (ks_key (kh_keyset h)) -> (forall d, ~ public_data_of reg k d) ->
  forall ph, public_keyset_handle reg h <> Ok ph.
Proof.
  intros reg h k Hk Hn ph H. apply public_keyset_handle_ok in H. destruct H as (_ & Hf & _).
  clear - Hk Hn Hf. induction Hf as [| k' pk l m Hx Hf IH]; [destruct Hk |].
  destruct Hk as [<- | Hk]; [| auto]. destruct Hx as ((d & _ & Hd) & _). eapply Hn; eauto.
Qed.

(** Every way to obtain a handle yields a valid keyset. *)
Theorem handles_are_valid :
  (forall reg rnd draws t h, generate_new reg rnd draws t = Some (Ok h) -> valid_keyset (kh_keyset h)) /\
  (forall r a ad h, read_with_associated_data r a ad = Ok h -> valid_keyset (kh_keyset h)) /\
  (forall r h, read_no_secret r = Ok h -> valid_keyset (kh_keyset h)) /\
  (forall ks h, cleartext_from_keyset ks = Ok h -> valid_keyset (kh_keyset h)) /\
  (forall r h, cleartext_read r = Ok h -> valid_keyset (kh_keyset h)) /\
  (forall ks t h, from_proto_keyset ks t = Ok h -> valid_keyset (kh_keyset h)) /\
  (forall reg h ph, public_keyset_handle reg h = Ok ph -> valid_keyset (kh_keyset ph)).
Proof.
  assert (Hc : forall ks h, create ks = Ok h -> valid_keyset (kh_keyset h)).
  { intros ks h H. apply create_ok in H. destruct H as [H ->]. exact H. }
  refine (conj _ (conj _ (conj _ (conj _ (conj _ (conj _ _)))))).
  - intros reg rnd draws t h H. unfold generate_new in H.
    destruct (registry_new_key_data reg rnd t); [| discriminate].
    destruct (generate_unused_key_id draws _); [| discriminate]. injection H as H. eauto.
  - intros r a ad h H. apply read_with_associated_data_ok in H.
    destruct H as (ek & pt & ks & _ & _ & _ & _ & H & ->). exact H.
  - intros r h H. apply read_no_secret_spec in H. destruct H as (ks & _ & _ & H & ->). exact H.
  - exact Hc.
  - intros r h H. unfold cleartext_read in H. apply bind_ok in H. destruct H as (ks & _ & H). eauto.
  - intros ks t h H. unfold from_proto_keyset in H. destruct (negb _); [discriminate |]. eauto.
  - intros reg h ph H. apply public_keyset_handle_ok in H. tauto.
Qed.
