(** Proofs about KMS clients and envelope encryption. *)
From Coq Require Import Strings.Byte Strings.String List NArith ZArith Bool Lia Arith.Cantor.
From Verif Require Import M_Base M_Utf8 M_Proto M_Wire M_Prims M_PrimitiveSet M_Registry M_Kms
  S_Keyset S_Wire S_Kms L_Base L_Utf8 L_Wire L_PrimitiveSet S_Registry L_Registry.
Import ListNotations.
Open Scope list_scope.
Open Scope Z_scope.

(** * Client lookup *)

Lemma kms_run_general : forall ops l, kms_run l ops =
  (if existsb (fun o => match o with KmsReset => true | _ => false end) ops then [] else l)
  ++ since_reset ops.
Proof.
  induction ops as [| [c |] r IH]; intros l; cbn [kms_run fold_left].
  - cbn. rewrite app_nil_r. reflexivity.
  - change (kms_run (l ++ [c]) r = (if existsb (fun o => match o with KmsReset => true | _ => false end) (KmsRegister c :: r) then [] else l)
      ++ since_reset (KmsRegister c :: r)).
    rewrite IH. cbn [existsb since_reset orb].
    destruct (existsb _ r); [reflexivity |]. rewrite <- app_assoc. reflexivity.
  - change (kms_run [] r = [] ++ since_reset r). rewrite IH. destruct (existsb _ r); reflexivity.
Qed.

Lemma kms_from_uri_first : forall clients uri c,
  kms_client_from_uri clients uri = Ok c <-> first_supporting clients uri c.
Proof.
  induction clients as [| d r IH]; intros uri c; cbn [kms_client_from_uri].
  - split; [discriminate |]. intros (e & l & H & _). destruct e; discriminate.
  - destruct (kc_does_support d uri) eqn:E.
    + split.
      * intros H. apply ok_inj in H. subst d. exists [], r. split; [reflexivity |]. split; [assumption |].
        intros d [].
      * intros ([| x e] & l & H & Hc & He).
        -- cbn in H. injection H as -> _. reflexivity.
        -- cbn in H. injection H as -> _. rewrite (He x) in E by (left; reflexivity). discriminate.
    + rewrite IH. split.
      * intros (e & l & -> & Hc & He). exists (d :: e), l. split; [reflexivity |]. split; [assumption |].
        intros x [<- | Hx]; auto.
      * intros ([| x e] & l & H & Hc & He).
        -- cbn in H. injection H as -> _. congruence.
        -- cbn in H. injection H as -> ->. exists e, l. split; [reflexivity |]. split; [assumption |].
           intros y Hy. apply He. right. exact Hy.
Qed.

Lemma kms_from_uri_err : forall clients uri e, kms_client_from_uri clients uri = Err e ->
  is_tink_error e = true /\ forall c, In c clients -> kc_does_support c uri = false.
Proof.
  induction clients as [| d r IH]; intros uri e H; cbn [kms_client_from_uri] in H.
  - injection H as <-. split; [reflexivity | intros c []].
  - destruct (kc_does_support d uri) eqn:E; [discriminate |]. apply IH in H. destruct H as [H1 H2].
    split; [assumption |]. intros c [<- | Hc]; auto.
Qed.

Theorem kms_lookup : forall ops uri,
  (forall c, kms_client_from_uri (kms_run [] ops) uri = Ok c <->
             first_supporting (since_reset ops) uri c) /\
  (raises_tink (kms_client_from_uri (kms_run [] ops) uri) <->
   forall c, In c (since_reset ops) -> kc_does_support c uri = false) /\
  tink_total (kms_client_from_uri (kms_run [] ops) uri).
Proof.
  intros ops uri.
  assert (E : kms_run [] ops = since_reset ops)
    by (rewrite kms_run_general; destruct (existsb _ ops); reflexivity).
  rewrite E. split; [intros c; apply kms_from_uri_first |]. split.
  - split.
    + intros (e & H & _). apply kms_from_uri_err in H. apply H.
    + intros H. destruct (kms_client_from_uri (since_reset ops) uri) as [c | e] eqn:F.
      * apply kms_from_uri_first in F. destruct F as (a & b & Hs & Hc & _).
        rewrite H in Hc; [discriminate |]. rewrite Hs. apply in_elt.
      * exists e. split; [reflexivity |]. apply kms_from_uri_err in F. apply F.
  - destruct (kms_client_from_uri (since_reset ops) uri) as [c | e] eqn:F; cbn; [exact I |].
    apply kms_from_uri_err in F. apply F.
Qed.

(** * Envelope encryption *)

Lemma coins_split_onto : forall r1 r2 r3, exists r, coins_split r = (r1, r2, r3).
Proof.
  intros a b c.
  exists (N.of_nat (Cantor.to_nat (N.to_nat a, Cantor.to_nat (N.to_nat b, N.to_nat c)))).
  unfold coins_split. rewrite Nnat.Nat2N.id, !Cantor.cancel_of_to, !Nnat.N2Nat.id. reflexivity.
Qed.

Lemma new_key_data_generates : forall reg r t d,
  registry_new_key_data reg r t = Ok d <-> generates reg r t d.
Proof.
  intros reg r t d. unfold registry_new_key_data, key_manager_internal, generates.
  destruct (dict_get str_eqb (kt_type_url t) (r_key_managers reg)) as [[km b] |]; cbn [bind].
  - destruct b; cbn [negb].
    + split; [intros H; exists km; auto |]. intros (km' & H & H2). apply some_inj in H. congruence.
    + split; [discriminate |]. intros (km' & H & _). apply some_inj in H. congruence.
  - split; [discriminate |]. intros (km & H & _). discriminate.
Qed.

Lemma registry_primitive_provides : forall reg d p,
  registry_primitive reg d ClsAead = Ok p <-> data_provides reg d p.
Proof.
  intros reg d p. unfold registry_primitive, registry_key_manager, key_manager_internal, data_provides.
  destruct (dict_get str_eqb (kd_type_url d) (r_key_managers reg)) as [[km b] |]; cbn [bind fst].
  - destruct (pclass_eqb (km_primitive_class km) ClsAead) eqn:E; cbn [negb].
    + apply pclass_eqb_eq in E. split; [intros H; exists km, b; auto |].
      intros (km' & b' & H & _ & H3). apply some_inj in H. congruence.
    + split; [discriminate |]. intros (km' & b' & H & H2 & _). apply some_inj in H.
      assert (km' = km) by congruence. subst km'. rewrite H2 in E. discriminate.
  - split; [discriminate |]. intros (km & b & H & _). discriminate.
Qed.

Lemma pack_layout : forall edek body h, pack_be32 (N.of_nat (length edek)) = Ok h ->
  envelope_layout edek body (h ++ edek ++ body).
Proof.
  intros edek body h H. unfold pack_be32 in H.
  destruct (N.of_nat (length edek) <? 4294967296)%N eqn:E; [| discriminate].
  apply ok_inj in H. subst h. apply N.ltb_lt in E.
  destruct (be32_bytes (N.of_nat (length edek))) as (b3 & b2 & b1 & b0 & Hb & Hv); [exact E |].
  rewrite Hb. exists b3, b2, b1, b0. split; [reflexivity | exact Hv].
Qed.

Lemma be_N_4 : forall b3 b2 b1 b0, be_N [b3; b2; b1; b0] =
  (Byte.to_N b3 * 2 ^ 24 + Byte.to_N b2 * 2 ^ 16 + Byte.to_N b1 * 2 ^ 8 + Byte.to_N b0)%N.
Proof. intros. unfold be_N. cbn [fold_left]. lia. Qed.

Lemma envelope_layout_unique : forall ct e1 b1 e2 b2,
  envelope_layout e1 b1 ct -> envelope_layout e2 b2 ct -> e1 = e2 /\ b1 = b2.
Proof.
  intros ct e1 b1 e2 b2 (a3 & a2 & a1 & a0 & -> & Ha) (c3 & c2 & c1 & c0 & H & Hc).
  cbn [app] in H. injection H as -> -> -> -> H.
  assert (length e1 = length e2) by lia.
  assert (G : firstn (length e1) (e1 ++ b1) = firstn (length e1) (e2 ++ b2)) by congruence.
  rewrite firstn_app, Nat.sub_diag, firstn_O, firstn_all, app_nil_r in G.
  rewrite H0, firstn_app, Nat.sub_diag, firstn_O, firstn_all, app_nil_r in G. subst e2.
  split; [reflexivity |]. apply app_inv_head in H. exact H.
Qed.

Lemma envelope_encrypt_sound : forall reg t remote r pt ad ct,
  envelope_encrypt reg t remote r pt ad = Ok ct ->
  exists r1 r2 r3 dek p edek body,
    coins_split r = (r1, r2, r3) /\
    generates reg r1 t dek /\ data_provides reg dek p /\
    call_encrypt p r2 pt ad = Ok body /\
    aead_encrypt remote r3 (kd_value dek) [] = Ok edek /\
    envelope_layout edek body ct.
Proof.
  intros reg t remote r pt ad ct H. unfold envelope_encrypt in H.
  destruct (coins_split r) as [[r1 r2] r3].
  apply bind_ok in H. destruct H as (dek & H1 & H).
  apply bind_ok in H. destruct H as (p & H2 & H).
  apply bind_ok in H. destruct H as (body & H3 & H).
  apply bind_ok in H. destruct H as (edek & H4 & H).
  apply bind_ok in H. destruct H as (h & H5 & H). apply ok_inj in H. subst ct.
  exists r1, r2, r3, dek, p, edek, body. repeat split; auto.
  - apply new_key_data_generates. exact H1.
  - apply registry_primitive_provides. exact H2.
  - apply pack_layout. exact H5.
Qed.

Lemma new_envelope_fields : forall reg r0 t remote env,
  new_kms_envelope_aead reg r0 t remote = Ok env ->
  env = mk_aead (envelope_encrypt reg t remote) (envelope_decrypt reg t remote).
Proof.
  intros reg r0 t remote env H. unfold new_kms_envelope_aead in H.
  destruct (negb _); [discriminate |]. apply bind_ok in H. destruct H as (d & _ & H).
  apply ok_inj in H. auto.
Qed.

Theorem envelope_encrypt_format : forall reg r0 t remote env,
  new_kms_envelope_aead reg r0 t remote = Ok env ->
  (forall r pt ad ct, aead_encrypt env r pt ad = Ok ct ->
     exists r1 r2 r3 dek p edek body,
       generates reg r1 t dek /\ data_provides reg dek p /\
       call_encrypt p r2 pt ad = Ok body /\
       aead_encrypt remote r3 (kd_value dek) [] = Ok edek /\
       envelope_layout edek body ct) /\
  (forall r1 r2 r3 dek p edek body pt ad,
     generates reg r1 t dek -> data_provides reg dek p ->
     call_encrypt p r2 pt ad = Ok body ->
     aead_encrypt remote r3 (kd_value dek) [] = Ok edek ->
     (N.of_nat (length edek) < 2 ^ 32)%N ->
     exists r ct, aead_encrypt env r pt ad = Ok ct /\ envelope_layout edek body ct).
Proof.
  intros reg r0 t remote env H. apply new_envelope_fields in H. subst env. cbn [aead_encrypt]. split.
  - intros r pt ad ct H. apply envelope_encrypt_sound in H.
    destruct H as (r1 & r2 & r3 & dek & p & edek & body & _ & H).
    exists r1, r2, r3, dek, p, edek, body. exact H.
  - intros r1 r2 r3 dek p edek body pt ad H1 H2 H3 H4 H5.
    destruct (coins_split_onto r1 r2 r3) as [r Hr].
    apply new_key_data_generates in H1. apply registry_primitive_provides in H2.
    assert (Hp : pack_be32 (N.of_nat (length edek)) = Ok (be32 (N.of_nat (length edek)))).
    { unfold pack_be32. apply N.ltb_lt in H5. change (2 ^ 32)%N with 4294967296%N in H5.
      rewrite H5. reflexivity. }
    exists r, (be32 (N.of_nat (length edek)) ++ edek ++ body). split.
    + unfold envelope_encrypt. rewrite Hr, H1. cbn [bind]. rewrite H2. cbn [bind].
      rewrite H3. cbn [bind]. rewrite H4. cbn [bind]. rewrite Hp. reflexivity.
    + apply pack_layout. exact Hp.
Qed.

Lemma firstn_skipn_layout : forall (edek body : bytes) (b3 b2 b1 b0 : byte),
  firstn (length edek) (skipn 4 ([b3; b2; b1; b0] ++ edek ++ body)) = edek /\
  skipn (4 + length edek) ([b3; b2; b1; b0] ++ edek ++ body) = body.
Proof.
  intros. cbn [app skipn]. split.
  - rewrite firstn_app, Nat.sub_diag, firstn_O, firstn_all, app_nil_r. reflexivity.
  - cbn [Nat.add skipn]. rewrite skipn_app, skipn_all, Nat.sub_diag. reflexivity.
Qed.

Lemma envelope_decrypt_layout : forall reg t remote edek body ct ad,
  envelope_layout edek body ct ->
  envelope_decrypt reg t remote ct ad =
  (dek_bytes <- aead_decrypt remote edek [] ;;
   p <- registry_primitive reg (mk_key_data (kt_type_url t) dek_bytes SYMMETRIC) ClsAead ;;
   call_decrypt p body ad).
Proof.
  intros reg t remote edek body ct ad (b3 & b2 & b1 & b0 & -> & Hlen).
  unfold envelope_decrypt, DEK_LEN_BYTES.
  assert (L : length ([b3; b2; b1; b0] ++ edek ++ body) = (4 + (length edek + length body))%nat)
    by (cbn [app length]; rewrite app_length; lia).
  rewrite L.
  destruct (Nat.ltb_spec (4 + (length edek + length body)) 4) as [Hlt | _]; [lia |].
  change (firstn 4 ([b3; b2; b1; b0] ++ edek ++ body)) with [b3; b2; b1; b0].
  rewrite be_N_4, Hlen.
  destruct (N.ltb_spec (N.of_nat (4 + (length edek + length body) - 4)) (N.of_nat (length edek)))
    as [Hlt | _]; [lia |].
  rewrite Nnat.Nat2N.id. destruct (firstn_skipn_layout edek body b3 b2 b1 b0) as [F1 F2].
  rewrite F1, F2. reflexivity.
Qed.

Lemma layout_or_short : forall ct, (exists edek body, envelope_layout edek body ct) \/ too_short ct.
Proof.
  intros ct. destruct ct as [| b3 [| b2 [| b1 [| b0 rest]]]]; try (right; left; cbn; lia).
  set (n := (Byte.to_N b3 * 2 ^ 24 + Byte.to_N b2 * 2 ^ 16 + Byte.to_N b1 * 2 ^ 8 + Byte.to_N b0)%N).
  destruct (N.ltb_spec (N.of_nat (length rest)) n) as [Hlt | Hge].
  - right. right. exists b3, b2, b1, b0, rest. split; [reflexivity | exact Hlt].
  - left. exists (firstn (N.to_nat n) rest), (skipn (N.to_nat n) rest), b3, b2, b1, b0.
    split; [rewrite firstn_skipn; reflexivity |].
    rewrite firstn_length, Nat.min_l by lia. fold n. lia.
Qed.

Lemma envelope_decrypt_short : forall reg t remote ct ad, too_short ct ->
  raises_tink (envelope_decrypt reg t remote ct ad).
Proof.
  intros reg t remote ct ad H. unfold envelope_decrypt, DEK_LEN_BYTES.
  destruct (Nat.ltb_spec (length ct) 4) as [Hlt | Hge]; [eexists; split; reflexivity |].
  destruct H as [H | (b3 & b2 & b1 & b0 & rest & -> & H)]; [lia |].
  change (firstn 4 (b3 :: b2 :: b1 :: b0 :: rest)) with [b3; b2; b1; b0]. rewrite be_N_4.
  cbn [length]. replace (S (S (S (S (length rest)))) - 4)%nat with (length rest) by lia.
  apply N.ltb_lt in H. rewrite H. eexists; split; reflexivity.
Qed.

Theorem envelope_decrypt_iff : forall reg r0 t remote env,
  new_kms_envelope_aead reg r0 t remote = Ok env ->
  forall ct ad pt, aead_decrypt env ct ad = Ok pt <->
    exists edek body dek_bytes p,
      envelope_layout edek body ct /\
      aead_decrypt remote edek [] = Ok dek_bytes /\
      data_provides reg (mk_key_data (kt_type_url t) dek_bytes SYMMETRIC) p /\
      call_decrypt p body ad = Ok pt.
Proof.
  intros reg r0 t remote env H ct ad pt. apply new_envelope_fields in H. subst env.
  cbn [aead_decrypt]. split.
  - intros H. destruct (layout_or_short ct) as [(edek & body & L) | S].
    + rewrite (envelope_decrypt_layout _ _ _ _ _ _ _ L) in H.
      apply bind_ok in H. destruct H as (d & H1 & H).
      apply bind_ok in H. destruct H as (p & H2 & H).
      exists edek, body, d, p. repeat split; auto. apply registry_primitive_provides. exact H2.
    + destruct (envelope_decrypt_short reg t remote ct ad S) as (e & E & _). congruence.
  - intros (edek & body & d & p & L & H1 & H2 & H3).
    rewrite (envelope_decrypt_layout _ _ _ _ _ _ _ L), H1. cbn [bind].
    apply registry_primitive_provides in H2. rewrite H2. exact H3.
Qed.

Theorem envelope_decrypt_too_short : forall reg r0 t remote env,
  new_kms_envelope_aead reg r0 t remote = Ok env ->
  forall ct ad, too_short ct -> raises_tink (aead_decrypt env ct ad).
Proof.
  intros reg r0 t remote env H ct ad S. apply new_envelope_fields in H. subst env.
  apply envelope_decrypt_short. exact S.
Qed.

Theorem envelope_decrypt_only_tink_error : forall reg r0 t remote env,
  new_kms_envelope_aead reg r0 t remote = Ok env ->
  (forall ct ad, tink_total (aead_decrypt remote ct ad)) ->
  (forall km b, dict_get str_eqb (kt_type_url t) (r_key_managers reg) = Some (km, b) ->
     km_primitive_class km = ClsAead ->
     forall d, kd_type_url d = kt_type_url t -> tink_total (km_primitive km d) /\
       forall p ct ad, km_primitive km d = Ok p -> tink_total (call_decrypt p ct ad)) ->
  forall ct ad, tink_total (aead_decrypt env ct ad).
Proof.
  intros reg r0 t remote env H Hr Hk ct ad. apply new_envelope_fields in H. subst env.
  cbn [aead_decrypt]. destruct (layout_or_short ct) as [(edek & body & L) | S].
  - rewrite (envelope_decrypt_layout _ _ _ _ _ _ _ L).
    specialize (Hr edek []). destruct (aead_decrypt remote edek []) as [d | e]; cbn [bind]; [| exact Hr].
    unfold registry_primitive, registry_key_manager, key_manager_internal. cbn [kd_type_url].
    destruct (dict_get str_eqb (kt_type_url t) (r_key_managers reg)) as [[km b] |]; cbn [bind fst];
      [| reflexivity].
    destruct (pclass_eqb (km_primitive_class km) ClsAead) eqn:E; cbn [negb bind]; [| reflexivity].
    apply pclass_eqb_eq in E.
    destruct (Hk km b eq_refl E (mk_key_data (kt_type_url t) d SYMMETRIC) eq_refl) as [H1 H2].
    destruct (km_primitive km _) as [p | e]; cbn [bind]; [apply (H2 p); reflexivity | exact H1].
  - destruct (envelope_decrypt_short reg t remote ct ad S) as (e & E & He). rewrite E. exact He.
Qed.

Theorem envelope_round_trip : forall reg r0 t remote env,
  new_kms_envelope_aead reg r0 t remote = Ok env ->
  (forall r m c, aead_encrypt remote r m [] = Ok c -> aead_decrypt remote c [] = Ok m) ->
  (forall r d, generates reg r t d ->
     kd_type_url d = kt_type_url t /\ kd_key_material_type d = SYMMETRIC /\
     forall p, data_provides reg d p -> forall r' m ad c,
       call_encrypt p r' m ad = Ok c -> call_decrypt p c ad = Ok m) ->
  forall r pt ad ct, aead_encrypt env r pt ad = Ok ct -> aead_decrypt env ct ad = Ok pt.
Proof.
  intros reg r0 t remote env H Hr Hd r pt ad ct He.
  pose proof (new_envelope_fields _ _ _ _ _ H) as F.
  apply (envelope_decrypt_iff _ _ _ _ _ H). subst env. cbn [aead_encrypt] in He.
  apply envelope_encrypt_sound in He.
  destruct He as (r1 & r2 & r3 & dek & p & edek & body & _ & H1 & H2 & H3 & H4 & L).
  destruct (Hd _ _ H1) as (Hu & Hm & Hrt).
  exists edek, body, (kd_value dek), p. split; [exact L |]. split; [eauto |].
  assert (E : mk_key_data (kt_type_url t) (kd_value dek) SYMMETRIC = dek).
  { destruct dek as [u v m]. cbn in *. subst. reflexivity. }
  rewrite E. split; [exact H2 |]. eapply Hrt; eauto.
Qed.

(** * The supported DEK types *)

Lemma is_supported_iff : forall u, is_supported_dek_key_type u = true <-> In u dek_types.
Proof.
  intros u. unfold is_supported_dek_key_type. rewrite existsb_exists. split.
  - intros (x & Hx & E). apply str_eqb_spec in E. subst x. exact Hx.
  - intros H. exists u. split; [exact H | apply str_eqb_refl].
Qed.

Theorem envelope_constructor : forall reg r0 t remote,
  ((exists env, new_kms_envelope_aead reg r0 t remote = Ok env) <->
   In (kt_type_url t) dek_types /\ exists d, generates reg r0 t d) /\
  (~ In (kt_type_url t) dek_types -> raises_tink (new_kms_envelope_aead reg r0 t remote)).
Proof.
  intros reg r0 t remote. unfold new_kms_envelope_aead.
  destruct (is_supported_dek_key_type (kt_type_url t)) eqn:E; cbn [negb].
  - assert (I := proj1 (is_supported_iff _) E). split.
    + split.
      * intros (env & H). apply bind_ok in H. destruct H as (d & H & _). split; [exact I |].
        exists d. apply new_key_data_generates. exact H.
      * intros (_ & d & H). apply new_key_data_generates in H. rewrite H. cbn [bind]. eauto.
    + intros H. contradiction.
  - split.
    + split; [intros (env & H); discriminate |]. intros (H & _). apply is_supported_iff in H. congruence.
    + intros _. eexists; split; reflexivity.
Qed.

(** * The KMS key managers *)

Definition wf_kaf (k : kms_aead_key_format) : Prop := valid_text (kaf_key_uri k).
Definition wf_kef (k : kms_envelope_aead_key_format) : Prop :=
  valid_text (kef_kek_uri k) /\
  forall t, kef_dek_template_opt k = Some t -> wf_key_template t.

Lemma kaf_merge : forall k, wf_kaf k -> proto_size (serialize_kaf k) ->
  merge_message kaf_step default_kaf (serialize_kaf k) = Some k.
Proof.
  intros [u] Hu Hsz. unfold serialize_kaf, wf_kaf in *. cbn [kaf_key_uri] in *.
  rewrite merge_encode.
  2: { apply shape_wf; [unfold fields_of_kaf; cbn [kaf_key_uri]; shapes | assumption]. }
  unfold fields_of_kaf. cbn [kaf_key_uri].
  rewrite (fold_f_string _ kaf_step (fun _ => u) (fun a x => mk_kms_aead_key_format x)); auto.
  intros ->; reflexivity.
Qed.

Lemma kak_round_trip : forall v p, wf_kaf p -> uint32_range v ->
  proto_size (serialize_kak (mk_kms_aead_key v (Some p))) ->
  parse_kak (serialize_kak (mk_kms_aead_key v (Some p))) = Some (mk_kms_aead_key v (Some p)).
Proof.
  intros v p Hp Hv Hsz. unfold parse_kak, serialize_kak in *.
  assert (Hs : proto_size (serialize_kaf p)).
  { apply size_part with (n := 2%N) (2 := Hsz). unfold fields_of_kak. cbn. apply in_or_app. right. left. reflexivity. }
  rewrite merge_encode.
  2: { apply shape_wf; [| assumption]. unfold fields_of_kak. cbn [kak_version kak_params_opt].
       apply Forall_app. split; [shapes |]. constructor; [| constructor]. split; [cbn; lia | exact I]. }
  unfold fields_of_kak. cbn [kak_version kak_params_opt]. rewrite fold_option_app.
  rewrite (fold_f_uint32 _ kak_step (fun a x => mk_kms_aead_key x (kak_params_opt a))); auto.
  2: intros ->; reflexivity.
  cbn [kak_params_opt fold_option kak_step]. unfold kak_params. cbn [kak_params_opt].
  fold (serialize_kaf p). rewrite kaf_merge by assumption. reflexivity.
Qed.

Lemma kef_merge : forall k, wf_kef k -> proto_size (serialize_kef k) ->
  merge_message kef_step default_kef (serialize_kef k) = Some k.
Proof.
  intros [u o] [Hu Ht] Hsz. unfold serialize_kef in *. cbn [kef_kek_uri kef_dek_template_opt] in *.
  rewrite merge_encode.
  2: { apply shape_wf; [| assumption]. unfold fields_of_kef. cbn [kef_kek_uri kef_dek_template_opt].
       apply Forall_app. split; [shapes |]. destruct o; [| constructor].
       constructor; [| constructor]. split; [cbn; lia | exact I]. }
  unfold fields_of_kef. cbn [kef_kek_uri kef_dek_template_opt]. rewrite fold_option_app.
  rewrite (fold_f_string _ kef_step (fun _ => u)
    (fun a x => mk_kms_envelope_aead_key_format x (kef_dek_template_opt a))); auto.
  2: intros ->; reflexivity.
  destruct o as [t |]; [| reflexivity].
  cbn [fold_option kef_step kef_dek_template_opt default_kef]. unfold kef_dek_template.
  cbn [kef_dek_template_opt].
  assert (Hs : proto_size (serialize_key_template t)).
  { apply size_part with (n := 2%N) (2 := Hsz). unfold fields_of_kef. cbn. apply in_or_app. right. left. reflexivity. }
  assert (R := key_template_round_trip t (Ht t eq_refl) Hs). unfold parse_key_template in R.
  unfold default_template. rewrite R. reflexivity.
Qed.

Lemma kek_round_trip : forall v p, wf_kef p -> uint32_range v ->
  proto_size (serialize_kek (mk_kms_envelope_aead_key v (Some p))) ->
  parse_kek (serialize_kek (mk_kms_envelope_aead_key v (Some p))) =
  Some (mk_kms_envelope_aead_key v (Some p)).
Proof.
  intros v p Hp Hv Hsz. unfold parse_kek, serialize_kek in *.
  assert (Hs : proto_size (serialize_kef p)).
  { apply size_part with (n := 2%N) (2 := Hsz). unfold fields_of_kek. cbn. apply in_or_app. right. left. reflexivity. }
  rewrite merge_encode.
  2: { apply shape_wf; [| assumption]. unfold fields_of_kek. cbn [kek_version kek_params_opt].
       apply Forall_app. split; [shapes |]. constructor; [| constructor]. split; [cbn; lia | exact I]. }
  unfold fields_of_kek. cbn [kek_version kek_params_opt]. rewrite fold_option_app.
  rewrite (fold_f_uint32 _ kek_step (fun a x => mk_kms_envelope_aead_key x (kek_params_opt a))); auto.
  2: intros ->; reflexivity.
  cbn [kek_params_opt fold_option kek_step]. unfold kek_params. cbn [kek_params_opt].
  fold (serialize_kef p). rewrite kef_merge by assumption. reflexivity.
Qed.

(** A key made from the template refers to the given URI and nothing else: its
    primitive is the Aead that the client found for the URI returns for it. *)
Theorem kms_aead_template_key : forall uri clients,
  valid_text uri ->
  proto_size (serialize_kak (mk_kms_aead_key 0 (Some (mk_kms_aead_key_format uri)))) ->
  exists d, kms_aead_new_key_data (create_kms_aead_key_template uri) = Ok d /\
    kd_key_material_type d = REMOTE /\
    forall a, kms_aead_primitive clients d = Ok (PrimAead a) <->
      exists c, first_supporting clients uri c /\ kc_get_aead c uri = Ok a.
Proof.
  intros uri clients Hu Hsz. unfold kms_aead_new_key_data, create_kms_aead_key_template.
  cbn [kt_type_url kt_value]. rewrite str_eqb_refl. cbn [negb].
  assert (Hw : wf_kaf (mk_kms_aead_key_format uri)) by exact Hu.
  unfold parse_kaf. rewrite kaf_merge; [| exact Hw |].
  2: { apply size_part with (n := 2%N) (2 := Hsz). unfold fields_of_kak. cbn. left. reflexivity. }
  cbn [from_string bind]. eexists. split; [reflexivity |]. split; [reflexivity |].
  intros a. unfold kms_aead_primitive. cbn [kd_type_url kd_value]. rewrite str_eqb_refl. cbn [negb].
  rewrite kak_round_trip; [| exact Hw | reflexivity | exact Hsz].
  cbn [from_string bind]. unfold kak_params. cbn [kak_params_opt kaf_key_uri]. split.
  - intros H. apply bind_ok in H. destruct H as (c & H1 & H). apply bind_ok in H.
    destruct H as (a' & H2 & H). apply ok_inj in H. injection H as ->.
    exists c. split; [apply kms_from_uri_first; exact H1 | exact H2].
  - intros (c & H1 & H2). apply kms_from_uri_first in H1. rewrite H1. cbn [bind]. rewrite H2. reflexivity.
Qed.

Theorem kms_envelope_template_key : forall uri t clients reg r0,
  valid_text uri -> wf_key_template t -> In (kt_type_url t) dek_types ->
  proto_size (serialize_kek (mk_kms_envelope_aead_key 0
    (Some (mk_kms_envelope_aead_key_format uri (Some t))))) ->
  exists d, kms_envelope_aead_new_key_data (create_kms_envelope_aead_key_template uri t) = Ok d /\
    kd_key_material_type d = REMOTE /\
    forall env, kms_envelope_aead_primitive reg r0 clients d = Ok (PrimAead env) <->
      exists c remote, first_supporting clients uri c /\ kc_get_aead c uri = Ok remote /\
        new_kms_envelope_aead reg r0 t remote = Ok env.
Proof.
  intros uri t clients reg r0 Hu Ht Hd Hsz.
  unfold kms_envelope_aead_new_key_data, create_kms_envelope_aead_key_template.
  cbn [kt_type_url kt_value]. rewrite str_eqb_refl. cbn [negb].
  assert (Hw : wf_kef (mk_kms_envelope_aead_key_format uri (Some t))).
  { split; [exact Hu |]. cbn. intros t' E. apply some_inj in E. subst t'. exact Ht. }
  unfold parse_kef. rewrite kef_merge; [| exact Hw |].
  2: { apply size_part with (n := 2%N) (2 := Hsz). unfold fields_of_kek. cbn. left. reflexivity. }
  cbn [from_string bind]. unfold kef_dek_template. cbn [kef_dek_template_opt].
  apply is_supported_iff in Hd. rewrite Hd. cbn [negb].
  eexists. split; [reflexivity |]. split; [reflexivity |].
  intros env. unfold kms_envelope_aead_primitive. cbn [kd_type_url kd_value].
  rewrite str_eqb_refl. cbn [negb].
  rewrite kek_round_trip; [| exact Hw | reflexivity | exact Hsz].
  cbn [from_string bind]. unfold kek_params, kef_dek_template.
  cbn [kek_params_opt kef_kek_uri kef_dek_template_opt]. split.
  - intros H. apply bind_ok in H. destruct H as (c & H1 & H). apply bind_ok in H.
    destruct H as (remote & H2 & H). apply bind_ok in H. destruct H as (a & H3 & H).
    apply ok_inj in H. injection H as ->.
    exists c, remote. split; [apply kms_from_uri_first; exact H1 |]. split; [exact H2 | exact H3].
  - intros (c & remote & H1 & H2 & H3). apply kms_from_uri_first in H1. rewrite H1. cbn [bind].
    rewrite H2. cbn [bind]. rewrite H3. reflexivity.
Qed.

(** Templates and keys of another type are refused; so is a DEK type outside the
    list. *)
Theorem kms_managers_reject : forall t d clients reg r0,
  (kt_type_url t <> ulit "type.googleapis.com/google.crypto.tink.KmsAeadKey" ->
   raises_tink (kms_aead_new_key_data t)) /\
  (kd_type_url d <> ulit "type.googleapis.com/google.crypto.tink.KmsAeadKey" ->
   raises_tink (kms_aead_primitive clients d)) /\
  (kt_type_url t <> ulit "type.googleapis.com/google.crypto.tink.KmsEnvelopeAeadKey" ->
   raises_tink (kms_envelope_aead_new_key_data t)) /\
  (kd_type_url d <> ulit "type.googleapis.com/google.crypto.tink.KmsEnvelopeAeadKey" ->
   raises_tink (kms_envelope_aead_primitive reg r0 clients d)).
Proof.
  intros t d clients reg r0.
  assert (N : forall A (u v : pystr) (x : result A) m, u <> v ->
    raises_tink (if negb (str_eqb u v) then Err (TinkError m) else x)).
  { intros A u v x m H. destruct (str_eqb u v) eqn:E; [apply str_eqb_spec in E; contradiction |].
    eexists; split; reflexivity. }
  unfold kms_aead_new_key_data, kms_aead_primitive, kms_envelope_aead_new_key_data,
    kms_envelope_aead_primitive.
  repeat split; intros H; apply N; exact H.
Qed.

Theorem kms_envelope_template_dek_types : forall uri t,
  valid_text uri -> wf_key_template t ->
  proto_size (serialize_kef (mk_kms_envelope_aead_key_format uri (Some t))) ->
  ~ In (kt_type_url t) dek_types ->
  raises_tink (kms_envelope_aead_new_key_data (create_kms_envelope_aead_key_template uri t)).
Proof.
  intros uri t Hu Ht Hsz Hd.
  unfold kms_envelope_aead_new_key_data, create_kms_envelope_aead_key_template.
  cbn [kt_type_url kt_value]. rewrite str_eqb_refl. cbn [negb].
  assert (Hw : wf_kef (mk_kms_envelope_aead_key_format uri (Some t))).
  { split; [exact Hu |]. cbn. intros t' E. apply some_inj in E. subst t'. exact Ht. }
  unfold parse_kef. rewrite kef_merge; [| exact Hw | exact Hsz].
  cbn [from_string bind]. unfold kef_dek_template. cbn [kef_dek_template_opt].
  destruct (is_supported_dek_key_type (kt_type_url t)) eqn:E; cbn [negb].
  - apply is_supported_iff in E. contradiction.
  - eexists; split; reflexivity.
Qed.
