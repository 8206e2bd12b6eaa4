(** Proofs: keysets that are encrypted with the AEAD of another keyset. *)
From Coq Require Import Strings.Byte Strings.String List NArith ZArith Bool Lia.
From Verif Require Import M_Base M_Utf8 M_Proto M_Wire M_ProtoMsg M_KeyFormats M_Prims M_PrimitiveSet M_Registry M_KeysetHandle M_KeysetIO M_Json M_JsonKeyset M_StreamTypes M_CcStream M_CcManagers M_CcAes M_CcStreamKeys M_CcModes M_CcSymmetric M_CcSymKeys
  S_Keyset S_Handle S_Wrappers S_Json S_JsonKeyset S_Wire S_Config S_CcLaws S_CcAes S_CcStreamKeys S_CcModes S_CcSymmetric S_CcSymKeys S_CcSymHandles S_CcMaster
  L_Base L_Wire L_Keyset L_Handle L_JsonKeyset L_JsonKeyset2 L_JsonKeyset3 L_CcSymHandles L_CcSymHandles2 L_CcSymHandles3 L_CcSymHandles4.
Import ListNotations.
Open Scope string_scope.
Open Scope list_scope.
Open Scope nat_scope.

Lemma apart_nonempty : forall k sk (l : list (key * sym_key)) C c, tells_apart k sk l -> stamped k C c -> C <> [].
Proof.
  intros k sk l C c (NR & _) (p & [(R & _) | (s & b3 & b2 & b1 & b0 & -> & _)] & ->); [contradiction | discriminate].
Qed.
(** The checks of the write pass. *)
Lemma master_encrypts : forall lib random mks ml a mk msk rnd ad ks, crypto_laws lib -> sym_keyset for_aead mks ml -> aead_works lib random mks ml a -> is_primary mks ml mk msk -> tells_apart mk msk ml ->
  wf_keyset ks -> proto_size (serialize_keyset ks) -> admits msk (serialize_keyset ks) ad ->
  exists ct info, encrypt_keyset ks a rnd ad = Ok (mk_encrypted_keyset ct (Some info)) /\ describes ks info /\
    holds_encrypted lib mk msk (random rnd (Z.of_nat (nonce_size msk))) ad ks (mk_encrypted_keyset ct (Some info)) /\ ct <> [].
Proof.
  intros lib random mks ml a mk msk rnd ad ks CL KS W PR TA Wf Sz AD. destruct (proj1 W mk msk PR rnd (serialize_keyset ks) ad) as (E1 & E2). destruct (E2 AD) as (ct & EC).
  pose proof (proj1 (E1 ct) EC) as (c & S & X).
  pose proof (sym_aead_rotation lib random mks ml a mks ml a mk mk msk rnd _ ad ct CL W PR KS W (proj1 PR) eq_refl eq_refl TA EC) as D.
  exists ct, (make_keyset_info ks). split; [apply encrypt_keyset_ok; exists ct, (serialize_keyset ks); repeat split; auto; exact (keyset_round_trip _ Wf Sz) |].
  split; [exact (keyset_info_exact (mk_handle ks)) |]. split; [exists c; auto | exact (apart_nonempty _ _ _ _ _ TA S)].
Qed.
(** What is written *)
Theorem cc_master_writes : forall lib random mks ml a mk msk rnd ad ks, crypto_laws lib -> sym_keyset for_aead mks ml -> aead_works lib random mks ml a -> is_primary mks ml mk msk -> tells_apart mk msk ml ->
  wf_keyset ks -> proto_size (serialize_keyset ks) -> admits msk (serialize_keyset ks) ad ->
  let nonce := random rnd (Z.of_nat (nonce_size msk)) in
  (exists x, proto_serialize_encrypted (mk_handle ks) a rnd ad = Ok x /\
     (proto_size x -> exists ek, kr_read_encrypted (binary_keyset_reader x) = Ok ek /\ ek_keyset_info ek = None /\ holds_encrypted lib mk msk nonce ad ks ek)) /\
  (forall rt, python_digit_limit rt -> exists x v ek info, json_proto_serialize_encrypted rt (mk_handle ks) a rnd ad = Ok x /\
     json_text rt v x /\ no_repeated_names v /\ shows_encrypted_keyset padded_base64 v ek /\ holds_encrypted lib mk msk nonce ad ks ek /\ ek_keyset_info ek = Some info /\ describes ks info /\
     forall pb, kr_read_encrypted (json_keyset_reader rt pb x) = Ok ek).
Proof.
  intros lib random mks ml a mk msk rnd ad ks CL KS W PR TA Wf Sz AD. cbv zeta. destruct (master_encrypts lib random mks ml a mk msk rnd ad ks CL KS W PR TA Wf Sz AD) as (ct & info & E & DS & H & NE). split.
  - unfold proto_serialize_encrypted, write_with_associated_data. cbn [kh_keyset]. rewrite E. cbn [binary_keyset_writer kw_write_encrypted ek_encrypted_keyset getvalue app].
    eexists. split; [reflexivity |]. intros Sx. exists (mk_encrypted_keyset ct None). split; [| split; [reflexivity | exact H]].
    apply binary_reader_encrypted; [apply serialize_encrypted_nonempty; exact NE | apply encrypted_keyset_round_trip; auto; discriminate].
  - intros rt Hl. assert (Hw : wf_encrypted_keyset (mk_encrypted_keyset ct (Some info))). { intros i Hi. cbn [ek_keyset_info] in Hi. apply some_inj in Hi. subst i. exact (describes_wf _ _ Wf DS). }
    destruct (json_writer_writes_encrypted rt _ [] Hl Hw) as (v & t & Et & Ht & Hn & Hs). exists t, v, (mk_encrypted_keyset ct (Some info)), info.
    unfold json_proto_serialize_encrypted, write_with_associated_data. cbn [kh_keyset]. rewrite E, Et. repeat (split; [first [reflexivity | assumption] |]).
    intros pb. eapply json_reader_reads_encrypted; eauto. eapply shows_encrypted_keyset_mono; [exact padded_any | exact Hs].
Qed.
(** What is read: what was encrypted with a key of the master keyset ... *)
Theorem cc_master_reads : forall lib random mks ml a mk msk k nonce ad ks ek r, crypto_laws lib -> sym_keyset for_aead mks ml -> aead_works lib random mks ml a ->
  In (mk, msk) ml -> k_key_id mk = k_key_id k -> k_output_prefix_type mk = k_output_prefix_type k -> tells_apart mk msk ml ->
  wf_keyset ks -> proto_size (serialize_keyset ks) -> valid_keyset ks -> holds_encrypted lib k msk nonce ad ks ek -> kr_read_encrypted r = Ok ek ->
  read_with_associated_data r a ad = Ok (mk_handle ks).
Proof.
  intros lib random mks ml a mk msk k nonce ad ks ek r CL KS W I EI ET TA Wf Sz V (c & S & X) ER. apply read_with_associated_data_ok.
  assert (S' : stamped mk (ek_encrypted_keyset ek) c) by exact (same_stamp _ _ _ _ ET EI S).
  exists ek, (serialize_keyset ks), ks. split; [exact ER |]. split; [exact (apart_nonempty _ _ _ _ _ TA S') |]. split; [| split; [exact (keyset_round_trip _ Wf Sz) | auto]].
  destruct W as (_ & _ & D1 & D2 & _). assert (O : opens lib ml (ek_encrypted_keyset ek) ad (serialize_keyset ks)) by (exists mk, msk, nonce, c; auto).
  destruct (D2 _ _ _ O) as (P' & E). rewrite E. f_equal. exact (aead_unambiguous _ _ _ _ _ _ _ _ _ _ CL KS TA (proj1 (keyset_key _ _ _ _ _ KS I)) S' X P' (D1 _ _ _ E)).
Qed.
(** ... and nothing else. *)
Theorem cc_master_reads_only : forall lib random mks ml a ad r, aead_works lib random mks ml a ->
  (forall h, read_with_associated_data r a ad = Ok h -> exists ek, kr_read_encrypted r = Ok ek /\ can_decrypt lib ml ad ek (kh_keyset h)) /\
  (tink_total (kr_read_encrypted r) -> (forall ek ks, kr_read_encrypted r = Ok ek -> ~ can_decrypt lib ml ad ek ks) -> raises_tink (read_with_associated_data r a ad)).
Proof.
  intros lib random mks ml a ad r (_ & _ & D1 & D2 & TD & _).
  assert (G : forall h, read_with_associated_data r a ad = Ok h -> exists ek, kr_read_encrypted r = Ok ek /\ can_decrypt lib ml ad ek (kh_keyset h)).
  { intros h E. apply read_with_associated_data_ok in E. destruct E as (ek & pt & ks & ER & _ & ED & EP & V & ->). exists ek. split; [exact ER |]. exists pt. split; [exact (D1 _ _ _ ED) | auto]. }
  split; [exact G |]. intros TT N. destruct (read_with_associated_data r a ad) as [h | e] eqn:E.
  - destruct (G h eq_refl) as (ek & ER & CD). destruct (N ek _ ER CD).
  - exists e. split; [reflexivity |]. exact (read_with_associated_data_err _ _ _ _ E TT (fun ct => TD ct ad)).
Qed.
(** With handles: the master keyset is rotated between writing and reading. *)
Theorem cc_master_rotation : forall lib random w env r mks ml mk msk mks2 ml2 mk2, sym_world lib random w -> crypto_laws lib -> random_law random -> configured w env Aead r ->
  sym_keyset for_aead mks ml -> is_primary mks ml mk msk -> tells_apart mk msk ml ->
  sym_keyset for_aead mks2 ml2 -> In (mk2, msk) ml2 -> k_key_id mk2 = k_key_id mk -> k_output_prefix_type mk2 = k_output_prefix_type mk -> tells_apart mk2 msk ml2 ->
  exists a a2, handle_primitive r (mk_handle mks) ClsAead = Ok (PrimAead a) /\ handle_primitive r (mk_handle mks2) ClsAead = Ok (PrimAead a2) /\
    forall rnd ad ks, wf_keyset ks -> proto_size (serialize_keyset ks) -> valid_keyset ks -> admits msk (serialize_keyset ks) ad ->
    (exists x, proto_serialize_encrypted (mk_handle ks) a rnd ad = Ok x /\ (proto_size x -> proto_parse_encrypted x a2 ad = Ok (mk_handle ks))) /\
    (forall rt, python_digit_limit rt -> exists x, json_proto_serialize_encrypted rt (mk_handle ks) a rnd ad = Ok x /\ forall pb, json_proto_parse_encrypted rt pb x a2 ad = Ok (mk_handle ks)).
Proof.
  intros lib random w env r mks ml mk msk mks2 ml2 mk2 HW CL RL HC KS PR TA KS2 I2 EI ET TA2.
  destruct (aead_handle_works lib random w env r mks ml HW CL RL HC KS) as (a & HA & W). destruct (aead_handle_works lib random w env r mks2 ml2 HW CL RL HC KS2) as (a2 & HA2 & W2).
  exists a, a2. split; [exact HA |]. split; [exact HA2 |]. intros rnd ad ks Wf Sz V AD. destruct (cc_master_writes lib random mks ml a mk msk rnd ad ks CL KS W PR TA Wf Sz AD) as ((x & EX & RX) & RJ). split.
  - exists x. split; [exact EX |]. intros Sx. destruct (RX Sx) as (ek & ER & _ & H). exact (cc_master_reads lib random mks2 ml2 a2 mk2 msk mk _ ad ks ek _ CL KS2 W2 I2 EI ET TA2 Wf Sz V H ER).
  - intros rt Hl. destruct (RJ rt Hl) as (t & v & ek & info & Et & _ & _ & _ & H & _ & _ & ER). exists t. split; [exact Et |]. intros pb.
    exact (cc_master_reads lib random mks2 ml2 a2 mk2 msk mk _ ad ks ek _ CL KS2 W2 I2 EI ET TA2 Wf Sz V H (ER pb)).
Qed.
(** Once the master key is no longer enabled, the keysets cannot be read. *)
Theorem cc_master_revoked : forall lib random mks ml a k sk nonce ad ad' ks ek r, aead_works lib random mks ml a ->
  k_output_prefix_type k <> RAW -> (forall k' sk', In (k', sk') ml -> k_output_prefix_type k' <> RAW /\ k_key_id k' <> k_key_id k) ->
  holds_encrypted lib k sk nonce ad ks ek -> kr_read_encrypted r = Ok ek -> raises_tink (read_with_associated_data r a ad').
Proof.
  intros lib random mks ml a k sk nonce ad ad' ks ek r W NR OT (c & (p & HP & EQ) & _) ER. apply (proj2 (cc_master_reads_only lib random mks ml a ad' r W)).
  - rewrite ER. exact I.
  - intros ek' ks' ER' (P & (k' & sk' & n & c' & I' & (p' & HP' & EQ') & _) & _). rewrite ER in ER'. apply ok_inj in ER'. subst ek'. destruct (OT k' sk' I') as (NR' & NI).
    destruct HP as [(R & _) | (s & b3 & b2 & b1 & b0 & -> & EI & _)]; [contradiction |]. destruct HP' as [(R & _) | (s' & d3 & d2 & d1 & d0 & -> & EI' & _)]; [contradiction |].
    rewrite EQ in EQ'. cbn [app] in EQ'. injection EQ' as -> -> -> -> -> _. apply NI. rewrite <- EI, <- EI'. reflexivity.
Qed.
