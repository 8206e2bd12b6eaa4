(** Proofs: how large new signature keys are. *)
From Coq Require Import Strings.Byte Strings.String List NArith ZArith Bool Lia.
From Verif Require Import M_Base M_Utf8 M_Proto M_Wire M_ProtoMsg M_KeyFormats M_Prims M_PrimitiveSet M_Registry M_KeysetHandle M_Wrappers M_StreamTypes M_CcStream M_CcManagers
  M_Templates M_CcAes M_CcStreamKeys M_CcModes M_CcSymmetric M_CcSymKeys M_CcEcies M_CcEciesKeys M_CcSignatures S_Keyset S_Handle S_Wrappers S_Wire S_Config S_CcLaws S_CcAes S_CcStreamKeys S_CcModes S_CcSymmetric
  S_CcSymKeys S_CcSymHandles S_CcEcies S_CcEciesKeys S_CcSignatures S_CcSigHandles L_Base L_Registry L_Wire L_PrimitiveSet L_Keyset L_Wrappers L_Wrappers2 L_Wrappers3 L_Handle L_Config L_Config2 L_Config3 L_Config4 L_Cli3
  L_CcStreamKeys L_CcModes L_CcSymKeys L_CcSymKeys2 L_CcSymHandles L_CcSymHandles2 L_CcSymHandles3 L_CcSymHandles4 L_CcEciesHandles L_CcSigDer L_CcSignatures L_CcSigKeys L_CcSigKeys2 L_CcEciesHandles2 L_CcEcies L_CcEcies2 L_CcEcies3 L_CcEciesKeys L_CcEciesKeys2 L_CcSigNew L_CcSigNew2 S_ProtoMsg L_ProtoMsg L_CcSigHandles L_CcSigHandles2.
Import ListNotations.
Open Scope string_scope.
Open Scope list_scope.
Open Scope nat_scope.


(** ** The size of a message *)
Lemma varint_fuel_short : forall f n, length (varint_fuel f n) <= f.
Proof. induction f as [| f IH]; intros n; [cbn; lia |]. cbn [varint_fuel]. destruct (n <? 128)%N; cbn [length]; [lia |]. specialize (IH (n / 128)%N). lia. Qed.
Lemma varint_short : forall n, length (varint n) <= 10.
Proof. intros n. apply varint_fuel_short. Qed.
Lemma encode_fields_app : forall a b, length (encode_fields (a ++ b)) = length (encode_fields a) + length (encode_fields b).
Proof. intros a b. unfold encode_fields. rewrite map_app, concat_app, app_length. reflexivity. Qed.
Lemma one_len : forall n x, length (encode_fields [(n, WLen x)]) <= 20 + length x.
Proof.
  intros n x. unfold encode_fields. cbn [map concat]. rewrite app_nil_r. unfold encode_field. cbn [fst snd encode_wval]. rewrite !app_length.
  pose proof (varint_short (n * 8 + wire_type (WLen x))). pose proof (varint_short (N.of_nat (length x))). lia.
Qed.
Lemma one_varint : forall n v, length (encode_fields [(n, WVarint v)]) <= 20.
Proof.
  intros n v. unfold encode_fields. cbn [map concat]. rewrite app_nil_r. unfold encode_field. cbn [fst snd encode_wval]. rewrite !app_length.
  pose proof (varint_short (n * 8 + wire_type (WVarint v))). pose proof (varint_short v). lia.
Qed.
Lemma bytes_size : forall n x, length (encode_fields (fields_of_value TBytes n (Some (VBytes x)))) <= 20 + length x.
Proof. intros n x. cbn [fields_of_value]. unfold f_bytes. destruct x as [| b x]; [cbn; lia |]. apply one_len. Qed.
Lemma uint_size : forall n z, length (encode_fields (fields_of_value TUint32 n (Some (VNum z)))) <= 20.
Proof. intros n z. cbn [fields_of_value]. unfold f_uint32. destruct (Z.to_N z) as [| q]; [cbn; lia |]. apply one_varint. Qed.
Lemma enum_size : forall n z, length (encode_fields (f_enum n z)) <= 20.
Proof. intros n z. unfold f_enum. destruct z; [cbn; lia | |]; apply one_varint. Qed.
Lemma msg_size : forall fs n vs, length (encode_fields (fields_of_value (TMsg fs) n (Some (VMsg vs)))) <= 20 + length (serialize_message fs vs).
Proof. intros fs n vs. rewrite fields_of_value_msg. apply one_len. Qed.
Lemma message_size : forall name k t fs v vs, length (serialize_message ((name, k, t) :: fs) (v :: vs)) = length (encode_fields (fields_of_value t k v)) + length (serialize_message fs vs).
Proof. intros. unfold serialize_message. cbn [fields_of_message]. apply encode_fields_app. Qed.
Lemma empty_size : length (serialize_message [] []) = 0.
Proof. reflexivity. Qed.
Lemma params_size : forall fs n, Forall (fun f => In (snd f) [TUint32; TInt32; TEnum]) fs -> holds_all fs n -> length (serialize_message fs n) <= 20 * length fs.
Proof.
  intros fs n F H. revert n H. induction F as [| f fs T F IH]; intros n H; inversion H as [| f0 t fs0 v vs E1 E2 E3]; subst; [cbn; lia |].
  destruct f as ((name & k) & t). cbn [snd] in *. rewrite message_size. specialize (IH vs E3). cbn [length].
  assert (length (encode_fields (fields_of_value t k v)) <= 20); [| lia].
  destruct T as [<- | [<- | [<- | []]]]; inversion E2; subst; [apply uint_size | apply enum_size | apply enum_size].
Qed.

(** ** New keys *)
Lemma bn2bin_size : forall n m, (n <= m)%N -> length (BN_bn2bin n) <= N.to_nat ((N.size m + 7) / 8).
Proof.
  intros n m H. rewrite bn2bin_be, L_CcModes.be_bytes_length. unfold BN_num_bytes. assert (N.size n <= N.size m)%N.
  { destruct n as [| p]; [cbn; lia |]. destruct m as [| q]; [lia |]. rewrite !N.size_log2 by discriminate. apply N.log2_le_mono in H. lia. }
  assert ((N.size n + 7) / 8 <= (N.size m + 7) / 8)%N by (apply N.div_le_mono; lia). lia.
Qed.
Lemma fresh_sizes : forall ec c rnd s X Y, ecdsa_ok c M_CcAes.SHA256 \/ ecdsa_ok c M_CcAes.SHA384 \/ ecdsa_ok c M_CcAes.SHA512 -> fresh_key ec c rnd s X Y -> length s <= 66 /\ length X <= 66 /\ length Y <= 66.
Proof.
  intros ec c rnd s X Y OK F. destruct c; cbn [fresh_key coordinate_size] in F.
  all: try (exfalso; cbn in OK; intuition discriminate).
  all: destruct (ec_generate_key ec _ rnd) as (d & (x & y)); destruct F as (-> & -> & ->); rewrite !L_CcModes.be_bytes_length; lia.
Qed.
Lemma rsa_sizes_bound : forall sg bits e rnd k, rsa_sizes sg -> rsa_generate sg bits e rnd = Some k -> (N.size (rsa_n k) <= 16384)%N -> forall x, In x [rsa_n k; rsa_d k; rsa_p k; rsa_q k; rsa_dp k; rsa_dq k; rsa_crt k] -> length (BN_bn2bin x) <= 2049.
Proof.
  intros sg bits e rnd k RS G S x I. pose proof (law_rsa_numbers _ RS _ _ _ _ G) as F. assert (x <= rsa_n k)%N.
  { destruct I as [<- | I]; [lia |]. rewrite Forall_forall in F. exact (F x I). }
  pose proof (bn2bin_size _ _ H) as B. assert ((N.size (rsa_n k) + 7) / 8 <= 2049)%N by (apply N.div_le_upper_bound; lia). lia.
Qed.
Definition public_part (kd : sig_kind) (w : message) : bytes :=
  match message_or_empty (public_schema kd) (get_path (TMsg (private_schema kd)) (Some (VMsg w)) ["public_key"]) with
  | Some (VMsg n) => serialize_message (public_schema kd) n
  | _ => []
  end.
Ltac sizes := repeat first [rewrite message_size | rewrite empty_size]; repeat match goal with
  | |- context [length (encode_fields (fields_of_value TUint32 ?n (Some (VNum ?z))))] => let H := fresh in pose proof (uint_size n z) as H; revert H; generalize (length (encode_fields (fields_of_value TUint32 n (Some (VNum z))))); intros ? H
  | |- context [length (encode_fields (fields_of_value TBytes ?n (Some (VBytes ?x))))] => let H := fresh in pose proof (bytes_size n x) as H; revert H; generalize (length (encode_fields (fields_of_value TBytes n (Some (VBytes x))))); intros ? H
  | |- context [length (encode_fields (fields_of_value (TMsg ?fs) ?n (Some (VMsg ?x))))] => let H := fresh in pose proof (msg_size fs n x) as H; revert H; generalize (length (encode_fields (fields_of_value (TMsg fs) n (Some (VMsg x))))); intros ? H
  end.
Lemma rsa_key_size : forall sg bits e rnd k kd params n, (kd = Pkcs1 /\ params = RsaSsaPkcs1Params) \/ (kd = Pss /\ params = RsaSsaPssParams) ->
  rsa_sizes sg -> rsa_generate sg bits e rnd = Some k -> (N.size (rsa_n k) <= 16384)%N -> (rsa_e k < 2 ^ 32)%N -> holds_all params n ->
  (N.of_nat (length (serialize_message (private_schema kd) (rsa_key_message (Some (VMsg n)) k))) < 100000)%N /\ (N.of_nat (length (public_part kd (rsa_key_message (Some (VMsg n)) k))) < 100000)%N.
Proof.
  intros sg bits e rnd k kd params n T RS G S E HN. pose proof (rsa_sizes_bound _ _ _ _ _ RS G S) as B.
  assert (BE : length (BN_bn2bin (rsa_e k)) <= 5).
  { pose proof (bn2bin_size (rsa_e k) (2 ^ 32) ltac:(lia)) as Q. change (N.to_nat ((N.size (2 ^ 32) + 7) / 8)) with 5 in Q. exact Q. }
  pose proof (B _ (or_introl eq_refl)) as B1. pose proof (B _ (or_intror (or_introl eq_refl))) as B2. pose proof (B _ (or_intror (or_intror (or_introl eq_refl)))) as B3.
  pose proof (B _ (or_intror (or_intror (or_intror (or_introl eq_refl))))) as B4. pose proof (B _ (or_intror (or_intror (or_intror (or_intror (or_introl eq_refl)))))) as B5.
  pose proof (B _ (or_intror (or_intror (or_intror (or_intror (or_intror (or_introl eq_refl))))))) as B6. pose proof (B _ (or_intror (or_intror (or_intror (or_intror (or_intror (or_intror (or_introl eq_refl)))))))) as B7. clear B.
  assert (PS : length (serialize_message params n) <= 60).
  { destruct T as [(_ & ->) | (_ & ->)]; (etransitivity; [apply params_size; [| exact HN]; repeat constructor; cbn; tauto |]); cbn; lia. }
  unfold rsa_key_message. revert B1 B2 B3 B4 B5 B6 B7 BE. generalize (BN_bn2bin (rsa_n k)), (BN_bn2bin (rsa_d k)), (BN_bn2bin (rsa_p k)), (BN_bn2bin (rsa_q k)), (BN_bn2bin (rsa_dp k)), (BN_bn2bin (rsa_dq k)), (BN_bn2bin (rsa_crt k)), (BN_bn2bin (rsa_e k)).
  clear - T PS. intros x1 x2 x3 x4 x5 x6 x7 x8 B1 B2 B3 B4 B5 B6 B7 BE. destruct T as [(-> & ->) | (-> & ->)].
  - assert (L : (N.of_nat (length (serialize_message RsaSsaPkcs1PublicKey [Some (VNum 0); Some (VMsg n); Some (VBytes x1); Some (VBytes x8)])) < 20000)%N) by (unfold RsaSsaPkcs1PublicKey; sizes; lia).
    split; [cbn [private_schema]; unfold RsaSsaPkcs1PrivateKey; sizes; lia |]. etransitivity; [exact L | reflexivity].
  - assert (L : (N.of_nat (length (serialize_message RsaSsaPssPublicKey [Some (VNum 0); Some (VMsg n); Some (VBytes x1); Some (VBytes x8)])) < 20000)%N) by (unfold RsaSsaPssPublicKey; sizes; lia).
    split; [cbn [private_schema]; unfold RsaSsaPssPrivateKey; sizes; lia |]. etransitivity; [exact L | reflexivity].
Qed.
Lemma new_modulus_size : forall ec sg bits e rnd k, sig_laws ec sg -> exponent_ok e -> (bits <= 16384)%Z -> rsa_generate sg bits e rnd = Some k -> (N.size (rsa_n k) <= 16384)%N /\ (rsa_e k < 2 ^ 32)%N.
Proof.
  intros ec sg bits e rnd k SL EX B G. destruct (law_rsa_generate _ _ SL _ _ _ _ EX G) as (RE & _ & P & RN). pose proof (Z.mod_pos_bound bits 128 ltac:(lia)). split; [lia |]. rewrite RE. apply EX.
Qed.
Lemma key_size : forall ec lib sg rnd f x m w, ec_laws ec lib -> sig_laws ec sg -> rsa_sizes sg -> asks_for_sig (type_url (kind_name (format_kind f) ++ "PrivateKey")) x f ->
  parse_message (format_schema (format_kind f)) x = Some m -> format_ok f -> format_size_ok f -> create_key ec sg (format_kind f) rnd m = StOk w ->
  (N.of_nat (length (serialize_message (private_schema (format_kind f)) w)) < 100000)%N /\ (N.of_nat (length (public_part (format_kind f) w)) < 100000)%N.
Proof.
  intros ec lib sg rnd f x m w L SL RS (_ & m' & E' & H) E OK SZ C. rewrite E in E'. injection E' as <-. pose proof (parse_holds _ _ _ E) as HM.
  destruct f as [c h enc | | h bits e0 | h g salt bits e0]; cbn [format_kind format_schema private_schema create_key format_ok format_size_ok] in *.
  - unfold ecdsa_create_key in C.
    assert (S : has_at EcdsaKeyFormat m ["params"] = true).
    { destruct H as (_ & (zh & H1 & H2) & _). apply (is_set EcdsaKeyFormat m ["params"] ["hash_type"] EcdsaParams (VNum zh) eq_refl H1). cbn. intros K. injection K as K. exact (hash_number_set h zh H2 (eq_sym K)). }
    destruct (read_message _ _ ["params"] _ HM eq_refl S) as (n & G & HN). unfold params_of in C. rewrite G in C. cbn [message_or_empty] in C.
    destruct H as ((zc & C1 & C2) & (zh & H1 & H2) & (ze & E1 & E2)). change (num_at EcdsaKeyFormat m ["params"; "curve"]) with (num_at EcdsaKeyFormat m (["params"] ++ ["curve"])) in C. rewrite (num_at_number _ _ _ _ C1) in C. destruct (curve_number_subtle _ _ C2) as (CC & _ & _ & NU). rewrite CC in C.
    destruct (new_key_fresh ec lib c rnd L NU) as (s & X & Y & N & F). rewrite N in C. cbn [bind_st] in C. apply st_ok_inj in C. subst w.
    destruct (fresh_sizes ec c rnd s X Y) as (L1 & L2 & L3); [| exact F |].
    { destruct (ecdsa_ok_parts _ _ OK) as (_ & [<- | [<- | [<- | []]]]); tauto. }
    assert (PS : length (serialize_message EcdsaParams n) <= 60) by ((etransitivity; [apply params_size; [| exact HN]; repeat constructor; cbn; tauto |]); cbn; lia).
    assert (Q : (N.of_nat (length (serialize_message EcdsaPublicKey [Some (VNum 0); Some (VMsg n); Some (VBytes X); Some (VBytes Y)])) < 20000)%N) by (unfold EcdsaPublicKey; sizes; lia).
    split; [change (message_or_empty EcdsaParams (Some (VMsg n))) with (Some (VMsg n)); unfold EcdsaPrivateKey; sizes; lia |]. etransitivity; [exact Q | reflexivity].
  - unfold ed25519_create_key in C. apply st_ok_inj in C. subst w. pose proof (law_ed25519_generate _ _ SL rnd) as L1. pose proof (law_ed25519_public _ _ SL _ L1) as L2.
    assert (Q : (N.of_nat (length (serialize_message Ed25519PublicKey [Some (VNum 0); Some (VBytes (ed25519_public sg (ed25519_generate sg rnd)))])) < 20000)%N) by (unfold Ed25519PublicKey; sizes; lia).
    split; [unfold Ed25519PrivateKey; sizes; lia |]. etransitivity; [exact Q | reflexivity].
  - destruct H as (P & B & X). destruct OK as (SH & BI & EX). unfold rsa_create_key in C. destruct (uint_bits _ _ _ HM eq_refl B BI) as (TI & _). cbn zeta in TI. rewrite TI in C by lia.
    assert (S : has_at RsaSsaPkcs1KeyFormat m ["params"] = true).
    { destruct P as (zh & H1 & H2). apply (is_set RsaSsaPkcs1KeyFormat m ["params"] ["hash_type"] RsaSsaPkcs1Params (VNum zh) eq_refl H1). cbn. intros K. injection K as K. exact (hash_number_set h zh H2 (eq_sym K)). }
    destruct (read_message _ _ ["params"] _ HM eq_refl S) as (n & G & HN). unfold params_of in C. rewrite G, (bytes_at_content _ _ _ _ X), bin2bn_num in C. cbn [message_or_empty] in C.
    unfold new_rsa_key_pair in C. rewrite (proj2 (exponent_none _) EX) in C. cbn [checked] in C.
    destruct (rsa_generate sg bits (num e0) rnd) as [k |] eqn:GE; [| discriminate C]. cbn [bind_st] in C. apply st_ok_inj in C. subst w.
    destruct (new_modulus_size _ _ _ _ _ _ SL EX SZ GE) as (M1 & M2). exact (rsa_key_size sg _ _ _ k Pkcs1 _ n (or_introl (conj eq_refl eq_refl)) RS GE M1 M2 HN).
  - destruct H as (P & B & X). destruct OK as (SH & -> & SA & BI & EX). unfold rsa_create_key in C. destruct (uint_bits _ _ _ HM eq_refl B BI) as (TI & _). cbn zeta in TI. rewrite TI in C by lia.
    assert (S : has_at RsaSsaPssKeyFormat m ["params"] = true).
    { destruct P as ((zh & H1 & H2) & _). apply (is_set RsaSsaPssKeyFormat m ["params"] ["sig_hash"] RsaSsaPssParams (VNum zh) eq_refl H1). cbn. intros K. injection K as K. exact (hash_number_set h zh H2 (eq_sym K)). }
    destruct (read_message _ _ ["params"] _ HM eq_refl S) as (n & G & HN). unfold params_of in C. rewrite G, (bytes_at_content _ _ _ _ X), bin2bn_num in C. cbn [message_or_empty] in C.
    unfold new_rsa_key_pair in C. rewrite (proj2 (exponent_none _) EX) in C. cbn [checked] in C.
    destruct (rsa_generate sg bits (num e0) rnd) as [k |] eqn:GE; [| discriminate C]. cbn [bind_st] in C. apply st_ok_inj in C. subst w.
    destruct (new_modulus_size _ _ _ _ _ _ SL EX SZ GE) as (M1 & M2). exact (rsa_key_size sg _ _ _ k Pss _ n (or_intror (conj eq_refl eq_refl)) RS GE M1 M2 HN).
Qed.
Lemma url_size : forall kd, (length (encode_fields (f_string 1 (type_url (kind_name kd ++ "PublicKey")))) <= 200)%nat /\ (length (encode_fields (f_string 1 (type_url (kind_name kd ++ "PrivateKey")))) <= 200)%nat.
Proof. intros []; split; apply Nat.leb_le; vm_compute; reflexivity. Qed.
Lemma key_data_size : forall d, (length (encode_fields (f_string 1 (kd_type_url d))) <= 200)%nat -> (N.of_nat (length (kd_value d)) < 100000)%N -> proto_size (kd_value d) /\ proto_size (serialize_key_data d).
Proof.
  intros d U V. unfold proto_size. change (2 ^ 31)%N with 2147483648%N. split; [lia |]. unfold serialize_key_data, fields_of_key_data. rewrite !encode_fields_app.
  pose proof (bytes_size 2 (kd_value d)) as B. cbn [fields_of_value] in B. pose proof (enum_size 3 (kd_key_material_type d)). lia.
Qed.
(** New keys and their public keys have sizes that protocol buffers can have. *)
Theorem new_sig_sizes : forall ec lib sg self_test rnd x f d, ec_laws ec lib -> sig_laws ec sg -> rsa_sizes sg -> asks_for_sig (type_url (kind_name (format_kind f) ++ "PrivateKey")) x f -> format_ok f -> format_size_ok f ->
  cl_new_key_data (sign_manager ec sg self_test (format_kind f)) rnd x = StOk d ->
  proto_size (kd_value d) /\ proto_size (serialize_key_data d) /\ wf_key_data d /\ forall k, k_key_data k = d -> sig_public_fits ec sg self_test k.
Proof.
  intros ec lib sg self_test rnd x f d L SL RS A OK SZ H. pose proof H as H0. rewrite sign_manager_is in H. cbn [sign_manager_of cl_new_key_data] in H. destruct (parse_message (format_schema (format_kind f)) x) as [m |] eqn:E; [| discriminate H].
  apply checked_ok in H. destruct H as (V & H). apply bind_st_ok in H. destruct H as (w & C & H). apply st_ok_inj in H.
  destruct (key_size ec lib sg rnd f x m w L SL RS A E OK SZ C) as (S1 & S2). pose proof A as (_ & m' & E' & A'). rewrite E in E'. injection E' as <-. destruct (key_created ec lib sg rnd f x m w L SL E A' OK C) as (HW & _).
  assert (ED : kd_type_url d = type_url (kind_name (format_kind f) ++ "PrivateKey") /\ kd_value d = serialize_message (private_schema (format_kind f)) w /\ kd_key_material_type d = ASYMMETRIC_PRIVATE) by (subst d; cbn [kd_type_url kd_value kd_key_material_type]; rewrite url_is; auto).
  destruct ED as (U & ED & MT). clear H. destruct (key_data_size d) as (P1 & P2); [rewrite U; apply url_size | rewrite ED; exact S1 |]. split; [exact P1 |]. split; [exact P2 |].
  split; [split; [rewrite U; apply sig_url_text | rewrite MT; apply low_int; vm_compute; reflexivity] |].
  intros k EK kd get d' G GD UK. rewrite EK in *. rewrite U in UK. apply type_url_inj in UK.
  assert (kd = format_kind f) by (clear - UK; destruct kd, (format_kind f); (reflexivity || discriminate UK)). subst kd.
  rewrite sign_manager_is in G. cbn [sign_manager_of cl_public_key_data] in G. injection G as <-. rewrite ED in GD.
  rewrite message_round_trip in GD by (first [exact HW | rewrite <- ED; exact P1 | clear; destruct (format_kind f); reflexivity]).
  apply checked_ok in GD. destruct GD as (_ & GD). apply st_ok_inj in GD.
  assert (U' : kd_type_url d' = type_url (kind_name (format_kind f) ++ "PublicKey")) by (subst d'; cbn [kd_type_url]; apply url_is).
  assert (V' : kd_value d' = public_part (format_kind f) w) by (subst d'; cbn [kd_value]; reflexivity).
  clear GD. apply key_data_size; [rewrite U'; exact (proj1 (url_size (format_kind f))) | rewrite V'; exact S2].
Qed.
