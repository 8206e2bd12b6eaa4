(** Proofs: sizes of new JWT keys; new handles for the predefined JWT templates. *)
From Coq Require Import Strings.Byte Strings.String List NArith ZArith Bool Lia.
From Verif Require Import M_Base M_Utf8 M_Proto M_Wire M_ProtoMsg M_KeyFormats M_JwtTypes M_Prims M_PrimitiveSet M_Registry M_KeysetHandle M_Wrappers M_Json M_RawJwt M_JwtPrims M_JwtFormat M_JwtWrappers M_JwtKeys
  M_StreamTypes M_CcStream M_CcManagers M_Templates M_CcAes M_CcStreamKeys M_CcModes M_CcSymmetric M_CcSymKeys M_CcEcies M_CcEciesKeys M_CcSignatures M_CcJwt
  S_Keyset S_Handle S_Wrappers S_Registry S_Json S_Jwt S_JwtKeys S_Wire S_Config S_CcLaws S_CcAes S_CcStreamKeys S_CcModes S_CcSymmetric S_CcSymKeys S_CcSymHandles S_CcEcies S_CcEciesKeys S_CcSignatures S_CcSigHandles S_CcJwt S_CcJwtHandles
  L_Base L_CcSymHandles L_Registry L_Wire L_PrimitiveSet L_Keyset L_Wrappers L_Wrappers2 L_Wrappers3 L_Jwt L_Jwt2 L_Jwt5 L_Jwt6 L_Jwt7 L_Handle L_Config L_Config2 L_Config3 L_Config4 L_Cli3
  L_CcStreamKeys L_CcModes L_CcSymKeys L_CcSymKeys2 L_CcSymHandles3 L_CcEciesHandles2 L_CcSigDer L_CcSignatures L_CcSigKeys L_CcSigKeys2 L_CcEcies L_CcEcies2 L_CcEcies3 L_CcEciesKeys L_CcEciesKeys2 L_CcSigNew L_CcSigNew2
  S_ProtoMsg L_ProtoMsg L_CcSigHandles3 L_CcJwt L_CcJwt2 L_CcJwtParse L_CcJwtHandles L_CcJwtHandles2.
Import ListNotations.
Open Scope string_scope.
Open Scope list_scope.
Open Scope nat_scope.

Lemma enum_value_size : forall n z, length (encode_fields (fields_of_value TEnum n (Some (VNum z)))) <= 20.
Proof. intros n z. cbn [fields_of_value]. apply enum_size. Qed.
Lemma unset_size : forall t n, length (encode_fields (fields_of_value t n None)) = 0.
Proof. intros t n. destruct t; reflexivity. Qed.
Ltac jsizes := sizes; rewrite ?unset_size; repeat match goal with
  | |- context [length (encode_fields (fields_of_value TEnum ?n (Some (VNum ?z))))] => let H := fresh in pose proof (enum_value_size n z) as H; revert H; generalize (length (encode_fields (fields_of_value TEnum n (Some (VNum z))))); intros ? H
  end.
Definition jwt_public_part (f : jwt_family) (w : message) : bytes :=
  match message_or_empty (jwt_public_schema f) (get_path (TMsg (jwt_private_schema f)) (Some (VMsg w)) ["public_key"]) with
  | Some (VMsg n) => serialize_message (jwt_public_schema f) n
  | _ => []
  end.
Definition jwt_small (f : jwt_family) (w : message) : Prop :=
  (N.of_nat (length (serialize_message (jwt_private_schema f) w)) < 100000)%N /\ (N.of_nat (length (jwt_public_part f w)) < 100000)%N.
Lemma jwt_rsa_size : forall sg bits e rnd k f z, (f = RS \/ f = PS) -> rsa_sizes sg -> rsa_generate sg bits e rnd = Some k -> (N.size (rsa_n k) <= 16384)%N -> (rsa_e k < 2 ^ 32)%N ->
  let b n := Some (VBytes (BN_bn2bin n)) in
  jwt_small f [Some (VNum 0); Some (VMsg [Some (VNum 0); Some (VNum z); b (rsa_n k); b (rsa_e k); None]); b (rsa_d k); b (rsa_p k); b (rsa_q k); b (rsa_dp k); b (rsa_dq k); b (rsa_crt k)].
Proof.
  intros sg bits e rnd k f z T RS G S E. cbv beta zeta. pose proof (rsa_sizes_bound _ _ _ _ _ RS G S) as B.
  assert (BE : length (BN_bn2bin (rsa_e k)) <= 5).
  { pose proof (bn2bin_size (rsa_e k) (2 ^ 32) ltac:(lia)) as Q. change (N.to_nat ((N.size (2 ^ 32) + 7) / 8)) with 5 in Q. exact Q. }
  pose proof (B _ (or_introl eq_refl)) as B1. pose proof (B _ (or_intror (or_introl eq_refl))) as B2. pose proof (B _ (or_intror (or_intror (or_introl eq_refl)))) as B3.
  pose proof (B _ (or_intror (or_intror (or_intror (or_introl eq_refl))))) as B4. pose proof (B _ (or_intror (or_intror (or_intror (or_intror (or_introl eq_refl)))))) as B5.
  pose proof (B _ (or_intror (or_intror (or_intror (or_intror (or_intror (or_introl eq_refl))))))) as B6. pose proof (B _ (or_intror (or_intror (or_intror (or_intror (or_intror (or_intror (or_introl eq_refl)))))))) as B7. clear B.
  revert B1 B2 B3 B4 B5 B6 B7 BE. generalize (BN_bn2bin (rsa_n k)), (BN_bn2bin (rsa_d k)), (BN_bn2bin (rsa_p k)), (BN_bn2bin (rsa_q k)), (BN_bn2bin (rsa_dp k)), (BN_bn2bin (rsa_dq k)), (BN_bn2bin (rsa_crt k)), (BN_bn2bin (rsa_e k)).
  clear - T. intros x1 x2 x3 x4 x5 x6 x7 x8 B1 B2 B3 B4 B5 B6 B7 BE.
  assert (L : (N.of_nat (length (serialize_message JwtRsaPublicKey [Some (VNum 0); Some (VNum z); Some (VBytes x1); Some (VBytes x8); None])) < 20000)%N) by (unfold JwtRsaPublicKey; jsizes; lia).
  destruct T as [-> | ->]; (split; [cbn [jwt_private_schema]; unfold JwtRsaPrivateKey; jsizes; lia |]; etransitivity; [exact L | reflexivity]).
Qed.
Lemma jwt_key_size : forall ec lib sg rnd f m z w, ec_laws ec lib -> sig_laws ec sg -> rsa_sizes sg -> holds_all (jwt_format_schema (jwt_format_family f)) m -> number (jwt_format_schema (jwt_format_family f)) m ["algorithm"] z ->
  jwt_algorithm (jwt_format_hash f) z -> jwt_format_numbers m f -> jwt_format_ok f -> jwt_format_size_ok f -> jwt_create_key ec sg (jwt_format_family f) rnd m = StOk w ->
  jwt_small (jwt_format_family f) w.
Proof.
  intros ec lib sg rnd f m z w L SL RS HM Z A N OK SZ C. destruct (jwt_algorithm_facts _ _ A) as (_ & _ & EC & _ & _ & _ & NU & B & _).
  destruct f as [h | h bits e0 | h bits e0]; cbn [jwt_format_family jwt_format_schema jwt_private_schema jwt_create_key jwt_format_hash jwt_format_ok jwt_format_size_ok] in *.
  - unfold jwt_ecdsa_create_key in C. cbn zeta in C. rewrite (num_at_number _ _ _ _ Z), EC in C. cbn [bind_st] in C.
    destruct (new_key_fresh ec lib (jwt_curve h) rnd L NU) as (s & X & Y & NE & F). rewrite NE in C. cbn [bind_st] in C. apply st_ok_inj in C. subst w.
    destruct (fresh_sizes ec (jwt_curve h) rnd s X Y) as (L1 & L2 & L3); [| exact F |].
    { destruct A as [E | [E | [E | []]]]; injection E as <- <-; cbn; tauto. }
    assert (Q : (N.of_nat (length (serialize_message JwtEcdsaPublicKey [Some (VNum 0); Some (VNum z); Some (VBytes X); Some (VBytes Y); None])) < 20000)%N) by (unfold JwtEcdsaPublicKey; jsizes; lia).
    split; [cbn [jwt_private_schema]; unfold JwtEcdsaPrivateKey; jsizes; lia |]. etransitivity; [exact Q | reflexivity].
  - destruct N as (BI & X). cbn [jwt_format_family jwt_format_schema] in BI, X. destruct OK as (LB & EX). unfold jwt_rsa_create_key in C. destruct (uint_bits _ _ _ HM eq_refl BI LB) as (_ & TI). cbn zeta in TI.
    rewrite (num_at_number _ _ _ _ Z), (bytes_at_content _ _ _ _ X), bin2bn_num in C. unfold new_rsa_key_pair in C. rewrite (proj2 (exponent_none _) EX) in C. cbn [checked] in C.
    destruct (rsa_generate sg (to_int (Z.to_N (num_at JwtRsaSsaPkcs1KeyFormat m ["modulus_size_in_bits"]))) (num e0) rnd) as [k |] eqn:GE; [| discriminate C].
    rewrite (TI (proj1 (proj2 (proj2 (law_rsa_generate _ _ SL _ _ _ _ EX GE))))) in GE. cbn [bind_st] in C. cbv zeta in C. apply st_ok_inj in C. subst w.
    destruct (new_modulus_size _ _ _ _ _ _ SL EX SZ GE) as (M1 & M2). exact (jwt_rsa_size sg _ _ _ k _ z (or_introl eq_refl) RS GE M1 M2).
  - destruct N as (BI & X). cbn [jwt_format_family jwt_format_schema] in BI, X. destruct OK as (LB & EX). unfold jwt_rsa_create_key in C. destruct (uint_bits _ _ _ HM eq_refl BI LB) as (_ & TI). cbn zeta in TI.
    rewrite (num_at_number _ _ _ _ Z), (bytes_at_content _ _ _ _ X), bin2bn_num in C. unfold new_rsa_key_pair in C. rewrite (proj2 (exponent_none _) EX) in C. cbn [checked] in C.
    destruct (rsa_generate sg (to_int (Z.to_N (num_at JwtRsaSsaPssKeyFormat m ["modulus_size_in_bits"]))) (num e0) rnd) as [k |] eqn:GE; [| discriminate C].
    rewrite (TI (proj1 (proj2 (proj2 (law_rsa_generate _ _ SL _ _ _ _ EX GE))))) in GE. cbn [bind_st] in C. cbv zeta in C. apply st_ok_inj in C. subst w.
    destruct (new_modulus_size _ _ _ _ _ _ SL EX SZ GE) as (M1 & M2). exact (jwt_rsa_size sg _ _ _ k _ z (or_intror eq_refl) RS GE M1 M2).
Qed.
Lemma jwt_url_size : forall f, (length (encode_fields (f_string 1 (type_url (family_name f ++ "PublicKey")))) <= 200)%nat /\ (length (encode_fields (f_string 1 (type_url (family_name f ++ "PrivateKey")))) <= 200)%nat.
Proof. intros []; split; apply Nat.leb_le; vm_compute; reflexivity. Qed.
(** New keys and their public keys have sizes that protocol buffers can have. *)
Theorem new_jwt_sizes : forall ec lib sg self_test rnd x f d, ec_laws ec lib -> sig_laws ec sg -> rsa_sizes sg -> asks_for_jwt (type_url (family_name (jwt_format_family f) ++ "PrivateKey")) x f -> jwt_format_ok f -> jwt_format_size_ok f ->
  cl_new_key_data (jwt_sign_cc_manager ec sg self_test (jwt_format_family f)) rnd x = StOk d ->
  proto_size (kd_value d) /\ proto_size (serialize_key_data d) /\ wf_key_data d /\ forall k, k_key_data k = d -> jwt_public_fits ec sg self_test k.
Proof.
  intros ec lib sg self_test rnd x f d L SL RS (_ & m & E & (z & Z & A) & N) OK SZ H. rewrite jwt_sign_is in H. cbn [sign_manager_of cl_new_key_data] in H. rewrite E in H.
  apply checked_ok in H. destruct H as (V & H). apply bind_st_ok in H. destruct H as (w & C & H). apply st_ok_inj in H. pose proof (parse_holds _ _ _ E) as HM.
  destruct (jwt_key_size ec lib sg rnd f m z w L SL RS HM Z A N OK SZ C) as (S1 & S2). destruct (jwt_key_created ec lib sg rnd f m z w L SL HM Z A N OK C) as (HW & _).
  assert (ED : kd_type_url d = type_url (family_name (jwt_format_family f) ++ "PrivateKey") /\ kd_value d = serialize_message (jwt_private_schema (jwt_format_family f)) w /\ kd_key_material_type d = ASYMMETRIC_PRIVATE) by (subst d; cbn [kd_type_url kd_value kd_key_material_type]; rewrite url_is; auto).
  destruct ED as (U & ED & MT). clear H. destruct (key_data_size d) as (P1 & P2); [rewrite U; apply jwt_url_size | rewrite ED; exact S1 |]. split; [exact P1 |]. split; [exact P2 |].
  split; [split; [rewrite U; apply jwt_url_text | rewrite MT; apply low_int; vm_compute; reflexivity] |].
  intros k EK fam get d' G GD UK. rewrite EK in *. rewrite U in UK. apply type_url_inj in UK.
  assert (fam = jwt_format_family f) by (clear - UK; destruct fam, (jwt_format_family f); (reflexivity || discriminate UK)). subst fam.
  rewrite jwt_sign_is in G. cbn [sign_manager_of cl_public_key_data] in G. injection G as <-. rewrite ED in GD.
  rewrite message_round_trip in GD by (first [exact HW | rewrite <- ED; exact P1 | clear; destruct (jwt_format_family f); reflexivity]).
  apply checked_ok in GD. destruct GD as (_ & GD). apply st_ok_inj in GD.
  assert (U' : kd_type_url d' = type_url (family_name (jwt_format_family f) ++ "PublicKey")) by (subst d'; cbn [kd_type_url]; apply url_is).
  assert (V' : kd_value d' = jwt_public_part (jwt_format_family f) w) by (subst d'; cbn [kd_value]; reflexivity).
  clear GD. apply key_data_size; [rewrite U'; exact (proj1 (jwt_url_size (jwt_format_family f))) | rewrite V'; exact S2].
Qed.
Theorem new_jwt_mac_sizes : forall lib random rnd x h size d, random_law random -> asks_for_jwt_hmac x h size -> (0 <= size <= 50000)%Z ->
  cl_new_key_data (jwt_mac_manager lib random) rnd x = StOk d -> proto_size (kd_value d) /\ proto_size (serialize_key_data d) /\ wf_key_data d.
Proof.
  intros lib random rnd x h size d R (m & E & (z & Z & A) & S) SZ H. cbn [jwt_mac_manager key_manager_impl cl_new_key_data jwt_hmac_key_manager kt_name kt_key kt_format kt_validate_key_format kt_create_key] in H.
  rewrite E, (num_at_number _ _ _ _ Z), (num_at_number _ _ _ _ S) in H. destruct (jwt_check_key_size z size) as [s |] eqn:C; [discriminate H |]. apply st_ok_inj in H.
  assert (Q : forall v, Z.of_nat (length v) = size -> (N.of_nat (length (serialize_message JwtHmacKey [Some (VNum 0); Some (VNum z); Some (VBytes v); None])) < 100000)%N) by (intros v HV; unfold JwtHmacKey; jsizes; lia).
  specialize (Q _ (R (2 * rnd + 0)%N size (proj1 SZ))).
  assert (U : kd_type_url d = type_url "JwtHmacKey") by (subst d; reflexivity). assert (MT : kd_key_material_type d = SYMMETRIC) by (subst d; reflexivity).
  assert (VV : (N.of_nat (length (kd_value d)) < 100000)%N) by (subst d; exact Q). clear H Q.
  destruct (key_data_size d) as (P1 & P2); [rewrite U; apply Nat.leb_le; vm_compute; reflexivity | exact VV |]. split; [exact P1 |]. split; [exact P2 |].
  split; [rewrite U; apply low_text; vm_compute; reflexivity | rewrite MT; apply low_int; vm_compute; reflexivity].
Qed.
