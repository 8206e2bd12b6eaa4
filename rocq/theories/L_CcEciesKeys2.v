(** The templates of ECIES keys, and keys that can be made but not used. *)
From Coq Require Import Strings.Byte Strings.String List NArith ZArith Bool Lia.
From Verif Require Import M_Base L_Base M_Proto M_Utf8 M_Wire L_Wire S_Wire M_ProtoMsg S_ProtoMsg L_ProtoMsg M_KeyFormats M_Templates M_Prims M_StreamTypes M_CcStream M_CcManagers M_CcAes
  M_CcStreamKeys M_CcModes M_CcSymmetric M_CcSymKeys M_CcEcies M_CcEciesKeys S_Config S_CcAes S_CcStreamKeys S_CcModes S_CcSymmetric S_CcSymKeys S_CcSymHandles
  S_CcEcies S_CcEciesKeys L_CcStreamKeys L_CcModes L_CcModes4 L_CcSymmetric L_CcSymmetric2 L_CcSymKeys L_CcSymKeys2 L_CcSymHandles L_CcEcies L_CcEcies2 L_CcEcies3 L_CcEcies4 L_CcEcies5 L_CcEciesKeys.
Import ListNotations.
Open Scope string_scope.
Open Scope list_scope.
Open Scope nat_scope.

(** ** Other algorithms for the data *)
Lemma other_dem : forall url x k, asks_for_key url x k -> dem_kind k = false -> exists e, get_key_params url x = StErr e.
Proof.
  intros url x k (-> & _) D. destruct k; try discriminate D; eexists; unfold get_key_params;
    repeat match goal with |- context [str_eqb ?a ?b] => let r := eval vm_compute in (str_eqb a b) in change (str_eqb a b) with r end; cbv iota; reflexivity.
Qed.
Lemma other_params : forall fs m pre p, has_ecies_params fs m pre p -> dem_kind (ep_dem p) = false -> exists e, params_dem fs (fun q => pre ++ q) m = StErr e.
Proof.
  intros fs m pre p (_ & _ & _ & _ & url & x & U & V & A) D. unfold params_dem, string_at. rewrite U, (bytes_at_content _ _ _ _ V). exact (other_dem url x _ A D).
Qed.
Theorem ecies_other_dem : forall ec lib random p, dem_kind (ep_dem p) = false ->
  (forall d X Y, is_ecies_public d p X Y -> exists e, cl_get_primitive (ecies_public_key_manager ec lib random) d = StErr e) /\
  (forall d s X Y, is_ecies_private d p s X Y -> exists e, cl_get_primitive (ecies_private_key_manager ec lib random) d = StErr e).
Proof.
  intros ec lib random p D. split.
  - intros d X Y K. destruct (public_get ec lib random d p X Y K) as (m & (P & _) & _ & ->). destruct (other_params _ _ _ _ P D) as (e & E). cbn [app] in E.
    unfold ecies_encrypt_new. cbv zeta. destruct (encrypt_validate m); [eexists; reflexivity |]. destruct (sender_kem_new _ _ _ _); [| eexists; reflexivity]. cbn [bind_st].
    change (params_dem EciesAeadHkdfPublicKey (cons "params") m) with (params_dem EciesAeadHkdfPublicKey (fun q => "params" :: q) m). rewrite E. eexists. reflexivity.
  - intros d s X Y K. destruct (private_get ec lib random d p s X Y K) as (m & (P & _) & _ & ->). destruct (other_params _ _ _ _ P D) as (e & E). cbn [app] in E.
    unfold ecies_decrypt_new. cbv zeta. destruct (decrypt_validate m); [eexists; reflexivity |]. destruct (recipient_kem_new _ _ _); [| eexists; reflexivity]. cbn [bind_st].
    rewrite E. eexists. reflexivity.
Qed.
(** A key with the format of a key with AES-EAX is made, and cannot be used. *)
Definition eax_dem_format : bytes :=
  serialize_message EciesAeadHkdfKeyFormat
    [Some (VMsg [Some (VMsg [Some (VNum 2); Some (VNum 3); Some (VBytes [])]);
                 Some (VMsg [Some (VMsg [Some (VString (type_url "AesEaxKey"));
                   Some (VBytes (serialize_message AesEaxKeyFormat [Some (VMsg [Some (VNum 16)]); Some (VNum 16)])); Some (VNum 1)])]);
                 Some (VNum 1)])].
Definition eax_dem_params : ecies_params := mk_ecies_params P256 M_CcAes.SHA256 [] Uncompressed (EaxKey (repeat x00 16) 16).
Lemma eax_dem_asks : asks_for_ecies (type_url "EciesAeadHkdfPrivateKey") eax_dem_format eax_dem_params.
Proof.
  split; [reflexivity |]. eexists. split; [vm_compute; reflexivity |].
  split; [eexists; split; [vm_compute; reflexivity | cbn; tauto] |]. split; [eexists; split; [vm_compute; reflexivity | cbn; tauto] |]. split; [vm_compute; reflexivity |].
  split; [eexists; split; [vm_compute; reflexivity | cbn; tauto] |]. do 2 eexists. split; [vm_compute; reflexivity |]. split; [vm_compute; reflexivity |].
  split; [vm_compute; reflexivity |]. eexists. split; [vm_compute; reflexivity |]. repeat constructor.
Qed.
Theorem ecies_new_key_unusable : exists x, forall ec lib random rnd, ec_laws ec lib ->
  exists d, cl_new_key_data (ecies_private_key_manager ec lib random) rnd x = StOk d /\
    (proto_size (kd_value d) -> exists e, cl_get_primitive (ecies_private_key_manager ec lib random) d = StErr e).
Proof.
  exists eax_dem_format. intros ec lib random rnd L. destruct (ecies_new_key ec lib random rnd _ _ L eax_dem_asks) as (d & E & _ & _ & H). exists d. split; [exact E |].
  intros PS. destruct (H PS) as (s & X & Y & K & _). exact (proj2 (ecies_other_dem ec lib random eax_dem_params eq_refl) d s X Y K).
Qed.
(** New keys are of a known curve, and their hash and point format are given. *)
Theorem ecies_new_key_only : forall ec lib random rnd x d, cl_new_key_data (ecies_private_key_manager ec lib random) rnd x = StOk d ->
  kd_type_url d = type_url "EciesAeadHkdfPrivateKey" /\ kd_key_material_type d = ASYMMETRIC_PRIVATE /\
  exists m c zc zh zf dem, parse_message EciesAeadHkdfKeyFormat x = Some m /\
    number EciesAeadHkdfKeyFormat m ["params"; "kem_params"; "curve_type"] zc /\ curve_number c zc /\
    number EciesAeadHkdfKeyFormat m ["params"; "kem_params"; "hkdf_hash_type"] zh /\ zh <> 0%Z /\
    number EciesAeadHkdfKeyFormat m ["params"; "ec_point_format"] zf /\ zf <> 0%Z /\
    get_path (TMsg EciesAeadHkdfKeyFormat) (Some (VMsg m)) ["params"; "dem_params"; "aead_dem"] = Some (VMsg dem).
Proof.
  intros ec lib random rnd x d H. cbn [ecies_private_key_manager cl_new_key_data] in H. destruct (parse_message EciesAeadHkdfKeyFormat x) as [m |] eqn:E; [| discriminate H].
  destruct (validate_ecies_key_format m) eqn:V; [discriminate H |]. apply bind_ok in H. destruct H as (w & C & H). apply st_ok_inj in H. subst d. cbn [kd_type_url kd_key_material_type]. rewrite url_is. split; [reflexivity |]. split; [reflexivity |].
  pose proof (parse_holds _ _ _ E) as HM. unfold validate_ecies_key_format in V. apply and_then_none in V. destruct V as (_ & V). unfold validate_params in V. rewrite !and_then_none, !check_none in V. destruct V as (_ & V1 & _ & V2 & V3).
  apply orb_false_elim in V1. destruct V1 as (_ & V1). apply Z.eqb_neq in V1, V3. apply negb_false_iff in V2.
  destruct (read_enum _ _ ["params"; "kem_params"; "curve_type"] HM eq_refl) as (zc & Hc). destruct (read_enum _ _ ["params"; "kem_params"; "hkdf_hash_type"] HM eq_refl) as (zh & Hh). destruct (read_enum _ _ ["params"; "ec_point_format"] HM eq_refl) as (zf & Hf).
  destruct (read_message _ _ ["params"; "dem_params"; "aead_dem"] _ HM eq_refl V2) as (dem & D & _). rewrite (num_at_number _ _ _ _ Hh) in V1. rewrite (num_at_number _ _ _ _ Hf) in V3.
  assert (CU : exists c, curve_number c zc).
  { unfold create_ecies_key in C. apply bind_ok in C. destruct C as (((s & X) & Y) & N & _). unfold params_curve in N. rewrite (num_at_number _ _ _ _ Hc) in N.
    destruct zc as [| q | q]; try discriminate N. destruct q as [[q | q |] | [q | q |] |]; try discriminate N; try (destruct q; discriminate N); try (destruct q as [q | q |]; try discriminate N); [exists CURVE25519 | exists P384 | exists P521 | exists P256]; cbn; tauto. }
  destruct CU as (c & CU). exists m, c, zc, zh, zf, dem. auto 10.
Qed.

(** ** Templates *)
Definition ecies_template_asks (x : string * result key_template) (y : string * ecies_params) : Prop :=
  fst x = fst y /\ exists t, snd x = Ok t /\ asks_for_ecies (kt_type_url t) (kt_value t) (snd y) /\ proper (snd y) /\ kt_output_prefix_type t = TINK.
Theorem ecies_templates : Forall2 ecies_template_asks (firstn 4 hybrid_templates) ecies_template_keys /\
  Forall (fun x => exists t, snd x = Ok t /\ kt_type_url t = type_url "HpkePrivateKey") (skipn 4 hybrid_templates).
Proof.
  split.
  - unfold hybrid_templates, ecies_template_keys. cbn [firstn].
    repeat match goal with |- Forall2 _ (_ :: _) (_ :: _) => apply Forall2_cons | |- Forall2 _ [] [] => constructor end;
      (split; [reflexivity |]; eexists; split; [vm_compute; reflexivity |]; cbn [kt_type_url kt_value kt_output_prefix_type fst snd]; split; [| split; [| reflexivity]]).
    all: try (split; [vm_compute; reflexivity |]; eexists; split; [vm_compute; reflexivity |];
      split; [eexists; split; [vm_compute; reflexivity | cbn; tauto] |]; split; [eexists; split; [vm_compute; reflexivity | cbn; tauto] |]; split; [vm_compute; reflexivity |];
      split; [eexists; split; [vm_compute; reflexivity | cbn; tauto] |]; do 2 eexists; split; [vm_compute; reflexivity |]; split; [vm_compute; reflexivity |];
      split; [vm_compute; reflexivity |]; eexists; split; [vm_compute; reflexivity |]; repeat (apply Forall_cons || apply Forall_nil); cbn [has fst snd];
      try (eexists; split; [vm_compute; reflexivity | cbn; tauto]); vm_compute; reflexivity).
    all: do 4 (split; [cbn; discriminate |]); (split; [reflexivity |]); (split; [| cbn; lia]);
      unfold usable, ctr_hmac_key_ok; cbn [ep_dem aes_key iv_size hmac_key hmac_hash hmac_tag_size hash_size]; rewrite ?repeat_length; cbn [In]; repeat split; try tauto; try lia; discriminate.
  - unfold hybrid_templates. cbn [skipn]. repeat (apply Forall_cons || apply Forall_nil); (eexists; split; [vm_compute; reflexivity | vm_compute; reflexivity]).
Qed.
