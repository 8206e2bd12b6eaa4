(** Keysets of AES streaming keys: templates, new keys, handles. *)
From Coq Require Import Strings.Byte Strings.String List NArith ZArith Bool Lia.
From Verif Require Import M_Base L_Base M_Proto M_Utf8 L_Utf8 M_Wire L_Wire S_Wire M_ProtoMsg S_ProtoMsg L_ProtoMsg M_KeyFormats M_Prims M_StreamTypes
  M_PrimitiveSet M_Registry M_KeysetHandle M_Templates M_CcStream M_CcManagers M_CcAes M_CcStreamKeys
  S_Keyset S_Registry S_Config S_CcLaws S_CcAes S_CcStreamKeys L_Keyset L_Config L_Config2 L_Config3 L_CcAes4 L_CcStreamKeys.
Import ListNotations.
Open Scope string_scope.
Open Scope list_scope.
Open Scope Z_scope.

(** ** The predefined templates *)
Lemma of_nat_to_nat : forall z, 0 <= z -> Z.of_nat (Z.to_nat z) = z.
Proof. intros z H. apply Z2Nat.id. exact H. Qed.
Theorem templates_ask : Forall2 (fun x y => fst x = fst y /\ exists t, snd x = Ok t /\
    asks_for (kt_type_url t) (kt_value t) (snd y) /\ params_usable (snd y) /\ segments_fit (snd y) /\
    kt_output_prefix_type t = RAW) streaming_templates template_params.
Proof.
  unfold streaming_templates, template_params. cbv zeta.
  repeat match goal with |- Forall2 _ (_ :: _) (_ :: _) => apply Forall2_cons | |- Forall2 _ [] [] => constructor end;
    cbn [fst snd]; (split; [reflexivity |]);
    (eexists; split; [vm_compute; reflexivity |]; cbn [kt_type_url kt_value kt_output_prefix_type];
     split; [| split; [| split; [unfold segments_fit; cbn [segment_size gh_ciphertext_segment_size ch_ciphertext_segment_size];
        rewrite of_nat_to_nat by lia; lia | reflexivity]]]).
  all: try (cbn [params_usable]; unfold gcm_hkdf_usable, ctr_hmac_usable, usable;
    cbn [gh_ikm ch_ikm gh_ciphertext_segment_size
    gh_derived_key_size gh_ciphertext_offset ch_ciphertext_segment_size ch_key_size ch_ciphertext_offset gh_hash ch_hkdf_algo ch_tag_algo ch_tag_size hash_size];
    rewrite ?repeat_length; repeat apply conj; try tauto; lia).
  all: split; [vm_compute; reflexivity |]; eexists; split; [vm_compute; reflexivity |];
    unfold has_params, number; cbn [format_schema key_material gh_ikm ch_ikm segment_size salt_size stream_offset gh_ciphertext_segment_size
      gh_derived_key_size gh_ciphertext_offset ch_ciphertext_segment_size ch_key_size ch_ciphertext_offset gh_hash ch_hkdf_algo ch_tag_algo ch_tag_size];
    rewrite ?of_nat_to_nat by lia; (split; [reflexivity |]); (split; [reflexivity |]); (split; [reflexivity |]); (split; [reflexivity |]);
    eexists; (split; [reflexivity |]).
  all: try (split; [| split; [reflexivity | eexists; split; [reflexivity |]]]).
  all: cbn; tauto.
Qed.

(** ** Keys made with them *)
Lemma made_of_16 : forall A (l : list A), length l = 16%nat -> exists a0 a1 a2 a3 a4 a5 a6 a7 a8 a9 a10 a11 a12 a13 a14 a15,
  l = [a0; a1; a2; a3; a4; a5; a6; a7; a8; a9; a10; a11; a12; a13; a14; a15].
Proof.
  intros A l H. do 16 (destruct l as [| ? l]; [discriminate |]). destruct l; [| discriminate]. do 16 eexists. reflexivity.
Qed.
Lemma made_of_32 : forall A (l : list A), length l = 32%nat -> exists a0 a1 a2 a3 a4 a5 a6 a7 a8 a9 a10 a11 a12 a13 a14 a15 b,
  length b = 16%nat /\ l = [a0; a1; a2; a3; a4; a5; a6; a7; a8; a9; a10; a11; a12; a13; a14; a15] ++ b.
Proof.
  intros A l H. do 16 (destruct l as [| ? l]; [discriminate |]). do 17 eexists. split; [| reflexivity]. cbn in H. lia.
Qed.
Lemma asks_size : forall url x sp fs m ks, asks_for url x sp -> fs = format_schema sp -> parse_message fs x = Some m ->
  number fs m ["key_size"] ks -> length (key_material sp) = Z.to_nat ks.
Proof.
  intros url x sp fs m ks (_ & m1 & E1 & K1 & _) -> E K. rewrite E in E1. injection E1 as <-.
  rewrite (number_fun _ _ _ _ _ K K1). symmetry. apply Nat2Z.id.
Qed.
Lemma template_key_sizes : forall name t n lib random salt prefix rnd m d, random_law random -> In (name, Ok t) streaming_templates ->
  streaming_managers n lib salt prefix random (kt_type_url t) = Some m -> cl_new_key_data m rnd (kt_value t) = StOk d ->
  wf_key_template t /\ proto_size (serialize_key_template t) /\
  wf_key_data d /\ proto_size (kd_value d) /\ proto_size (serialize_key_data d).
Proof.
  intros name t n lib random salt prefix rnd m d RL Hin M H. apply streaming_managers_spec in M. unfold streaming_templates in Hin.
  assert (L16 : exists a0 a1 a2 a3 a4 a5 a6 a7 a8 a9 a10 a11 a12 a13 a14 a15,
    random rnd 16 = [a0; a1; a2; a3; a4; a5; a6; a7; a8; a9; a10; a11; a12; a13; a14; a15]).
  { apply made_of_16. pose proof (RL rnd 16 ltac:(lia)). lia. }
  assert (L32 : exists a0 a1 a2 a3 a4 a5 a6 a7 a8 a9 a10 a11 a12 a13 a14 a15 b0 b1 b2 b3 b4 b5 b6 b7 b8 b9 b10 b11 b12 b13 b14 b15,
    random rnd 32 = [a0; a1; a2; a3; a4; a5; a6; a7; a8; a9; a10; a11; a12; a13; a14; a15;
                     b0; b1; b2; b3; b4; b5; b6; b7; b8; b9; b10; b11; b12; b13; b14; b15]).
  { destruct (made_of_32 _ (random rnd 32)) as (a0 & a1 & a2 & a3 & a4 & a5 & a6 & a7 & a8 & a9 & a10 & a11 & a12 & a13 & a14 & a15 & b & Lb & E).
    { pose proof (RL rnd 32 ltac:(lia)). lia. }
    destruct (made_of_16 _ b Lb) as (b0 & b1 & b2 & b3 & b4 & b5 & b6 & b7 & b8 & b9 & b10 & b11 & b12 & b13 & b14 & b15 & ->).
    do 32 eexists. exact E. }
  destruct L16 as (a0 & a1 & a2 & a3 & a4 & a5 & a6 & a7 & a8 & a9 & a10 & a11 & a12 & a13 & a14 & a15 & L16).
  destruct L32 as (c0 & c1 & c2 & c3 & c4 & c5 & c6 & c7 & c8 & c9 & c10 & c11 & c12 & c13 & c14 & c15 &
                   b0 & b1 & b2 & b3 & b4 & b5 & b6 & b7 & b8 & b9 & b10 & b11 & b12 & b13 & b14 & b15 & L32).
  assert (V : forall s, forallb (fun c => c <? 55296)%N s = true -> valid_text s).
  { intros s Hs c Hc. rewrite forallb_forall in Hs. specialize (Hs _ Hc). apply N.ltb_lt in Hs. auto. }
  assert (R : forall z, (-2147483648 <=? z) && (z <? 2147483648) = true -> int32_range z).
  { intros z Hz. apply andb_true_iff in Hz. destruct Hz as (Z1 & Z2). apply Z.leb_le in Z1. apply Z.ltb_lt in Z2. unfold int32_range. lia. }
  assert (S : forall x, (N.of_nat (length x) <? 2147483648)%N = true -> proto_size x) by (intros x Hx; apply N.ltb_lt in Hx; exact Hx).
  repeat (destruct Hin as [Hin | Hin]; [vm_compute in Hin; injection Hin as _ <-; cbn [kt_type_url kt_value kt_output_prefix_type] in * |]);
    [.. | contradiction].
  all: destruct M as [(U & ->) | (U & ->)]; try (vm_compute in U; discriminate U); clear U; cbn [cl_new_key_data] in H.
  all: first [apply gcm_new_ok in H | apply ctr_new_ok in H]; destruct H as (m & p & EM & -> & _); vm_compute in EM; injection EM as <-.
  all: cbn [kd_value kd_type_url kd_key_material_type]; unfold create_key.
  all: match goal with |- context [num_at ?fs ?m ?q] => let z := eval vm_compute in (num_at fs m q) in change (num_at fs m q) with z end.
  all: rewrite ?L16, ?L32.
  all: (split; [split; [apply V | apply R]; vm_compute; reflexivity |]); (split; [apply S; vm_compute; reflexivity |]);
    (split; [split; [apply V | apply R]; vm_compute; reflexivity |]); (split; apply S; vm_compute; reflexivity).
Qed.

(** ** A key has one set of parameters *)
Lemma has_params_fun : forall fs m sp sp', stream_type sp = stream_type sp' -> has_params fs m sp -> has_params fs m sp' ->
  sp' = with_key sp (key_material sp').
Proof.
  intros fs m sp sp' T (A & B & C & h & D & E) (A' & B' & C' & h' & D' & E').
  pose proof (number_fun _ _ _ _ _ A A') as EA. pose proof (number_fun _ _ _ _ _ B B') as EB. pose proof (number_fun _ _ _ _ _ D D') as <-.
  apply Nat2Z.inj in EA, EB.
  destruct sp as [p | p], sp' as [p' | p']; try (vm_compute in T; discriminate T);
    [destruct p as [a1 a2 a3 a4 a5], p' as [b1 b2 b3 b4 b5] | destruct p as [a1 a2 a3 a4 a5 a6 a7], p' as [b1 b2 b3 b4 b5 b6 b7]];
    cbn [segment_size salt_size stream_offset with_key key_material gh_ikm ch_ikm gh_hash gh_derived_key_size gh_ciphertext_segment_size
      gh_ciphertext_offset ch_hkdf_algo ch_key_size ch_ciphertext_segment_size ch_ciphertext_offset ch_tag_algo ch_tag_size] in *; subst.
  - apply hash_number_known in E, E'. congruence.
  - destruct E as (E & F & g & G & I). destruct E' as (E' & F' & g' & G' & I'). apply hash_number_known in E, E'.
    pose proof (number_fun _ _ _ _ _ F F') as EF. pose proof (number_fun _ _ _ _ _ G G') as <-. apply Nat2Z.inj in EF.
    apply hash_number_known in I, I'. congruence.
Qed.
Lemma stream_type_schema : forall sp sp', stream_type sp = stream_type sp' -> key_schema sp = key_schema sp' /\ format_schema sp = format_schema sp'.
Proof. intros [p | p] [p' | p'] T; try (vm_compute in T; discriminate T); split; reflexivity. Qed.
Theorem key_params_unique : forall d sp sp', key_params d sp -> key_params d sp' -> sp = sp'.
Proof.
  intros d sp sp' (T & m & E & _ & K & P) (T' & m' & E' & _ & K' & P'). rewrite T in T'.
  destruct (stream_type_schema _ _ T') as (S & _). rewrite <- S in *. rewrite E in E'. injection E' as <-.
  rewrite (has_params_fun _ _ _ _ T' P P'). rewrite <- (content_fun _ _ _ _ _ K K'). destruct sp as [[] | []]; reflexivity.
Qed.
Lemma asks_for_same : forall url x sp sp', asks_for url x sp -> asks_for url x sp' ->
  sp' = with_key sp (key_material sp') /\ length (key_material sp') = length (key_material sp).
Proof.
  intros url x sp sp' (T & m & E & K & P) (T' & m' & E' & K' & P'). rewrite T in T'.
  destruct (stream_type_schema _ _ T') as (_ & S). rewrite <- S in *. rewrite E in E'. injection E' as <-.
  split; [exact (has_params_fun _ _ _ _ T' P P') |]. pose proof (number_fun _ _ _ _ _ K K'). lia.
Qed.

(** ** Worlds and keysets *)
Lemma aes_world_ready : forall n lib random salt prefix w, aes_world n lib random salt prefix w -> cc_ready w StreamingAead.
Proof.
  intros n lib random salt prefix w (C & S). split; [exact C |]. intros name c b Hin. cbn in Hin.
  destruct Hin as [Hin | [Hin | []]]; injection Hin as <- <- <-; cbn [cc_functions]; rewrite S.
  - rewrite (proj2 (streaming_managers_spec n lib salt prefix random (type_url "AesGcmHkdfStreamingKey") _) (or_introl (conj eq_refl eq_refl))).
    do 2 eexists. reflexivity.
  - rewrite (proj2 (streaming_managers_spec n lib salt prefix random (type_url "AesCtrHmacStreamingKey") _) (or_intror (conj eq_refl eq_refl))).
    do 2 eexists. reflexivity.
Qed.
Lemma aes_streaming_made : forall n lib sp salt prefix, params_usable sp -> exists cc, aes_streaming n lib sp salt prefix = StOk cc.
Proof.
  intros n lib [p | p] salt prefix U; cbn [params_usable aes_streaming] in *.
  - unfold aes_gcm_hkdf_streaming, gcm_hkdf_validate. destruct U as (U1 & U2 & U3 & U4).
    replace (known_hash (gh_hash p)) with true by (destruct U1 as [-> | [-> | ->]]; reflexivity). cbn [negb].
    repeat match goal with |- context [if ?b then _ else _] => replace b with false by
      (symmetry; rewrite ?orb_false_iff, ?andb_false_iff, ?negb_false_iff, ?Nat.leb_gt, ?Nat.ltb_ge, ?Nat.eqb_eq, ?Nat.eqb_neq; unfold gcm_tag_size, nonce_prefix_size in *; lia) end.
    eexists. reflexivity.
  - unfold aes_ctr_hmac_streaming. rewrite (L_CcAes3.ctr_validate p U). eexists. reflexivity.
Qed.
Definition made (n : nat) (lib : ssl) (salt prefix : bytes) (x : key * stream_params) (y : key * cc_streaming_aead) : Prop :=
  fst x = fst y /\ aes_streaming n lib (snd x) salt prefix = StOk (snd y).
Lemma aes_cc_keyset : forall n lib random salt prefix w ks l, aes_world n lib random salt prefix w -> aes_keyset ks l ->
  exists l', cc_keyset ClsRawStreamingAead (cw_streaming w) ks l' /\ Forall2 (made n lib salt prefix) l l'.
Proof.
  intros n lib random salt prefix w ks l (_ & HS) (V & E & F).
  assert (G : exists l', Forall2 (made n lib salt prefix) l l' /\ Forall (fun kq => cc_key ClsRawStreamingAead (k_key_data (fst kq)) /\
    exists m, cw_streaming w (kd_type_url (k_key_data (fst kq))) = Some m /\ cl_get_primitive m (k_key_data (fst kq)) = StOk (snd kq)) l').
  { clear V E. induction F as [| (k & sp) l (W & S & K & U & T & _) F IH]; [exists []; split; constructor |].
    destruct IH as (l' & IH1 & IH2). destruct (aes_streaming_made n lib sp salt prefix U) as (cc & Ecc). cbn [fst snd] in *.
    exists ((k, cc) :: l'). split; [constructor; [split; [reflexivity | exact Ecc] | exact IH1] |]. constructor; [| exact IH2]. cbn [fst snd].
    split.
    - split; [exact W |]. split; [exact S |]. destruct K as (KT & _).
      exists StreamingAead. destruct sp as [p | p]; [exists "AesGcmHkdfStreamingKey" | exists "AesCtrHmacStreamingKey"]; exists false;
        (split; [cbn; intuition discriminate |]); (split; [cbn; tauto | exact KT]).
    - rewrite HS. apply (proj2 (streaming_key_primitive n lib salt prefix random (k_key_data k) cc)). exists sp. tauto. }
  destruct G as (l' & G1 & G2). exists l'. split; [| exact G1]. split; [exact V |].
  assert (EM : map fst l' = map fst l).
  { clear - G1. induction G1 as [| x y l l' (H & _) _ IH]; [reflexivity |]. cbn. rewrite H, IH. reflexivity. }
  split; [split; [rewrite EM; exact E | exact G2] |].
  rewrite <- E. apply Forall_forall. intros k Hk. apply in_map_iff in Hk. destruct Hk as (x & <- & Hx).
  rewrite Forall_forall in F. destruct (F _ Hx) as (_ & _ & _ & _ & _ & P). exact P.
Qed.

(** ** tink.new_keyset_handle *)
Theorem new_streaming_handle : forall n lib random salt prefix w env r name t rnd raw draws,
  aes_world n lib random salt prefix w -> random_law random -> configured w env StreamingAead r -> In (name, Ok t) streaming_templates ->
  exists sp h k, In (name, sp) template_params /\ generate_new r rnd (raw :: draws) t = Some (Ok h) /\
    aes_keyset (kh_keyset h) [(k, with_key sp (random rnd (Z.of_nat (length (key_material sp)))))] /\
    k_key_id k = ks_primary_key_id (kh_keyset h).
Proof.
  intros n lib random salt prefix w env r name t rnd raw draws HW RL HC Hin.
  assert (A : exists sp, In (name, sp) template_params /\ asks_for (kt_type_url t) (kt_value t) sp /\ params_usable sp /\ segments_fit sp /\
    kt_output_prefix_type t = RAW).
  { generalize templates_ask. revert Hin. generalize streaming_templates, template_params. intros l l' Hin F. clear - Hin F.
    induction F as [| (n1 & x) (n2 & y) l l' (E & t' & Et & H) F IH]; [contradiction |]. cbn [fst snd] in *. subst n2.
    destruct Hin as [Hin | Hin].
    - injection Hin as -> ->. injection Et as ->. exists y. split; [left; reflexivity | exact H].
    - destruct (IH Hin) as (sp & I & J). exists sp. split; [right; exact I | exact J]. }
  destruct A as (sp & HT & HA & HU & HF & HR).
  assert (FA : format_accepted sp) by (split; [exact HU | destruct sp; [exact I | exact HF]]).
  destruct (proj2 (streaming_new_key_accepted n lib salt prefix random rnd _ _) (ex_intro _ sp (conj HA FA))) as (m & d & M & ND).
  destruct (template_key_sizes _ _ _ _ _ _ _ _ _ _ RL Hin M ND) as (W1 & W2 & W3 & W4 & W5).
  destruct (streaming_new_key _ _ _ _ _ _ _ _ _ _ M ND RL W4) as (D1 & D2 & sp' & A' & FA' & K' & KM).
  destruct (asks_for_same _ _ _ _ HA A') as (ES & EL). rewrite KM, EL in ES.
  assert (HN : registry_new_key_data r rnd t = Ok d).
  { assert (X : exists nm, kt_type_url t = type_url nm /\ In (nm, ClsRawStreamingAead, false) (key_types StreamingAead)).
    { destruct HA as (U & _). destruct sp; [exists "AesGcmHkdfStreamingKey" | exists "AesCtrHmacStreamingKey"]; split; (exact U || (cbn; tauto)). }
    destruct X as (nm & U & I).
    assert (CF : cc_functions w ClsRawStreamingAead (type_url nm) = Some (cl_key_type m, cl_new_key_data m, cl_public_key_data m)).
    { cbn [cc_functions]. rewrite (proj2 HW), <- U, M. reflexivity. }
    pose proof (configured_new_key _ _ _ _ _ _ _ _ _ _ rnd t HC I CF U W1 W2) as Q. rewrite ND in Q. apply Q.
    intros d' E. injection E as <-. split; assumption. }
  exists sp, (mk_handle (mk_keyset (1 + raw mod 2147483647) [mk_key (Some d) ENABLED (1 + raw mod 2147483647) (kt_output_prefix_type t)])).
  eexists. split; [exact HT |].
  assert (V : valid_keyset (S_Handle.single_key_keyset d (1 + raw mod 2147483647) (kt_output_prefix_type t)))
    by (apply L_Handle.single_valid; rewrite HR; discriminate).
  split; [| split].
  - unfold generate_new. rewrite HN. cbn [generate_unused_key_id ks_key map mem_N existsb negb]. f_equal. apply create_ok. split; [exact V | reflexivity].
  - split; [exact V |]. split; [reflexivity |]. constructor; [| constructor]. cbn [fst snd k_key_data k_key_data_opt k_output_prefix_type k_key_id].
    rewrite <- ES. split; [exact W3 |]. split; [exact W5 |]. split; [exact K' |]. split; [exact (proj1 FA') |].
    split; [rewrite ES; destruct sp; exact HF |]. exists []. left. split; [exact HR | reflexivity].
  - reflexivity.
Qed.
