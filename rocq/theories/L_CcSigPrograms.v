(** Proofs: the example programs for digital signatures. *)
From Coq Require Import Strings.Byte Strings.String List NArith ZArith Bool Lia.
From Verif Require Import M_Base M_Utf8 M_Proto M_Wire M_ProtoMsg M_KeyFormats M_Prims M_PrimitiveSet M_Registry M_KeysetHandle M_Wrappers M_StreamTypes M_CcStream M_CcManagers
  M_Templates M_Json M_JsonKeyset M_KeysetStream M_Cli M_Walkthrough M_CcAes M_CcStreamKeys M_CcModes M_CcSymmetric M_CcSymKeys M_CcEcies M_CcEciesKeys M_CcSignatures S_Keyset S_Handle S_Wrappers S_Wire S_Json S_JsonKeyset S_Config S_Cli S_Walkthrough S_Basic
  S_CcLaws S_CcAes S_CcStreamKeys S_CcModes S_CcSymmetric
  S_CcSymKeys S_CcSymHandles S_CcEcies S_CcEciesKeys S_CcSignatures S_CcSigHandles S_CcSigPrograms L_Base L_PrimitiveSet L_Keyset L_Config L_Config2 L_Config3 L_Config4 L_Cli3 L_Cli4 L_Cli5 L_Basic
  L_CcModes L_CcSymKeys L_CcSymHandles L_CcSymHandles2 L_CcSymHandles3 L_CcSymHandles4 L_CcEciesHandles L_CcSignatures L_CcSigKeys L_CcSigKeys2 L_CcSigHandles.
Import ListNotations.
Open Scope string_scope.
Open Scope list_scope.
Open Scope nat_scope.

Lemma sig_library_ready : forall ec sg self_test w, sig_library ec sg self_test w -> cc_ready w Signature.
Proof.
  intros ec sg self_test w (HW & T). split; [exact T |]. intros name c b H.
  assert (E : exists kd, (name, c) = (kind_name kd ++ "PrivateKey", ClsSign)%string \/ (name, c) = (kind_name kd ++ "PublicKey", ClsVerify)%string).
  { cbn in H. repeat (destruct H as [H | H]; [injection H as <- <- <-;
      first [exists Ecdsa; (left; reflexivity) || (right; reflexivity) | exists Ed25519; (left; reflexivity) || (right; reflexivity) |
             exists Pkcs1; (left; reflexivity) || (right; reflexivity) | exists Pss; (left; reflexivity) || (right; reflexivity)] |]). destruct H. }
  destruct E as (kd & [E | E]); injection E as -> ->; cbn [cc_functions]; [rewrite (proj1 (HW kd)), sign_manager_is | rewrite (proj2 (HW kd)), verify_manager_is]; do 2 eexists; reflexivity.
Qed.
Lemma sig_private_made : forall ec sg self_test w ks l, sig_world ec sg self_test w -> sig_laws ec sg -> sig_keyset is_sig_private (good_private ec sg) ks l ->
  exists l', cc_keyset ClsSign (cw_sign w) ks l' /\ Forall2 (made_for (cw_sign w) is_sig_private (good_private ec sg)) l l'.
Proof.
  intros ec sg self_test w ks l HW SL KS.
  assert (HP : forall d q, is_sig_private d q -> good_private ec sg q -> exists name b m cc, In (name, ClsSign, b) (key_types Signature) /\ kd_type_url d = type_url name /\
    cw_sign w (type_url name) = Some m /\ cl_get_primitive m d = StOk cc).
  { intros d q K G. destruct (proj2 (sig_signer_made ec sg self_test (private_kind q) d SL)) as (cc & E); [exists q; auto |].
    do 4 eexists. split; [apply (sign_types (private_kind q)) |]. split; [exact (proj1 K) |]. split; [apply (HW (private_kind q)) | exact E]. }
  exact (sig_cc_keyset _ _ ClsSign (cw_sign w) is_sig_private (good_private ec sg) Signature HP ltac:(cbn; intuition discriminate) ks l KS).
Qed.
Lemma sig_public_made : forall ec sg self_test w ks l, sig_world ec sg self_test w -> sig_keyset is_sig_public (good_public ec) ks l ->
  exists l', cc_keyset ClsVerify (cw_verify w) ks l' /\ Forall2 (made_for (cw_verify w) is_sig_public (good_public ec)) l l'.
Proof.
  intros ec sg self_test w ks l HW KS.
  assert (HP : forall d q, is_sig_public d q -> good_public ec q -> exists name b m cc, In (name, ClsVerify, b) (key_types Signature) /\ kd_type_url d = type_url name /\
    cw_verify w (type_url name) = Some m /\ cl_get_primitive m d = StOk cc).
  { intros d q K G. destruct (proj2 (sig_verifier_made ec sg (public_kind q) d)) as (cc & E); [exists q; auto |].
    do 4 eexists. split; [apply (verify_types (public_kind q)) |]. split; [exact (proj1 K) |]. split; [apply (HW (public_kind q)) | exact E]. }
  exact (sig_cc_keyset _ _ ClsVerify (cw_verify w) is_sig_public (good_public ec) Signature HP ltac:(cbn; intuition discriminate) ks l KS).
Qed.

Theorem sig_cli_sign : forall ec sg self_test w env pb o rnd f fs ks l data, sig_library ec sg self_test w -> sig_laws ec sg -> tf_mode f = Produce ->
  holds_keyset (pe_rt env) fs (tf_keyset_path f) ks -> sig_keyset is_sig_private (good_private ec sg) ks l ->
  content fs (tf_data_path f) = Some data -> may_write o (tf_tag_path f) = true ->
  signs_file sg ks l rnd data (signature_cli w env pb o rnd f fs) (tf_tag_path f) fs.
Proof.
  intros ec sg self_test w env pb o rnd f fs ks l data HL SL M HK KS HD HO. pose proof (sig_library_ready _ _ _ _ HL) as R. destruct HL as (HW & _).
  destruct (sig_private_made _ _ _ _ _ _ HW SL KS) as (l' & CK & F2). destruct (signature_cli_sign_spec w env pb o rnd f fs ks l' data R M HK CK HD HO) as (y & E & N & S). split.
  - intros k q (I & PI). destruct (made_for_l _ _ _ _ _ _ _ _ _ F2 I) as (cc & I' & _ & K & G & m & MM & CG). cbn [fst snd] in *.
    rewrite (proj1 K), (proj1 (HW _)) in MM. injection MM as <-. destruct (E k cc (conj I' PI)) as (p & Hp & A).
    destruct (sig_signs ec sg self_test _ _ cc SL K CG rnd (legacy_data k data)) as ((c & Y) & Z). rewrite Y in A. cbn [answers] in A. subst y. destruct S as (x & X1 & X2 & X3).
    exists (p ++ c), c, x. split; [exists p; auto |]. split; [apply Z, Y |]. auto.
  - intros NP. destruct N as (e & -> & _); [| exact S]. intros k cc (I & PI). destruct (made_for_r _ _ _ _ _ _ _ _ _ F2 I) as (q & I' & _). exact (NP k q (conj I' PI)).
Qed.
Theorem sig_cli_verify : forall ec sg self_test w env pb o rnd f fs ks l data x, sig_library ec sg self_test w -> sig_laws ec sg -> rsa_sizes sg -> tf_mode f = Verify ->
  holds_keyset (pe_rt env) fs (tf_keyset_path f) ks -> sig_keyset is_sig_public (good_public ec) ks l ->
  content fs (tf_data_path f) = Some data -> content fs (tf_tag_path f) = Some x ->
  decides (signature_cli w env pb o rnd f fs) (exists T, tag_text T x /\ signature_for sg l T data) fs.
Proof.
  intros ec sg self_test w env pb o rnd f fs ks l data x HL SL RS M HK KS HD HX. pose proof (sig_library_ready _ _ _ _ HL) as R. destruct HL as (HW & _).
  destruct (sig_public_made _ _ _ _ _ _ HW KS) as (l' & CK & F2). eapply decides_iff; [| exact (signature_cli_verify_spec w env pb o rnd f fs ks l' data x R M HK CK HD HX)].
  split; intros (T & A & B); exists T; (split; [exact A |]).
  - destruct B as (L & k & cc & body & I & RE & V). destruct (made_for_r _ _ _ _ _ _ _ _ _ F2 I) as (q & I' & _ & K & G & m & MM & CG). cbn [fst snd] in *.
    rewrite (proj1 K), (proj2 (HW _)) in MM. injection MM as <-. exists k, q, body. split; [exact I' |]. split; [apply reaches_stamped, RE |]. apply (sig_verifies ec sg _ _ cc SL K CG). exact V.
  - destruct B as (k & q & y & I & S & X). destruct (made_for_l _ _ _ _ _ _ _ _ _ F2 I) as (cc & I' & _ & K & G & m & MM & CG). cbn [fst snd] in *.
    rewrite (proj1 K), (proj2 (HW _)) in MM. injection MM as <-. pose proof (valid_signature_long _ _ _ _ _ RS G X) as LX.
    split; [destruct S as (p & _ & ->); rewrite app_length; lia |]. exists k, cc, y. split; [exact I' |]. split; [apply (stamped_reaches _ _ _ S); intros ->; cbn in LX; lia |].
    apply (sig_verifies ec sg _ _ cc SL K CG), X.
Qed.
(** From one run to another *)
Theorem sig_cli_files : forall ec sg self_test w env pb o rnd f fs ks l data k q self_test2 w2 env2 pb2 o2, sig_library ec sg self_test w -> sig_laws ec sg -> rsa_sizes sg ->
  holds_keyset (pe_rt env) fs (tf_keyset_path f) ks -> sig_keyset is_sig_private (good_private ec sg) ks l -> is_primary ks l k q -> matching ec sg q ->
  tf_mode f = Produce -> content fs (tf_data_path f) = Some data -> may_write o (tf_tag_path f) = true -> sig_library ec sg self_test2 w2 ->
  fst (signature_cli w env pb o rnd f fs) = Ok 0%Z /\
  forall rnd2 g fs2 ks2 l2 k2, tf_mode g = Verify -> holds_keyset (pe_rt env2) fs2 (tf_keyset_path g) ks2 -> sig_keyset is_sig_public (good_public ec) ks2 l2 ->
    In (k2, public_of q) l2 -> k_key_id k2 = k_key_id k -> k_output_prefix_type k2 = k_output_prefix_type k ->
    content fs2 (tf_data_path g) = Some data ->
    content fs2 (tf_tag_path g) = content (snd (signature_cli w env pb o rnd f fs)) (tf_tag_path f) ->
    fst (signature_cli w2 env2 pb2 o2 rnd2 g fs2) = Ok 0%Z.
Proof.
  intros ec sg self_test w env pb o rnd f fs ks l data k q self_test2 w2 env2 pb2 o2 HL SL RS HK KS PR MA M HD HO HL2.
  destruct (proj1 (sig_cli_sign _ _ _ _ env pb o rnd f _ _ _ _ HL SL M HK KS HD HO) k q PR) as (T & y & x & S & X & HX & _ & W1 & W2 & _). split; [exact W1 |].
  intros rnd2 g fs2 ks2 l2 k2 M2 HK2 KS2 I EI ET HD2 HT. rewrite W2 in HT.
  destruct (sig_cli_verify _ _ _ _ env2 pb2 o2 rnd2 g _ _ _ _ x HL2 SL RS M2 HK2 KS2 HD2 HT) as (_ & _ & V). apply V.
  exists T. split; [apply digits_tag, HX |]. exists k2, (public_of q), y. split; [exact I |]. split; [exact (same_stamp _ _ _ _ ET EI S) |].
  assert (legacy_data k2 data = legacy_data k data) as -> by (unfold legacy_data; rewrite ET; reflexivity).
  destruct (sig_key _ _ _ _ _ _ _ KS (proj1 PR)) as ((_ & m & _ & K) & G).
  exact (signature_valid ec sg q rnd _ y SL G (private_encoded m q K) MA X).
Qed.

(** ** signature_basic.py *)
Definition basic_sig_private : sig_private :=
  EcdsaPrivate P256 M_CcAes.SHA256 EncDer (firstn 32 (skipn 10 (kd_value signature_basic_public_key))) (skipn 44 (kd_value signature_basic_public_key)) (skipn 80 (kd_value signature_basic_private_key)).
Lemma basic_sig_keys : is_sig_private signature_basic_private_key basic_sig_private /\ is_sig_public signature_basic_public_key (public_of basic_sig_private).
Proof.
  split; (split; [reflexivity |]).
  - eexists. split; [vm_compute; reflexivity |]. split; [vm_compute; reflexivity |]. split; [| vm_compute; reflexivity]. split; [vm_compute; reflexivity |]. split; [| split; vm_compute; reflexivity].
    split; [exists 2%Z | split; [exists 3%Z | exists 2%Z]]; (split; [vm_compute; reflexivity |]); cbn; tauto.
  - eexists. split; [vm_compute; reflexivity |]. split; [vm_compute; reflexivity |]. split; [| split; vm_compute; reflexivity].
    split; [exists 2%Z | split; [exists 3%Z | exists 2%Z]]; (split; [vm_compute; reflexivity |]); cbn; tauto.
Qed.
Lemma basic_sig_public : forall ec sg self_test, exists get, cl_public_key_data (sign_manager ec sg self_test Ecdsa) = Some get /\ get (kd_value signature_basic_private_key) = StOk signature_basic_public_key.
Proof. intros ec sg self_test. rewrite sign_manager_is. eexists. split; [reflexivity |]. vm_compute. reflexivity. Qed.
Theorem signature_basic_program : forall ec sg self_test w env pb l r xs rnd, sig_library ec sg self_test w -> sig_laws ec sg -> rsa_sizes sg ->
  good_private ec sg basic_sig_private -> matching ec sg basic_sig_private ->
  reached w env l r xs -> python_digit_limit (pe_rt env) ->
  snd (signature_basic w env pb (N.of_nat (length l)) r rnd) = Ok tt.
Proof.
  intros ec sg self_test w env pb l r xs rnd HL SL RS G M RE DL. pose proof (sig_library_ready _ _ _ _ HL) as R. destruct HL as (HW & _). destruct basic_sig_keys as (K1 & K2).
  destruct (proj2 (sig_signer_made ec sg self_test Ecdsa signature_basic_private_key SL)) as (q & Q); [exists basic_sig_private; auto |].
  destruct (proj2 (sig_verifier_made ec sg Ecdsa signature_basic_public_key)) as (v & V); [exists (public_of basic_sig_private); split; [reflexivity |]; split; [exact K2 | exact (proj1 G)] |].
  destruct (basic_sig_public ec sg self_test) as (get & P1 & P2).
  assert (WF : wf_key_data signature_basic_public_key /\ proto_size (serialize_key_data signature_basic_public_key)) by (split; key_facts).
  destruct (signature_basic_spec w env pb l r xs rnd _ q _ v get _ v RE R DL (proj1 (HW Ecdsa)) Q (proj2 (HW Ecdsa)) V P1 P2 eq_refl (proj1 WF) (proj2 WF) V) as (_ & E).
  destruct (sig_signs ec sg self_test _ basic_sig_private q SL K1 Q rnd (blit "msg")) as ((y & Y) & Z). pose proof (proj1 (Z y) Y) as S.
  pose proof K1 as (_ & m & _ & K).
  pose proof (signature_valid ec sg _ rnd _ y SL G (private_encoded m _ K) M S) as VS.
  pose proof (valid_signature_long _ ec _ _ _ RS (proj1 G) VS) as LY. unfold ends_checked in E. rewrite Y in E. destruct y as [| b y]; [cbn in LY; lia |].
  apply E. repeat constructor; apply (sig_verifies ec sg _ (public_of basic_sig_private) v SL K2 V); exact VS.
Qed.
