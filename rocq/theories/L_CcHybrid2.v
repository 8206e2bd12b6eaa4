(** Proofs: examples/hybrid/hybrid_basic.py with the HPKE of the C++ library. *)
From Coq Require Import Strings.Byte Strings.String List NArith ZArith Bool Lia.
From Verif Require Import M_Base M_Utf8 M_Proto M_Wire M_ProtoMsg M_KeyFormats M_Prims M_PrimitiveSet M_Registry M_KeysetHandle M_Wrappers M_StreamTypes M_CcStream M_CcManagers
  M_Templates M_Json M_JsonKeyset M_KeysetStream M_Cli M_Walkthrough M_CcAes M_CcStreamKeys M_CcModes M_CcSymmetric M_CcSymKeys M_CcEcies M_CcEciesKeys M_CcHpke S_Keyset S_Handle S_Wrappers S_Wire S_Json S_JsonKeyset S_Config S_Cli S_Walkthrough S_Basic S_CcLaws S_CcAes S_CcStreamKeys S_CcModes S_CcSymmetric
  S_CcSymKeys S_CcSymHandles S_CcEcies S_CcEciesKeys S_CcEciesHandles S_CcHpke S_CcHpkeHandles S_CcHybrid L_Base L_Basic L_CcHpke L_CcHpke2 L_CcHpkeHandles L_CcHybrid.
Import ListNotations.
Open Scope string_scope.
Open Scope list_scope.
Open Scope nat_scope.

Definition basic_hpke_public : hpke_public := mk_hpke_public (mk_hpke_suite 1 1 2) (skipn 10 (kd_value hybrid_basic_public_key)).
Definition basic_hpke_private : hpke_private := mk_hpke_private basic_hpke_public (skipn 46 (kd_value hybrid_basic_private_key)).
Lemma basic_hpke_keys : is_hpke_public hybrid_basic_public_key basic_hpke_public /\ is_hpke_private hybrid_basic_private_key basic_hpke_private.
Proof.
  split; (split; [reflexivity |]); eexists; (split; [vm_compute; reflexivity |]); repeat split; vm_compute; reflexivity.
Qed.
Theorem hybrid_basic_program : forall ec lib random hc w env pb l r xs rnd, hybrid_library ec lib random hc w -> ec_laws ec lib -> hpke_laws ec hc ->
  x25519_public ec (skipn 46 (kd_value hybrid_basic_private_key)) = skipn 10 (kd_value hybrid_basic_public_key) ->
  reached w env l r xs -> python_digit_limit (pe_rt env) ->
  snd (hybrid_basic w env pb (N.of_nat (length l)) r rnd) = Ok tt.
Proof.
  intros ec lib random hc w env pb l r xs rnd HW EL HL KP RE DL. pose proof (hybrid_library_ready _ _ _ _ _ HW) as R. destruct HW as (_ & (HD & HE) & _). destruct basic_hpke_keys as (K1 & K2).
  assert (PA : hpke_pair ec basic_hpke_private) by (split; [vm_compute; reflexivity | symmetry; exact KP]).
  assert (W : suite_works (hpub_suite (hprv_public basic_hpke_private)) HpkeAes256Gcm) by (split; [reflexivity |]; split; [reflexivity |]; right; left; reflexivity).
  destruct (hpke_round_trip ec lib hc _ _ basic_hpke_private HpkeAes256Gcm EL HL K2 K1 PA W) as (x & y & X & Y & RT).
  destruct (hybrid_basic_spec w env pb l r xs rnd _ x _ y RE R DL HE X HD Y) as (_ & E).
  destruct (RT rnd (blit "message") (blit "context_info")) as (RA & RB).
  destruct RA as (C & HC); [vm_compute; discriminate |]. pose proof (RB C HC) as D. unfold ends_as in E. rewrite HC in E.
  destruct C as [| b C].
  - exfalso. apply (proj1 (hpke_decrypts ec hc _ _ y HL K2 Y [] _)) in D. destruct D as (a & _ & D). exact (hpke_plaintext_size _ _ _ _ _ _ D eq_refl).
  - rewrite D in E. apply E. reflexivity.
Qed.
