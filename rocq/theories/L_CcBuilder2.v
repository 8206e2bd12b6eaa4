(** Proofs: AEAD, deterministic AEAD and MAC of keysets that are managed with a KeysetBuilder. *)
From Coq Require Import Strings.Byte Strings.String List NArith ZArith Bool Lia.
From Verif Require Import M_Base M_Utf8 M_Proto M_Wire M_ProtoMsg M_KeyFormats M_Prims M_PrimitiveSet M_Registry M_KeysetHandle M_KeysetBuilder M_Wrappers M_StreamTypes M_CcStream M_CcManagers
  M_Templates M_CcAes M_CcStreamKeys M_CcModes M_CcSymmetric M_CcSymKeys S_Keyset S_Handle S_Wrappers S_Wire S_Config S_KeysetBuilder S_CcLaws S_CcAes S_CcStreamKeys S_CcModes S_CcSymmetric
  S_CcSymKeys S_CcSymHandles S_CcBuilder L_Base L_Wire L_Keyset L_Handle L_KeysetBuilder
  L_CcSymHandles L_CcSymHandles2 L_CcSymHandles3 L_CcSymHandles4 L_CcBuilder.
Import ListNotations.
Open Scope string_scope.
Open Scope list_scope.
Open Scope nat_scope.

(** ** The calls and the handle *)
Lemma built_handle : forall Q ks, not_public Q -> built Q ks -> proto_size (serialize_keyset ks) ->
  (primary_on ks -> builder_keyset_handle ks = Ok (mk_handle ks) /\ builder_from_keyset_handle (mk_handle ks) = Ok ks) /\ (~ primary_on ks -> raises_tink (builder_keyset_handle ks)).
Proof.
  intros Q ks NP B Sz. pose proof (built_wf _ _ NP B) as Wf. destruct (builder_handle_spec ks Wf Sz) as (H1 & H2). split.
  - intros PO. split; [apply H1, (built_valid _ _ NP B), PO | exact (builder_from_handle (mk_handle ks) Wf Sz)].
  - intros N. apply H2. intros V. apply N, (built_valid _ _ NP B), V.
Qed.
Theorem cc_builder_histories : forall lib random w env r p templates, sym_world lib random w -> random_law random -> configured w env p r ->
  In (p, templates) [(Aead, aead_templates); (Daead, daead_templates); (Mac, mac_templates)] ->
  forall ops rs ks, Forall (adds_predefined templates) ops -> builder_run r ops new_keyset_builder = Some (rs, ks) ->
  Forall2 proper_result ops rs /\ NoDup (map k_key_id (ks_key ks)) /\
  (proto_size (serialize_keyset ks) ->
   (primary_on ks -> builder_keyset_handle ks = Ok (mk_handle ks) /\ builder_from_keyset_handle (mk_handle ks) = Ok ks) /\
   (~ primary_on ks -> raises_tink (builder_keyset_handle ks))).
Proof.
  intros lib random w env r p templates SW RL HC IP ops rs ks AP H.
  assert (X : exists is_for, makes_keys (sym_data_for is_for) templates r).
  { destruct IP as [E | [E | [E | []]]]; injection E as <- <-;
    [exists for_aead; exact (aead_makes_keys lib random w env r SW RL HC) | exists for_daead; exact (daead_makes_keys lib random w env r SW RL HC) | exists for_mac; exact (mac_makes_keys lib random w env r SW RL HC)]. }
  destruct X as (is_for & MK). destruct (built_run _ _ _ _ _ _ _ MK AP H (built_new _)) as (B & R). split; [exact R |]. split; [exact (proj1 (proj2 B)) |]. intros Sz. exact (built_handle _ _ (sym_not_public _) B Sz).
Qed.

(** No enabled key has the id of the prefix: nothing is decrypted. *)
Lemma other_stamp : forall is_for g ks k C c k' sk' c', built (sym_data_for is_for) ks -> k_output_prefix_type k <> RAW -> stamped k C c -> In (k', sk') (values g ks) -> stamped k' C c' ->
  exists k2, In k2 (ks_key ks) /\ k_status k2 = ENABLED /\ k_key_id k2 = k_key_id k.
Proof.
  intros is_for g ks k C c k' sk' c' B NR S I' S'. apply values_in in I'. destruct I' as (I' & E' & _). exists k'. split; [exact I' |]. split; [exact E' |].
  destruct B as (F & _). rewrite Forall_forall in F. destruct (F k' I') as (_ & T & _). symmetry. refine (proj1 (stamped_id k k' C c c' NR _ S S')). rewrite T. discriminate.
Qed.
Lemma built_not_raw : forall is_for ks k, built (sym_data_for is_for) ks -> In k (ks_key ks) -> k_output_prefix_type k <> RAW.
Proof. intros is_for ks k (F & _) I. rewrite Forall_forall in F. destruct (F k I) as (_ & -> & _). discriminate. Qed.

Theorem cc_builder_aead : forall lib random w env r, sym_world lib random w -> crypto_laws lib -> random_law random -> configured w env Aead r ->
  forall ops1 rs1 ks1 ops2 rs2 ks2, Forall (adds_predefined aead_templates) (ops1 ++ ops2) -> builder_run r ops1 new_keyset_builder = Some (rs1, ks1) -> builder_run r ops2 ks1 = Some (rs2, ks2) ->
  primary_on ks1 -> primary_on ks2 ->
  exists l1 a1 l2 a2, sym_keyset for_aead ks1 l1 /\ handle_primitive r (mk_handle ks1) ClsAead = Ok (PrimAead a1) /\ aead_works lib random ks1 l1 a1 /\
    sym_keyset for_aead ks2 l2 /\ handle_primitive r (mk_handle ks2) ClsAead = Ok (PrimAead a2) /\ aead_works lib random ks2 l2 a2 /\
    (exists k sk, is_primary ks1 l1 k sk /\ forall rnd P ad, admits sk P ad -> exists C, aead_encrypt a1 rnd P ad = Ok C) /\
    forall rnd P ad C, aead_encrypt a1 rnd P ad = Ok C ->
      aead_decrypt a1 C ad = Ok P /\
      (stays_on (ks_primary_key_id ks1) ops2 -> aead_decrypt a2 C ad = Ok P) /\
      (goes_off (ks_primary_key_id ks1) ops2 -> forall ad', raises_tink (aead_decrypt a2 C ad')).
Proof.
  intros lib random w env r SW CL RL HC ops1 rs1 ks1 ops2 rs2 ks2 AP R1 R2 PO1 PO2. pose proof (aead_makes_keys lib random w env r SW RL HC) as MK. apply Forall_app in AP. destruct AP as (AP1 & AP2).
  destruct (built_run _ _ _ _ _ _ _ MK AP1 R1 (built_new _)) as (B1 & _). destruct (built_run _ _ _ _ _ _ _ MK AP2 R2 B1) as (B2 & _). destruct (two_values _ _ _ B1 B2) as (g & G1 & G2).
  pose proof (built_sym _ _ _ B1 PO1 G1) as KS1. pose proof (built_sym _ _ _ B2 PO2 G2) as KS2.
  destruct (aead_handle_works _ _ _ _ _ _ _ SW CL RL HC KS1) as (a1 & H1 & W1). destruct (aead_handle_works _ _ _ _ _ _ _ SW CL RL HC KS2) as (a2 & H2 & W2).
  destruct (built_primary _ g _ B1 PO1) as (k & IK & ST & EI & PR). exists (values g ks1), a1, (values g ks2), a2. do 6 (split; [assumption |]). split.
  - exists k, (g (k_key_data k)). split; [exact PR |]. intros rnd P ad. exact (proj2 (proj1 W1 k _ PR rnd P ad)).
  - intros rnd P ad C E. rewrite <- EI. split; [| split].
    + exact (sym_aead_rotation lib random _ _ _ _ _ _ k k _ rnd P ad C CL W1 PR KS1 W1 (proj1 PR) eq_refl eq_refl (built_apart _ g _ _ B1 IK) E).
    + intros SO. pose proof (stays _ _ _ _ _ _ _ B1 IK ST R2 SO) as IK2.
      refine (sym_aead_rotation lib random _ _ _ _ _ _ k k _ rnd P ad C CL W1 PR KS2 W2 _ eq_refl eq_refl (built_apart _ g _ _ B2 IK2) E). apply values_in. auto.
    + intros GO ad'. apply (proj1 (proj1 W1 k _ PR rnd P ad)) in E. destruct E as (c & S & _). destruct W2 as (_ & _ & D1 & _ & TD & _).
      destruct (aead_decrypt a2 C ad') as [P' | e] eqn:D; [| exists e; split; [reflexivity |]; specialize (TD C ad'); rewrite D in TD; exact TD].
      destruct (D1 _ _ _ D) as (k' & sk' & n & c' & I' & S' & _). destruct (other_stamp _ _ _ _ _ _ _ _ _ B2 (built_not_raw _ _ _ B1 IK) S I' S') as (k2 & I2 & S2 & E2).
      destruct (goes _ _ _ _ _ _ _ _ MK AP2 B1 IK ST R2 GO k2 I2 S2 E2).
Qed.
Theorem cc_builder_daead : forall lib random w env r, sym_world lib random w -> crypto_laws lib -> random_law random -> configured w env Daead r ->
  forall ops1 rs1 ks1 ops2 rs2 ks2, Forall (adds_predefined daead_templates) (ops1 ++ ops2) -> builder_run r ops1 new_keyset_builder = Some (rs1, ks1) -> builder_run r ops2 ks1 = Some (rs2, ks2) ->
  primary_on ks1 -> primary_on ks2 ->
  exists l1 a1 l2 a2, sym_keyset for_daead ks1 l1 /\ handle_primitive r (mk_handle ks1) ClsDaead = Ok (PrimDaead a1) /\ daead_works lib ks1 l1 a1 /\
    sym_keyset for_daead ks2 l2 /\ handle_primitive r (mk_handle ks2) ClsDaead = Ok (PrimDaead a2) /\ daead_works lib ks2 l2 a2 /\
    forall P ad, exists C, daead_encrypt a1 P ad = Ok C /\
      daead_decrypt a1 C ad = Ok P /\
      (stays_on (ks_primary_key_id ks1) ops2 -> daead_decrypt a2 C ad = Ok P) /\
      (goes_off (ks_primary_key_id ks1) ops2 -> forall ad', raises_tink (daead_decrypt a2 C ad')).
Proof.
  intros lib random w env r SW CL RL HC ops1 rs1 ks1 ops2 rs2 ks2 AP R1 R2 PO1 PO2. pose proof (daead_makes_keys lib random w env r SW RL HC) as MK. apply Forall_app in AP. destruct AP as (AP1 & AP2).
  destruct (built_run _ _ _ _ _ _ _ MK AP1 R1 (built_new _)) as (B1 & _). destruct (built_run _ _ _ _ _ _ _ MK AP2 R2 B1) as (B2 & _). destruct (two_values _ _ _ B1 B2) as (g & G1 & G2).
  pose proof (built_sym _ _ _ B1 PO1 G1) as KS1. pose proof (built_sym _ _ _ B2 PO2 G2) as KS2.
  destruct (daead_handle_works _ _ _ _ _ _ _ SW CL HC KS1) as (a1 & H1 & W1). destruct (daead_handle_works _ _ _ _ _ _ _ SW CL HC KS2) as (a2 & H2 & W2).
  destruct (built_primary _ g _ B1 PO1) as (k & IK & ST & EI & PR). exists (values g ks1), a1, (values g ks2), a2. do 6 (split; [assumption |]).
  intros P ad. destruct (proj1 W1 k _ PR P ad) as (X & (C & E)). exists C. split; [exact E |]. rewrite <- EI. split; [| split].
  - exact (sym_daead_rotation lib _ _ _ _ _ _ k k _ P ad C CL W1 PR KS1 W1 (proj1 PR) eq_refl eq_refl (built_apart _ g _ _ B1 IK) E).
  - intros SO. pose proof (stays _ _ _ _ _ _ _ B1 IK ST R2 SO) as IK2.
    refine (sym_daead_rotation lib _ _ _ _ _ _ k k _ P ad C CL W1 PR KS2 W2 _ eq_refl eq_refl (built_apart _ g _ _ B2 IK2) E). apply values_in. auto.
  - intros GO ad'. apply X in E. destruct E as (c & S & _). destruct W2 as (_ & _ & D1 & _ & TD & _).
    destruct (daead_decrypt a2 C ad') as [P' | e] eqn:D; [| exists e; split; [reflexivity |]; specialize (TD C ad'); rewrite D in TD; exact TD].
    destruct (D1 _ _ _ D) as (k' & sk' & c' & I' & S' & _). destruct (other_stamp _ _ _ _ _ _ _ _ _ B2 (built_not_raw _ _ _ B1 IK) S I' S') as (k2 & I2 & S2 & E2).
    destruct (goes _ _ _ _ _ _ _ _ MK AP2 B1 IK ST R2 GO k2 I2 S2 E2).
Qed.
Theorem cc_builder_mac : forall lib random w env r, sym_world lib random w -> crypto_laws lib -> random_law random -> configured w env Mac r ->
  forall ops1 rs1 ks1 ops2 rs2 ks2, Forall (adds_predefined mac_templates) (ops1 ++ ops2) -> builder_run r ops1 new_keyset_builder = Some (rs1, ks1) -> builder_run r ops2 ks1 = Some (rs2, ks2) ->
  primary_on ks1 -> primary_on ks2 ->
  exists l1 a1 l2 a2, sym_keyset for_mac ks1 l1 /\ handle_primitive r (mk_handle ks1) ClsMac = Ok (PrimMac a1) /\ mac_works lib ks1 l1 a1 /\
    sym_keyset for_mac ks2 l2 /\ handle_primitive r (mk_handle ks2) ClsMac = Ok (PrimMac a2) /\ mac_works lib ks2 l2 a2 /\
    forall data, exists T, mac_compute a1 data = Ok T /\
      mac_verify a1 T data = Ok tt /\
      (stays_on (ks_primary_key_id ks1) ops2 -> mac_verify a2 T data = Ok tt) /\
      (goes_off (ks_primary_key_id ks1) ops2 -> forall data', raises_tink (mac_verify a2 T data')).
Proof.
  intros lib random w env r SW CL RL HC ops1 rs1 ks1 ops2 rs2 ks2 AP R1 R2 PO1 PO2. pose proof (mac_makes_keys lib random w env r SW RL HC) as MK. apply Forall_app in AP. destruct AP as (AP1 & AP2).
  destruct (built_run _ _ _ _ _ _ _ MK AP1 R1 (built_new _)) as (B1 & _). destruct (built_run _ _ _ _ _ _ _ MK AP2 R2 B1) as (B2 & _). destruct (two_values _ _ _ B1 B2) as (g & G1 & G2).
  pose proof (built_sym _ _ _ B1 PO1 G1) as KS1. pose proof (built_sym _ _ _ B2 PO2 G2) as KS2.
  destruct (mac_handle_works _ _ _ _ _ _ _ SW CL HC KS1) as (a1 & H1 & W1). destruct (mac_handle_works _ _ _ _ _ _ _ SW CL HC KS2) as (a2 & H2 & W2).
  destruct (built_primary _ g _ B1 PO1) as (k & IK & ST & EI & PR). exists (values g ks1), a1, (values g ks2), a2. do 6 (split; [assumption |]).
  intros data. destruct (proj1 W1 k _ PR data) as (X & (T & E)). exists T. split; [exact E |]. rewrite <- EI. split; [| split].
  - exact (sym_mac_rotation lib _ _ _ _ _ _ k k _ data T W1 PR W1 (proj1 PR) eq_refl eq_refl E).
  - intros SO. pose proof (stays _ _ _ _ _ _ _ B1 IK ST R2 SO) as IK2.
    refine (sym_mac_rotation lib _ _ _ _ _ _ k k _ data T W1 PR W2 _ eq_refl eq_refl E). apply values_in. auto.
  - intros GO data'. apply X in E. destruct E as (c & S & _). destruct W2 as (_ & _ & D1 & TD & _).
    destruct (mac_verify a2 T data') as [[] | e] eqn:D; [| exists e; split; [reflexivity |]; specialize (TD T data'); rewrite D in TD; exact TD].
    apply D1 in D. destruct D as (k' & sk' & c' & I' & S' & _). destruct (other_stamp _ _ _ _ _ _ _ _ _ B2 (built_not_raw _ _ _ B1 IK) S I' S') as (k2 & I2 & S2 & E2).
    destruct (goes _ _ _ _ _ _ _ _ MK AP2 B1 IK ST R2 GO k2 I2 S2 E2).
Qed.
