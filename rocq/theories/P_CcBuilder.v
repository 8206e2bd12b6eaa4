(** C103: keysets that are managed with a KeysetBuilder, over the C++ keys: what works after
    every history of calls, and what is still decrypted or verified later. *)
From Coq Require Import Strings.Byte Strings.String List NArith ZArith Bool Lia.
From Verif Require Import M_Base M_Utf8 M_Proto M_Wire M_ProtoMsg M_KeyFormats M_Prims M_PrimitiveSet M_Registry M_KeysetHandle M_KeysetBuilder M_Wrappers M_StreamTypes M_CcStream M_CcManagers
  M_Templates M_CcAes M_CcStreamKeys M_CcModes M_CcSymmetric M_CcSymKeys S_Keyset S_Handle S_Wrappers S_Wire S_Config S_KeysetBuilder S_CcLaws S_CcAes S_CcStreamKeys S_CcModes S_CcSymmetric
  S_CcSymKeys S_CcSymHandles S_CcBuilder L_Base L_Keyset L_PrimitiveSet L_CcSymHandles L_CcSymHandles2 L_CcSymHandles3 L_CcSymHandles4 L_CcBuilder L_CcBuilder2
  X_Toy L_Toy X_Config X_CliStream X_CcSymmetric X_CcSymKeys P_Cli P_CcSymmetric P_CcSymKeys P_CcSymHandles.
Import ListNotations.
Open Scope string_scope.
Open Scope list_scope.
Open Scope nat_scope.

Theorem C103_histories : forall lib random w env r p templates, sym_world lib random w -> random_law random -> configured w env p r ->
  In (p, templates) [(Aead, aead_templates); (Daead, daead_templates); (Mac, mac_templates)] ->
  forall ops rs ks, Forall (adds_predefined templates) ops -> builder_run r ops new_keyset_builder = Some (rs, ks) ->
  Forall2 proper_result ops rs /\ NoDup (map k_key_id (ks_key ks)) /\
  (proto_size (serialize_keyset ks) ->
   (primary_on ks -> builder_keyset_handle ks = Ok (mk_handle ks) /\ builder_from_keyset_handle (mk_handle ks) = Ok ks) /\
   (~ primary_on ks -> raises_tink (builder_keyset_handle ks))).
Proof. exact cc_builder_histories. Qed.
Print Assumptions C103_histories.
Theorem C103_aead : forall lib random w env r, sym_world lib random w -> crypto_laws lib -> random_law random -> configured w env Aead r ->
  forall ops1 rs1 ks1 ops2 rs2 ks2, Forall (adds_predefined aead_templates) (ops1 ++ ops2) -> builder_run r ops1 new_keyset_builder = Some (rs1, ks1) -> builder_run r ops2 ks1 = Some (rs2, ks2) ->
  primary_on ks1 -> primary_on ks2 ->
  exists l1 a1 l2 a2, sym_keyset for_aead ks1 l1 /\ handle_primitive r (mk_handle ks1) ClsAead = Ok (PrimAead a1) /\ aead_works lib random ks1 l1 a1 /\
    sym_keyset for_aead ks2 l2 /\ handle_primitive r (mk_handle ks2) ClsAead = Ok (PrimAead a2) /\ aead_works lib random ks2 l2 a2 /\
    (exists k sk, is_primary ks1 l1 k sk /\ forall rnd P ad, admits sk P ad -> exists C, aead_encrypt a1 rnd P ad = Ok C) /\
    forall rnd P ad C, aead_encrypt a1 rnd P ad = Ok C ->
      aead_decrypt a1 C ad = Ok P /\
      (stays_on (ks_primary_key_id ks1) ops2 -> aead_decrypt a2 C ad = Ok P) /\
      (goes_off (ks_primary_key_id ks1) ops2 -> forall ad', raises_tink (aead_decrypt a2 C ad')).
Proof. exact cc_builder_aead. Qed.
Print Assumptions C103_aead.
Theorem C103_daead : forall lib random w env r, sym_world lib random w -> crypto_laws lib -> random_law random -> configured w env Daead r ->
  forall ops1 rs1 ks1 ops2 rs2 ks2, Forall (adds_predefined daead_templates) (ops1 ++ ops2) -> builder_run r ops1 new_keyset_builder = Some (rs1, ks1) -> builder_run r ops2 ks1 = Some (rs2, ks2) ->
  primary_on ks1 -> primary_on ks2 ->
  exists l1 a1 l2 a2, sym_keyset for_daead ks1 l1 /\ handle_primitive r (mk_handle ks1) ClsDaead = Ok (PrimDaead a1) /\ daead_works lib ks1 l1 a1 /\
    sym_keyset for_daead ks2 l2 /\ handle_primitive r (mk_handle ks2) ClsDaead = Ok (PrimDaead a2) /\ daead_works lib ks2 l2 a2 /\
    forall P ad, exists C, daead_encrypt a1 P ad = Ok C /\
      daead_decrypt a1 C ad = Ok P /\
      (stays_on (ks_primary_key_id ks1) ops2 -> daead_decrypt a2 C ad = Ok P) /\
      (goes_off (ks_primary_key_id ks1) ops2 -> forall ad', raises_tink (daead_decrypt a2 C ad')).
Proof. exact cc_builder_daead. Qed.
Print Assumptions C103_daead.
Theorem C103_mac : forall lib random w env r, sym_world lib random w -> crypto_laws lib -> random_law random -> configured w env Mac r ->
  forall ops1 rs1 ks1 ops2 rs2 ks2, Forall (adds_predefined mac_templates) (ops1 ++ ops2) -> builder_run r ops1 new_keyset_builder = Some (rs1, ks1) -> builder_run r ops2 ks1 = Some (rs2, ks2) ->
  primary_on ks1 -> primary_on ks2 ->
  exists l1 a1 l2 a2, sym_keyset for_mac ks1 l1 /\ handle_primitive r (mk_handle ks1) ClsMac = Ok (PrimMac a1) /\ mac_works lib ks1 l1 a1 /\
    sym_keyset for_mac ks2 l2 /\ handle_primitive r (mk_handle ks2) ClsMac = Ok (PrimMac a2) /\ mac_works lib ks2 l2 a2 /\
    forall data, exists T, mac_compute a1 data = Ok T /\
      mac_verify a1 T data = Ok tt /\
      (stays_on (ks_primary_key_id ks1) ops2 -> mac_verify a2 T data = Ok tt) /\
      (goes_off (ks_primary_key_id ks1) ops2 -> forall data', raises_tink (mac_verify a2 T data')).
Proof. exact cc_builder_mac. Qed.
Print Assumptions C103_mac.

(** The hypotheses are met by the small library: the [n]-th template of a list is added. *)
Definition nth_template (templates : list (string * result key_template)) (n : nat) : key_template :=
  match nth_error templates n with Some (_, Ok t) => t | _ => mk_key_template [] [] 0 end.
Definition add_nth (templates : list (string * result key_template)) (n : nat) (rnd raw : N) : builder_op := AddNewKey rnd [raw; 99%N] (nth_template templates n).
(** A key is added and made primary. The second random id is that of the first key, so another
    is drawn: 100. The new key is made primary, and the old one is switched off and on. *)
Definition first_calls (templates : list (string * result key_template)) : list builder_op := [SetPrimaryKey 5; add_nth templates 0 9 6; SetPrimaryKey 7].
Definition later_calls (templates : list (string * result key_template)) (n : nat) : list builder_op :=
  [add_nth templates n 11 6; SetPrimaryKey 100; DisableKey 7; DeleteKey 8; EnableKey 7].
(** ... or off in the end, or is deleted. *)
Definition off_calls (templates : list (string * result key_template)) (n : nat) : list builder_op := later_calls templates n ++ [DisableKey 7; DisableKey 7].
Definition delete_calls (templates : list (string * result key_template)) (n : nat) : list builder_op := later_calls templates n ++ [DeleteKey 7; EnableKey 7].
Definition keyset_after (ops : list builder_op) (ks : keyset) : keyset := match builder_run sym_registry ops ks with Some (_, ks') => ks' | None => ks end.
Definition runs (ops : list builder_op) (ks : keyset) : bool := match builder_run sym_registry ops ks with Some _ => true | None => false end.
Lemma run_after : forall ops ks, runs ops ks = true -> exists rs, builder_run sym_registry ops ks = Some (rs, keyset_after ops ks).
Proof. intros ops ks H. unfold runs in H. unfold keyset_after. destruct (builder_run sym_registry ops ks) as [(rs & ks') |]; [exists rs; reflexivity | discriminate]. Qed.
Definition primary_onb (ks : keyset) : bool := existsb (fun k => (k_status k =? ENABLED)%Z && (k_key_id k =? ks_primary_key_id ks)%N)%bool (ks_key ks).
Lemma primary_on_ok : forall ks, primary_onb ks = true -> primary_on ks.
Proof.
  intros ks H. apply existsb_exists in H. destruct H as (k & I & H). apply andb_true_iff in H. destruct H as (S & E). exists k.
  split; [exact I |]. split; [apply Z.eqb_eq; exact S | apply N.eqb_eq; exact E].
Qed.
Definition firsts (templates : list (string * result key_template)) : keyset := keyset_after (first_calls templates) new_keyset_builder.
Definition met (templates : list (string * result key_template)) (n : nat) (ops : list builder_op) : bool :=
  (runs (first_calls templates) new_keyset_builder && runs ops (firsts templates) && primary_onb (firsts templates) && primary_onb (keyset_after ops (firsts templates)) &&
   (ks_primary_key_id (firsts templates) =? 7)%N && (length (enabled_keys (keyset_after (later_calls templates n) (firsts templates))) =? 2))%bool.
Example C103_runs_met :
  (met aead_templates 16 (later_calls aead_templates 16) && met aead_templates 16 (off_calls aead_templates 16) && met aead_templates 16 (delete_calls aead_templates 16) &&
   met daead_templates 0 (later_calls daead_templates 0) && met daead_templates 0 (off_calls daead_templates 0) && met mac_templates 3 (later_calls mac_templates 3) && met mac_templates 3 (delete_calls mac_templates 3))%bool = true.
Proof. vm_compute. reflexivity. Qed.
Example C103_templates_met :
  Forall (adds_predefined aead_templates) (first_calls aead_templates ++ later_calls aead_templates 16) /\
  Forall (adds_predefined daead_templates) (first_calls daead_templates ++ off_calls daead_templates 0) /\
  Forall (adds_predefined mac_templates) (first_calls mac_templates ++ delete_calls mac_templates 3).
Proof.
  split; [| split]; repeat apply Forall_cons; try apply Forall_nil; try exact I; (split; [reflexivity |]); eexists; eapply nth_error_In; [instantiate (2 := 0) | instantiate (2 := 16) | instantiate (2 := 0) | instantiate (2 := 0) | instantiate (2 := 0) | instantiate (2 := 3)]; reflexivity.
Qed.
Example C103_rotations_met :
  stays_on 7 (later_calls aead_templates 16) /\ goes_off 7 (off_calls aead_templates 16) /\ goes_off 7 (delete_calls aead_templates 16) /\ ~ stays_on 7 (off_calls aead_templates 16).
Proof.
  split; [| split; [| split]].
  - split; [repeat apply Forall_cons; try apply Forall_nil; discriminate | reflexivity].
  - left. split; [repeat apply Forall_cons; try apply Forall_nil; discriminate | reflexivity].
  - right. exists (later_calls aead_templates 16), [EnableKey 7]. split; [reflexivity | repeat constructor].
  - intros (_ & X). discriminate X.
Qed.
(** Used: a message of the first keyset is decrypted after the rotation, and not once its key is
    off or deleted. *)
Example C103_used : exists a1 a2, handle_primitive sym_registry (mk_handle (firsts aead_templates)) ClsAead = Ok (PrimAead a1) /\
  handle_primitive sym_registry (mk_handle (keyset_after (later_calls aead_templates 16) (firsts aead_templates))) ClsAead = Ok (PrimAead a2) /\
  forall rnd P ad C, aead_encrypt a1 rnd P ad = Ok C -> aead_decrypt a2 C ad = Ok P.
Proof.
  destruct C86_hypotheses_met as (HW & CL & RL & HC & _). specialize (HC Aead (or_introl eq_refl)). pose proof C103_runs_met as M. rewrite !andb_true_iff in M. destruct M as ((((((M & _) & _) & _) & _) & _) & _).
  unfold met in M. rewrite !andb_true_iff in M. destruct M as (((((R1 & R2) & P1) & P2) & EI) & _).
  destruct (run_after _ _ R1) as (rs1 & E1). destruct (run_after _ _ R2) as (rs2 & E2).
  destruct (cc_builder_aead _ _ _ _ _ HW CL RL HC _ _ _ _ _ _ (proj1 C103_templates_met) E1 E2 (primary_on_ok _ P1) (primary_on_ok _ P2)) as (l1 & a1 & l2 & a2 & _ & H1 & _ & _ & H2 & _ & _ & H).
  exists a1, a2. split; [exact H1 |]. split; [exact H2 |]. intros rnd P ad C E. refine (proj1 (proj2 (H rnd P ad C E)) _).
  apply N.eqb_eq in EI. unfold firsts in EI |- *. rewrite EI. exact (proj1 C103_rotations_met).
Qed.
Definition aead_after (ops : list builder_op) : option aead :=
  match builder_keyset_handle (keyset_after ops (firsts aead_templates)) with
  | Ok h => match handle_primitive sym_registry h ClsAead with Ok (PrimAead a) => Some a | _ => None end
  | Err _ => None
  end.
Definition is_text (x : string) (r : result bytes) : bool := match r with Ok y => bytes_eqb y (blit x) | Err _ => false end.
Definition is_refused (r : result bytes) : bool := match r with Ok _ => false | Err e => is_tink_error e end.
Example C103_runs :
  match aead_after [], aead_after (later_calls aead_templates 16), aead_after (off_calls aead_templates 16), aead_after (delete_calls aead_templates 16) with
  | Some a, Some b, Some c, Some d =>
      match aead_encrypt a 5%N (blit "text") (blit "ad"), aead_encrypt b 5%N (blit "more") (blit "ad") with
      | Ok x, Ok y =>
          is_text "text" (aead_decrypt a x (blit "ad")) && is_text "text" (aead_decrypt b x (blit "ad")) && is_refused (aead_decrypt c x (blit "ad")) && is_refused (aead_decrypt d x (blit "ad")) &&
          is_refused (aead_decrypt a y (blit "ad")) && is_text "more" (aead_decrypt c y (blit "ad"))
      | _, _ => false
      end
  | _, _, _, _ => false
  end%bool = true.
Proof. vm_compute. reflexivity. Qed.
(** Without a primary key that is on there is no handle. *)
Example C103_no_primary :
  match builder_keyset_handle (keyset_after [DisableKey 7] (firsts aead_templates)), builder_keyset_handle (keyset_after [add_nth aead_templates 0 9 6] new_keyset_builder) with
  | Err e, Err e' => is_tink_error e && is_tink_error e' | _, _ => false end%bool = true.
Proof. vm_compute. reflexivity. Qed.
