(** C101: keysets that are encrypted with the AEAD of another keyset, the master keyset, over the
    C++ keys: what is written, what can be read after the master keyset was rotated, and what
    cannot. *)
From Coq Require Import Strings.Byte Strings.String List NArith ZArith Bool Lia.
From Verif Require Import M_Base M_Utf8 M_Proto M_Wire M_ProtoMsg M_KeyFormats M_Prims M_PrimitiveSet M_Registry M_KeysetHandle M_KeysetIO M_Json M_JsonKeyset M_Wrappers M_StreamTypes M_CcStream M_CcManagers
  M_Templates M_CcAes M_CcStreamKeys M_CcModes M_CcSymmetric M_CcSymKeys S_Keyset S_Handle S_Wrappers S_Json S_JsonKeyset S_Wire S_Config S_CcLaws S_CcAes S_CcStreamKeys S_CcModes S_CcSymmetric
  S_CcSymKeys S_CcSymHandles S_CcMaster L_Base L_Keyset L_PrimitiveSet L_CcSymHandles L_CcSymHandles2 L_CcSymHandles3 L_CcSymHandles4 L_CcMaster
  X_Toy L_Toy X_Rt X_Config X_CliStream X_CcSymmetric X_CcSymKeys P_Cli P_JsonKeyset P_CcSymmetric P_CcSymKeys P_CcSymHandles P_CcSigPrograms.
Import ListNotations.
Open Scope string_scope.
Open Scope list_scope.
Open Scope nat_scope.

@thm C101_writes cc_master_writes
@thm C101_reads cc_master_reads
@thm C101_reads_only cc_master_reads_only
@thm C101_rotation cc_master_rotation
@thm C101_revoked cc_master_revoked

(** The hypotheses are met by the small library: the keyset of C86 for deterministic AEAD is
    encrypted with that for AEAD, with AES-EAX as its primary key, and read after another key
    became the primary key. *)
Definition secret_ks : keyset := toy_ks 42 toy_daead_keys.
Example C101_rotation_met : exists a a2,
  handle_primitive sym_registry (mk_handle (toy_ks 42 toy_aead_keys)) ClsAead = Ok (PrimAead a) /\
  handle_primitive sym_registry (mk_handle (toy_ks 43 toy_aead_keys)) ClsAead = Ok (PrimAead a2) /\
  exists x t, proto_serialize_encrypted (mk_handle secret_ks) a 5%N (blit "ad") = Ok x /\ json_proto_serialize_encrypted toy_rt (mk_handle secret_ks) a 5%N (blit "ad") = Ok t /\
    (proto_size x -> proto_parse_encrypted x a2 (blit "ad") = Ok (mk_handle secret_ks)) /\ json_proto_parse_encrypted toy_rt new_pb t a2 (blit "ad") = Ok (mk_handle secret_ks).
Proof.
  destruct C86_hypotheses_met as (HW & CL & RL & HC & K2 & K3 & KD & _ & _ & _ & PR & TA).
  destruct (cc_master_rotation _ _ _ _ _ _ _ _ _ _ _ (sym_k toy_eax 42 TINK) HW CL RL (HC Aead (or_introl eq_refl)) K2 PR TA K3 (proj1 PR) eq_refl eq_refl TA) as (a & a2 & HA & HA2 & H).
  exists a, a2. split; [exact HA |]. split; [exact HA2 |]. destruct (H 5%N (blit "ad") secret_ks) as ((x & EX & RX) & RJ).
  - apply fits_json_wf. vm_compute. reflexivity.
  - apply N.ltb_lt. vm_compute. reflexivity.
  - exact (proj1 KD).
  - split; apply N.leb_le; vm_compute; reflexivity.
  - destruct (RJ toy_rt toy_limit) as (t & ET & RT). exists x, t. auto.
Qed.
(** The AES-EAX key is removed from the master keyset. *)
Definition later_master : keyset := toy_ks 43 (tl toy_aead_keys).
Example C101_revoked_met : exists a b x,
  handle_primitive sym_registry (mk_handle (toy_ks 42 toy_aead_keys)) ClsAead = Ok (PrimAead a) /\
  handle_primitive sym_registry (mk_handle later_master) ClsAead = Ok (PrimAead b) /\
  proto_serialize_encrypted (mk_handle secret_ks) a 5%N (blit "ad") = Ok x /\ (proto_size x -> raises_tink (proto_parse_encrypted x b (blit "ad"))).
Proof.
  destruct C86_hypotheses_met as (HW & CL & RL & HC & K2 & K3 & KD & _ & _ & _ & PR & TA). specialize (HC Aead (or_introl eq_refl)).
  assert (KL : sym_keyset for_aead later_master (tl toy_aead_keys)) by toy_keyset.
  destruct (aead_handle_works _ _ _ _ _ _ _ HW CL RL HC K2) as (a & HA & WA). destruct (aead_handle_works _ _ _ _ _ _ _ HW CL RL HC KL) as (b & HB & WB).
  destruct (cc_master_writes _ _ _ _ a _ _ 5%N (blit "ad") secret_ks CL K2 WA PR TA) as ((x & EX & RX) & _).
  - apply fits_json_wf. vm_compute. reflexivity.
  - apply N.ltb_lt. vm_compute. reflexivity.
  - split; apply N.leb_le; vm_compute; reflexivity.
  - exists a, b, x. split; [exact HA |]. split; [exact HB |]. split; [exact EX |]. intros Sx. destruct (RX Sx) as (ek & ER & _ & H).
    change (raises_tink (read_with_associated_data (binary_keyset_reader x) b (blit "ad"))).
    refine (cc_master_revoked _ _ _ _ b (sym_k toy_eax 42 TINK) toy_eax _ (blit "ad") (blit "ad") secret_ks ek _ WB _ _ H ER); [discriminate |].
    intros k' sk' [E | [E | []]]; injection E as <- <-; split; discriminate.
Qed.
(** The same, run; other associated data, a changed byte, and a master keyset without that key
    are refused. *)
Definition is_secret (r : result keyset_handle) : bool := match r with Ok h => keyset_eqb (kh_keyset h) secret_ks | Err _ => false end.
Definition master_runs (from to : N) : bool :=
  match aead_of from, aead_of to, handle_primitive sym_registry (mk_handle (mk_keyset 44 (filter (fun k => negb (N.eqb (k_key_id k) from)) (ks_key (toy_ks 44 toy_aead_keys))))) ClsAead with
  | Some a, Some b, Ok (PrimAead c) =>
      match proto_serialize_encrypted (mk_handle secret_ks) a 5%N (blit "ad"), json_proto_serialize_encrypted toy_rt (mk_handle secret_ks) a 5%N (blit "ad") with
      | Ok x, Ok t =>
          is_secret (proto_parse_encrypted x b (blit "ad")) && is_secret (json_proto_parse_encrypted toy_rt new_pb t b (blit "ad")) &&
          is_err (proto_parse_encrypted x b (blit "da")) && is_err (proto_parse_encrypted (removelast x ++ [x00]) b (blit "ad")) && is_err (proto_parse_encrypted x c (blit "ad"))
      | _, _ => false
      end
  | _, _, _ => false
  end%bool.
Example C101_runs : (master_runs 42 43 && master_runs 43 44)%bool = true.
Proof. vm_compute. reflexivity. Qed.
