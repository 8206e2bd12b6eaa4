(** C102: public keysets of C++ keys distributed as files without secrets: hybrid encryption. *)
From Coq Require Import Strings.Byte Strings.String List NArith ZArith Bool Lia.
From Verif Require Import M_Base M_Utf8 M_Proto M_Wire M_ProtoMsg M_KeyFormats M_Prims M_PrimitiveSet M_Registry M_KeysetHandle M_KeysetIO M_Wrappers M_StreamTypes M_CcStream M_CcManagers
  M_Templates M_Json M_JsonKeyset M_Cli M_CcAes M_CcStreamKeys M_CcModes M_CcSymmetric M_CcSymKeys M_CcEcies M_CcEciesKeys M_CcHpke S_Keyset S_Handle S_Wrappers S_Wire S_Json S_JsonKeyset S_Config S_Cli
  S_CcLaws S_CcAes S_CcStreamKeys S_CcModes S_CcSymmetric
  S_CcSymKeys S_CcSymHandles S_CcEcies S_CcEciesKeys S_CcEciesHandles S_CcHpke S_CcHpkeHandles S_CcHybrid S_CcPublish L_Base L_Keyset L_PrimitiveSet L_CcPublish2
  X_Toy L_Toy X_Rt X_Config X_CliStream X_CcSymmetric X_CcSymKeys X_CcEcies X_CcHpke P_JsonKeyset P_CcHybrid.
From Verif Require P_CcSigPrograms.
Import ListNotations.
Open Scope string_scope.
Open Scope list_scope.
Open Scope nat_scope.

Theorem C102_hybrid : forall ec lib random hc w env r ks l k q, ecies_world ec lib random w -> hpke_world ec hc w -> ec_laws ec lib -> crypto_laws lib -> random_law random -> hpke_laws ec hc -> configured w env Hybrid r ->
  valid_keyset ks -> wf_keyset ks -> all_any_private ks l -> (forall k, In k (ks_key ks) -> k_output_prefix_type k <> UNKNOWN_PREFIX /\ k_status k <> UNKNOWN_STATUS) ->
  (forall k q, In (k, q) l -> any_public_fits ec lib random hc k q) -> hybrid_keyset is_any_private (good_any_private ec) ks (enabled_of l) -> is_primary ks (enabled_of l) k q ->
  exists ph e, public_keyset_handle r (mk_handle ks) = Ok ph /\ kept_secret (mk_handle ks) /\ distributable ph /\ handle_primitive r ph ClsHybridEncrypt = Ok (PrimHybridEncrypt e) /\
    forall ks2 l2 k2, hybrid_keyset is_any_private (good_any_private ec) ks2 l2 -> In (k2, q) l2 -> k_key_id k2 = k_key_id k -> k_output_prefix_type k2 = k_output_prefix_type k -> any_told_apart k2 q l2 ->
    exists d, handle_primitive r (mk_handle ks2) ClsHybridDecrypt = Ok (PrimHybridDecrypt d) /\
      forall rnd P info, (any_admits (any_public_of q) P -> exists C, he_encrypt e rnd P info = Ok C) /\ forall C, he_encrypt e rnd P info = Ok C -> hd_decrypt d C info = Ok P.
Proof. exact cc_encrypter_distributed. Qed.
Print Assumptions C102_hybrid.

(** The hypotheses are met by the small library and the keyset of C97 with an ECIES key and an
    HPKE key; the private keyset is rotated before the decryption. *)
Example C102_hybrid_met : exists ph t e d,
  public_keyset_handle hybrid_registry (mk_handle (both 43)) = Ok ph /\ raises_tink (json_proto_serialize_without_secret toy_rt (mk_handle (both 43))) /\
  json_proto_serialize_without_secret toy_rt ph = Ok t /\ json_proto_parse_without_secret toy_rt new_pb t = Ok ph /\
  handle_primitive hybrid_registry ph ClsHybridEncrypt = Ok (PrimHybridEncrypt e) /\ handle_primitive hybrid_registry (mk_handle (both 42)) ClsHybridDecrypt = Ok (PrimHybridDecrypt d) /\
  forall rnd info C, he_encrypt e rnd (blit "hello") info = Ok C -> hd_decrypt d C info = Ok (blit "hello").
Proof.
  destruct C97_hypotheses_met as (_ & EL & CL & RL & HL & HC & _). destruct both_met as (qa & qb & _ & TB & M). destruct (M 43%N) as (V & AL & KS & EO & KN & PF); [right; left; reflexivity |]. destruct (M 42%N) as (_ & _ & KS2 & _); [left; reflexivity |].
  rewrite <- EO in KS.
  destruct (cc_encrypter_distributed basic_ec sym_toy toy_draw basic_hpke hybrid_world stream_env hybrid_registry (both 43) _ key_b (HpkePrivate qb) (proj1 toy_library) (proj1 (proj2 toy_library)) EL CL RL HL HC V
    ltac:(apply P_CcSigPrograms.fits_json_wf; vm_compute; reflexivity) AL KN PF KS ltac:(rewrite EO; split; [right; left; reflexivity | reflexivity])) as (ph & e & EP & (_ & _ & SK & _) & (_ & DJ) & HE & R).
  destruct (DJ toy_rt toy_limit) as (t & ET & RT). destruct (R _ _ key_b KS2 (or_intror (or_introl eq_refl)) eq_refl eq_refl TB) as (d & HD & H).
  exists ph, t, e, d. split; [exact EP |]. split; [exact (SK toy_rt toy_limit) |]. split; [exact ET |]. split; [exact (RT new_pb) |]. split; [exact HE |]. split; [exact HD |]. intros rnd info C. exact (proj2 (H rnd (blit "hello") info) C).
Qed.
