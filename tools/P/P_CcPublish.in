(** C102: public keysets of C++ keys distributed as files without secrets: signatures and JWT. *)
From Coq Require Import Strings.Byte Strings.String List NArith ZArith Bool Lia.
From Verif Require Import M_Base M_Utf8 M_Proto M_Wire M_ProtoMsg M_KeyFormats M_JwtTypes M_Prims M_PrimitiveSet M_Registry M_KeysetHandle M_KeysetIO M_Wrappers M_Json M_JsonKeyset M_RawJwt M_JwtValidator M_JwtPrims M_StreamTypes M_CcStream M_CcManagers
  M_Templates M_Cli M_CcAes M_CcStreamKeys M_CcModes M_CcSymmetric M_CcSymKeys M_CcEcies M_CcEciesKeys M_CcSignatures M_CcJwt
  S_Keyset S_Handle S_Wrappers S_Json S_JsonKeyset S_Jwt S_JwtKeys S_Wire S_Config S_CcLaws S_CcAes S_CcStreamKeys S_CcModes S_CcSymmetric S_CcSymKeys S_CcSymHandles S_CcEcies S_CcEciesKeys S_CcSignatures S_CcSigHandles S_CcJwt S_CcJwtHandles S_CcJwtPrograms S_CcPublish
  L_Base L_Keyset L_PrimitiveSet L_Jwt8 L_CcPublish L_CcPublish3
  X_Toy L_Toy X_Rt X_Jwt X_Config X_CliStream X_CcSymmetric X_CcSymKeys X_CcEcies X_CcSignatures P_JsonKeyset P_CcSigHandles P_CcSigPrograms P_CcJwtHandles.
Import ListNotations.
Open Scope string_scope.
Open Scope list_scope.
Open Scope nat_scope.

@thm C102_distributable public_distributable
@thm C102_kept_secret secret_kept
@thm C102_signature cc_verifier_distributed
@thm C102_jwt cc_jwt_verifier_distributed

(** The hypotheses are met by the small library and the keysets of C92 and C94. *)
Example C102_signature_met : exists ph t a s x,
  public_keyset_handle signature_registry (mk_handle (mk_keyset 43 [key_a; key_b])) = Ok ph /\ raises_tink (json_proto_serialize_without_secret toy_rt (mk_handle (mk_keyset 43 [key_a; key_b]))) /\
  json_proto_serialize_without_secret toy_rt ph = Ok t /\ json_proto_parse_without_secret toy_rt new_pb t = Ok ph /\
  handle_primitive signature_registry ph ClsVerify = Ok (PrimVerify a) /\ handle_primitive signature_registry (mk_handle (mk_keyset 43 [key_a; key_b])) ClsSign = Ok (PrimSign s) /\
  sign s 9%N (blit "hello") = Ok x /\ verify a x (blit "hello") = Ok tt.
Proof.
  destruct C92_hypotheses_met as (HW & _ & SL & RZ & HC & qa & qb & V & AL & KS & EO & MA & MB & PR & KN & PF & _).
  rewrite <- EO in KS, PR. destruct (cc_verifier_distributed _ _ _ _ _ _ _ _ HW SL RZ HC V ltac:(apply fits_json_wf; vm_compute; reflexivity) AL KN PF KS) as (ph & a & EP & (_ & _ & SK & _) & (_ & DJ) & HA & R).
  destruct (DJ toy_rt toy_limit) as (t & ET & RT). destruct (R _ _ key_b key_b qb KS PR MB (proj1 PR) eq_refl eq_refl) as (s & HS & H). destruct (H 9%N (blit "hello")) as (x & EX & EV).
  exists ph, t, a, s, x. split; [exact EP |]. split; [exact (SK toy_rt toy_limit) |]. auto 10.
Qed.
Example C102_jwt_met : exists ph t a s token,
  public_keyset_handle jwt_toy_registry (mk_handle (mk_keyset 53 [es_a; rs_b])) = Ok ph /\
  json_proto_serialize_without_secret toy_rt ph = Ok t /\ json_proto_parse_without_secret toy_rt new_pb t = Ok ph /\
  handle_primitive jwt_toy_registry ph ClsJwtVerify = Ok (PrimJwtVerify a) /\ handle_primitive jwt_toy_registry (mk_handle (mk_keyset 53 [es_a; rs_b])) ClsJwtSign = Ok (PrimJwtSign s) /\
  js_sign s 9%N toy_jwt = Ok token /\
  forall clock v, accepts toy_rt clock v toy_jwt -> representable (current_time v clock - jv_clock_skew v)%Z -> representable (current_time v clock + jv_clock_skew v)%Z ->
    jv_verify a clock token v = Ok (mk_verified_jwt toy_jwt).
Proof.
  destruct C94_world_met as (HW & _ & _ & _ & SL & _ & Hc & Hf & _ & HC).
  destruct C94_signature_hypotheses_met as (qa & qb & V & AL & KS & EN & MA & MB & PR & KN & PF & _). rewrite <- EN in KS, PR.
  destruct (cc_jwt_verifier_distributed _ _ _ _ _ _ _ _ _ _ HW SL Hc Hf HC V ltac:(apply fits_json_wf; vm_compute; reflexivity) AL KN PF KS) as (ph & a & EP & _ & (_ & DJ) & HA & R).
  destruct (DJ toy_rt toy_limit) as (t & ET & RT). destruct (R _ _ rs_b rs_b qb KS PR MB ltac:(discriminate) (proj1 PR) eq_refl eq_refl) as (s & HS & H). destruct (H 9%N toy_jwt toy_ordinary toy_well_typed) as (token & TK & VF).
  exists ph, t, a, s, token. split; [exact EP |]. split; [exact ET |]. split; [exact (RT new_pb) |]. split; [exact HA |]. split; [exact HS |]. split; [exact TK |]. intros clock v. exact (VF clock v toy_jwt toy_same).
Qed.
