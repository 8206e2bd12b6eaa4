(** C23-C25: registry and primitive sets. *)
From Coq Require Import Strings.Byte Strings.String List NArith ZArith Bool Lia.
From Verif Require Import M_Base M_Proto M_Prims M_PrimitiveSet M_Registry M_Wrappers
  S_Keyset S_PrimitiveSet S_Registry L_Base L_PrimitiveSet L_Registry X_Toy L_Toy.
Import ListNotations.
Open Scope Z_scope.

(** * C23 *)
@thm C23_manager_permanent registry_resolves_forever
@thm C23_no_new_keys_forever registry_no_new_keys_forever
@thm C23_manager_and_flag_monotone registry_manager_permanent
@thm C23_registered_managers_sound registry_run_sound

Example C23_hypotheses_met :
  registry_key_manager toy_registry u_aead = Ok km_aead /\
  exists r1, register_key_manager toy_registry km_aead false = Ok r1 /\
    registry_key_manager (registry_run r1 toy_ops) u_aead = Ok km_aead /\
    raises_tink (registry_new_key_data (registry_run r1 toy_ops) 0%N
                   (mk_key_template u_aead [] TINK)) /\
    registry_new_key_data toy_registry 0%N (mk_key_template u_aead (blit "x") TINK) =
      Ok (mk_key_data u_aead (blit "x" ++ [x00]) SYMMETRIC).
Proof.
  split; [vmr |]. eexists. split; [vmr |]. split; [vmr |].
  split; [| vmr]. toy_raises.
Qed.

(** * C24 *)
@thm C24_register_key_manager register_key_manager_spec
@thm C24_register_wrapper register_primitive_wrapper_spec
@thm C24_key_manager registry_key_manager_spec
@thm C24_new_key_data registry_new_key_data_spec
@thm C24_primitive registry_primitive_spec
@thm C24_public_key_data registry_public_key_data_spec
@thm C24_wrap registry_wrap_spec
@thm C24_input_primitive_class registry_input_primitive_class_spec

Example C24_hypotheses_met :
  manager_of toy_registry u_aead = Some (km_aead, true) /\
  wrapper_of toy_registry ClsPrfSet = Some prf_set_wrapper /\
  manager_acceptable (manager_of toy_registry u_aead) km_aead false /\
  ~ manager_acceptable (manager_of toy_registry u_aead)
      (toy_km 99 u_aead ClsAead (fun v => PrimAead (toy_aead v)) SYMMETRIC None) true /\
  wrapper_acceptable (wrapper_of toy_registry ClsMac) mac_wrapper /\
  raises_tink (registry_primitive toy_registry (mk_key_data u_aead (blit "k") SYMMETRIC) ClsMac) /\
  raises_tink (registry_public_key_data toy_registry (mk_key_data u_sign (blit "k") SYMMETRIC)) /\
  registry_public_key_data toy_registry (mk_key_data u_sign (blit "k") ASYMMETRIC_PRIVATE) =
    Ok (mk_key_data u_verify (blit "k") ASYMMETRIC_PUBLIC).
Proof.
  assert (E0 : manager_of toy_registry u_aead = Some (km_aead, true)) by vmr.
  assert (E1 : wrapper_of toy_registry ClsMac = Some mac_wrapper) by vmr.
  split; [vmr |]. split; [vmr |]. split.
  { split; [vmr |]. rewrite E0. intros km0 b0 E. apply some_inj in E. injection E as <- <-.
    repeat split; try discriminate. }
  split.
  { intros [_ H]. destruct (H _ _ E0) as [E _]. discriminate. }
  split.
  { split; [| eexists; split; vmr]. rewrite E1. intros w0 E. apply some_inj in E. subst w0. vmr. }
  split; [toy_raises |]. split; [toy_raises | vmr].
Qed.

(** * C25 *)
@thm C25_primitive_set_lookup pset_lookup_correct
@thm C25_add_primitive add_primitive_result

(** A history with two entries under one prefix, a RAW one, a rejected one and a
    primary. *)
Example C25_history_met :
  let p := PrimAead (toy_aead (blit "k")) in
  let k1 := toy_key u_aead SYMMETRIC "k" ENABLED 5 LEGACY in
  let k2 := toy_key u_aead SYMMETRIC "k" ENABLED 5 CRUNCHY in
  let k3 := toy_key u_aead SYMMETRIC "k" ENABLED 6 RAW in
  let id := [x00; x00; x00; x00; x05] in
  let e1 := mk_entry p id ENABLED LEGACY 5 in
  history ClsAead
    ([] ++ [AddPrimitive p k1] ++ [AddPrimitive p k2] ++ [AddPrimitive p k3]
     ++ [AddPrimitive (PrimUser 0) k1] ++ [SetPrimary e1])
    [e1; mk_entry p id ENABLED CRUNCHY 5; mk_entry p [] ENABLED RAW 6] (Some e1).
Proof.
  cbv zeta.
  set (p := PrimAead (toy_aead (blit "k"))). set (id := [x00; x00; x00; x00; x05]).
  pose proof (H_nil ClsAead) as H0.
  eapply H_add with (p := p) (k := toy_key u_aead SYMMETRIC "k" ENABLED 5 LEGACY)
    (e := mk_entry p id ENABLED LEGACY 5) in H0.
  2: { repeat split. right. do 5 eexists. split; [vmr |]. split; [vmr |].
       right. auto. }
  eapply H_add with (p := p) (k := toy_key u_aead SYMMETRIC "k" ENABLED 5 CRUNCHY)
    (e := mk_entry p id ENABLED CRUNCHY 5) in H0.
  2: { repeat split. right. do 5 eexists. split; [vmr |]. split; [vmr |].
       right. auto. }
  eapply H_add with (p := p) (k := toy_key u_aead SYMMETRIC "k" ENABLED 6 RAW)
    (e := mk_entry p [] ENABLED RAW 6) in H0.
  2: { repeat split. left. auto. }
  apply H_add_rejected with (p := PrimUser 0)
    (k := toy_key u_aead SYMMETRIC "k" ENABLED 5 LEGACY) in H0.
  2: { intros e [E _]. discriminate. }
  exact (H_primary _ _ _ _ (mk_entry p id ENABLED LEGACY 5) H0).
Qed.
