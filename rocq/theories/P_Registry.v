(** C23-C25: registry and primitive sets. *)
From Coq Require Import Strings.Byte Strings.String List NArith ZArith Bool Lia.
From Verif Require Import M_Base M_Proto M_Prims M_PrimitiveSet M_Registry M_Wrappers
  S_Keyset S_PrimitiveSet S_Registry L_Base L_PrimitiveSet L_Registry X_Toy L_Toy.
Import ListNotations.
Open Scope Z_scope.

(** * C23 *)
Theorem C23_manager_permanent : forall r ops url km,
  registry_key_manager r url = Ok km ->
  registry_key_manager (registry_run r ops) url = Ok km.
Proof. exact registry_resolves_forever. Qed.
Print Assumptions C23_manager_permanent.
Theorem C23_no_new_keys_forever : forall r km1 r1 ops,
  register_key_manager r km1 false = Ok r1 ->
  (forall rnd t, kt_type_url t = km_key_type km1 ->
     raises_tink (registry_new_key_data (registry_run r1 ops) rnd t)) /\
  (forall km, km_key_type km = km_key_type km1 ->
     raises_tink (register_key_manager (registry_run r1 ops) km true)).
Proof. exact registry_no_new_keys_forever. Qed.
Print Assumptions C23_no_new_keys_forever.
Theorem C23_manager_and_flag_monotone : forall ops r url km b,
  manager_of r url = Some (km, b) ->
  exists b', manager_of (registry_run r ops) url = Some (km, b') /\ (b = false -> b' = false).
Proof. exact registry_manager_permanent. Qed.
Print Assumptions C23_manager_and_flag_monotone.
Theorem C23_registered_managers_sound : forall ops,
  (forall url km b, manager_of (registry_run empty_registry ops) url = Some (km, b) ->
     km_key_type km = url /\ km_does_support km url = true /\
     exists a, In (OpRegisterKeyManager km a) ops) /\
  (forall c w, wrapper_of (registry_run empty_registry ops) c = Some w ->
     w_primitive_class w = c /\ In (OpRegisterWrapper w) ops).
Proof. exact registry_run_sound. Qed.
Print Assumptions C23_registered_managers_sound.

Example C23_hypotheses_met :
  registry_key_manager toy_registry u_aead = Ok km_aead /\
  exists r1, register_key_manager toy_registry km_aead false = Ok r1 /\
    registry_key_manager (registry_run r1 toy_ops) u_aead = Ok km_aead /\
    raises_tink (registry_new_key_data (registry_run r1 toy_ops) 0%N
                   (mk_key_template u_aead [] TINK)) /\
    registry_new_key_data toy_registry 0%N (mk_key_template u_aead (blit "x") TINK) =
      Ok (mk_key_data u_aead (blit "x" ++ [x00]) SYMMETRIC).
Proof.
  split; [vmr |]. eexists. split; [vmr |]. split; [vmr |].
  split; [| vmr]. toy_raises.
Qed.

(** * C24 *)
Theorem C24_register_key_manager : forall r km allowed,
  (manager_acceptable (manager_of r (km_key_type km)) km allowed ->
   exists r', register_key_manager r km allowed = Ok r' /\
     manager_of r' (km_key_type km) =
       Some (match manager_of r (km_key_type km) with Some (km0, _) => km0 | None => km end,
             allowed) /\
     (forall u, u <> km_key_type km -> manager_of r' u = manager_of r u) /\
     (forall c, wrapper_of r' c = wrapper_of r c)) /\
  (~ manager_acceptable (manager_of r (km_key_type km)) km allowed ->
   raises_tink (register_key_manager r km allowed)).
Proof. exact register_key_manager_spec. Qed.
Print Assumptions C24_register_key_manager.
Theorem C24_register_wrapper : forall r w,
  (wrapper_acceptable (wrapper_of r (w_primitive_class w)) w ->
   exists r', register_primitive_wrapper r w = Ok r' /\
     wrapper_of r' (w_primitive_class w) = Some w /\
     (forall c, c <> w_primitive_class w -> wrapper_of r' c = wrapper_of r c) /\
     (forall u, manager_of r' u = manager_of r u)) /\
  (~ wrapper_acceptable (wrapper_of r (w_primitive_class w)) w ->
   exists e, register_primitive_wrapper r w = Err e /\
     (tink_total (w_wrap w (mk_pset [] None (w_input_primitive_class w))) ->
      is_tink_error e = true)).
Proof. exact register_primitive_wrapper_spec. Qed.
Print Assumptions C24_register_wrapper.
Theorem C24_key_manager : forall r url,
  (forall km, registry_key_manager r url = Ok km <-> exists b, manager_of r url = Some (km, b)) /\
  (manager_of r url = None -> raises_tink (registry_key_manager r url)).
Proof. exact registry_key_manager_spec. Qed.
Print Assumptions C24_key_manager.
Theorem C24_new_key_data : forall r rnd t,
  (forall km, manager_of r (kt_type_url t) = Some (km, true) ->
     registry_new_key_data r rnd t = km_new_key_data km rnd t) /\
  (forall km, manager_of r (kt_type_url t) = Some (km, false) ->
     raises_tink (registry_new_key_data r rnd t)) /\
  (manager_of r (kt_type_url t) = None -> raises_tink (registry_new_key_data r rnd t)).
Proof. exact registry_new_key_data_spec. Qed.
Print Assumptions C24_new_key_data.
Theorem C24_primitive : forall r d c,
  (forall km b, manager_of r (kd_type_url d) = Some (km, b) -> km_primitive_class km = c ->
     registry_primitive r d c = km_primitive km d) /\
  (forall km b, manager_of r (kd_type_url d) = Some (km, b) -> km_primitive_class km <> c ->
     raises_tink (registry_primitive r d c)) /\
  (manager_of r (kd_type_url d) = None -> raises_tink (registry_primitive r d c)).
Proof. exact registry_primitive_spec. Qed.
Print Assumptions C24_primitive.
Theorem C24_public_key_data : forall r d,
  (kd_key_material_type d <> ASYMMETRIC_PRIVATE -> raises_tink (registry_public_key_data r d)) /\
  (manager_of r (kd_type_url d) = None -> raises_tink (registry_public_key_data r d)) /\
  (forall km b, manager_of r (kd_type_url d) = Some (km, b) -> km_public_key_data km = None ->
     raises_tink (registry_public_key_data r d)) /\
  (forall km b f, kd_key_material_type d = ASYMMETRIC_PRIVATE ->
     manager_of r (kd_type_url d) = Some (km, b) -> km_public_key_data km = Some f ->
     registry_public_key_data r d = f d).
Proof. exact registry_public_key_data_spec. Qed.
Print Assumptions C24_public_key_data.
Theorem C24_wrap : forall r ps c,
  (forall w, wrapper_of r c = Some w -> ps_primitive_class ps = w_input_primitive_class w ->
     registry_wrap r ps c = w_wrap w ps) /\
  (forall w, wrapper_of r c = Some w -> ps_primitive_class ps <> w_input_primitive_class w ->
     raises_tink (registry_wrap r ps c)) /\
  (wrapper_of r c = None -> raises_tink (registry_wrap r ps c)).
Proof. exact registry_wrap_spec. Qed.
Print Assumptions C24_wrap.
Theorem C24_input_primitive_class : forall r c,
  (forall w, wrapper_of r c = Some w ->
     registry_input_primitive_class r c = Ok (w_input_primitive_class w)) /\
  (wrapper_of r c = None -> raises_tink (registry_input_primitive_class r c)).
Proof. exact registry_input_primitive_class_spec. Qed.
Print Assumptions C24_input_primitive_class.

Example C24_hypotheses_met :
  manager_of toy_registry u_aead = Some (km_aead, true) /\
  wrapper_of toy_registry ClsPrfSet = Some prf_set_wrapper /\
  manager_acceptable (manager_of toy_registry u_aead) km_aead false /\
  ~ manager_acceptable (manager_of toy_registry u_aead)
      (toy_km 99 u_aead ClsAead (fun v => PrimAead (toy_aead v)) SYMMETRIC None) true /\
  wrapper_acceptable (wrapper_of toy_registry ClsMac) mac_wrapper /\
  raises_tink (registry_primitive toy_registry (mk_key_data u_aead (blit "k") SYMMETRIC) ClsMac) /\
  raises_tink (registry_public_key_data toy_registry (mk_key_data u_sign (blit "k") SYMMETRIC)) /\
  registry_public_key_data toy_registry (mk_key_data u_sign (blit "k") ASYMMETRIC_PRIVATE) =
    Ok (mk_key_data u_verify (blit "k") ASYMMETRIC_PUBLIC).
Proof.
  assert (E0 : manager_of toy_registry u_aead = Some (km_aead, true)) by vmr.
  assert (E1 : wrapper_of toy_registry ClsMac = Some mac_wrapper) by vmr.
  split; [vmr |]. split; [vmr |]. split.
  { split; [vmr |]. rewrite E0. intros km0 b0 E. apply some_inj in E. injection E as <- <-.
    repeat split; try discriminate. }
  split.
  { intros [_ H]. destruct (H _ _ E0) as [E _]. discriminate. }
  split.
  { split; [| eexists; split; vmr]. rewrite E1. intros w0 E. apply some_inj in E. subst w0. vmr. }
  split; [toy_raises |]. split; [toy_raises | vmr].
Qed.

(** * C25 *)
Theorem C25_primitive_set_lookup : forall c ops es pr,
  history c ops es pr ->
  let ps := pset_run c ops in
  (forall p, primitive_from_identifier ps p =
             filter (fun e => bytes_eqb p (e_identifier e)) es) /\
  raw_primitives ps = filter (fun e => bytes_eqb [] (e_identifier e)) es /\
  ps_all ps = map (fun p => filter (fun e => bytes_eqb p (e_identifier e)) es)
                (distinct (map e_identifier es)) /\
  (forall k q, has_prefix (k_output_prefix_type k) (k_key_id k) q ->
     ps_primitive ps k = Ok (filter (fun e => bytes_eqb q (e_identifier e)) es)) /\
  match pr with
  | Some e => primary ps = Ok e
  | None => exists x, primary ps = Err x /\ is_tink_error x = true
  end.
Proof. exact pset_lookup_correct. Qed.
Print Assumptions C25_primitive_set_lookup.
Theorem C25_add_primitive : forall c ops es pr p k,
  history c ops es pr -> (k_key_id k < 2 ^ 32)%N ->
  (exists ps' e, add_primitive (pset_run c ops) p k = Ok (ps', e) /\ accepted_entry c p k e) \/
  (exists x, add_primitive (pset_run c ops) p k = Err x /\ is_tink_error x = true /\
             forall e, ~ accepted_entry c p k e).
Proof. exact add_primitive_result. Qed.
Print Assumptions C25_add_primitive.

(** A history with two entries under one prefix, a RAW one, a rejected one and a
    primary. *)
Example C25_history_met :
  let p := PrimAead (toy_aead (blit "k")) in
  let k1 := toy_key u_aead SYMMETRIC "k" ENABLED 5 LEGACY in
  let k2 := toy_key u_aead SYMMETRIC "k" ENABLED 5 CRUNCHY in
  let k3 := toy_key u_aead SYMMETRIC "k" ENABLED 6 RAW in
  let id := [x00; x00; x00; x00; x05] in
  let e1 := mk_entry p id ENABLED LEGACY 5 in
  history ClsAead
    ([] ++ [AddPrimitive p k1] ++ [AddPrimitive p k2] ++ [AddPrimitive p k3]
     ++ [AddPrimitive (PrimUser 0) k1] ++ [SetPrimary e1])
    [e1; mk_entry p id ENABLED CRUNCHY 5; mk_entry p [] ENABLED RAW 6] (Some e1).
Proof.
  cbv zeta.
  set (p := PrimAead (toy_aead (blit "k"))). set (id := [x00; x00; x00; x00; x05]).
  pose proof (H_nil ClsAead) as H0.
  eapply H_add with (p := p) (k := toy_key u_aead SYMMETRIC "k" ENABLED 5 LEGACY)
    (e := mk_entry p id ENABLED LEGACY 5) in H0.
  2: { repeat split. right. do 5 eexists. split; [vmr |]. split; [vmr |].
       right. auto. }
  eapply H_add with (p := p) (k := toy_key u_aead SYMMETRIC "k" ENABLED 5 CRUNCHY)
    (e := mk_entry p id ENABLED CRUNCHY 5) in H0.
  2: { repeat split. right. do 5 eexists. split; [vmr |]. split; [vmr |].
       right. auto. }
  eapply H_add with (p := p) (k := toy_key u_aead SYMMETRIC "k" ENABLED 6 RAW)
    (e := mk_entry p [] ENABLED RAW 6) in H0.
  2: { repeat split. left. auto. }
  apply H_add_rejected with (p := PrimUser 0)
    (k := toy_key u_aead SYMMETRIC "k" ENABLED 5 LEGACY) in H0.
  2: { intros e [E _]. discriminate. }
  exact (H_primary _ _ _ _ (mk_entry p id ENABLED LEGACY 5) H0).
Qed.
