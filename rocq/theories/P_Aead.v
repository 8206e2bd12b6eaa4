(** C02-C06: the Aead obtained from a keyset. *)
From Coq Require Import Strings.Byte Strings.String List NArith ZArith Bool Lia.
From Verif Require Import M_Base M_Proto M_Prims M_PrimitiveSet M_Registry M_KeysetHandle
  M_Wrappers S_Keyset S_Wrappers L_Base L_Keyset L_Wrappers L_Wrappers2 L_Wrappers3 X_Toy L_Toy.
Import ListNotations.
Open Scope Z_scope.

(** A concrete handle meeting the hypotheses of everything below. *)
Example C02_hypotheses_met :
  dict_get pclass_eqb ClsAead (r_wrappers toy_registry) = Some aead_wrapper /\
  handle_primitive toy_registry (toy_handle u_aead SYMMETRIC) ClsAead = Ok (PrimAead w_aead).
Proof. split; vmr. Qed.

(** C02 *)
Theorem C02_aead_decrypt_sound : forall reg h a,
  dict_get pclass_eqb ClsAead (r_wrappers reg) = Some aead_wrapper ->
  handle_primitive reg h ClsAead = Ok (PrimAead a) ->
  forall ct ad pt, aead_decrypt a ct ad = Ok pt ->
  exists k p body,
    In k (ks_key (kh_keyset h)) /\ k_status k = ENABLED /\
    key_provides reg ClsAead k (PrimAead p) /\
    reaches k ct body /\ aead_decrypt p body ad = Ok pt.
Proof. exact aead_decrypt_sound. Qed.
Print Assumptions C02_aead_decrypt_sound.

Example C02_example : exists ct pt, aead_decrypt w_aead ct (blit "ad") = Ok pt /\ pt <> [].
Proof.
  exists (x00 :: x00 :: x00 :: x01 :: x2c :: blit "kd" ++ x02 :: blit "adhello"), (blit "hello").
  split; [vmr | discriminate].
Qed.

(** C03: [aead_spec] says that decrypt is the first success over [attempts]. *)
Theorem C03_aead_candidate_order : forall reg h a,
  dict_get pclass_eqb ClsAead (r_wrappers reg) = Some aead_wrapper ->
  handle_primitive reg h ClsAead = Ok (PrimAead a) ->
  valid_keyset (kh_keyset h) /\ exists l, aead_spec reg (kh_keyset h) a l.
Proof. exact aead_handle_spec. Qed.
Print Assumptions C03_aead_candidate_order.

(** When the Aead can be obtained at all. *)
Theorem C03_primitive_available : forall reg h,
  (dict_get pclass_eqb ClsAead (r_wrappers reg) = Some aead_wrapper ->
   ((exists Q, handle_primitive reg h ClsAead = Ok Q) <->
    valid_keyset (kh_keyset h) /\
    (exists l, keys_with PrimAead reg ClsAead (kh_keyset h) l) /\
    Forall (fun k => exists q, has_prefix (k_output_prefix_type k) (k_key_id k) q)
      (enabled_keys (kh_keyset h)))) /\
  (dict_get pclass_eqb ClsDaead (r_wrappers reg) = Some daead_wrapper ->
   ((exists Q, handle_primitive reg h ClsDaead = Ok Q) <->
    valid_keyset (kh_keyset h) /\
    (exists l, keys_with PrimDaead reg ClsDaead (kh_keyset h) l) /\
    Forall (fun k => exists q, has_prefix (k_output_prefix_type k) (k_key_id k) q)
      (enabled_keys (kh_keyset h)))) /\
  (dict_get pclass_eqb ClsMac (r_wrappers reg) = Some mac_wrapper ->
   ((exists Q, handle_primitive reg h ClsMac = Ok Q) <->
    valid_keyset (kh_keyset h) /\
    (exists l, keys_with PrimMac reg ClsMac (kh_keyset h) l) /\
    Forall (fun k => exists q, has_prefix (k_output_prefix_type k) (k_key_id k) q)
      (enabled_keys (kh_keyset h)))) /\
  (dict_get pclass_eqb ClsSign (r_wrappers reg) = Some public_key_sign_wrapper ->
   ((exists Q, handle_primitive reg h ClsSign = Ok Q) <->
    valid_keyset (kh_keyset h) /\
    (exists l, keys_with PrimSign reg ClsSign (kh_keyset h) l) /\
    Forall (fun k => exists q, has_prefix (k_output_prefix_type k) (k_key_id k) q)
      (enabled_keys (kh_keyset h)))) /\
  (dict_get pclass_eqb ClsVerify (r_wrappers reg) = Some public_key_verify_wrapper ->
   ((exists Q, handle_primitive reg h ClsVerify = Ok Q) <->
    valid_keyset (kh_keyset h) /\
    (exists l, keys_with PrimVerify reg ClsVerify (kh_keyset h) l) /\
    Forall (fun k => exists q, has_prefix (k_output_prefix_type k) (k_key_id k) q)
      (enabled_keys (kh_keyset h)))) /\
  (dict_get pclass_eqb ClsHybridEncrypt (r_wrappers reg) = Some hybrid_encrypt_wrapper ->
   ((exists Q, handle_primitive reg h ClsHybridEncrypt = Ok Q) <->
    valid_keyset (kh_keyset h) /\
    (exists l, keys_with PrimHybridEncrypt reg ClsHybridEncrypt (kh_keyset h) l) /\
    Forall (fun k => exists q, has_prefix (k_output_prefix_type k) (k_key_id k) q)
      (enabled_keys (kh_keyset h)))) /\
  (dict_get pclass_eqb ClsHybridDecrypt (r_wrappers reg) = Some hybrid_decrypt_wrapper ->
   ((exists Q, handle_primitive reg h ClsHybridDecrypt = Ok Q) <->
    valid_keyset (kh_keyset h) /\
    (exists l, keys_with PrimHybridDecrypt reg ClsHybridDecrypt (kh_keyset h) l) /\
    Forall (fun k => exists q, has_prefix (k_output_prefix_type k) (k_key_id k) q)
      (enabled_keys (kh_keyset h)))).
Proof. exact handle_primitive_iff. Qed.
Print Assumptions C03_primitive_available.
Theorem C03_primitive_class : forall reg h Q,
  (dict_get pclass_eqb ClsAead (r_wrappers reg) = Some aead_wrapper ->
   handle_primitive reg h ClsAead = Ok Q -> exists a, Q = PrimAead a) /\
  (dict_get pclass_eqb ClsDaead (r_wrappers reg) = Some daead_wrapper ->
   handle_primitive reg h ClsDaead = Ok Q -> exists a, Q = PrimDaead a) /\
  (dict_get pclass_eqb ClsMac (r_wrappers reg) = Some mac_wrapper ->
   handle_primitive reg h ClsMac = Ok Q -> exists a, Q = PrimMac a) /\
  (dict_get pclass_eqb ClsSign (r_wrappers reg) = Some public_key_sign_wrapper ->
   handle_primitive reg h ClsSign = Ok Q -> exists a, Q = PrimSign a) /\
  (dict_get pclass_eqb ClsVerify (r_wrappers reg) = Some public_key_verify_wrapper ->
   handle_primitive reg h ClsVerify = Ok Q -> exists a, Q = PrimVerify a) /\
  (dict_get pclass_eqb ClsHybridEncrypt (r_wrappers reg) = Some hybrid_encrypt_wrapper ->
   handle_primitive reg h ClsHybridEncrypt = Ok Q -> exists a, Q = PrimHybridEncrypt a) /\
  (dict_get pclass_eqb ClsHybridDecrypt (r_wrappers reg) = Some hybrid_decrypt_wrapper ->
   handle_primitive reg h ClsHybridDecrypt = Ok Q -> exists a, Q = PrimHybridDecrypt a) /\
  (dict_get pclass_eqb ClsPrfSet (r_wrappers reg) = Some prf_set_wrapper ->
   handle_primitive reg h ClsPrfSet = Ok Q -> exists i a p, Q = PrimPrfSet i a p).
Proof. exact handle_primitive_typed_result. Qed.
Print Assumptions C03_primitive_class.

Example C03_spec_met : aead_spec toy_registry (toy_keyset u_aead SYMMETRIC) w_aead
  (toy_list toy_aead u_aead SYMMETRIC).
Proof.
  destruct (aead_handle_spec toy_registry (toy_handle u_aead SYMMETRIC) w_aead eq_refl eq_refl)
    as (_ & l & Hs).
  enough (l = toy_list toy_aead u_aead SYMMETRIC) by (subst; exact Hs).
  destruct Hs as [[Hl Hf] _]. change (enabled_keys _) with
    (map fst (toy_list toy_aead u_aead SYMMETRIC)) in Hl.
  destruct toy_kw_aead as [_ Hf'].
  revert Hl Hf Hf'. generalize (toy_list toy_aead u_aead SYMMETRIC) as m.
  induction l as [| [k p] l IH]; intros [| [k' p'] m] Hl Hf Hf'; try discriminate; [vmr |].
  cbn [map fst] in Hl. injection Hl as -> Hl.
  apply Forall_cons_iff in Hf. apply Forall_cons_iff in Hf'. destruct Hf as [H1 Hf], Hf' as [H2 Hf'].
  pose proof (key_provides_fun _ _ _ _ _ H1 H2) as E. cbn [fst snd] in E. injection E as ->.
  f_equal. apply IH; assumption.
Qed.

(** C04: encryption by the primary is part of [aead_spec] (C03); the round trip: *)
Theorem C04_aead_round_trip : forall reg h a,
  dict_get pclass_eqb ClsAead (r_wrappers reg) = Some aead_wrapper ->
  handle_primitive reg h ClsAead = Ok (PrimAead a) ->
  forall k p, In k (enabled_keys (kh_keyset h)) ->
    k_key_id k = ks_primary_key_id (kh_keyset h) ->
    key_provides reg ClsAead k (PrimAead p) ->
  forall r pt ad c ct,
    aead_encrypt p r pt ad = Ok c -> c <> [] -> aead_decrypt p c ad = Ok pt ->
    aead_encrypt a r pt ad = Ok ct ->
    (forall k' p' body, In k' (enabled_keys (kh_keyset h)) -> k' <> k ->
       key_provides reg ClsAead k' (PrimAead p') -> reaches k' ct body ->
       raises_tink (aead_decrypt p' body ad)) ->
    aead_decrypt a ct ad = Ok pt.
Proof. exact aead_round_trip. Qed.
Print Assumptions C04_aead_round_trip.

Example C04_hypotheses_met :
  let k := toy_primary u_aead SYMMETRIC in
  let ct := x01 :: x00 :: x00 :: x00 :: x2a :: blit "ka" ++ x02 :: blit "adhello" in
  In k (enabled_keys (toy_keyset u_aead SYMMETRIC)) /\
  key_provides toy_registry ClsAead k (PrimAead (toy_aead (blit "ka"))) /\
  aead_encrypt w_aead 7%N (blit "hello") (blit "ad") = Ok ct /\
  (forall k' p' body, In k' (enabled_keys (toy_keyset u_aead SYMMETRIC)) -> k' <> k ->
     key_provides toy_registry ClsAead k' (PrimAead p') -> reaches k' ct body ->
     raises_tink (aead_decrypt p' body (blit "ad"))) /\
  aead_decrypt w_aead ct (blit "ad") = Ok (blit "hello").
Proof.
  cbv zeta. split; [left; vmr |].
  split; [apply registry_primitive_ok; vmr |].
  split; [vmr |]. split; [| vmr].
  apply (others_fail_ok _ _ PrimAead _ _ _ _ (fun _ p b => aead_decrypt p b (blit "ad"))
           _ _ PrimAead_inj toy_kw_aead). vmr.
Qed.

(** C05: rotation. *)
Theorem C05_aead_rotation : forall reg h1 h2 a1 a2 added,
  dict_get pclass_eqb ClsAead (r_wrappers reg) = Some aead_wrapper ->
  handle_primitive reg h1 ClsAead = Ok (PrimAead a1) ->
  handle_primitive reg h2 ClsAead = Ok (PrimAead a2) ->
  interleave (enabled_keys (kh_keyset h1)) added (enabled_keys (kh_keyset h2)) ->
  forall ct ad,
  (forall k p body, In k added -> key_provides reg ClsAead k (PrimAead p) -> reaches k ct body ->
     raises_tink (aead_decrypt p body ad)) ->
  same_outcome (aead_decrypt a1 ct ad) (aead_decrypt a2 ct ad).
Proof. exact aead_rotation. Qed.
Print Assumptions C05_aead_rotation.
Theorem C05_aead_rotation_any_order : forall reg h1 h2 a1 a2,
  dict_get pclass_eqb ClsAead (r_wrappers reg) = Some aead_wrapper ->
  handle_primitive reg h1 ClsAead = Ok (PrimAead a1) ->
  handle_primitive reg h2 ClsAead = Ok (PrimAead a2) ->
  incl (enabled_keys (kh_keyset h1)) (enabled_keys (kh_keyset h2)) ->
  (forall k p body ad, In k (enabled_keys (kh_keyset h2)) ->
     key_provides reg ClsAead k (PrimAead p) -> tink_total (aead_decrypt p body ad)) ->
  forall ct ad pt, aead_decrypt a1 ct ad = Ok pt ->
  exists pt' k p body, aead_decrypt a2 ct ad = Ok pt' /\
    In k (enabled_keys (kh_keyset h2)) /\ key_provides reg ClsAead k (PrimAead p) /\
    reaches k ct body /\ aead_decrypt p body ad = Ok pt'.
Proof. exact aead_rotation_any_order. Qed.
Print Assumptions C05_aead_rotation_any_order.

Example C05_hypotheses_met :
  let h2 := toy_rotated u_aead SYMMETRIC in
  let added := [toy_key u_aead SYMMETRIC "ke" ENABLED 1000 TINK;
                toy_key u_aead SYMMETRIC "kf" ENABLED 8 RAW] in
  let a2 := the_aead (handle_primitive toy_registry h2 ClsAead) in
  let ct := x01 :: x00 :: x00 :: x00 :: x2a :: blit "ka" ++ x02 :: blit "adhello" in
  handle_primitive toy_registry h2 ClsAead = Ok (PrimAead a2) /\
  interleave (enabled_keys (toy_keyset u_aead SYMMETRIC)) added (enabled_keys (kh_keyset h2)) /\
  (forall k p body, In k added -> key_provides toy_registry ClsAead k (PrimAead p) ->
     reaches k ct body -> raises_tink (aead_decrypt p body (blit "ad"))) /\
  aead_decrypt w_aead ct (blit "ad") = Ok (blit "hello") /\
  aead_decrypt a2 ct (blit "ad") = Ok (blit "hello").
Proof.
  cbv zeta. split; [vmr |]. split.
  - apply IL_right, IL_left, IL_left, IL_right, IL_left, IL_nil.
  - split; [| split; vmr].
    intros k p body Hk Hp Hr.
    assert (Hke : key_provides toy_registry ClsAead
      (toy_key u_aead SYMMETRIC "ke" ENABLED 1000 TINK) (PrimAead (toy_aead (blit "ke"))))
      by (apply registry_primitive_ok; vmr).
    assert (Hkf : key_provides toy_registry ClsAead
      (toy_key u_aead SYMMETRIC "kf" ENABLED 8 RAW) (PrimAead (toy_aead (blit "kf"))))
      by (apply registry_primitive_ok; vmr).
    destruct Hk as [<- | [<- | []]];
      [ apply (key_provides_fun _ _ _ _ _ Hp) in Hke; apply PrimAead_inj in Hke
      | apply (key_provides_fun _ _ _ _ _ Hp) in Hkf; apply PrimAead_inj in Hkf ]; subst p.
    + destruct Hr as [[Hr _] | (q & Hq & Hl & E & _)]; [discriminate |].
      destruct Hq as [[Hq _] | (s & b3 & b2 & b1 & b0 & -> & Hid & _)]; [discriminate |].
      cbn [app] in E. injection E as <- <- <- <- <- _. exfalso. vm_compute in Hid. discriminate.
    + destruct Hr as [[_ ->] | (q & Hq & Hl & _)].
      * toy_raises.
      * destruct Hq as [[_ ->] | (s & b3 & b2 & b1 & b0 & -> & Hid & [[H _] | [[H | H] _]])];
          discriminate.
Qed.

(** C06 *)
Theorem C06_only_enabled_keys_matter : forall reg h1 h2,
  valid_keyset (kh_keyset h1) -> valid_keyset (kh_keyset h2) ->
  enabled_keys (kh_keyset h1) = enabled_keys (kh_keyset h2) ->
  ks_primary_key_id (kh_keyset h1) = ks_primary_key_id (kh_keyset h2) ->
  forall c, handle_primitive reg h1 c = handle_primitive reg h2 c.
Proof. exact primitive_depends_on_enabled_only. Qed.
Print Assumptions C06_only_enabled_keys_matter.
Theorem C06_aead_rejects_what_enabled_keys_reject : forall reg h a,
  dict_get pclass_eqb ClsAead (r_wrappers reg) = Some aead_wrapper ->
  handle_primitive reg h ClsAead = Ok (PrimAead a) ->
  forall ct ad,
  (forall k p body, In k (enabled_keys (kh_keyset h)) -> key_provides reg ClsAead k (PrimAead p) ->
     reaches k ct body -> raises_tink (aead_decrypt p body ad)) ->
  raises_tink (aead_decrypt a ct ad).
Proof. exact aead_rejects_disabled. Qed.
Print Assumptions C06_aead_rejects_what_enabled_keys_reject.

(** Two valid keysets that differ in a DISABLED key. *)
Example C06_hypotheses_met :
  let ks2 := mk_keyset 42
    [ toy_key u_aead SYMMETRIC "ka" ENABLED 42 TINK;
      toy_key u_hd ASYMMETRIC_PRIVATE "other" DESTROYED 42 RAW;
      toy_key u_aead SYMMETRIC "kb" ENABLED 7 RAW;
      toy_key u_aead SYMMETRIC "kd" ENABLED 300 LEGACY ] in
  valid_keyset (toy_keyset u_aead SYMMETRIC) /\ valid_keyset ks2 /\
  enabled_keys (toy_keyset u_aead SYMMETRIC) = enabled_keys ks2 /\
  toy_keyset u_aead SYMMETRIC <> ks2 /\
  (** the ciphertext of the DISABLED key "kc" is rejected *)
  raises_tink (aead_decrypt w_aead (x00 :: x00 :: x00 :: x00 :: x09 :: blit "kc" ++ [x00]) []).
Proof.
  cbv zeta. split; [apply validate_keyset_ok; vmr |].
  split; [apply validate_keyset_ok; vmr |].
  split; [vmr |]. split; [discriminate |]. toy_raises.
Qed.
