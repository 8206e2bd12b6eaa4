(** C02-C06: the Aead obtained from a keyset. *)
From Coq Require Import Strings.Byte Strings.String List NArith ZArith Bool Lia.
From Verif Require Import M_Base M_Proto M_Prims M_PrimitiveSet M_Registry M_KeysetHandle
  M_Wrappers S_Keyset S_Wrappers L_Base L_Keyset L_Wrappers L_Wrappers2 L_Wrappers3 X_Toy L_Toy.
Import ListNotations.
Open Scope Z_scope.

(** A concrete handle meeting the hypotheses of everything below. *)
Example C02_hypotheses_met :
  dict_get pclass_eqb ClsAead (r_wrappers toy_registry) = Some aead_wrapper /\
  handle_primitive toy_registry (toy_handle u_aead SYMMETRIC) ClsAead = Ok (PrimAead w_aead).
Proof. split; vmr. Qed.

(** C02 *)
@thm C02_aead_decrypt_sound aead_decrypt_sound

Example C02_example : exists ct pt, aead_decrypt w_aead ct (blit "ad") = Ok pt /\ pt <> [].
Proof.
  exists (x00 :: x00 :: x00 :: x01 :: x2c :: blit "kd" ++ x02 :: blit "adhello"), (blit "hello").
  split; [vmr | discriminate].
Qed.

(** C03: [aead_spec] says that decrypt is the first success over [attempts]. *)
@thm C03_aead_candidate_order aead_handle_spec

(** When the Aead can be obtained at all. *)
@thm C03_primitive_available handle_primitive_iff
@thm C03_primitive_class handle_primitive_typed_result

Example C03_spec_met : aead_spec toy_registry (toy_keyset u_aead SYMMETRIC) w_aead
  (toy_list toy_aead u_aead SYMMETRIC).
Proof.
  destruct (aead_handle_spec toy_registry (toy_handle u_aead SYMMETRIC) w_aead eq_refl eq_refl)
    as (_ & l & Hs).
  enough (l = toy_list toy_aead u_aead SYMMETRIC) by (subst; exact Hs).
  destruct Hs as [[Hl Hf] _]. change (enabled_keys _) with
    (map fst (toy_list toy_aead u_aead SYMMETRIC)) in Hl.
  destruct toy_kw_aead as [_ Hf'].
  revert Hl Hf Hf'. generalize (toy_list toy_aead u_aead SYMMETRIC) as m.
  induction l as [| [k p] l IH]; intros [| [k' p'] m] Hl Hf Hf'; try discriminate; [vmr |].
  cbn [map fst] in Hl. injection Hl as -> Hl.
  apply Forall_cons_iff in Hf. apply Forall_cons_iff in Hf'. destruct Hf as [H1 Hf], Hf' as [H2 Hf'].
  pose proof (key_provides_fun _ _ _ _ _ H1 H2) as E. cbn [fst snd] in E. injection E as ->.
  f_equal. apply IH; assumption.
Qed.

(** C04: encryption by the primary is part of [aead_spec] (C03); the round trip: *)
@thm C04_aead_round_trip aead_round_trip

Example C04_hypotheses_met :
  let k := toy_primary u_aead SYMMETRIC in
  let ct := x01 :: x00 :: x00 :: x00 :: x2a :: blit "ka" ++ x02 :: blit "adhello" in
  In k (enabled_keys (toy_keyset u_aead SYMMETRIC)) /\
  key_provides toy_registry ClsAead k (PrimAead (toy_aead (blit "ka"))) /\
  aead_encrypt w_aead 7%N (blit "hello") (blit "ad") = Ok ct /\
  (forall k' p' body, In k' (enabled_keys (toy_keyset u_aead SYMMETRIC)) -> k' <> k ->
     key_provides toy_registry ClsAead k' (PrimAead p') -> reaches k' ct body ->
     raises_tink (aead_decrypt p' body (blit "ad"))) /\
  aead_decrypt w_aead ct (blit "ad") = Ok (blit "hello").
Proof.
  cbv zeta. split; [left; vmr |].
  split; [apply registry_primitive_ok; vmr |].
  split; [vmr |]. split; [| vmr].
  apply (others_fail_ok _ _ PrimAead _ _ _ _ (fun _ p b => aead_decrypt p b (blit "ad"))
           _ _ PrimAead_inj toy_kw_aead). vmr.
Qed.

(** C05: rotation. *)
@thm C05_aead_rotation aead_rotation
@thm C05_aead_rotation_any_order aead_rotation_any_order

Example C05_hypotheses_met :
  let h2 := toy_rotated u_aead SYMMETRIC in
  let added := [toy_key u_aead SYMMETRIC "ke" ENABLED 1000 TINK;
                toy_key u_aead SYMMETRIC "kf" ENABLED 8 RAW] in
  let a2 := the_aead (handle_primitive toy_registry h2 ClsAead) in
  let ct := x01 :: x00 :: x00 :: x00 :: x2a :: blit "ka" ++ x02 :: blit "adhello" in
  handle_primitive toy_registry h2 ClsAead = Ok (PrimAead a2) /\
  interleave (enabled_keys (toy_keyset u_aead SYMMETRIC)) added (enabled_keys (kh_keyset h2)) /\
  (forall k p body, In k added -> key_provides toy_registry ClsAead k (PrimAead p) ->
     reaches k ct body -> raises_tink (aead_decrypt p body (blit "ad"))) /\
  aead_decrypt w_aead ct (blit "ad") = Ok (blit "hello") /\
  aead_decrypt a2 ct (blit "ad") = Ok (blit "hello").
Proof.
  cbv zeta. split; [vmr |]. split.
  - apply IL_right, IL_left, IL_left, IL_right, IL_left, IL_nil.
  - split; [| split; vmr].
    intros k p body Hk Hp Hr.
    assert (Hke : key_provides toy_registry ClsAead
      (toy_key u_aead SYMMETRIC "ke" ENABLED 1000 TINK) (PrimAead (toy_aead (blit "ke"))))
      by (apply registry_primitive_ok; vmr).
    assert (Hkf : key_provides toy_registry ClsAead
      (toy_key u_aead SYMMETRIC "kf" ENABLED 8 RAW) (PrimAead (toy_aead (blit "kf"))))
      by (apply registry_primitive_ok; vmr).
    destruct Hk as [<- | [<- | []]];
      [ apply (key_provides_fun _ _ _ _ _ Hp) in Hke; apply PrimAead_inj in Hke
      | apply (key_provides_fun _ _ _ _ _ Hp) in Hkf; apply PrimAead_inj in Hkf ]; subst p.
    + destruct Hr as [[Hr _] | (q & Hq & Hl & E & _)]; [discriminate |].
      destruct Hq as [[Hq _] | (s & b3 & b2 & b1 & b0 & -> & Hid & _)]; [discriminate |].
      cbn [app] in E. injection E as <- <- <- <- <- _. exfalso. vm_compute in Hid. discriminate.
    + destruct Hr as [[_ ->] | (q & Hq & Hl & _)].
      * toy_raises.
      * destruct Hq as [[_ ->] | (s & b3 & b2 & b1 & b0 & -> & Hid & [[H _] | [[H | H] _]])];
          discriminate.
Qed.

(** C06 *)
@thm C06_only_enabled_keys_matter primitive_depends_on_enabled_only
@thm C06_aead_rejects_what_enabled_keys_reject aead_rejects_disabled

(** Two valid keysets that differ in a DISABLED key. *)
Example C06_hypotheses_met :
  let ks2 := mk_keyset 42
    [ toy_key u_aead SYMMETRIC "ka" ENABLED 42 TINK;
      toy_key u_hd ASYMMETRIC_PRIVATE "other" DESTROYED 42 RAW;
      toy_key u_aead SYMMETRIC "kb" ENABLED 7 RAW;
      toy_key u_aead SYMMETRIC "kd" ENABLED 300 LEGACY ] in
  valid_keyset (toy_keyset u_aead SYMMETRIC) /\ valid_keyset ks2 /\
  enabled_keys (toy_keyset u_aead SYMMETRIC) = enabled_keys ks2 /\
  toy_keyset u_aead SYMMETRIC <> ks2 /\
  (** the ciphertext of the DISABLED key "kc" is rejected *)
  raises_tink (aead_decrypt w_aead (x00 :: x00 :: x00 :: x00 :: x09 :: blit "kc" ++ [x00]) []).
Proof.
  cbv zeta. split; [apply validate_keyset_ok; vmr |].
  split; [apply validate_keyset_ok; vmr |].
  split; [vmr |]. split; [discriminate |]. toy_raises.
Qed.
