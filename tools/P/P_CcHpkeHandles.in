(** C96: hybrid encryption with HPKE as users of Python see it. *)
From Coq Require Import Strings.Byte Strings.String List NArith ZArith Bool Lia.
From Verif Require Import M_Base M_Utf8 M_Proto M_Wire M_ProtoMsg M_KeyFormats M_Prims M_PrimitiveSet M_Registry M_KeysetHandle M_Wrappers M_StreamTypes M_CcStream M_CcManagers
  M_Templates M_CcAes M_CcStreamKeys M_CcModes M_CcSymmetric M_CcSymKeys M_CcEcies M_CcEciesKeys M_CcHpke S_Keyset S_Handle S_Wrappers S_Wire S_Config S_CcLaws S_CcAes S_CcStreamKeys S_CcModes S_CcSymmetric
  S_CcSymKeys S_CcSymHandles S_CcEcies S_CcEciesKeys S_CcEciesHandles S_CcHpke S_CcHpkeHandles L_Base L_Keyset L_PrimitiveSet L_CcSymHandles3 L_CcEciesKeys L_CcEciesKeys2 L_CcEciesHandles L_CcEciesHandles2 L_CcEciesHandles3 L_CcHpke L_CcHpke2 L_CcHpkeHandles L_CcHpkeHandles2
  X_Toy L_Toy X_Config X_CliStream X_CcSymmetric X_CcSymKeys X_CcEcies X_CcHpke.
Import ListNotations.
Open Scope string_scope.
Open Scope list_scope.
Open Scope nat_scope.

@thm C96_encrypt hpke_encrypt_handle_works
@thm C96_decrypt hpke_decrypt_handle_works
@thm C96_round_trip hpke_carries_over
@thm C96_public_handle hpke_public_handle
@thm C96_new_handle new_hpke_handle_works

(** The hypotheses are met by the small library and its keysets. *)
Definition idle {P} (url : pystr) : cc_lib_manager P := mk_cc_lib_manager url (fun _ => StErr Undefined) (fun _ _ => StErr Undefined) None.
Definition hybrid_world : cc_world :=
  mk_cc_world (StOk tt) (StOk tt) (StOk tt) (cw_aead sym_toy_world) (cw_daead sym_toy_world)
    (fun url => if str_eqb url (type_url "HpkePrivateKey") then Some (hpke_private_key_manager toy_ec toy_hpke) else Some (idle url))
    (fun url => if str_eqb url (type_url "HpkePublicKey") then Some (hpke_public_key_manager toy_hpke) else Some (idle url))
    (cw_mac sym_toy_world) (cw_prf sym_toy_world) (cw_sign sym_toy_world) (cw_verify sym_toy_world) (cw_streaming sym_toy_world).
Lemma toy_hpke_world : hpke_world toy_ec toy_hpke hybrid_world.
Proof. split; reflexivity. Qed.
Lemma toy_ready : cc_ready hybrid_world Hybrid.
Proof.
  split; [split; reflexivity |]. intros name c b [E | [E | [E | [E | []]]]]; injection E as <- <- <-; do 2 eexists; reflexivity.
Qed.
Definition hybrid_registry : registry := fst (setup_run hybrid_world stream_env 0 [CallHybrid] empty_registry).
Lemma hybrid_configured : configured hybrid_world stream_env Hybrid hybrid_registry.
Proof.
  exists [CallHybrid], (snd (setup_run hybrid_world stream_env 0 [CallHybrid] empty_registry)), CallHybrid. split; [| split; [left; reflexivity | reflexivity]].
  split; [unfold hybrid_registry; destruct (setup_run _ _ _ _ _); reflexivity |]. split; [| intros c [<- | []]; exact I].
  intros c q [<- | []] Hq. cbn in Hq. subst q. exact toy_ready.
Qed.
(** Two keys, for a template with AES-128 and one with ChaCha20 *)
Definition made (n : nat) (rnd : coins) : key_data :=
  match nth_error hybrid_templates n with
  | Some (_, Ok t) => match cl_new_key_data (hpke_private_key_manager toy_ec toy_hpke) rnd (kt_value t) with StOk d => d | _ => mk_key_data [] [] 0 end
  | _ => mk_key_data [] [] 0
  end.
Definition key_a : key := mk_key (Some (made 4 5%N)) ENABLED 42 TINK.
Definition key_b : key := mk_key (Some (made 8 6%N)) ENABLED 43 CRUNCHY.
Lemma made_private : forall n rnd, (exists name t, nth_error hybrid_templates n = Some (name, Ok t) /\ kt_type_url t = type_url "HpkePrivateKey") ->
  exists q, is_hpke_private (made n rnd) q /\ good_hpke_private toy_ec q /\ kd_key_material_type (made n rnd) = ASYMMETRIC_PRIVATE /\ suite_stated (hpub_suite (hprv_public q)) /\
    wf_key_data (made n rnd) /\ proto_size (serialize_key_data (made n rnd)) /\ forall k, k_key_data k = made n rnd -> hpke_public_fits toy_ec toy_hpke k.
Proof.
  intros n rnd (name & t & E & U). destruct (hpke_template_found name t (nth_error_In _ _ E) U) as (I4 & p & a & b & _ & A & W & _). rewrite U in A.
  destruct (hpke_new_key toy_ec sym_toy toy_hpke rnd _ _ toy_ec_laws A (works_made p a W)) as (d & ND & _ & MT & H). destruct (hpke_template_sizes _ _ _ name t rnd d toy_ec_laws I4 ND) as ((_ & _ & WD & S & S' & _) & PF).
  assert (M : made n rnd = d) by (unfold made; rewrite E, ND; reflexivity). rewrite M. destruct (H S) as (s & X & K & F).
  exists (mk_hpke_private (mk_hpke_public p X) s). split; [exact K |]. split; [split; [exists a; exact W | exact (fresh_pair_hpke _ _ p rnd s X a toy_ec_laws W F)] |]. split; [exact MT |]. split; [exact (made_stated p (works_made p a W)) |]. auto.
Qed.
Example C96_hypotheses_met :
  hpke_world toy_ec toy_hpke hybrid_world /\ ec_laws toy_ec sym_toy /\ hpke_laws toy_ec toy_hpke /\ configured hybrid_world stream_env Hybrid hybrid_registry /\
  exists qa qb, let ks := mk_keyset 43 [key_a; key_b] in let l := [(key_a, qa); (key_b, qb)] in
    valid_keyset ks /\ all_hpke_private ks l /\ hybrid_keyset is_hpke_private (good_hpke_private toy_ec) ks l /\ enabled_of l = l /\ hpke_told_apart key_a qa l /\ hpke_told_apart key_b qb l /\
    (forall k, In k (ks_key ks) -> k_output_prefix_type k <> UNKNOWN_PREFIX /\ k_status k <> UNKNOWN_STATUS) /\
    (forall k, In k (ks_key ks) -> hpke_public_fits toy_ec toy_hpke k) /\
    exists ph l', public_keyset_handle hybrid_registry (mk_handle ks) = Ok ph /\ Forall2 hpke_public_half l l' /\ hybrid_keyset is_hpke_public good_hpke_public (kh_keyset ph) l' /\
      exists k', is_primary (kh_keyset ph) l' k' (hprv_public qb) /\ k_key_id k' = 43%N /\ k_output_prefix_type k' = CRUNCHY.
Proof.
  do 3 (split; [first [exact toy_hpke_world | exact toy_ec_laws | exact toy_hpke_laws] |]). split; [exact hybrid_configured |].
  destruct (made_private 4 5%N) as (qa & A1 & A2 & A3 & A7 & A4 & A5 & A6); [do 2 eexists; split; [vm_compute; reflexivity | reflexivity] |].
  destruct (made_private 8 6%N) as (qb & B1 & B2 & B3 & B7 & B4 & B5 & B6); [do 2 eexists; split; [vm_compute; reflexivity | reflexivity] |].
  exists qa, qb. cbv zeta.
  assert (V : valid_keyset (mk_keyset 43 [key_a; key_b])) by (apply validate_keyset_ok; vm_compute; reflexivity).
  assert (PA : exists p, has_prefix TINK 42 p) by (apply has_prefix_exists; right; split; [auto | reflexivity]).
  assert (PB : exists p, has_prefix CRUNCHY 43 p) by (apply has_prefix_exists; right; split; [auto | reflexivity]).
  assert (KS : hybrid_keyset is_hpke_private (good_hpke_private toy_ec) (mk_keyset 43 [key_a; key_b]) [(key_a, qa); (key_b, qb)]).
  { split; [exact V |]. split; [reflexivity |]. repeat apply Forall_cons; [| | apply Forall_nil]; cbn [fst snd key_a key_b k_key_data k_key_data_opt k_output_prefix_type k_key_id]; repeat (split; [assumption |]); assumption. }
  assert (AL : all_hpke_private (mk_keyset 43 [key_a; key_b]) [(key_a, qa); (key_b, qb)]).
  { split; [reflexivity |]. repeat apply Forall_cons; [| | apply Forall_nil]; cbn [fst snd key_a key_b k_key_data k_key_data_opt]; repeat (split; [assumption |]); assumption. }
  assert (KN : forall k, In k [key_a; key_b] -> k_output_prefix_type k <> UNKNOWN_PREFIX /\ k_status k <> UNKNOWN_STATUS) by (intros k [<- | [<- | []]]; split; discriminate).
  assert (PF : forall k, In k [key_a; key_b] -> hpke_public_fits toy_ec toy_hpke k) by (intros k [<- | [<- | []]]; [apply A6 | apply B6]; reflexivity).
  split; [exact V |]. split; [exact AL |]. split; [exact KS |]. split; [reflexivity |].
  split; [right; split; [discriminate |]; intros k q [E | [E | []]]; injection E as <- <-; (split; [discriminate |]); (reflexivity || discriminate) |].
  split; [right; split; [discriminate |]; intros k q [E | [E | []]]; injection E as <- <-; (split; [discriminate |]); (reflexivity || discriminate) |].
  split; [exact KN |]. split; [exact PF |].
  destruct (hpke_public_handle toy_ec sym_toy toy_hpke hybrid_world stream_env hybrid_registry _ _ toy_hpke_world toy_ec_laws hybrid_configured V AL KN PF) as (ph & l' & E & PI & _ & F2 & _ & H).
  specialize (H KS). exists ph, l'. split; [exact E |]. split; [exact F2 |].
  inversion F2 as [| x1 y1 t1 t2 HA F3]. subst. inversion F3 as [| x2 y2 t3 t4 HB F4]. subst. inversion F4. subst. destruct y1 as (k1 & q1), y2 as (k2 & q2). destruct HA as (S1 & _). destruct HB as (S2 & I2 & T2 & _ & Q2). cbn [fst snd] in *. subst q2.
  unfold enabled_of in H. cbn [filter fst] in H. rewrite S1, S2 in H. split; [exact H |]. exists k2. split; [split; [right; left; reflexivity | rewrite I2, PI; reflexivity] |]. auto.
Qed.
(** A run: encrypted for the public keyset, decrypted with the private keyset after the
    primary key changed *)
Definition is_ok (x : result bytes) (y : bytes) : bool := match x with Ok z => bytes_eqb z y | Err _ => false end.
Definition is_err {A} (x : result A) : bool := match x with Ok _ => false | Err _ => true end.
Definition runs (from to : N) : bool :=
  match public_keyset_handle hybrid_registry (mk_handle (mk_keyset from [key_a; key_b])) with
  | Ok ph =>
      match handle_primitive hybrid_registry ph ClsHybridEncrypt, handle_primitive hybrid_registry (mk_handle (mk_keyset to [key_a; key_b])) ClsHybridDecrypt with
      | Ok (PrimHybridEncrypt e), Ok (PrimHybridDecrypt d) =>
          match he_encrypt e 9%N (blit "hello") (blit "info") with
          | Ok C => is_ok (hd_decrypt d C (blit "info")) (blit "hello") && is_err (hd_decrypt d C (blit "other")) && is_err (hd_decrypt d (x00 :: C) (blit "info"))
          | _ => false
          end && is_err (handle_primitive hybrid_registry ph ClsHybridDecrypt)
      | _, _ => false
      end
  | _ => false
  end%bool.
Example C96_runs : (runs 42 43 && runs 43 42)%bool = true.
Proof. vm_compute. reflexivity. Qed.
