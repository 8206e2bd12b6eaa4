(** C92: digital signatures as users of Python see them. *)
From Coq Require Import Strings.Byte Strings.String List NArith ZArith Bool Lia.
From Verif Require Import M_Base M_Utf8 M_Proto M_Wire M_ProtoMsg M_KeyFormats M_Prims M_PrimitiveSet M_Registry M_KeysetHandle M_Wrappers M_StreamTypes M_CcStream M_CcManagers
  M_Templates M_CcAes M_CcStreamKeys M_CcModes M_CcSymmetric M_CcSymKeys M_CcEcies M_CcEciesKeys M_CcSignatures S_Keyset S_Handle S_Wrappers S_Wire S_Config S_CcLaws S_CcAes S_CcStreamKeys S_CcModes S_CcSymmetric
  S_CcSymKeys S_CcSymHandles S_CcEcies S_CcEciesKeys S_CcSignatures S_CcSigHandles L_Base L_Keyset L_PrimitiveSet L_CcSymHandles3 L_CcSigNew L_CcSigNew2 L_CcSigHandles L_CcSigHandles2 L_CcSigHandles3 L_CcSigHandles4
  X_Toy L_Toy X_Config X_CliStream X_CcSymmetric X_CcSymKeys X_CcEcies X_CcSignatures.
Import ListNotations.
Open Scope string_scope.
Open Scope list_scope.
Open Scope nat_scope.

Theorem C92_sign : forall ec sg self_test w env r ks l, sig_world ec sg self_test w -> sig_laws ec sg ->
  configured w env Signature r -> sig_keyset is_sig_private (good_private ec sg) ks l ->
  exists a, handle_primitive r (mk_handle ks) ClsSign = Ok (PrimSign a) /\ sign_works sg ks l a.
Proof. exact sign_handle_works. Qed.
Print Assumptions C92_sign.
Theorem C92_verify : forall ec sg self_test w env r ks l, sig_world ec sg self_test w -> sig_laws ec sg -> rsa_sizes sg ->
  configured w env Signature r -> sig_keyset is_sig_public (good_public ec) ks l ->
  exists a, handle_primitive r (mk_handle ks) ClsVerify = Ok (PrimVerify a) /\ verify_works sg l a.
Proof. exact verify_handle_works. Qed.
Print Assumptions C92_verify.
Theorem C92_round_trip : forall ec sg ks l a l2 a2 k k2 q rnd data x, sig_laws ec sg ->
  sig_keyset is_sig_private (good_private ec sg) ks l -> sign_works sg ks l a -> is_primary ks l k q -> matching ec sg q -> verify_works sg l2 a2 ->
  In (k2, public_of q) l2 -> k_key_id k2 = k_key_id k -> k_output_prefix_type k2 = k_output_prefix_type k ->
  sign a rnd data = Ok x -> verify a2 x data = Ok tt.
Proof. exact signature_carries_over. Qed.
Print Assumptions C92_round_trip.
Theorem C92_public_handle : forall ec sg self_test w env r ks l, sig_world ec sg self_test w -> configured w env Signature r ->
  valid_keyset ks -> all_sig_private ks l -> (forall k, In k (ks_key ks) -> k_output_prefix_type k <> UNKNOWN_PREFIX /\ k_status k <> UNKNOWN_STATUS) ->
  (forall k, In k (ks_key ks) -> sig_public_fits ec sg self_test k) ->
  exists ph l', public_keyset_handle r (mk_handle ks) = Ok ph /\ ks_primary_key_id (kh_keyset ph) = ks_primary_key_id ks /\
    map fst l' = ks_key (kh_keyset ph) /\ Forall2 sig_public_half l l' /\ Forall (fun y => kd_key_material_type (k_key_data (fst y)) = ASYMMETRIC_PUBLIC) l' /\
    (sig_keyset is_sig_private (good_private ec sg) ks (enabled_ones l) -> sig_keyset is_sig_public (good_public ec) (kh_keyset ph) (enabled_ones l')).
Proof. exact sig_public_handle. Qed.
Print Assumptions C92_public_handle.
Theorem C92_new_handle : forall ec lib sg self_test w env r name t rnd raw draws, sig_world ec sg self_test w -> ec_laws ec lib -> sig_laws ec sg -> rsa_sizes sg ->
  configured w env Signature r -> In (name, Ok t) signature_templates ->
  exists h k q ph k' s v, generate_new r rnd (raw :: draws) t = Some (Ok h) /\ new_sig_handle ec sg rnd name h k q /\
    public_keyset_handle r h = Ok ph /\ sig_keyset is_sig_public (good_public ec) (kh_keyset ph) [(k', public_of q)] /\
    ks_primary_key_id (kh_keyset ph) = k_key_id k /\ k_key_id k' = k_key_id k /\ k_output_prefix_type k' = k_output_prefix_type k /\
    handle_primitive r h ClsSign = Ok (PrimSign s) /\ handle_primitive r ph ClsVerify = Ok (PrimVerify v) /\
    forall rnd' data, exists x, sign s rnd' data = Ok x /\ verify v x data = Ok tt.
Proof. exact new_sig_handle_works. Qed.
Print Assumptions C92_new_handle.

(** The hypotheses are met by the small library and its keysets. *)
Definition signature_world : cc_world :=
  let find {P} (m : sig_kind -> cc_lib_manager P) suffix url :=
    if str_eqb url (type_url ("Ecdsa" ++ suffix)) then Some (m Ecdsa) else if str_eqb url (type_url ("Ed25519" ++ suffix)) then Some (m Ed25519) else
    if str_eqb url (type_url ("RsaSsaPkcs1" ++ suffix)) then Some (m Pkcs1) else if str_eqb url (type_url ("RsaSsaPss" ++ suffix)) then Some (m Pss) else None in
  mk_cc_world (StOk tt) (StOk tt) (StOk tt) (cw_aead sym_toy_world) (cw_daead sym_toy_world) (cw_hybrid_decrypt sym_toy_world) (cw_hybrid_encrypt sym_toy_world)
    (cw_mac sym_toy_world) (cw_prf sym_toy_world) (find (sign_manager toy_ec toy_sig 1%N) "PrivateKey") (find (verify_manager toy_ec toy_sig) "PublicKey") (cw_streaming sym_toy_world).
Lemma toy_sig_world : sig_world toy_ec toy_sig 1%N signature_world.
Proof. intros []; split; reflexivity. Qed.
Lemma toy_ready : cc_ready signature_world Signature.
Proof.
  split; [reflexivity |]. intros name c b H. repeat (destruct H as [H | H]; [injection H as <- <- <-; do 2 eexists; reflexivity |]). contradiction.
Qed.
Definition signature_registry : registry := fst (setup_run signature_world stream_env 0 [CallSignature] empty_registry).
Lemma signature_configured : configured signature_world stream_env Signature signature_registry.
Proof.
  exists [CallSignature], (snd (setup_run signature_world stream_env 0 [CallSignature] empty_registry)), CallSignature. split; [| split; [left; reflexivity | reflexivity]].
  split; [unfold signature_registry; destruct (setup_run _ _ _ _ _); reflexivity |]. split; [| intros c [<- | []]; exact I].
  intros c q [<- | []] Hq. cbn in Hq. subst q. exact toy_ready.
Qed.
(** Two keys: ECDSA over P-384 with the prefix of TINK, and Ed25519 with the prefix of LEGACY *)
Definition made (kd : sig_kind) (n : nat) (rnd : coins) : key_data :=
  match nth_error signature_templates n with
  | Some (_, Ok t) => match cl_new_key_data (sign_manager toy_ec toy_sig 1%N kd) rnd (kt_value t) with StOk d => d | _ => mk_key_data [] [] 0 end
  | _ => mk_key_data [] [] 0
  end.
Definition key_a : key := mk_key (Some (made Ecdsa 3 5%N)) ENABLED 42 TINK.
Definition key_b : key := mk_key (Some (made Ed25519 10 6%N)) ENABLED 43 LEGACY.
Lemma made_private : forall n rnd name f, nth_error sig_template_formats n = Some (name, f) ->
  exists q, is_sig_private (made (format_kind f) n rnd) q /\ good_private toy_ec toy_sig q /\ matching toy_ec toy_sig q /\ kd_key_material_type (made (format_kind f) n rnd) = ASYMMETRIC_PRIVATE /\ valid_private q /\
    wf_key_data (made (format_kind f) n rnd) /\ proto_size (serialize_key_data (made (format_kind f) n rnd)) /\ forall k, k_key_data k = made (format_kind f) n rnd -> sig_public_fits toy_ec toy_sig 1%N k.
Proof.
  intros n rnd name f E. assert (T : exists t, nth_error signature_templates n = Some (name, Ok t) /\ asks_for_sig (kt_type_url t) (kt_value t) f /\ format_ok f /\ format_size_ok f /\ format_signs f).
  { pose proof sig_templates as F. revert n E. induction F as [| (a & r) (b & g) x y H F IH]; intros [| n] E; try discriminate E; cbn [nth_error] in *; [| exact (IH n E)].
    injection E as -> ->. destruct H as (EA & t & E & A & OK & SZ & FS & _). cbn [fst snd] in *. subst a r. exists t. auto. }
  destruct T as (t & ET & A & OK & SZ & FS). rewrite (proj1 A) in A.
  destruct (sig_new_key toy_ec sym_toy toy_sig 1%N rnd _ f toy_ec_laws toy_sig_laws A OK SZ) as (d & ND & _ & MT & H). destruct (new_sig_sizes _ _ _ _ rnd _ f d toy_ec_laws toy_sig_laws toy_rsa_sizes A OK SZ ND) as (S & S' & W & PF).
  assert (M : made (format_kind f) n rnd = d) by (unfold made; rewrite ET, ND; reflexivity). rewrite M. destruct (H S) as (q & _ & K & FR). destruct (fresh_sig_good _ _ _ _ _ _ toy_ec_laws toy_sig_laws OK FR) as (V & MA & G).
  exists q. split; [exact K |]. split; [exact (proj2 G FS) |]. auto 10.
Qed.
Example C92_hypotheses_met :
  sig_world toy_ec toy_sig 1%N signature_world /\ ec_laws toy_ec sym_toy /\ sig_laws toy_ec toy_sig /\ rsa_sizes toy_sig /\ configured signature_world stream_env Signature signature_registry /\
  exists qa qb, let ks := mk_keyset 43 [key_a; key_b] in let l := [(key_a, qa); (key_b, qb)] in
    valid_keyset ks /\ all_sig_private ks l /\ sig_keyset is_sig_private (good_private toy_ec toy_sig) ks l /\ enabled_ones l = l /\ matching toy_ec toy_sig qa /\ matching toy_ec toy_sig qb /\ is_primary ks l key_b qb /\
    (forall k, In k (ks_key ks) -> k_output_prefix_type k <> UNKNOWN_PREFIX /\ k_status k <> UNKNOWN_STATUS) /\
    (forall k, In k (ks_key ks) -> sig_public_fits toy_ec toy_sig 1%N k) /\
    exists ph l', public_keyset_handle signature_registry (mk_handle ks) = Ok ph /\ Forall2 sig_public_half l l' /\ sig_keyset is_sig_public (good_public toy_ec) (kh_keyset ph) l' /\
      exists k', In (k', public_of qb) l' /\ k_key_id k' = 43%N /\ k_output_prefix_type k' = LEGACY.
Proof.
  do 4 (split; [first [exact toy_sig_world | exact toy_ec_laws | exact toy_sig_laws | exact toy_rsa_sizes] |]). split; [exact signature_configured |].
  destruct (made_private 3 5%N _ _ eq_refl) as (qa & A1 & A2 & AM & A3 & A4 & A5 & A6 & A7). destruct (made_private 10 6%N _ _ eq_refl) as (qb & B1 & B2 & BM & B3 & B4 & B5 & B6 & B7). cbn [format_kind] in *.
  exists qa, qb. cbv zeta.
  assert (V : valid_keyset (mk_keyset 43 [key_a; key_b])) by (apply validate_keyset_ok; vm_compute; reflexivity).
  assert (PA : exists p, has_prefix TINK 42 p) by (apply has_prefix_exists; right; split; [auto | reflexivity]).
  assert (PB : exists p, has_prefix LEGACY 43 p) by (apply has_prefix_exists; right; split; [auto | reflexivity]).
  assert (KS : sig_keyset is_sig_private (good_private toy_ec toy_sig) (mk_keyset 43 [key_a; key_b]) [(key_a, qa); (key_b, qb)]).
  { split; [exact V |]. split; [reflexivity |]. repeat apply Forall_cons; [| | apply Forall_nil]; cbn [fst snd key_a key_b k_key_data k_key_data_opt k_output_prefix_type k_key_id]; repeat (split; [assumption |]); assumption. }
  assert (AL : all_sig_private (mk_keyset 43 [key_a; key_b]) [(key_a, qa); (key_b, qb)]).
  { split; [reflexivity |]. repeat apply Forall_cons; [| | apply Forall_nil]; cbn [fst snd key_a key_b k_key_data k_key_data_opt]; repeat (split; [assumption |]); assumption. }
  assert (KN : forall k, In k [key_a; key_b] -> k_output_prefix_type k <> UNKNOWN_PREFIX /\ k_status k <> UNKNOWN_STATUS) by (intros k [<- | [<- | []]]; split; discriminate).
  assert (PF : forall k, In k [key_a; key_b] -> sig_public_fits toy_ec toy_sig 1%N k) by (intros k [<- | [<- | []]]; [apply A7 | apply B7]; reflexivity).
  split; [exact V |]. split; [exact AL |]. split; [exact KS |]. split; [reflexivity |]. split; [exact AM |]. split; [exact BM |]. split; [split; [right; left; reflexivity | reflexivity] |].
  split; [exact KN |]. split; [exact PF |].
  destruct (sig_public_handle toy_ec toy_sig 1%N signature_world stream_env signature_registry _ _ toy_sig_world signature_configured V AL KN PF) as (ph & l' & E & PI & _ & F2 & _ & H).
  specialize (H KS). exists ph, l'. split; [exact E |]. split; [exact F2 |].
  inversion F2 as [| x1 y1 t1 t2 HA F3]. subst. inversion F3 as [| x2 y2 t3 t4 HB F4]. subst. inversion F4. subst. destruct y1 as (k1 & q1), y2 as (k2 & q2). destruct HA as (S1 & _). destruct HB as (S2 & I2 & T2 & _ & Q2). cbn [fst snd] in *. subst q2.
  unfold enabled_ones in H. cbn [filter fst] in H. rewrite S1, S2 in H. split; [exact H |]. exists k2. split; [right; left; reflexivity |]. auto.
Qed.
(** A run: signed with the private keyset, verified with the public keyset of the keyset
    before its primary key changed *)
Definition accepted (x : result unit) : bool := match x with Ok _ => true | Err _ => false end.
Definition is_err {A} (x : result A) : bool := match x with Ok _ => false | Err _ => true end.
Definition runs (from to : N) : bool :=
  match public_keyset_handle signature_registry (mk_handle (mk_keyset from [key_a; key_b])) with
  | Ok ph =>
      match handle_primitive signature_registry ph ClsVerify, handle_primitive signature_registry (mk_handle (mk_keyset to [key_a; key_b])) ClsSign with
      | Ok (PrimVerify v), Ok (PrimSign s) =>
          match sign s 9%N (blit "hello") with
          | Ok x => accepted (verify v x (blit "hello")) && is_err (verify v x (blit "jello")) && is_err (verify v (x00 :: x) (blit "hello"))
          | _ => false
          end && is_err (handle_primitive signature_registry ph ClsSign)
      | _, _ => false
      end
  | _ => false
  end%bool.
Example C92_runs : (runs 42 43 && runs 43 42)%bool = true.
Proof. vm_compute. reflexivity. Qed.
