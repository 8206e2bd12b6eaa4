(** Threads that set up packages at the same time. *)
From Coq Require Import Strings.Byte Strings.String List NArith ZArith Bool Lia.
From Verif Require Import M_Base M_Proto M_Prims M_PrimitiveSet M_Registry M_KeysetHandle M_Kms M_JwtKeys
  M_StreamTypes M_CcStream M_Stream M_CcManagers M_Threads S_Registry S_Keyset S_Config S_Threads
  L_Base L_Registry L_Config L_Config2 L_Threads.
Import ListNotations.
Open Scope string_scope.
Open Scope list_scope.

(** ** Managers up to identity *)
Definition forget (km : key_manager) : key_manager :=
  mk_key_manager 0 (km_pytype km) (km_key_type km) (km_primitive_class km) (km_does_support km)
    (km_primitive km) (km_new_key_data km) (km_public_key_data km).
Definition name_table {A} (l : list (string * A)) : list (pystr * A) := map (fun x => (type_url (fst x), snd x)) l.
(** The manager for a key type. *)
Definition canon (w : cc_world) (env : py_env) (u : pystr) : option key_manager :=
  match signature u with
  | None => None
  | Some (t, c) =>
      if N.eqb t 42 then Some (kms_aead_key_manager 0 42 (pe_clients env))
      else if N.eqb t 43 then Some (kms_envelope_aead_key_manager 0 43 (pe_registry env) (pe_coins env) (pe_clients env))
      else match c with
      | ClsAead => option_map (fun m => key_manager_cc_to_py 0 (cc_key_manager bind_aead m) ClsAead (fun p => PrimAead (aead_cc_to_py p))) (cw_aead w u)
      | ClsDaead => option_map (fun m => key_manager_cc_to_py 0 (cc_key_manager bind_daead m) ClsDaead (fun p => PrimDaead (daead_cc_to_py p))) (cw_daead w u)
      | ClsHybridDecrypt => option_map (fun m => private_key_manager_cc_to_py 0 (cc_key_manager bind_hybrid_decrypt m) ClsHybridDecrypt
          (fun p => PrimHybridDecrypt (hybrid_decrypt_cc_to_py p))) (cw_hybrid_decrypt w u)
      | ClsHybridEncrypt => option_map (fun m => key_manager_cc_to_py 0 (cc_key_manager bind_hybrid_encrypt m) ClsHybridEncrypt
          (fun p => PrimHybridEncrypt (hybrid_encrypt_cc_to_py p))) (cw_hybrid_encrypt w u)
      | ClsMac => option_map (fun m => key_manager_cc_to_py 0 (cc_key_manager bind_mac m) ClsMac (fun p => PrimMac (mac_cc_to_py p))) (cw_mac w u)
      | ClsPrf => option_map (fun m => key_manager_cc_to_py 0 (cc_key_manager bind_prf m) ClsPrf (fun p => PrimPrf (prf_cc_to_py p))) (cw_prf w u)
      | ClsSign => option_map (fun m => private_key_manager_cc_to_py 0 (cc_key_manager bind_signer m) ClsSign (fun p => PrimSign (signer_cc_to_py p))) (cw_sign w u)
      | ClsVerify => option_map (fun m => key_manager_cc_to_py 0 (cc_key_manager bind_verifier m) ClsVerify (fun p => PrimVerify (verifier_cc_to_py p))) (cw_verify w u)
      | ClsRawStreamingAead => option_map (fun m => key_manager_cc_to_py 0 (cc_key_manager (fun p => p) m) ClsRawStreamingAead
          (fun p => PrimRawStreamingAead
             (streaming_aead_cc_to_py (pe_what env) (pe_in_buffer env) (pe_out_buffer env) (pe_patience env) p))) (cw_streaming w u)
      | ClsJwtMacInternal => option_map (fun m => forget (jwt_hmac_manager (pe_rt env) (cc_key_manager bind_mac m))) (cw_mac w u)
      | ClsJwtSignInternal =>
          match dict_get str_eqb u (name_table jwt_sign_names), cw_sign w u with
          | Some akid, Some m => Some (jwt_sign_manager (pe_rt env) 0 (cc_key_manager bind_signer m) akid) | _, _ => None end
      | ClsJwtVerifyInternal =>
          match dict_get str_eqb u (name_table jwt_verify_names), cw_verify w u with
          | Some akid, Some m => Some (jwt_verify_manager (pe_rt env) 0 (cc_key_manager bind_verifier m) akid) | _, _ => None end
      | _ => None
      end
  end.
Lemma signature_names : forall l : list (string * pclass * bool), 
  forallb (fun x => match signature (type_url (fst (fst x))) with
    | Some (t, c) => pclass_eqb c (snd (fst x)) && N.eqb t (pytype_of c (snd x)) && negb (N.eqb t 42) && negb (N.eqb t 43) | None => false end) l = true ->
  forall name c b, In (name, c, b) l -> signature (type_url name) = Some (pytype_of c b, c) /\
    N.eqb (pytype_of c b) 42 = false /\ N.eqb (pytype_of c b) 43 = false.
Proof.
  intros l H name c b Hin. rewrite forallb_forall in H. specialize (H _ Hin). cbn [fst snd] in H.
  destruct (signature (type_url name)) as [[t c'] |]; [| discriminate].
  repeat (apply andb_true_iff in H; destruct H as [H ?]).
  apply pclass_eqb_eq in H. subst c'. apply N.eqb_eq in H2. subst t.
  rewrite negb_true_iff in *. auto.
Qed.
Lemma key_type_signature : forall p name c b, In (name, c, b) (key_types p) ->
  signature (type_url name) = Some (pytype_of c b, c) /\
  N.eqb (pytype_of c b) 42 = false /\ N.eqb (pytype_of c b) 43 = false.
Proof. intros p. apply signature_names. destruct p; vm_compute; reflexivity. Qed.
Lemma jwt_sign_entry : forall name akid, In (name, akid) jwt_sign_names ->
  In (name, ClsJwtSignInternal, true) (key_types JwtSignature) /\
  dict_get str_eqb (type_url name) (name_table jwt_sign_names) = Some akid.
Proof.
  intros name akid H. unfold jwt_sign_names in H. cbn [In] in H.
  destruct H as [H | [H | [H | []]]]; injection H as <- <-; (split; [cbn; tauto | reflexivity]).
Qed.
Lemma jwt_verify_entry : forall name akid, In (name, akid) jwt_verify_names ->
  In (name, ClsJwtVerifyInternal, false) (key_types JwtSignature) /\
  dict_get str_eqb (type_url name) (name_table jwt_verify_names) = Some akid.
Proof.
  intros name akid H. unfold jwt_verify_names in H. cbn [In] in H.
  destruct H as [H | [H | [H | []]]]; injection H as <- <-; (split; [cbn; tauto | reflexivity]).
Qed.
Lemma built_canon : forall w env u km, built w env u km -> canon w env u = Some (forget km).
Proof.
  intros w env u km H. unfold canon.
  destruct H as [n name m Hn Hm Hk | n name m Hn Hm Hk | n name m Hn Hm Hk | n name m Hn Hm Hk | n name m Hn Hm Hk
    | n name m Hn Hm Hk | n name m Hn Hm Hk | n name m Hn Hm Hk | n name m Hn Hm Hk | n | n | m Hm Hk
    | n name akid m Hn Hm Hk | n name akid m Hn Hm Hk].
  10, 11: reflexivity.
  11: { destruct (jwt_sign_entry _ _ Hn) as [Hn' Hd]. destruct (key_type_signature _ _ _ _ Hn') as (E1 & E2 & E3).
        rewrite E1, E2, E3, Hd, Hm. reflexivity. }
  11: { destruct (jwt_verify_entry _ _ Hn) as [Hn' Hd]. destruct (key_type_signature _ _ _ _ Hn') as (E1 & E2 & E3).
        rewrite E1, E2, E3, Hd, Hm. reflexivity. }
  10: { assert (Hn : In ("JwtHmacKey", ClsJwtMacInternal, false) (key_types JwtMac)) by (cbn; tauto).
        destruct (key_type_signature _ _ _ _ Hn) as (E1 & E2 & E3). rewrite E1, E2, E3, Hm. reflexivity. }
  all: destruct (key_type_signature _ _ _ _ Hn) as (E1 & E2 & E3); rewrite E1, E2, E3, Hm; reflexivity.
Qed.
Lemma built_same : forall w env u a b, built w env u a -> built w env u b -> forget a = forget b.
Proof. intros w env u a b Ha Hb. apply built_canon in Ha. apply built_canon in Hb. congruence. Qed.
Lemma forget_fields : forall a b, forget a = forget b ->
  km_primitive_class a = km_primitive_class b /\ km_primitive a = km_primitive b /\
  km_new_key_data a = km_new_key_data b /\ km_public_key_data a = km_public_key_data b.
Proof. intros a b H. injection H as H1 H2 H3 H4 H5 H6 H7. auto. Qed.

(** ** Safety of the calls *)
Section Calls.
  Variable okm : pystr -> key_manager * bool -> Prop.
  Variable okw : pclass -> wrapper -> Prop.
  Notation safe := (safe okm okw).

  Lemma safe_key_manager_internal : forall u KM KW (Q : post _),
    (forall v, okm u v -> Q (Ok v) (add u KM) KW) ->
    (~ KM u -> Q (Err (TinkError "No manager for type has been registered.")) KM KW) ->
    safe (key_manager_internal_prog u) KM KW Q.
  Proof.
    intros u KM KW Q H1 H2. cbn [key_manager_internal_prog L_Threads.safe negb]. split; [| exact H2].
    split; [left; reflexivity |]. exact H1.
  Qed.
  Lemma safe_key_manager : forall u KM KW (Q : post _),
    (forall v, okm u v -> Q (Ok (fst v)) (add u KM) KW) ->
    (~ KM u -> Q (Err (TinkError "No manager for type has been registered.")) KM KW) ->
    safe (key_manager_prog u) KM KW Q.
  Proof. intros u KM KW Q H1 H2. apply safe_then, safe_key_manager_internal; auto. Qed.
  Lemma safe_wrapper : forall c KM KW (Q : post _),
    (forall x, okw c x -> Q (Ok x) KM (add c KW)) ->
    (~ KW c -> Q (Err (TinkError "No PrimitiveWrapper registered for primitive.")) KM KW) ->
    safe (wrapper_prog c) KM KW Q.
  Proof.
    intros u KM KW Q H1 H2. cbn [wrapper_prog L_Threads.safe negb]. split; [| exact H2].
    split; [left; reflexivity |]. exact H1.
  Qed.
  Lemma safe_register_manager : forall km a KM KW (Q : post (result unit)),
    (km_does_support km (km_key_type km) = false ->
       Q (Err (TinkError "The manager does not support its own type.")) KM KW) ->
    (km_does_support km (km_key_type km) = true -> ~ KM (km_key_type km) ->
       okm (km_key_type km) (km, a) /\ Q (Ok tt) (add (km_key_type km) KM) KW) ->
    (forall e b, okm (km_key_type km) (e, b) ->
       (N.eqb (km_pytype e) (km_pytype km) && pclass_eqb (km_primitive_class e) (km_primitive_class km)) = true ->
       (b = false -> a = false) ->
       okm (km_key_type km) (e, a) /\
       Q (Ok tt) (add (km_key_type km) (add (km_key_type km) KM)) KW) ->
    (forall e b m, okm (km_key_type km) (e, b) ->
       ~ ((N.eqb (km_pytype e) (km_pytype km) && pclass_eqb (km_primitive_class e) (km_primitive_class km)) = true /\ (b = false -> a = false)) ->
       Q (Err (TinkError m)) (add (km_key_type km) KM) KW) ->
    safe (register_key_manager_prog km a) KM KW Q.
  Proof.
    intros km a KM KW Q H0 H1 H2 H3. unfold register_key_manager_prog.
    destruct (km_does_support km (km_key_type km)) eqn:E; cbn [negb L_Threads.safe]; [| auto].
    split; [| intros Hn; cbn [L_Threads.safe]; apply H1; auto].
    split; [left; reflexivity |]. intros [e b] Hv.
    destruct (km_pytype e =? km_pytype km)%N eqn:E1; cbn [negb orb].
    2: { cbn [L_Threads.safe]. eapply H3; [exact Hv |]. rewrite E1. cbn. intros [H _]. discriminate. }
    destruct (pclass_eqb (km_primitive_class e) (km_primitive_class km)) eqn:E2; cbn [negb].
    2: { cbn [L_Threads.safe]. eapply H3; [exact Hv |]. rewrite E1, E2. cbn. intros [H _]. discriminate. }
    destruct (negb b && a) eqn:E3; cbn [L_Threads.safe].
    - eapply H3; [exact Hv |]. intros [_ H]. destruct b, a; try discriminate. discriminate (H eq_refl).
    - eapply H2; [exact Hv | rewrite E1, E2; reflexivity |]. intros ->. destruct a; [discriminate E3 | reflexivity].
  Qed.
  Lemma safe_register_wrapper : forall x KM KW (Q : post (result unit)),
    (forall p, w_wrap x (mk_pset [] None (w_input_primitive_class x)) = Ok p -> class_of p = w_primitive_class x ->
       okw (w_primitive_class x) x /\
       (~ KW (w_primitive_class x) -> Q (Ok tt) KM (add (w_primitive_class x) KW)) /\
       (forall e, okw (w_primitive_class x) e -> w_pytype e = w_pytype x ->
          Q (Ok tt) KM (add (w_primitive_class x) (add (w_primitive_class x) KW)))) ->
    (forall e (W : pclass -> Prop), (forall c, KW c -> W c) ->
       ~ wrapper_acceptable None x \/ (exists y, okw (w_primitive_class x) y /\ w_pytype y <> w_pytype x) -> Q (Err e) KM W) ->
    safe (register_primitive_wrapper_prog x) KM KW Q.
  Proof.
    intros x KM KW Q H1 H2.
    assert (St : forall W : pclass -> Prop, (forall c, KW c -> W c) ->
      ((exists p, w_wrap x (mk_pset [] None (w_input_primitive_class x)) = Ok p /\ class_of p = w_primitive_class x) ->
        Q (Ok tt) KM (add (w_primitive_class x) W)) ->
      safe (store_wrapper_prog x) KM W Q).
    { intros W HW HQ. unfold store_wrapper_prog. change (new_primitive_set (w_input_primitive_class x)) with
        (mk_pset [] None (w_input_primitive_class x)).
      destruct (w_wrap x (mk_pset [] None (w_input_primitive_class x))) as [p | e] eqn:E.
      - unfold isinstance. destruct (pclass_eqb (class_of p) (w_primitive_class x)) eqn:Ec; cbn [negb L_Threads.safe].
        + apply pclass_eqb_eq in Ec. destruct (H1 p eq_refl Ec) as (Ho & _ & _). split; [exact Ho |]. apply HQ. eauto.
        + apply H2; [exact HW |]. left. intros [_ (p' & Ep & Hc)]. rewrite E in Ep. injection Ep as <-.
          rewrite Hc, (proj2 (pclass_eqb_eq _ _) eq_refl) in Ec. discriminate.
      - cbn [L_Threads.safe]. apply H2; [exact HW |]. left. intros [_ (p' & Ep & Hc)]. congruence. }
    cbn [register_primitive_wrapper_prog L_Threads.safe]. split.
    - split; [left; reflexivity |]. intros e He. destruct (w_pytype e =? w_pytype x)%N eqn:E; cbn [negb].
      + apply St; [intros c Hc; right; exact Hc |]. intros (p & Ep & Hc). destruct (H1 p Ep Hc) as (_ & _ & H).
        apply (H e He). apply N.eqb_eq, E.
      + cbn [L_Threads.safe]. apply H2; [intros c Hc; right; exact Hc |]. right. exists e. split; [exact He |].
        apply N.eqb_neq, E.
    - intros Hn. apply St; [auto |]. intros (p & Ep & Hc). destruct (H1 p Ep Hc) as (_ & H & _). auto.
  Qed.
End Calls.
