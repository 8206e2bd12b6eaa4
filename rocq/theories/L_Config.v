(** Proofs about the register functions. *)
From Coq Require Import Strings.Byte Strings.String List NArith ZArith Bool Lia.
From Verif Require Import M_Base M_Proto M_Wire M_Prims M_PrimitiveSet M_Registry M_KeysetHandle M_Wrappers M_Kms
  M_Json M_JwtWrappers M_JwtKeys M_StreamTypes M_CcStream M_Stream M_CcManagers
  S_Keyset S_Registry S_Wire S_Config L_Base L_Registry L_Wire.
Import ListNotations.
Open Scope string_scope.
Open Scope list_scope.

(** ** The managers of the tables *)

Definition jwt_sign_names := [("JwtEcdsaPrivateKey", ecdsa_private_alg_kid);
  ("JwtRsaSsaPkcs1PrivateKey", pkcs1_private_alg_kid); ("JwtRsaSsaPssPrivateKey", pss_private_alg_kid)].
Definition jwt_verify_names := [("JwtEcdsaPublicKey", ecdsa_public_alg_kid);
  ("JwtRsaSsaPkcs1PublicKey", pkcs1_public_alg_kid); ("JwtRsaSsaPssPublicKey", pss_public_alg_kid)].

Inductive built (w : cc_world) (env : py_env) : pystr -> key_manager -> Prop :=
| b_aead : forall n name m, In (name, ClsAead, false) (key_types Aead) ->
    cw_aead w (type_url name) = Some m -> cl_key_type m = type_url name ->
    built w env (type_url name) (key_manager_cc_to_py n (cc_key_manager bind_aead m) ClsAead (fun p => PrimAead (aead_cc_to_py p)))
| b_daead : forall n name m, In (name, ClsDaead, false) (key_types Daead) ->
    cw_daead w (type_url name) = Some m -> cl_key_type m = type_url name ->
    built w env (type_url name) (key_manager_cc_to_py n (cc_key_manager bind_daead m) ClsDaead (fun p => PrimDaead (daead_cc_to_py p)))
| b_hd : forall n name m, In (name, ClsHybridDecrypt, true) (key_types Hybrid) ->
    cw_hybrid_decrypt w (type_url name) = Some m -> cl_key_type m = type_url name ->
    built w env (type_url name) (private_key_manager_cc_to_py n (cc_key_manager bind_hybrid_decrypt m) ClsHybridDecrypt
      (fun p => PrimHybridDecrypt (hybrid_decrypt_cc_to_py p)))
| b_he : forall n name m, In (name, ClsHybridEncrypt, false) (key_types Hybrid) ->
    cw_hybrid_encrypt w (type_url name) = Some m -> cl_key_type m = type_url name ->
    built w env (type_url name) (key_manager_cc_to_py n (cc_key_manager bind_hybrid_encrypt m) ClsHybridEncrypt
      (fun p => PrimHybridEncrypt (hybrid_encrypt_cc_to_py p)))
| b_mac : forall n name m, In (name, ClsMac, false) (key_types Mac) ->
    cw_mac w (type_url name) = Some m -> cl_key_type m = type_url name ->
    built w env (type_url name) (key_manager_cc_to_py n (cc_key_manager bind_mac m) ClsMac (fun p => PrimMac (mac_cc_to_py p)))
| b_prf : forall n name m, In (name, ClsPrf, false) (key_types Prf) ->
    cw_prf w (type_url name) = Some m -> cl_key_type m = type_url name ->
    built w env (type_url name) (key_manager_cc_to_py n (cc_key_manager bind_prf m) ClsPrf (fun p => PrimPrf (prf_cc_to_py p)))
| b_sign : forall n name m, In (name, ClsSign, true) (key_types Signature) ->
    cw_sign w (type_url name) = Some m -> cl_key_type m = type_url name ->
    built w env (type_url name) (private_key_manager_cc_to_py n (cc_key_manager bind_signer m) ClsSign (fun p => PrimSign (signer_cc_to_py p)))
| b_verify : forall n name m, In (name, ClsVerify, false) (key_types Signature) ->
    cw_verify w (type_url name) = Some m -> cl_key_type m = type_url name ->
    built w env (type_url name) (key_manager_cc_to_py n (cc_key_manager bind_verifier m) ClsVerify (fun p => PrimVerify (verifier_cc_to_py p)))
| b_streaming : forall n name m, In (name, ClsRawStreamingAead, false) (key_types StreamingAead) ->
    cw_streaming w (type_url name) = Some m -> cl_key_type m = type_url name ->
    built w env (type_url name) (key_manager_cc_to_py n (cc_key_manager (fun p => p) m) ClsRawStreamingAead
      (fun p => PrimRawStreamingAead
         (streaming_aead_cc_to_py (pe_what env) (pe_in_buffer env) (pe_out_buffer env) (pe_patience env) p)))
| b_kms : forall n, built w env (type_url "KmsAeadKey") (kms_aead_key_manager n 42 (pe_clients env))
| b_envelope : forall n, built w env (type_url "KmsEnvelopeAeadKey")
    (kms_envelope_aead_key_manager n 43 (pe_registry env) (pe_coins env) (pe_clients env))
| b_jwt_mac : forall m, cw_mac w (type_url "JwtHmacKey") = Some m -> cl_key_type m = type_url "JwtHmacKey" ->
    built w env (type_url "JwtHmacKey") (jwt_hmac_manager (pe_rt env) (cc_key_manager bind_mac m))
| b_jwt_sign : forall n name akid m, In (name, akid) jwt_sign_names ->
    cw_sign w (type_url name) = Some m -> cl_key_type m = type_url name ->
    built w env (type_url name) (jwt_sign_manager (pe_rt env) n (cc_key_manager bind_signer m) akid)
| b_jwt_verify : forall n name akid m, In (name, akid) jwt_verify_names ->
    cw_verify w (type_url name) = Some m -> cl_key_type m = type_url name ->
    built w env (type_url name) (jwt_verify_manager (pe_rt env) n (cc_key_manager bind_verifier m) akid).

Definition pytype_of (c : pclass) (private : bool) : N :=
  match c with
  | ClsJwtMacInternal => 30
  | ClsJwtSignInternal => 31
  | ClsJwtVerifyInternal => 32
  | _ => if private then 41 else 40
  end.
Definition signatures : list (pystr * (N * pclass)) :=
  flat_map (fun p => map (fun x => (type_url (fst (fst x)), (pytype_of (snd (fst x)) (snd x), snd (fst x)))) (key_types p))
    packages ++
  [(type_url "KmsAeadKey", (42%N, ClsAead)); (type_url "KmsEnvelopeAeadKey", (43%N, ClsAead))].
Definition signature (url : pystr) : option (N * pclass) := dict_get str_eqb url signatures.

Ltac in_cases H := repeat (destruct H as [H | H]; [try (injection H as <-) | try contradiction]).

Lemma signature_in : forall p url, In url (type_urls p) -> signature url <> None.
Proof.
  intros p url H.
  assert (forallb (fun u => match signature u with Some _ => true | None => false end) (type_urls p) = true)
    as Hb by (destruct p; vm_compute; reflexivity).
  rewrite forallb_forall in Hb. apply Hb in H. destruct (signature url); congruence.
Qed.
Lemma signature_out : forall url, signature url <> None -> exists p, In url (type_urls p).
Proof.
  intros url H.
  assert (Hin : In url (map fst signatures)).
  { unfold signature in H. induction signatures as [| [k v] l IH]; cbn in *; [congruence |].
    destruct (str_eqb url k) eqn:E; [apply str_eqb_spec in E; auto | auto]. }
  assert (Hb : forallb (fun u => existsb (fun p => existsb (str_eqb u) (type_urls p)) packages) (map fst signatures) = true)
    by (vm_compute; reflexivity).
  rewrite forallb_forall in Hb. apply Hb in Hin. apply existsb_exists in Hin.
  destruct Hin as (p & _ & Hp). apply existsb_exists in Hp. destruct Hp as (u & Hu & E).
  apply str_eqb_spec in E. subst u. eauto.
Qed.
(** No type url belongs to two packages. *)
Lemma type_urls_disjoint : forall p q url, In url (type_urls p) -> In url (type_urls q) -> p = q.
Proof.
  intros p q url Hp Hq.
  assert (Hb : forallb (fun u => negb (existsb (str_eqb u) (type_urls q))) (type_urls p) = true \/ p = q).
  { destruct p, q; try (right; reflexivity); left; vm_compute; reflexivity. }
  destruct Hb as [Hb | E]; [| exact E]. exfalso.
  rewrite forallb_forall in Hb. apply Hb in Hp. apply negb_true_iff in Hp.
  assert (existsb (str_eqb url) (type_urls q) = true)
    by (apply existsb_exists; exists url; split; [exact Hq | apply str_eqb_spec; reflexivity]).
  congruence.
Qed.

Lemma built_signature : forall w env url km, built w env url km ->
  km_key_type km = url /\ km_does_support km url = true /\
  signature url = Some (km_pytype km, km_primitive_class km).
Proof.
  intros w env url km H.
  destruct H; cbn [km_key_type km_does_support km_pytype km_primitive_class key_manager_cc_to_py
    private_key_manager_cc_to_py cc_key_type cc_key_manager kms_aead_key_manager kms_envelope_aead_key_manager
    jwt_hmac_manager jwt_sign_manager jwt_verify_manager];
  try match goal with E : cl_key_type _ = _ |- _ => rewrite E end;
  (split; [reflexivity | split; [apply str_eqb_refl |]]);
  try match goal with Hi : In _ _ |- _ =>
    cbn in Hi; repeat (destruct Hi as [Hi | Hi]; [first [discriminate Hi | injection Hi; intros; subst; vm_compute; reflexivity] |]); contradiction end;
  vm_compute; reflexivity.
Qed.

Definition table_wrapper (c : pclass) : option wrapper :=
  match c with
  | ClsAead => Some aead_wrapper
  | ClsDaead => Some daead_wrapper
  | ClsHybridDecrypt => Some hybrid_decrypt_wrapper
  | ClsHybridEncrypt => Some hybrid_encrypt_wrapper
  | ClsMac => Some mac_wrapper
  | ClsPrfSet => Some prf_set_wrapper
  | ClsSign => Some public_key_sign_wrapper
  | ClsVerify => Some public_key_verify_wrapper
  | ClsStreamingAead => Some streaming_aead_wrapper
  | ClsJwtMac => Some jwt_mac_wrapper
  | ClsJwtSign => Some jwt_sign_wrapper
  | ClsJwtVerify => Some jwt_verify_wrapper
  | _ => None
  end.
Lemma table_wrapper_in : forall c p, In c (map fst (primitives p)) -> exists x, table_wrapper c = Some x.
Proof.
  intros c p H. destruct p; cbn in H; repeat (destruct H as [<- | H]; [eexists; reflexivity |]); contradiction.
Qed.
Lemma table_wrapper_out : forall c x, table_wrapper c = Some x -> exists p, In c (map fst (primitives p)).
Proof.
  intros c x H. destruct c; try discriminate;
    [exists Aead | exists Daead | exists Mac | exists Signature | exists Signature | exists Hybrid | exists Hybrid
     | exists Prf | exists StreamingAead | exists JwtMac | exists JwtSignature | exists JwtSignature]; cbn; auto.
Qed.
Lemma table_wrapper_ok : forall c x, table_wrapper c = Some x ->
  w_primitive_class x = c /\ exists p, w_wrap x (mk_pset [] None (w_input_primitive_class x)) = Ok p /\ class_of p = c.
Proof.
  intros c x H. destruct c; try discriminate H; injection H as <-; split; try reflexivity;
    eexists; split; reflexivity.
Qed.

(** ** One call *)
Definition inv (w : cc_world) (env : py_env) (r : registry) : Prop :=
  (forall url km b, manager_of r url = Some (km, b) -> signature url <> None -> b = true /\ built w env url km) /\
  (forall c x y, wrapper_of r c = Some x -> table_wrapper c = Some y -> x = y).
Definition good (w : cc_world) (env : py_env) (op : registry_op) : Prop :=
  match op with
  | OpRegisterKeyManager km a => a = true /\ built w env (km_key_type km) km
  | OpRegisterWrapper x => table_wrapper (w_primitive_class x) = Some x
  end.
Definition touches_m (op : registry_op) (url : pystr) : Prop :=
  match op with OpRegisterKeyManager km _ => km_key_type km = url | _ => False end.
Definition touches_w (op : registry_op) (c : pclass) : Prop :=
  match op with OpRegisterWrapper x => w_primitive_class x = c | _ => False end.

(** What has been set up stays; only what [ms] and [ws] name is added. *)
Definition grows (r r' : registry) (ms : pystr -> Prop) (ws : pclass -> Prop) : Prop :=
  (forall url v, signature url <> None -> manager_of r url = Some v -> manager_of r' url = Some v) /\
  (forall c x, table_wrapper c <> None -> wrapper_of r c = Some x -> wrapper_of r' c = Some x) /\
  (forall url, ms url -> manager_of r' url <> None) /\
  (forall c, ws c -> wrapper_of r' c <> None) /\
  (forall url, signature url <> None -> ~ ms url -> manager_of r' url = manager_of r url) /\
  (forall c, table_wrapper c <> None -> ~ ws c -> wrapper_of r' c = wrapper_of r c).

Lemma good_step : forall w env r op, inv w env r -> good w env op ->
  exists r', registry_apply r op = Ok r' /\ inv w env r' /\ grows r r' (touches_m op) (touches_w op).
Proof.
  intros w env r op [I1 I2] Hg. destruct op as [km a | x]; cbn [registry_apply good] in *.
  - destruct Hg as [-> Hb]. destruct (built_signature _ _ _ _ Hb) as (_ & Hs & Hsig).
    destruct (register_key_manager_spec r km true) as [Hok _].
    destruct Hok as (r' & Hr & Hm & Ho & Hw).
    { split; [exact Hs |]. intros km0 b0 Hold.
      destruct (I1 _ _ _ Hold) as [-> Hb0]; [congruence |].
      destruct (built_signature _ _ _ _ Hb0) as (_ & _ & Hsig0). rewrite Hsig in Hsig0.
      injection Hsig0 as -> ->. repeat split; auto. }
    exists r'. split; [exact Hr |].
    assert (Hkeep : forall url v, signature url <> None -> manager_of r url = Some v -> manager_of r' url = Some v).
    { intros url [km0 b0] Hsu Hv. destruct (list_eq_dec N.eq_dec url (km_key_type km)) as [-> | Hne].
      - rewrite Hm, Hv. destruct (I1 _ _ _ Hv Hsu) as [-> _]. reflexivity.
      - rewrite Ho by exact Hne. exact Hv. }
    split; [split |].
    + intros url km' b Hv Hsu. destruct (list_eq_dec N.eq_dec url (km_key_type km)) as [-> | Hne].
      * rewrite Hm in Hv. destruct (manager_of r (km_key_type km)) as [[km0 b0] |] eqn:E0.
        -- injection Hv as <- <-. split; [reflexivity |]. exact (proj2 (I1 _ _ _ E0 Hsu)).
        -- injection Hv as <- <-. auto.
      * rewrite Ho in Hv by exact Hne. eauto.
    + intros c x y Hx Hy. rewrite Hw in Hx. eauto.
    + split; [exact Hkeep |]. split; [intros; rewrite Hw; assumption |].
      split; [cbn; intros url <-; rewrite Hm; discriminate |]. split; [contradiction |].
      split; [cbn; intros; apply Ho; congruence | intros; apply Hw].
  - destruct (table_wrapper_ok _ _ Hg) as (_ & p & Hp & Hc).
    destruct (register_primitive_wrapper_spec r x) as [Hok _].
    destruct Hok as (r' & Hr & Hx & Ho & Hm).
    { split; [intros w0 H0; rewrite (I2 _ _ _ H0 Hg); reflexivity | eauto]. }
    exists r'. split; [exact Hr |].
    assert (Hdec : forall c, c = w_primitive_class x \/ c <> w_primitive_class x).
    { intros c. destruct (pclass_eqb c (w_primitive_class x)) eqn:E; [left; apply pclass_eqb_eq; exact E |].
      right. intros ->. rewrite (proj2 (pclass_eqb_eq _ _) eq_refl) in E. discriminate. }
    split; [split |].
    + intros url km b Hv Hsu. rewrite Hm in Hv. eauto.
    + intros c x' y Hx' Hy. destruct (Hdec c) as [-> | Hne].
      * rewrite Hx in Hx'. congruence.
      * rewrite Ho in Hx' by exact Hne. eauto.
    + split; [intros; rewrite Hm; assumption |]. split.
      { intros c x' Ht Hx'. destruct (Hdec c) as [-> | Hne]; [| rewrite Ho by exact Hne; exact Hx'].
        rewrite Hx. f_equal. symmetry. eauto. }
      split; [contradiction |]. split; [cbn; intros c <-; rewrite Hx; discriminate |].
      split; [intros; apply Hm | cbn; intros; apply Ho; congruence].
Qed.

Lemma grows_refl : forall r, grows r r (fun _ => False) (fun _ => False).
Proof. intros r. unfold grows. repeat split; auto; contradiction. Qed.
Lemma grows_trans : forall r1 r2 r3 (m1 : pystr -> Prop) (w1 : pclass -> Prop) m2 w2,
  (forall u, m1 u -> signature u <> None) -> (forall c, w1 c -> table_wrapper c <> None) ->
  grows r1 r2 m1 w1 -> grows r2 r3 m2 w2 ->
  grows r1 r3 (fun u => m1 u \/ m2 u) (fun c => w1 c \/ w2 c).
Proof.
  intros r1 r2 r3 m1 w1 m2 w2 Hm Hw (A1 & A2 & A3 & A4 & A5 & A6) (B1 & B2 & B3 & B4 & B5 & B6).
  split; [eauto |]. split; [eauto |].
  split. { intros u [H | H]; [| eauto]. destruct (manager_of r2 u) eqn:E; [| exfalso; eapply A3; eauto].
    rewrite (B1 _ _ (Hm _ H) E). discriminate. }
  split. { intros c [H | H]; [| eauto]. destruct (wrapper_of r2 c) eqn:E; [| exfalso; eapply A4; eauto].
    rewrite (B2 _ _ (Hw _ H) E). discriminate. }
  split; intros; [rewrite B5, A5 | rewrite B6, A6]; auto.
Qed.
Lemma grows_ext : forall r r' m w m' w', (forall u, m u <-> m' u) -> (forall c, w c <-> w' c) ->
  grows r r' m w -> grows r r' m' w'.
Proof.
  intros r r' m w m' w' Hm Hw (A1 & A2 & A3 & A4 & A5 & A6). unfold grows.
  split; [exact A1 |]. split; [exact A2 |].
  split; [intros u H; apply A3, Hm, H |]. split; [intros c H; apply A4, Hw, H |].
  split; [intros u Hs H; apply A5; [exact Hs | rewrite Hm; exact H]
         | intros c Hs H; apply A6; [exact Hs | rewrite Hw; exact H]].
Qed.

Lemma good_touches_m : forall w env op u, good w env op -> touches_m op u -> signature u <> None.
Proof.
  intros w env [km a | x] u Hg Ht; [| contradiction]. cbn [good touches_m] in *. destruct Hg as [_ Hb]. subst u.
  destruct (built_signature _ _ _ _ Hb) as (_ & _ & H). congruence.
Qed.
Lemma good_touches_w : forall w env op c, good w env op -> touches_w op c -> table_wrapper c <> None.
Proof. intros w env [km a | x] u Hg Ht; [contradiction |]. cbn [good touches_w] in *. subst u. congruence. Qed.

(** ** Lists of calls *)
Definition ops_action (ops : list registry_op) : action := run_all (map (fun o => call_registry (Ok o)) ops).
Lemma perform_nil : forall r, perform (run_all []) r = (r, Ok tt).
Proof. reflexivity. Qed.
Lemma perform_cons : forall a l r, perform (run_all (a :: l)) r =
  match perform a r with (r', Ok _) => perform (run_all l) r' | (r', Err e) => (r', Err e) end.
Proof. reflexivity. Qed.
Lemma run_all_app : forall a b r,
  perform (run_all (a ++ b)) r =
  match perform (run_all a) r with (r', Ok _) => perform (run_all b) r' | (r', Err e) => (r', Err e) end.
Proof.
  induction a as [| x a IH]; intros b r; cbn [app]; [reflexivity |].
  rewrite !perform_cons. destruct (perform x r) as [r' [u | e]]; [apply IH | reflexivity].
Qed.
Lemma ops_app : forall a b r,
  perform (ops_action (a ++ b)) r =
  match perform (ops_action a) r with (r', Ok _) => perform (ops_action b) r' | (r', Err e) => (r', Err e) end.
Proof. intros. unfold ops_action. rewrite map_app. apply run_all_app. Qed.

(** The registrations of an action all of whose arguments can be computed. *)
Fixpoint ops_of (a : action) : option (list registry_op) :=
  match a with
  | call_bindings (StOk _) => Some []
  | call_bindings (StErr _) => None
  | call_registry (Ok o) => Some [o]
  | call_registry (Err _) => None
  | run_all l =>
      (fix go (l : list action) : option (list registry_op) :=
         match l with
         | [] => Some []
         | b :: rest => match ops_of b, go rest with Some x, Some y => Some (x ++ y) | _, _ => None end
         end) l
  end.
Lemma ops_of_cons : forall a l, ops_of (run_all (a :: l)) =
  match ops_of a, ops_of (run_all l) with Some x, Some y => Some (x ++ y) | _, _ => None end.
Proof. reflexivity. Qed.
Lemma action_ind' : forall (P : action -> Prop), (forall s, P (call_bindings s)) -> (forall o, P (call_registry o)) ->
  (forall l, Forall P l -> P (run_all l)) -> forall a, P a.
Proof.
  intros P H1 H2 H3. fix IH 1. intros [s | o | l]; [apply H1 | apply H2 |]. apply H3.
  induction l as [| a l IHl]; constructor; [apply IH | exact IHl].
Qed.
Definition does (a : action) (ops : list registry_op) : Prop := ops_of a = Some ops.
Lemma does_perform : forall a ops, does a ops -> forall r, perform a r = perform (ops_action ops) r.
Proof.
  induction a as [s | [o | e] | l IH] using action_ind'; intros ops H r.
  - destruct s as [[] | s]; [| discriminate H]. injection H as <-. reflexivity.
  - injection H as <-. unfold ops_action. cbn [map]. rewrite perform_cons.
    destruct (perform (call_registry (Ok o)) r) as [r' [[] | e]]; reflexivity.
  - discriminate H.
  - revert ops H r. induction IH as [| a l Ha _ IHl]; intros ops H r.
    + injection H as <-. reflexivity.
    + unfold does in H. rewrite ops_of_cons in H. destruct (ops_of a) as [x |] eqn:Ea; [| discriminate H].
      destruct (ops_of (run_all l)) as [y |] eqn:El; [| discriminate H]. injection H as <-.
      rewrite perform_cons, ops_app, (Ha x Ea r).
      destruct (perform (ops_action x) r) as [r' [u | e]]; [apply IHl, El | reflexivity].
Qed.
Lemma does_op : forall o, does (call_registry (Ok o)) [o].
Proof. reflexivity. Qed.
Lemma does_bindings : forall s, s = StOk tt -> does (call_bindings s) [].
Proof. intros s ->. reflexivity. Qed.
Lemma does_cc : forall P Q (make : cc_manager Q -> key_manager) (bound : P -> Q) lookup url m,
  lookup url = Some m ->
  does (register_cc make bound lookup url) [OpRegisterKeyManager (make (cc_key_manager bound m)) true].
Proof.
  intros P Q make bound lookup url m H. unfold register_cc, from_cc_registry. rewrite H. cbn [bind].
  apply does_op.
Qed.

Definition any_m (ops : list registry_op) (u : pystr) : Prop := exists op, In op ops /\ touches_m op u.
Definition any_w (ops : list registry_op) (c : pclass) : Prop := exists op, In op ops /\ touches_w op c.

Lemma good_ops : forall w env ops, Forall (good w env) ops -> forall r, inv w env r ->
  exists r', perform (ops_action ops) r = (r', Ok tt) /\ inv w env r' /\ grows r r' (any_m ops) (any_w ops).
Proof.
  induction ops as [| op ops IH]; intros Hg r Hi.
  - exists r. split; [reflexivity |]. split; [exact Hi |].
    eapply grows_ext; [| | apply grows_refl]; intros; unfold any_m, any_w; split; try contradiction;
      intros (? & [] & _).
  - apply Forall_cons_iff in Hg. destruct Hg as [H1 H2].
    destruct (good_step _ _ _ _ Hi H1) as (r1 & E1 & Hi1 & G1).
    destruct (IH H2 _ Hi1) as (r2 & E2 & Hi2 & G2).
    exists r2. split.
    + unfold ops_action in *. cbn [map]. rewrite perform_cons. cbn [perform]. rewrite E1. exact E2.
    + split; [exact Hi2 |].
      eapply grows_ext; [| | eapply grows_trans; [| | exact G1 | exact G2]];
        [| | intros u; apply (good_touches_m _ _ _ _ H1) | intros u; apply (good_touches_w _ _ _ _ H1)];
        intros u; unfold any_m, any_w; cbn [In]; split.
      * intros [H | (o & Ho & H)]; eauto.
      * intros (o & [<- | Ho] & H); eauto.
      * intros [H | (o & Ho & H)]; eauto.
      * intros (o & [<- | Ho] & H); eauto.
Qed.

(** ** The packages *)
Definition package_action (w : cc_world) (env : py_env) (n : N) (p : package) : action :=
  match p with
  | Aead => aead_register w env n
  | Daead => daead_register w n
  | Hybrid => hybrid_register w n
  | Mac => mac_register w n
  | Prf => prf_register w n
  | Signature => signature_register w n
  | StreamingAead => streaming_aead_register w env n
  | JwtMac => jwt_mac_register w env n
  | JwtSignature => jwt_signature_register w env n
  end.
Definition performs (w : cc_world) (env : py_env) (a : action) (urls : list pystr) (cs : list pclass) : Prop :=
  exists ops, does a ops /\ Forall (good w env) ops /\
    (forall u, any_m ops u <-> In u urls) /\ (forall c, any_w ops c <-> In c cs).

Lemma performs_bindings : forall w env s, s = StOk tt -> performs w env (call_bindings s) [] [].
Proof.
  intros w env s H. exists []. split; [apply does_bindings, H |]. split; [constructor |].
  split; intros; (split; [intros (? & [] & _) | contradiction]).
Qed.
Lemma performs_wrapper : forall w env c x, table_wrapper c = Some x -> performs w env (register_wrapper x) [] [c].
Proof.
  intros w env c x H. exists [OpRegisterWrapper x]. split; [apply does_op |].
  destruct (table_wrapper_ok _ _ H) as [Hc _].
  split; [constructor; [cbn [good]; rewrite Hc; exact H | constructor] |].
  split; intros u; unfold any_m, any_w; cbn; split.
  - intros (? & [<- | []] & []).
  - contradiction.
  - intros (? & [<- | []] & E). cbn in E. left. congruence.
  - intros [<- | []]. eexists. split; [left; reflexivity | exact Hc].
Qed.
Lemma performs_manager : forall w env u km, built w env u km ->
  performs w env (call_registry (Ok (OpRegisterKeyManager km true))) [u] [].
Proof.
  intros w env u km H. exists [OpRegisterKeyManager km true]. split; [apply does_op |].
  destruct (built_signature _ _ _ _ H) as [Hk _].
  split; [constructor; [cbn [good]; rewrite Hk; auto | constructor] |].
  split; intros v; unfold any_m, any_w; cbn; split.
  - intros (? & [<- | []] & E). cbn in E. left. congruence.
  - intros [<- | []]. eexists. split; [left; reflexivity | exact Hk].
  - intros (? & [<- | []] & []).
  - contradiction.
Qed.
Lemma performs_cc : forall w env P Q (make : cc_manager Q -> key_manager) (bound : P -> Q) lookup u m,
  lookup u = Some m -> built w env u (make (cc_key_manager bound m)) ->
  performs w env (register_cc make bound lookup u) [u] [].
Proof.
  intros w env P Q make bound lookup u m Hl Hb. unfold register_cc, from_cc_registry. rewrite Hl. cbn [bind].
  apply performs_manager, Hb.
Qed.
Lemma performs_all : forall w env l urlss css,
  Forall2 (fun a x => performs w env a (fst x) (snd x)) l (combine urlss css) -> length urlss = length css ->
  performs w env (run_all l) (concat urlss) (concat css).
Proof.
  intros w env. induction l as [| a l IH]; intros urlss css H Hlen.
  - inversion H as [E |]. destruct urlss, css; try discriminate.
    exists []. split; [reflexivity |]. split; [constructor |].
    split; intros; (split; [intros (? & [] & _) | contradiction]).
  - destruct urlss as [| u urlss], css as [| c css]; try discriminate; [inversion H |].
    cbn [combine] in H.
    inversion H as [| ? ? ? ? Ha Hl]; subst. cbn [fst snd] in Ha.
    destruct (IH _ _ Hl ltac:(injection Hlen; auto)) as (ops2 & D2 & G2 & M2 & W2).
    destruct Ha as (ops1 & D1 & G1 & M1 & W1).
    exists (ops1 ++ ops2). split.
    { unfold does. rewrite ops_of_cons, D1, D2. reflexivity. }
    split; [apply Forall_app; auto |].
    split; intros v; cbn [concat]; rewrite in_app_iff;
      [rewrite <- M1, <- M2 | rewrite <- W1, <- W2]; unfold any_m, any_w; split.
    + intros (o & Ho & H0). apply in_app_iff in Ho. destruct Ho; eauto.
    + intros [(o & Ho & H0) | (o & Ho & H0)]; exists o; rewrite in_app_iff; auto.
    + intros (o & Ho & H0). apply in_app_iff in Ho. destruct Ho; eauto.
    + intros [(o & Ho & H0) | (o & Ho & H0)]; exists o; rewrite in_app_iff; auto.
Qed.
Lemma performs_ext : forall w env a u1 c1 u2 c2, performs w env a u1 c1 ->
  (forall u, In u u1 <-> In u u2) -> (forall c, In c c1 <-> In c c2) -> performs w env a u2 c2.
Proof.
  intros w env a u1 c1 u2 c2 (ops & D & G & M & W) Hu Hc. exists ops. split; [exact D |]. split; [exact G |].
  split; intros; [rewrite M; apply Hu | rewrite W; apply Hc].
Qed.
Lemma functions_some : forall P (o : option (cc_lib_manager P)) u f g,
  manager_functions o = Some (u, f, g) ->
  exists m, o = Some m /\ cl_key_type m = u /\ cl_new_key_data m = f /\ cl_public_key_data m = g.
Proof. intros P [m |] u f g H; [| discriminate]. injection H as <- <- <-. eauto. Qed.

Ltac lookup R name c b p :=
  let H := fresh in
  destruct R as [_ H];
  destruct (H name c b ltac:(cbn; tauto)) as (f & g & E);
  cbn [cc_functions] in E; apply functions_some in E; destruct E as (m & El & Ek & _ & _).
Ltac urls_equiv := intros u; cbn; tauto.

Lemma package_performs : forall w env n p, cc_ready w p ->
  performs w env (package_action w env n p) (type_urls p) (map fst (primitives p)).
Proof.
  intros w env n p R.
  destruct p; cbn [package_action].
  - eapply performs_ext;
      [apply (performs_all w env _
         [[]; [type_url "AesCtrHmacAeadKey"]; [type_url "AesGcmKey"]; [type_url "AesGcmSivKey"]; [type_url "AesEaxKey"];
          [type_url "XChaCha20Poly1305Key"]; []; [type_url "KmsAeadKey"]; [type_url "KmsEnvelopeAeadKey"]]
         [[]; []; []; []; []; []; [ClsAead]; []; []]); [| reflexivity] | urls_equiv | urls_equiv].
    cbn [map app combine]. repeat apply Forall2_cons; try apply Forall2_nil; cbn [fst snd].
    + apply performs_bindings. exact (proj1 R).
    + lookup R "AesCtrHmacAeadKey" ClsAead false Aead. refine (performs_cc _ _ _ _ _ _ _ _ m El _).
      apply b_aead; [cbn; tauto | exact El | exact Ek].
    + lookup R "AesGcmKey" ClsAead false Aead. refine (performs_cc _ _ _ _ _ _ _ _ m El _).
      apply b_aead; [cbn; tauto | exact El | exact Ek].
    + lookup R "AesGcmSivKey" ClsAead false Aead. refine (performs_cc _ _ _ _ _ _ _ _ m El _).
      apply b_aead; [cbn; tauto | exact El | exact Ek].
    + lookup R "AesEaxKey" ClsAead false Aead. refine (performs_cc _ _ _ _ _ _ _ _ m El _).
      apply b_aead; [cbn; tauto | exact El | exact Ek].
    + lookup R "XChaCha20Poly1305Key" ClsAead false Aead. refine (performs_cc _ _ _ _ _ _ _ _ m El _).
      apply b_aead; [cbn; tauto | exact El | exact Ek].
    + apply performs_wrapper. reflexivity.
    + apply performs_manager. apply b_kms.
    + apply performs_manager. apply b_envelope.
  - eapply performs_ext;
      [apply (performs_all w env _ [[]; [type_url "AesSivKey"]; []] [[]; []; [ClsDaead]]); [| reflexivity]
      | urls_equiv | urls_equiv].
    cbn [map app combine]. repeat apply Forall2_cons; try apply Forall2_nil; cbn [fst snd].
    + apply performs_bindings. exact (proj1 R).
    + lookup R "AesSivKey" ClsDaead false Daead. refine (performs_cc _ _ _ _ _ _ _ _ m El _).
      apply b_daead; [cbn; tauto | exact El | exact Ek].
    + apply performs_wrapper. reflexivity.
  - eapply performs_ext;
      [apply (performs_all w env _
         [[]; []; []; []; [type_url "EciesAeadHkdfPrivateKey"]; [type_url "EciesAeadHkdfPublicKey"];
          [type_url "HpkePrivateKey"]; [type_url "HpkePublicKey"]]
         [[]; []; [ClsHybridDecrypt]; [ClsHybridEncrypt]; []; []; []; []]); [| reflexivity]
      | urls_equiv | urls_equiv].
    cbn [map app combine]. repeat apply Forall2_cons; try apply Forall2_nil; cbn [fst snd].
    + apply performs_bindings. exact (proj1 (proj1 R)).
    + apply performs_bindings. exact (proj2 (proj1 R)).
    + apply performs_wrapper. reflexivity.
    + apply performs_wrapper. reflexivity.
    + lookup R "EciesAeadHkdfPrivateKey" ClsHybridDecrypt true Hybrid. refine (performs_cc _ _ _ _ _ _ _ _ m El _).
      apply b_hd; [cbn; tauto | exact El | exact Ek].
    + lookup R "EciesAeadHkdfPublicKey" ClsHybridEncrypt false Hybrid. refine (performs_cc _ _ _ _ _ _ _ _ m El _).
      apply b_he; [cbn; tauto | exact El | exact Ek].
    + lookup R "HpkePrivateKey" ClsHybridDecrypt true Hybrid. refine (performs_cc _ _ _ _ _ _ _ _ m El _).
      apply b_hd; [cbn; tauto | exact El | exact Ek].
    + lookup R "HpkePublicKey" ClsHybridEncrypt false Hybrid. refine (performs_cc _ _ _ _ _ _ _ _ m El _).
      apply b_he; [cbn; tauto | exact El | exact Ek].
  - eapply performs_ext;
      [apply (performs_all w env _ [[]; [type_url "HmacKey"]; [type_url "AesCmacKey"]; []] [[]; []; []; [ClsMac]]); [| reflexivity]
      | urls_equiv | urls_equiv].
    cbn [map app combine]. repeat apply Forall2_cons; try apply Forall2_nil; cbn [fst snd].
    + apply performs_bindings. exact (proj1 R).
    + lookup R "HmacKey" ClsMac false Mac. refine (performs_cc _ _ _ _ _ _ _ _ m El _).
      apply b_mac; [cbn; tauto | exact El | exact Ek].
    + lookup R "AesCmacKey" ClsMac false Mac. refine (performs_cc _ _ _ _ _ _ _ _ m El _).
      apply b_mac; [cbn; tauto | exact El | exact Ek].
    + apply performs_wrapper. reflexivity.
  - eapply performs_ext;
      [apply (performs_all w env _ [[]; [type_url "AesCmacPrfKey"]; [type_url "HmacPrfKey"]; [type_url "HkdfPrfKey"]; []]
         [[]; []; []; []; [ClsPrfSet]]); [| reflexivity] | urls_equiv | urls_equiv].
    cbn [map app combine]. repeat apply Forall2_cons; try apply Forall2_nil; cbn [fst snd].
    + apply performs_bindings. exact (proj1 R).
    + lookup R "AesCmacPrfKey" ClsPrf false Prf. refine (performs_cc _ _ _ _ _ _ _ _ m El _).
      apply b_prf; [cbn; tauto | exact El | exact Ek].
    + lookup R "HmacPrfKey" ClsPrf false Prf. refine (performs_cc _ _ _ _ _ _ _ _ m El _).
      apply b_prf; [cbn; tauto | exact El | exact Ek].
    + lookup R "HkdfPrfKey" ClsPrf false Prf. refine (performs_cc _ _ _ _ _ _ _ _ m El _).
      apply b_prf; [cbn; tauto | exact El | exact Ek].
    + apply performs_wrapper. reflexivity.
  - eapply performs_ext;
      [apply (performs_all w env _
         [[]; [type_url "EcdsaPrivateKey"]; [type_url "Ed25519PrivateKey"]; [type_url "RsaSsaPssPrivateKey"];
          [type_url "RsaSsaPkcs1PrivateKey"]; [type_url "EcdsaPublicKey"]; [type_url "Ed25519PublicKey"];
          [type_url "RsaSsaPssPublicKey"]; [type_url "RsaSsaPkcs1PublicKey"]; []; []]
         [[]; []; []; []; []; []; []; []; []; [ClsSign]; [ClsVerify]]); [| reflexivity] | urls_equiv | urls_equiv].
    cbn [map app combine]. repeat apply Forall2_cons; try apply Forall2_nil; cbn [fst snd].
    + apply performs_bindings. exact (proj1 R).
    + lookup R "EcdsaPrivateKey" ClsSign true Signature. refine (performs_cc _ _ _ _ _ _ _ _ m El _).
      apply b_sign; [cbn; tauto | exact El | exact Ek].
    + lookup R "Ed25519PrivateKey" ClsSign true Signature. refine (performs_cc _ _ _ _ _ _ _ _ m El _).
      apply b_sign; [cbn; tauto | exact El | exact Ek].
    + lookup R "RsaSsaPssPrivateKey" ClsSign true Signature. refine (performs_cc _ _ _ _ _ _ _ _ m El _).
      apply b_sign; [cbn; tauto | exact El | exact Ek].
    + lookup R "RsaSsaPkcs1PrivateKey" ClsSign true Signature. refine (performs_cc _ _ _ _ _ _ _ _ m El _).
      apply b_sign; [cbn; tauto | exact El | exact Ek].
    + lookup R "EcdsaPublicKey" ClsVerify false Signature. refine (performs_cc _ _ _ _ _ _ _ _ m El _).
      apply b_verify; [cbn; tauto | exact El | exact Ek].
    + lookup R "Ed25519PublicKey" ClsVerify false Signature. refine (performs_cc _ _ _ _ _ _ _ _ m El _).
      apply b_verify; [cbn; tauto | exact El | exact Ek].
    + lookup R "RsaSsaPssPublicKey" ClsVerify false Signature. refine (performs_cc _ _ _ _ _ _ _ _ m El _).
      apply b_verify; [cbn; tauto | exact El | exact Ek].
    + lookup R "RsaSsaPkcs1PublicKey" ClsVerify false Signature. refine (performs_cc _ _ _ _ _ _ _ _ m El _).
      apply b_verify; [cbn; tauto | exact El | exact Ek].
    + apply performs_wrapper. reflexivity.
    + apply performs_wrapper. reflexivity.
  - eapply performs_ext;
      [apply (performs_all w env _ [[]; [type_url "AesCtrHmacStreamingKey"]; [type_url "AesGcmHkdfStreamingKey"]; []]
         [[]; []; []; [ClsStreamingAead]]); [| reflexivity] | urls_equiv | urls_equiv].
    cbn [map app combine]. repeat apply Forall2_cons; try apply Forall2_nil; cbn [fst snd].
    + apply performs_bindings. exact (proj1 R).
    + lookup R "AesCtrHmacStreamingKey" ClsRawStreamingAead false StreamingAead.
      refine (performs_cc _ _ _ _ _ _ _ _ m El _). apply b_streaming; [cbn; tauto | exact El | exact Ek].
    + lookup R "AesGcmHkdfStreamingKey" ClsRawStreamingAead false StreamingAead.
      refine (performs_cc _ _ _ _ _ _ _ _ m El _). apply b_streaming; [cbn; tauto | exact El | exact Ek].
    + apply performs_wrapper. reflexivity.
  - eapply performs_ext;
      [apply (performs_all w env _ [[]; [type_url "JwtHmacKey"]; []] [[]; []; [ClsJwtMac]]); [| reflexivity]
      | urls_equiv | urls_equiv].
    cbn [map app combine]. repeat apply Forall2_cons; try apply Forall2_nil; cbn [fst snd].
    + apply performs_bindings. exact (proj1 R).
    + lookup R "JwtHmacKey" ClsJwtMacInternal false JwtMac. refine (performs_cc _ _ _ _ _ _ _ _ m El _).
      apply b_jwt_mac; [exact El | exact Ek].
    + apply performs_wrapper. reflexivity.
  - eapply performs_ext;
      [apply (performs_all w env _
         [[]; [type_url "JwtEcdsaPrivateKey"]; [type_url "JwtEcdsaPublicKey"];
          [type_url "JwtRsaSsaPkcs1PrivateKey"]; [type_url "JwtRsaSsaPkcs1PublicKey"];
          [type_url "JwtRsaSsaPssPrivateKey"]; [type_url "JwtRsaSsaPssPublicKey"]; []; []]
         [[]; []; []; []; []; []; []; [ClsJwtSign]; [ClsJwtVerify]]); [| reflexivity] | urls_equiv | urls_equiv].
    cbn [map app combine]. repeat apply Forall2_cons; try apply Forall2_nil; cbn [fst snd].
    + apply performs_bindings. exact (proj1 R).
    + lookup R "JwtEcdsaPrivateKey" ClsJwtSignInternal true JwtSignature. refine (performs_cc _ _ _ _ _ _ _ _ m El _).
      eapply b_jwt_sign; [unfold jwt_sign_names; cbn; tauto | exact El | exact Ek].
    + lookup R "JwtEcdsaPublicKey" ClsJwtVerifyInternal false JwtSignature. refine (performs_cc _ _ _ _ _ _ _ _ m El _).
      eapply b_jwt_verify; [unfold jwt_verify_names; cbn; tauto | exact El | exact Ek].
    + lookup R "JwtRsaSsaPkcs1PrivateKey" ClsJwtSignInternal true JwtSignature. refine (performs_cc _ _ _ _ _ _ _ _ m El _).
      eapply b_jwt_sign; [unfold jwt_sign_names; cbn; tauto | exact El | exact Ek].
    + lookup R "JwtRsaSsaPkcs1PublicKey" ClsJwtVerifyInternal false JwtSignature. refine (performs_cc _ _ _ _ _ _ _ _ m El _).
      eapply b_jwt_verify; [unfold jwt_verify_names; cbn; tauto | exact El | exact Ek].
    + lookup R "JwtRsaSsaPssPrivateKey" ClsJwtSignInternal true JwtSignature. refine (performs_cc _ _ _ _ _ _ _ _ m El _).
      eapply b_jwt_sign; [unfold jwt_sign_names; cbn; tauto | exact El | exact Ek].
    + lookup R "JwtRsaSsaPssPublicKey" ClsJwtVerifyInternal false JwtSignature. refine (performs_cc _ _ _ _ _ _ _ _ m El _).
      eapply b_jwt_verify; [unfold jwt_verify_names; cbn; tauto | exact El | exact Ek].
    + apply performs_wrapper. reflexivity.
    + apply performs_wrapper. reflexivity.
Qed.

(** ** Histories *)
Definition call_urls (c : setup_call) (u : pystr) : Prop := exists p, sets_up c p /\ In u (type_urls p).
Definition call_classes (c : setup_call) (x : pclass) : Prop := exists p, sets_up c p /\ In x (map fst (primitives p)).

Lemma performs_run : forall w env a us cs r, performs w env a us cs -> inv w env r ->
  exists r', perform a r = (r', Ok tt) /\ inv w env r' /\ grows r r' (fun u => In u us) (fun c => In c cs).
Proof.
  intros w env a us cs r (ops & D & G & M & W) Hi.
  destruct (good_ops _ _ _ G _ Hi) as (r' & E & Hi' & Hg).
  exists r'. rewrite (does_perform _ _ D). split; [exact E |]. split; [exact Hi' |]. eapply grows_ext; [exact M | exact W | exact Hg].
Qed.

Lemma tink_config_performs : forall w env n, (forall p, sets_up CallTinkConfig p -> cc_ready w p) ->
  performs w env (tink_config_register w env n)
    (concat (map type_urls [Aead; Daead; Hybrid; Mac; Prf; Signature; StreamingAead]))
    (concat (map (fun p => map fst (primitives p)) [Aead; Daead; Hybrid; Mac; Prf; Signature; StreamingAead])).
Proof.
  intros w env n R.
  assert (P : forall p, ~ In p [JwtMac; JwtSignature] ->
    performs w env (package_action w env n p) (type_urls p) (map fst (primitives p)))
    by (intros p Hp; apply package_performs, R; exact Hp).
  unfold tink_config_register. apply performs_all; [| reflexivity].
  cbn [map combine]. repeat apply Forall2_cons; try apply Forall2_nil; cbn [fst snd].
  - apply (P Aead). cbn. intros [H | [H | []]]; discriminate H.
  - apply (P Daead). cbn. intros [H | [H | []]]; discriminate H.
  - apply (P Hybrid). cbn. intros [H | [H | []]]; discriminate H.
  - apply (P Mac). cbn. intros [H | [H | []]]; discriminate H.
  - apply (P Prf). cbn. intros [H | [H | []]]; discriminate H.
  - apply (P Signature). cbn. intros [H | [H | []]]; discriminate H.
  - apply (P StreamingAead). cbn. intros [H | [H | []]]; discriminate H.
Qed.

Lemma package_call : forall w env n c r, inv w env r ->
  (forall p, sets_up c p -> cc_ready w p) -> (exists p, sets_up c p) ->
  exists r', perform (setup_action w env n c) r = (r', Ok tt) /\ inv w env r' /\ grows r r' (call_urls c) (call_classes c).
Proof.
  intros w env n c r Hi R [p0 Hp0].
  assert (Single : forall p, (forall q, sets_up c q <-> q = p) ->
    setup_action w env n c = package_action w env n p ->
    exists r', perform (setup_action w env n c) r = (r', Ok tt) /\ inv w env r' /\ grows r r' (call_urls c) (call_classes c)).
  { intros p Hq E. rewrite E.
    destruct (performs_run _ _ _ _ _ _ (package_performs w env n p (R p (proj2 (Hq p) eq_refl))) Hi) as (r' & E' & Hi' & Hg).
    exists r'. split; [exact E' |]. split; [exact Hi' |].
    eapply grows_ext; [| | exact Hg]; intros u; unfold call_urls, call_classes; split.
    - intros H. exists p. rewrite Hq. auto.
    - intros (q & Hs & H). apply Hq in Hs. subst q. exact H.
    - intros H. exists p. rewrite Hq. auto.
    - intros (q & Hs & H). apply Hq in Hs. subst q. exact H. }
  destruct c; try (eapply Single; [cbn; reflexivity | reflexivity]).
  - destruct (performs_run _ _ _ _ _ _ (tink_config_performs w env n R) Hi) as (r' & E' & Hi' & Hg).
    exists r'. split; [exact E' |]. split; [exact Hi' |].
    assert (Hs : forall p, sets_up CallTinkConfig p <-> In p [Aead; Daead; Hybrid; Mac; Prf; Signature; StreamingAead])
      by (intros p; destruct p; cbn; intuition congruence).
    eapply grows_ext; [| | exact Hg]; intros u; unfold call_urls, call_classes;
      rewrite in_concat; split.
    + intros (l & Hl & Hu). apply in_map_iff in Hl. destruct Hl as (p & <- & Hp). exists p. rewrite Hs. auto.
    + intros (p & Hp & Hu). exists (type_urls p). split; [apply in_map, Hs, Hp | exact Hu].
    + intros (l & Hl & Hu). apply in_map_iff in Hl. destruct Hl as (p & <- & Hp). exists p. rewrite Hs. auto.
    + intros (p & Hp & Hu). exists (map fst (primitives p)).
      split; [apply (in_map (fun p => map fst (primitives p))), Hs, Hp | exact Hu].
  - contradiction.
Qed.

Lemma user_call : forall w env n op r r' x, inv w env r -> unrelated (CallRegistry op) ->
  perform (setup_action w env n (CallRegistry op)) r = (r', x) ->
  inv w env r' /\ grows r r' (fun _ => False) (fun _ => False).
Proof.
  intros w env n op r r' x Hi Hu E. cbn [setup_action perform] in E.
  destruct (registry_apply r op) as [r1 | e] eqn:Ea; injection E as <- <-; [| split; [exact Hi | apply grows_refl]].
  destruct op as [km a | y]; cbn [registry_apply unrelated] in *.
  - assert (Hs : forall u, signature u <> None -> u <> km_key_type km).
    { intros u H ->. apply signature_out in H. destruct H as (p & H). exact (Hu p H). }
    destruct (register_key_manager_cases r km a) as [[_ E] | [_ (e & E & _)]]; rewrite E in Ea; [| discriminate].
    injection Ea as <-. destruct Hi as [I1 I2].
    assert (Hm : forall u, signature u <> None ->
      manager_of (mk_registry (dict_set str_eqb (km_key_type km)
        (kept_manager (manager_of r (km_key_type km)) km, a) (r_key_managers r)) (r_wrappers r)) u = manager_of r u).
    { intros u H. rewrite manager_of_set. destruct (str_eqb u (km_key_type km)) eqn:Eu; [| reflexivity].
      apply str_eqb_spec in Eu. exfalso. exact (Hs u H Eu). }
    split; [split |].
    + intros u km' b H1 H2. rewrite (Hm u H2) in H1. eauto.
    + exact I2.
    + split; [intros u v H; rewrite (Hm u H); auto |]. split; [auto |]. split; [contradiction |].
      split; [contradiction |]. split; [intros u H _; apply (Hm u H) | reflexivity].
  - assert (Hs : forall c, table_wrapper c <> None -> c <> w_primitive_class y).
    { intros c H ->. destruct (table_wrapper (w_primitive_class y)) as [z |] eqn:Ez; [| congruence].
      apply table_wrapper_out in Ez. destruct Ez as (p & Ez). exact (Hu p Ez). }
    destruct (register_wrapper_cases r y) as [[_ E] | [_ (e & E & _)]]; rewrite E in Ea; [| discriminate].
    injection Ea as <-. destruct Hi as [I1 I2].
    assert (Hm : forall c, table_wrapper c <> None ->
      wrapper_of (mk_registry (r_key_managers r) (dict_set pclass_eqb (w_primitive_class y) y (r_wrappers r))) c = wrapper_of r c).
    { intros c H. rewrite wrapper_of_set. destruct (pclass_eqb c (w_primitive_class y)) eqn:Eu; [| reflexivity].
      apply pclass_eqb_eq in Eu. exfalso. exact (Hs c H Eu). }
    split; [split |].
    + exact I1.
    + intros c z z' H1 H2. rewrite Hm in H1 by congruence. eauto.
    + split; [auto |]. split; [intros c z H; rewrite (Hm c H); auto |]. split; [contradiction |].
      split; [contradiction |]. split; [reflexivity | intros c H _; apply (Hm c H)].
Qed.

Lemma call_urls_signature : forall c u, call_urls c u -> signature u <> None.
Proof. intros c u (p & _ & H). exact (signature_in p u H). Qed.
Lemma call_classes_table : forall c x, call_classes c x -> table_wrapper x <> None.
Proof. intros c u (p & _ & H). destruct (table_wrapper_in _ _ H) as (y & ->). discriminate. Qed.

Lemma setup_run_spec : forall w env l n r r' xs, inv w env r -> setup_run w env n l r = (r', xs) ->
  (forall c p, In c l -> sets_up c p -> cc_ready w p) -> (forall c, In c l -> unrelated c) ->
  inv w env r' /\
  grows r r' (fun u => exists c, In c l /\ call_urls c u) (fun x => exists c, In c l /\ call_classes c x) /\
  Forall2 (fun c x => (exists p, sets_up c p) -> x = Ok tt) l xs.
Proof.
  intros w env. induction l as [| c l IH]; intros n r r' xs Hi E R U; cbn [setup_run] in E.
  - injection E as <- <-. split; [exact Hi |]. split; [| constructor].
    eapply grows_ext; [| | apply grows_refl]; intros u; (split; [contradiction | intros (? & [] & _)]).
  - destruct (perform (setup_action w env n c) r) as [r1 x] eqn:Ec. destruct (setup_run w env (n + 1) l r1) as [r2 ys] eqn:El.
    injection E as <- <-.
    assert (Step : inv w env r1 /\ grows r r1 (call_urls c) (call_classes c) /\ ((exists p, sets_up c p) -> x = Ok tt)).
    { assert (Hd : (exists p, sets_up c p) \/ exists op, c = CallRegistry op).
      { destruct c; try (left; eexists; cbn; reflexivity); [| right; eauto].
        left. exists Aead. cbn. intuition congruence. }
      destruct Hd as [Hp | [op ->]].
      - destruct (package_call w env n c r Hi (fun p => R c p (or_introl eq_refl)) Hp) as (r1' & E1 & Hi1 & G1).
        rewrite Ec in E1. injection E1 as -> ->. auto.
      - destruct (user_call w env n op r r1 x Hi (U _ (or_introl eq_refl)) Ec) as [Hi1 G1].
        split; [exact Hi1 |]. split; [| intros (p & [])].
        eapply grows_ext; [| | exact G1]; intros u; (split; [contradiction | intros (p & [] & _)]). }
    destruct Step as (Hi1 & G1 & Hx).
    destruct (IH _ _ _ _ Hi1 El (fun c' p H => R c' p (or_intror H)) (fun c' H => U c' (or_intror H))) as (Hi2 & G2 & HF).
    split; [exact Hi2 |]. split; [| constructor; auto].
    eapply grows_ext; [| | exact (grows_trans _ _ _ _ _ _ _ (call_urls_signature c) (call_classes_table c) G1 G2)];
      intros u; cbn [In]; split.
    + intros [H | (c' & H1 & H2)]; eauto.
    + intros (c' & [<- | H1] & H2); eauto.
    + intros [H | (c' & H1 & H2)]; eauto.
    + intros (c' & [<- | H1] & H2); eauto.
Qed.

Lemma inv_empty : forall w env, inv w env empty_registry.
Proof. intros w env. split; [intros url km b H | intros c x y H]; discriminate H. Qed.

Definition private_pytype (t : N) : bool := (N.eqb t 41 || N.eqb t 31)%bool.
Lemma table_signature : forall p name c b,
  In (name, c, b) (key_types p) \/ (In (name, c) (remote_key_types p) /\ b = false) ->
  In (type_url name) (type_urls p) /\ exists t, signature (type_url name) = Some (t, c) /\ private_pytype t = b.
Proof.
  intros p name c b H.
  assert (Hu : In (type_url name) (type_urls p)).
  { unfold type_urls. apply in_app_iff. destruct H as [H | [H _]].
    - left. apply (in_map (fun x => type_url (fst (fst x)))) in H. exact H.
    - right. apply (in_map (fun x => type_url (fst x))) in H. exact H. }
  split; [exact Hu |].
  assert (T : forallb (fun x => match signature (type_url (fst (fst x))) with
    | Some (t, c') => (pclass_eqb c' (snd (fst x)) && Bool.eqb (private_pytype t) (snd x))%bool | None => false end)
    (key_types p ++ map (fun x => (x, false)) (remote_key_types p)) = true)
    by (destruct p; vm_compute; reflexivity).
  rewrite forallb_forall in T. specialize (T (name, c, b)). cbn [fst snd] in T.
  destruct (signature (type_url name)) as [[t c'] |].
  - exists t.
    assert (Hin : In (name, c, b) (key_types p ++ map (fun x => (x, false)) (remote_key_types p))).
    { apply in_app_iff. destruct H as [H | [H ->]]; [left; exact H | right; apply (in_map (fun x => (x, false))) in H; exact H]. }
    apply T in Hin. apply andb_true_iff in Hin. destruct Hin as [H1 H2].
    apply pclass_eqb_eq in H1. apply Bool.eqb_prop in H2. subst. auto.
  - exfalso. assert (false = true); [apply T | discriminate]. apply in_app_iff.
    destruct H as [H | [H ->]]; [left; exact H | right; apply (in_map (fun x => (x, false))) in H; exact H].
Qed.
Lemma built_public : forall w env u km, built w env u km ->
  (km_public_key_data km = None <-> private_pytype (km_pytype km) = false).
Proof. intros w env u km H. destruct H; cbn; split; congruence. Qed.

Theorem setup_complete : forall w env l r xs, reached w env l r xs ->
  Forall2 (fun c x => (exists p, sets_up c p) -> x = Ok tt) l xs /\
  (forall p, (exists c, In c l /\ sets_up c p) ->
     (forall name c b, In (name, c, b) (key_types p) \/ (In (name, c) (remote_key_types p) /\ b = false) ->
        exists km, manager_of r (type_url name) = Some (km, true) /\ km_key_type km = type_url name /\
          km_primitive_class km = c /\ (km_public_key_data km = None <-> b = false)) /\
     (forall c i, In (c, i) (primitives p) ->
        exists x, wrapper_of r c = Some x /\ w_primitive_class x = c /\ w_input_primitive_class x = i)) /\
  (forall p, ~ (exists c, In c l /\ sets_up c p) ->
     (forall u, In u (type_urls p) -> manager_of r u = None) /\
     (forall c, In c (map fst (primitives p)) -> wrapper_of r c = None)).
Proof.
  intros w env l r xs (E & R & U).
  destruct (setup_run_spec _ _ _ _ _ _ _ (inv_empty w env) E R U) as ([I1 I2] & (A1 & A2 & A3 & A4 & A5 & A6) & HF).
  split; [exact HF |]. split.
  - intros p (c0 & Hc0 & Hs). split.
    + intros name c b Hin. destruct (table_signature _ _ _ _ Hin) as (Hu & t & Ht & Hp).
      assert (Hm : manager_of r (type_url name) <> None) by (apply A3; exists c0; split; [exact Hc0 | exists p; auto]).
      destruct (manager_of r (type_url name)) as [[km bb] |] eqn:Em; [| congruence].
      destruct (I1 _ _ _ Em (signature_in _ _ Hu)) as [-> Hb].
      destruct (built_signature _ _ _ _ Hb) as (Hk & _ & Hsig).
      rewrite Ht in Hsig. injection Hsig as -> ->.
      exists km. split; [reflexivity |]. split; [exact Hk |]. split; [reflexivity |].
      rewrite (built_public _ _ _ _ Hb), <- Hp. reflexivity.
    + intros c i Hin.
      assert (Hc : In c (map fst (primitives p))) by (apply (in_map fst) in Hin; exact Hin).
      assert (Hm : wrapper_of r c <> None) by (apply A4; exists c0; split; [exact Hc0 | exists p; auto]).
      destruct (wrapper_of r c) as [x |] eqn:Ex; [| congruence].
      destruct (table_wrapper_in _ _ Hc) as (y & Hy). rewrite (I2 _ _ _ Ex Hy). exists y. split; [reflexivity |].
      split; [exact (proj1 (table_wrapper_ok _ _ Hy)) |].
      clear - Hin Hy. destruct p; cbn in Hin;
        repeat (destruct Hin as [Hin | Hin]; [injection Hin as <- <-; injection Hy as <-; reflexivity |]); contradiction.
  - intros p Hn. split.
    + intros u Hu. rewrite A5; [reflexivity | exact (signature_in _ _ Hu) |].
      intros (c & Hc & q & Hs & Hq). rewrite (type_urls_disjoint _ _ _ Hq Hu) in Hs. eauto.
    + intros c Hc. destruct (table_wrapper_in _ _ Hc) as (y & Hy). rewrite A6; [reflexivity | congruence |].
      intros (c' & Hc' & q & Hs & Hq). apply Hn. exists c'. split; [exact Hc' |].
      replace p with q; [exact Hs |]. clear - Hc Hq.
      destruct p; cbn in Hc; intuition; subst; destruct q; cbn in Hq; intuition congruence.
Qed.
