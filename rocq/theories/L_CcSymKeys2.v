(** The key managers of the symmetric primitives together: which keys they take and make,
    and the predefined templates. *)
From Coq Require Import Strings.Byte Strings.String List NArith ZArith Bool Lia.
From Verif Require Import M_Base L_Base M_Proto M_Wire L_Wire S_Wire M_ProtoMsg S_ProtoMsg L_ProtoMsg M_KeyFormats M_Prims M_StreamTypes M_Templates
  M_CcStream M_CcManagers M_CcAes M_CcStreamKeys M_CcModes M_CcSymmetric M_CcSymKeys S_Config S_CcAes S_CcStreamKeys S_CcModes S_CcSymmetric
  S_CcSymKeys L_Templates L_CcStreamKeys L_CcModes4 L_CcSymmetric L_CcSymmetric2 L_CcSymKeys.
Import ListNotations.
Open Scope string_scope.
Open Scope list_scope.
Open Scope Z_scope.

Lemma type_url_inj : forall a b, type_url a = type_url b -> a = b.
Proof. intros a b H. unfold type_url in H. apply ulit_inj, append_inj in H. exact H. Qed.

(** ** One manager *)
Section One.
  Context {P : Type}.
  Variables (random : coins -> Z -> bytes) (t : key_type_manager P) (kind : sym_key -> bool) (obj : sym_key -> st_or P).
  Hypothesis M : manages t kind obj.

  Lemma impl_get_primitive : forall d cc, cl_get_primitive (key_manager_impl random t) d = StOk cc <->
    exists k, kind k = true /\ is_key d k /\ usable k /\ obj k = StOk cc.
  Proof using M.
    intros d cc. cbn [key_manager_impl cl_get_primitive]. rewrite <- type_urls.
    destruct (str_eqb (type_url (kt_name t)) (kd_type_url d)) eqn:EU; cbn [negb].
    2:{ split; [discriminate |]. intros (k & K & (U & _) & _). rewrite U, (proj1 (mg_name _ _ _ M k K)), (proj2 (str_eqb_spec _ _) eq_refl) in EU. discriminate. }
    apply str_eqb_spec in EU. destruct (parse_message (kt_key t) (kd_value d)) as [m |] eqn:EM.
    2:{ split; [discriminate |]. intros (k & K & (_ & m & E & _) & _). rewrite (proj1 (proj2 (mg_name _ _ _ M k K))), EM in E. discriminate. }
    split.
    - intros H. destruct (kt_validate_key t m) as [s |] eqn:EV; [discriminate |].
      destruct (mg_key_read _ _ _ M m (parse_holds _ _ _ EM) EV) as (k & K & F). destruct (mg_key _ _ _ M m k K F) as (U & C).
      destruct (mg_name _ _ _ M k K) as (N & S & _). exists k. split; [exact K |]. split; [| split; [apply U, EV | rewrite <- C; exact H]].
      split; [rewrite N, EU; reflexivity |]. rewrite S. exists m. split; assumption.
    - intros (k & K & (_ & m' & E & F) & U & O). rewrite (proj1 (proj2 (mg_name _ _ _ M k K))) in *. rewrite EM in E. injection E as <-.
      destruct (mg_key _ _ _ M m k K F) as (V & C). rewrite (proj2 V U), C. exact O.
  Qed.
  Lemma impl_new_accepts : forall rnd x k, kind k = true -> asks_for_key (type_url (kt_name t)) x k -> usable k -> requestable k ->
    exists d, cl_new_key_data (key_manager_impl random t) rnd x = StOk d.
  Proof using M.
    intros rnd x k K (_ & m & E & F) U R. rewrite (proj2 (proj2 (mg_name _ _ _ M k K))) in *. cbn [key_manager_impl cl_new_key_data].
    rewrite E, (mg_format _ _ _ M m k K F U R). eexists. reflexivity.
  Qed.
  Lemma impl_new : forall rnd x d, cl_new_key_data (key_manager_impl random t) rnd x = StOk d -> random_law random ->
    kd_type_url d = type_url (kt_name t) /\ kd_key_material_type d = SYMMETRIC /\
    exists k, kind k = true /\ asks_for_key (type_url (kt_name t)) x k /\ usable k /\ requestable k /\ chosen random rnd k /\
      (proto_size (kd_value d) -> is_key d k).
  Proof using M.
    intros rnd x d H RL. cbn [key_manager_impl cl_new_key_data] in H. rewrite <- type_urls in H.
    destruct (parse_message (kt_format t) x) as [m |] eqn:EM; [| discriminate].
    destruct (kt_validate_key_format t m) as [s |] eqn:EV; [discriminate |]. injection H as <-.
    split; [reflexivity |]. split; [reflexivity |].
    destruct (mg_created _ _ _ M (fun i => random (2 * rnd + i)%N) m (parse_holds _ _ _ EM) EV) as (W & k & K & F & U & R & A & C).
    { intros i z Hz. apply RL, Hz. }
    destruct (mg_name _ _ _ M k K) as (N & S & T). exists k. split; [exact K |].
    split; [split; [rewrite N; reflexivity | rewrite T; exists m; split; assumption] |]. split; [exact U |]. split; [exact R |]. split; [exact C |].
    cbn [kd_value kd_type_url]. intros PS. split; [rewrite N; reflexivity |]. rewrite S. eexists. split; [| exact A].
    apply message_round_trip; [exact (mg_ok _ _ _ M) | exact W | exact PS].
  Qed.
End One.

(** ** Several managers *)
Section Family.
  Context {P : Type}.
  Variables (random : coins -> Z -> bytes) (l : list (key_type_manager P)) (for_ : sym_key -> bool) (obj : sym_key -> st_or P).
  Definition family : Prop :=
    NoDup (map kt_name l) /\
    (forall k, for_ k = true -> exists t kind, In t l /\ manages t kind obj /\ kind k = true) /\
    (forall t, In t l -> exists kind, manages t kind obj /\ forall k, kind k = true -> for_ k = true).
  Lemma find_manager_some : forall url m, NoDup (map kt_name l) ->
    (find_manager random l url = Some m <-> exists t, In t l /\ url = type_url (kt_name t) /\ m = key_manager_impl random t).
  Proof using.
    intros url m. unfold find_manager. induction l as [| t r IH]; intros ND; [split; [discriminate | intros (t & [] & _)] |].
    inversion ND as [| ? ? NI ND']; subst. specialize (IH ND'). cbn [map find]. cbn [key_manager_impl cl_key_type]. rewrite <- type_urls.
    destruct (str_eqb (type_url (kt_name t)) url) eqn:E.
    - apply str_eqb_spec in E. subst url. split.
      + intros H. injection H as <-. exists t. split; [left; reflexivity | auto].
      + intros (t' & [-> | I] & E & ->); [reflexivity |]. apply type_url_inj in E. exfalso. apply NI. rewrite E. apply in_map, I.
    - rewrite IH. split; intros (t' & I & E' & ->).
      + exists t'. split; [right; exact I | auto].
      + destruct I as [-> | I]; [| exists t'; auto]. rewrite E', (proj2 (str_eqb_spec _ _) eq_refl) in E. discriminate.
  Qed.
  Hypothesis F : family.

  Lemma family_key_primitive : forall d cc,
    (exists m, find_manager random l (kd_type_url d) = Some m /\ cl_get_primitive m d = StOk cc) <->
    (exists k, for_ k = true /\ is_key d k /\ usable k /\ obj k = StOk cc).
  Proof using F.
    destruct F as (ND & F1 & F2). intros d cc. split.
    - intros (m & E & H). apply find_manager_some in E; [| exact ND]. destruct E as (t & I & U & ->). destruct (F2 t I) as (kind & M & Hk).
      apply (impl_get_primitive random t kind obj M) in H. destruct H as (k & K & H). exists k. split; [apply Hk, K | exact H].
    - intros (k & K & H). destruct (F1 k K) as (t & kind & I & M & K'). exists (key_manager_impl random t). split.
      + apply find_manager_some; [exact ND |]. exists t. split; [exact I |]. split; [| reflexivity]. destruct H as ((U & _) & _).
        rewrite U, (proj1 (mg_name _ _ _ M k K')). reflexivity.
      + apply (impl_get_primitive random t kind obj M). exists k. split; [exact K' | exact H].
  Qed.
  Lemma family_new_key : forall url rnd x m d, find_manager random l url = Some m -> cl_new_key_data m rnd x = StOk d -> random_law random ->
    kd_type_url d = url /\ kd_key_material_type d = SYMMETRIC /\
    exists k, for_ k = true /\ asks_for_key url x k /\ usable k /\ requestable k /\ chosen random rnd k /\ (proto_size (kd_value d) -> is_key d k).
  Proof using F.
    destruct F as (ND & F1 & F2). intros url rnd x m d E H RL. apply find_manager_some in E; [| exact ND]. destruct E as (t & I & -> & ->).
    destruct (F2 t I) as (kind & M & Hk). destruct (impl_new random t kind obj M rnd x d H RL) as (A & B & k & K & C).
    split; [exact A |]. split; [exact B |]. exists k. split; [apply Hk, K | exact C].
  Qed.
  Lemma family_new_accepts : forall url rnd x k, for_ k = true -> asks_for_key url x k -> usable k -> requestable k ->
    exists m d, find_manager random l url = Some m /\ cl_new_key_data m rnd x = StOk d.
  Proof using F.
    destruct F as (ND & F1 & F2). intros url rnd x k K A U R. destruct (F1 k K) as (t & kind & I & M & K').
    assert (E : url = type_url (kt_name t)) by (destruct A as (A & _); rewrite A, (proj1 (mg_name _ _ _ M k K')); reflexivity). subst url.
    destruct (impl_new_accepts random t kind obj M rnd x k K' A U R) as (d & H). exists (key_manager_impl random t), d.
    split; [| exact H]. apply find_manager_some; [exact ND |]. exists t. auto.
  Qed.
End Family.

Ltac families :=
  split; [| split];
  [ repeat constructor; cbn; intuition discriminate
  | intros [] K; try discriminate K
  | ].
Lemma aead_family : forall lib random, family
  [aes_ctr_hmac_aead_key_manager lib random; aes_gcm_key_manager lib random; aes_gcm_siv_key_manager lib random; aes_eax_key_manager lib random;
   xchacha20_poly1305_key_manager lib random] for_aead (aead_object lib random).
Proof.
  intros lib random. families.
  - do 2 eexists. split; [| split; [apply eax_manages | reflexivity]]. cbn. tauto.
  - do 2 eexists. split; [| split; [apply gcm_manages | reflexivity]]. cbn. tauto.
  - do 2 eexists. split; [| split; [apply gcm_siv_manages | reflexivity]]. cbn. tauto.
  - do 2 eexists. split; [| split; [apply xchacha_manages | reflexivity]]. cbn. tauto.
  - do 2 eexists. split; [| split; [apply ctr_hmac_manages | reflexivity]]. cbn. tauto.
  - intros t [<- | [<- | [<- | [<- | [<- | []]]]]]; eexists;
      (split; [apply ctr_hmac_manages || apply gcm_manages || apply gcm_siv_manages || apply eax_manages || apply xchacha_manages |]);
      intros [] K; try discriminate K; reflexivity.
Qed.
Lemma daead_family : forall lib, family [aes_siv_key_manager lib] for_daead (daead_object lib).
Proof.
  intros lib. families.
  - do 2 eexists. split; [| split; [apply siv_manages | reflexivity]]. cbn. tauto.
  - intros t [<- | []]; eexists; (split; [apply siv_manages |]); intros [] K; try discriminate K; reflexivity.
Qed.
Lemma mac_family : forall lib, family [hmac_key_manager lib; aes_cmac_key_manager lib] for_mac (mac_object lib).
Proof.
  intros lib. families.
  - do 2 eexists. split; [| split; [apply hmac_manages | reflexivity]]. cbn. tauto.
  - do 2 eexists. split; [| split; [apply cmac_manages | reflexivity]]. cbn. tauto.
  - intros t [<- | [<- | []]]; eexists; (split; [apply hmac_manages || apply cmac_manages |]); intros [] K; try discriminate K; reflexivity.
Qed.
Lemma prf_family : forall lib, family [hmac_prf_key_manager lib; hkdf_prf_key_manager lib; aes_cmac_prf_key_manager lib] for_prf (prf_object lib).
Proof.
  intros lib. families.
  - do 2 eexists. split; [| split; [apply hmac_prf_manages | reflexivity]]. cbn. tauto.
  - do 2 eexists. split; [| split; [apply hkdf_prf_manages | reflexivity]]. cbn. tauto.
  - do 2 eexists. split; [| split; [apply cmac_prf_manages | reflexivity]]. cbn. tauto.
  - intros t [<- | [<- | [<- | []]]]; eexists; (split; [apply hmac_prf_manages || apply hkdf_prf_manages || apply cmac_prf_manages |]);
      intros [] K; try discriminate K; reflexivity.
Qed.

(** ** Keys that are taken *)
Theorem aead_key_primitive : forall lib random d cc,
  (exists m, aead_managers lib random (kd_type_url d) = Some m /\ cl_get_primitive m d = StOk cc) <->
  (exists k, for_aead k = true /\ is_key d k /\ usable k /\ aead_object lib random k = StOk cc).
Proof. intros lib random. exact (family_key_primitive random _ _ _ (aead_family lib random)). Qed.
Theorem daead_key_primitive : forall lib random d cc,
  (exists m, daead_managers lib random (kd_type_url d) = Some m /\ cl_get_primitive m d = StOk cc) <->
  (exists k, for_daead k = true /\ is_key d k /\ usable k /\ daead_object lib k = StOk cc).
Proof. intros lib random. exact (family_key_primitive random _ _ _ (daead_family lib)). Qed.
Theorem mac_key_primitive : forall lib random d cc,
  (exists m, mac_managers lib random (kd_type_url d) = Some m /\ cl_get_primitive m d = StOk cc) <->
  (exists k, for_mac k = true /\ is_key d k /\ usable k /\ mac_object lib k = StOk cc).
Proof. intros lib random. exact (family_key_primitive random _ _ _ (mac_family lib)). Qed.
Theorem prf_key_primitive : forall lib random d cc,
  (exists m, prf_managers lib random (kd_type_url d) = Some m /\ cl_get_primitive m d = StOk cc) <->
  (exists k, for_prf k = true /\ is_key d k /\ usable k /\ prf_object lib k = StOk cc).
Proof. intros lib random. exact (family_key_primitive random _ _ _ (prf_family lib)). Qed.
Theorem usable_keys_work : forall lib random k, usable k ->
  (for_aead k = true -> exists cc, aead_object lib random k = StOk cc) /\
  (for_daead k = true -> exists cc, daead_object lib k = StOk cc) /\
  (for_mac k = true -> exists cc, mac_object lib k = StOk cc) /\
  (for_prf k = true -> exists cc, prf_object lib k = StOk cc).
Proof.
  intros lib random k U. repeat apply conj; intros H; destruct k; try discriminate H; cbn [usable aead_object daead_object mac_object prf_object] in *.
  - apply aes_eax_made, U.
  - apply one_shot_made, U.
  - apply one_shot_made, U.
  - apply one_shot_made. cbn. auto.
  - apply ctr_hmac_made, U.
  - apply aes_siv_made, U.
  - apply hmac_made. split; [| lia]. intros ->. cbn in U. lia.
  - apply cmac_made. split; [cbn [In]; lia | lia].
  - eexists. reflexivity.
  - apply hkdf_prf_made. destruct U as (U & [<- | [<- | []]]); cbn; intuition (lia || discriminate).
  - eexists. reflexivity.
Qed.
Lemma ctr_key_eq : forall a b, aes_key a = aes_key b -> iv_size a = iv_size b -> hmac_key a = hmac_key b -> hmac_hash a = hmac_hash b ->
  hmac_tag_size a = hmac_tag_size b -> a = b.
Proof. intros [] []. cbn. congruence. Qed.
Theorem is_key_unique : forall d k k', is_key d k -> is_key d k' -> k = k'.
Proof.
  intros d k k' (T & m & E & F) (T' & m' & E' & F'). rewrite T in T'. apply type_url_inj in T'.
  assert (S : sk_schema k = sk_schema k') by (destruct k, k'; try discriminate T'; reflexivity). rewrite <- S in E'. rewrite E in E'. injection E' as <-.
  rewrite <- S in F'. clear S E T. destruct k, k'; try discriminate T'; cbv beta iota delta [key_attributes sk_schema] in F, F'; attrs;
    repeat match goal with H : num_at _ _ _ = _ |- _ => try apply Nat2Z.inj in H; revert H | H : bytes_at _ _ _ = _ |- _ => revert H end; intros;
    repeat match goal with H : hash_number _ _ |- _ => apply hash_number_known in H end;
    repeat match goal with A : ?x = Z.of_nat ?a, B : ?x = Z.of_nat ?b |- _ => rewrite A in B; apply Nat2Z.inj in B end;
    try match goal with |- CtrHmacAeadKey _ = _ => f_equal; apply ctr_key_eq end; congruence.
Qed.

(** ** Keys that are made *)
Theorem aead_new_key : forall lib random url rnd x m d,
  aead_managers lib random url = Some m -> cl_new_key_data m rnd x = StOk d -> random_law random ->
  kd_type_url d = url /\ kd_key_material_type d = SYMMETRIC /\
  exists k, for_aead k = true /\ asks_for_key url x k /\ usable k /\ requestable k /\ chosen random rnd k /\ (proto_size (kd_value d) -> is_key d k).
Proof. intros lib random. exact (family_new_key random _ _ _ (aead_family lib random)). Qed.
Theorem daead_new_key : forall lib random url rnd x m d,
  daead_managers lib random url = Some m -> cl_new_key_data m rnd x = StOk d -> random_law random ->
  kd_type_url d = url /\ kd_key_material_type d = SYMMETRIC /\
  exists k, for_daead k = true /\ asks_for_key url x k /\ usable k /\ requestable k /\ chosen random rnd k /\ (proto_size (kd_value d) -> is_key d k).
Proof. intros lib random. exact (family_new_key random _ _ _ (daead_family lib)). Qed.
Theorem mac_new_key : forall lib random url rnd x m d,
  mac_managers lib random url = Some m -> cl_new_key_data m rnd x = StOk d -> random_law random ->
  kd_type_url d = url /\ kd_key_material_type d = SYMMETRIC /\
  exists k, for_mac k = true /\ asks_for_key url x k /\ usable k /\ requestable k /\ chosen random rnd k /\ (proto_size (kd_value d) -> is_key d k).
Proof. intros lib random. exact (family_new_key random _ _ _ (mac_family lib)). Qed.
Theorem prf_new_key : forall lib random url rnd x m d,
  prf_managers lib random url = Some m -> cl_new_key_data m rnd x = StOk d -> random_law random ->
  kd_type_url d = url /\ kd_key_material_type d = SYMMETRIC /\
  exists k, for_prf k = true /\ asks_for_key url x k /\ usable k /\ requestable k /\ chosen random rnd k /\ (proto_size (kd_value d) -> is_key d k).
Proof. intros lib random. exact (family_new_key random _ _ _ (prf_family lib)). Qed.
Theorem new_key_accepted : forall lib random url rnd x k, asks_for_key url x k -> usable k -> requestable k ->
  (for_aead k = true -> exists m d, aead_managers lib random url = Some m /\ cl_new_key_data m rnd x = StOk d) /\
  (for_daead k = true -> exists m d, daead_managers lib random url = Some m /\ cl_new_key_data m rnd x = StOk d) /\
  (for_mac k = true -> exists m d, mac_managers lib random url = Some m /\ cl_new_key_data m rnd x = StOk d) /\
  (for_prf k = true -> exists m d, prf_managers lib random url = Some m /\ cl_new_key_data m rnd x = StOk d).
Proof.
  intros lib random url rnd x k A U R. repeat apply conj; intros K.
  - exact (family_new_accepts random _ _ _ (aead_family lib random) url rnd x k K A U R).
  - exact (family_new_accepts random _ _ _ (daead_family lib) url rnd x k K A U R).
  - exact (family_new_accepts random _ _ _ (mac_family lib) url rnd x k K A U R).
  - exact (family_new_accepts random _ _ _ (prf_family lib) url rnd x k K A U R).
Qed.

(** ** Templates *)
Ltac one_template :=
  split; [reflexivity |]; eexists; split; [vm_compute; reflexivity |]; cbn [kt_type_url kt_value kt_output_prefix_type fst snd];
  split; [split; [vm_compute; reflexivity | eexists; split; [vm_compute; reflexivity |]; repeat constructor;
                  try (eexists; split; [vm_compute; reflexivity | cbn; tauto])]
         | split; [| split; [cbn; try exact I; reflexivity | reflexivity]]].
Theorem symmetric_templates : 
  Forall2 template_asks aead_templates aead_template_keys /\ Forall2 template_asks daead_templates daead_template_keys /\
  Forall2 template_asks mac_templates mac_template_keys /\ Forall2 template_asks prf_templates prf_template_keys.
Proof.
  unfold aead_templates, aead_template_keys, daead_templates, daead_template_keys, mac_templates, mac_template_keys, prf_templates, prf_template_keys,
    both_prefixes. cbn [app].
  repeat apply conj; repeat match goal with |- Forall2 _ (_ :: _) (_ :: _) => apply Forall2_cons | |- Forall2 _ [] [] => constructor end.
  all: one_template.
  all: unfold usable, ctr_hmac_key_ok; cbn [aes_key iv_size hmac_key hmac_hash hmac_tag_size hash_size]; unfold some; rewrite ?repeat_length; cbn [In];
    repeat split; try tauto; try lia; discriminate.
Qed.
