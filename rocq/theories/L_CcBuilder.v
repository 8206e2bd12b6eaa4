(** Proofs: the life of keysets that are managed with a KeysetBuilder. *)
From Coq Require Import Strings.Byte Strings.String List NArith ZArith Bool Lia.
From Verif Require Import M_Base M_Utf8 M_Proto M_Wire M_ProtoMsg M_KeyFormats M_Prims M_PrimitiveSet M_Registry M_KeysetHandle M_KeysetBuilder M_Wrappers M_StreamTypes M_CcStream M_CcManagers
  M_Templates M_CcAes M_CcStreamKeys M_CcModes M_CcSymmetric M_CcSymKeys S_Keyset S_Handle S_Wrappers S_Wire S_Config S_KeysetBuilder S_CcLaws S_CcAes S_CcStreamKeys S_CcModes S_CcSymmetric
  S_CcSymKeys S_CcSymHandles S_CcBuilder L_Base L_Registry L_Wire L_PrimitiveSet L_Keyset L_Wrappers L_Handle L_Config L_Config2 L_Config3 L_Config4 L_KeysetBuilder
  L_CcStreamKeys L_CcSymKeys L_CcSymKeys2 L_CcSymHandles L_CcSymHandles2 L_CcSymHandles3 L_CcSymHandles4.
Import ListNotations.
Open Scope string_scope.
Open Scope list_scope.
Open Scope nat_scope.

(** ** Histories that add key data with the property [Q] *)
Definition makes_keys (Q : key_data -> Prop) (templates : list (string * result key_template)) (r : registry) : Prop :=
  forall name t rnd, In (name, Ok t) templates -> exists d, registry_new_key_data r rnd t = Ok d /\ Q d.
Definition not_public (Q : key_data -> Prop) : Prop := forall d, Q d -> wf_key_data d /\ kd_key_material_type d <> ASYMMETRIC_PUBLIC.
Definition key_ok (Q : key_data -> Prop) (k : key) : Prop :=
  (k_status k = ENABLED \/ k_status k = DISABLED) /\ k_output_prefix_type k = TINK /\ (1 <= k_key_id k <= 4294967295)%N /\
  exists d, k_key_data_opt k = Some d /\ Q d.
Definition built (Q : key_data -> Prop) (ks : keyset) : Prop :=
  Forall (key_ok Q) (ks_key ks) /\ NoDup (map k_key_id (ks_key ks)) /\ (ks_primary_key_id ks <= 4294967295)%N.
Lemma key_ok_status : forall Q k s, s = ENABLED \/ s = DISABLED -> key_ok Q k -> key_ok Q (with_status s k).
Proof. intros Q k s S (_ & T & I & D). split; [exact S | auto]. Qed.
Lemma built_step : forall Q templates reg op ks r ks', makes_keys Q templates reg -> adds_predefined templates op -> builder_effect reg op ks r ks' -> built Q ks ->
  built Q ks' /\ proper_result op r.
Proof.
  intros Q templates reg op ks r ks' MK AP H (F & ND & PI).
  assert (G : forall id change, acts_on id ks r ks' change -> (forall b k a, first_with id ks b k a -> built Q (change b k a)) -> is_add op = false -> built Q ks' /\ proper_result op r).
  { intros id change [(_ & -> & e & -> & T) | (b & k & a & W & -> & ->)] CH NA.
    - split; [repeat split; assumption |]. split; [exact T | rewrite NA; discriminate].
    - split; [exact (CH _ _ _ W) |]. split; [exact I | rewrite NA; discriminate]. }
  destruct op as [rnd draws t | id | id | id | id]; cbn [builder_effect adds_predefined] in *.
  - destruct AP as (TP & name & Hin). destruct (MK name t rnd Hin) as (d & E & OK).
    destruct H as [(d' & id & E' & -> & RI & UI & ->) | (e & E' & _)]; [| rewrite E in E'; discriminate].
    rewrite E in E'. apply ok_inj in E'. subst d'. split; [| split; [exact I | intros _; exists id; reflexivity]].
    split; [| split; [| exact PI]]; cbn [ks_key].
    + apply Forall_app. split; [exact F |]. constructor; [| constructor]. split; [left; reflexivity |]. split; [exact TP |]. split; [exact RI |]. exists d. auto.
    + rewrite map_app. cbn [map k_key_id]. apply NoDup_rev in ND. rewrite <- (rev_involutive (map k_key_id (ks_key ks) ++ [id])). apply NoDup_rev.
      rewrite rev_app_distr. cbn [rev app]. constructor; [| exact ND]. rewrite <- in_rev, in_map_iff. intros (k & EK & IK).
      unfold unknown_id in UI. rewrite Forall_forall in UI. apply (UI k IK). unfold has_id. rewrite EK. reflexivity.
  - apply (G _ _ H); [| reflexivity]. intros b k a (E & _). split; [exact F |]. split; [exact ND |]. cbn [ks_primary_key_id].
    rewrite Forall_forall in F. assert (IK : In k (ks_key ks)) by (rewrite E; apply in_app_iff; right; left; reflexivity). destruct (F k IK) as (_ & _ & (_ & X) & _). exact X.
  - apply (G _ _ H); [| reflexivity]. intros b k a (E & _). rewrite E in *. split; [| split; [| exact PI]]; cbn [ks_key].
    + apply Forall_app in F. destruct F as (F1 & F2). inversion F2; subst. apply Forall_app. split; [exact F1 |]. constructor; [apply key_ok_status; auto | assumption].
    + rewrite map_app in *. exact ND.
  - apply (G _ _ H); [| reflexivity]. intros b k a (E & _). rewrite E in *. split; [| split; [| exact PI]]; cbn [ks_key].
    + apply Forall_app in F. destruct F as (F1 & F2). inversion F2; subst. apply Forall_app. split; [exact F1 |]. constructor; [apply key_ok_status; auto | assumption].
    + rewrite map_app in *. exact ND.
  - apply (G _ _ H); [| reflexivity]. intros b k a (E & _). rewrite E in *. split; [| split; [| exact PI]]; cbn [ks_key].
    + apply Forall_app in F. destruct F as (F1 & F2). inversion F2; subst. apply Forall_app. split; assumption.
    + rewrite map_app in *. cbn [map] in ND. exact (NoDup_remove_1 _ _ _ ND).
Qed.
Lemma built_run : forall Q templates reg ops ks rs ks', makes_keys Q templates reg -> Forall (adds_predefined templates) ops -> builder_run reg ops ks = Some (rs, ks') -> built Q ks ->
  built Q ks' /\ Forall2 proper_result ops rs.
Proof.
  intros Q templates reg ops. induction ops as [| op ops IH]; intros ks rs ks' MK AP H B; cbn [builder_run] in H.
  - injection H as <- <-. split; [exact B | constructor].
  - destruct (builder_step reg op ks) as [[r k1] |] eqn:Es; [| discriminate]. destruct (builder_run reg ops k1) as [[rs' k2] |] eqn:Er; [| discriminate]. injection H as <- ->.
    inversion AP as [| ? ? A1 A2]; subst. apply builder_step_effect in Es. destruct (built_step _ _ _ _ _ _ _ MK A1 Es B) as (B1 & R1).
    destruct (IH _ _ _ MK A2 Er B1) as (B2 & R2). split; [exact B2 | constructor; assumption].
Qed.
Lemma built_new : forall Q, built Q new_keyset_builder.
Proof. intros Q. split; [constructor |]. split; [constructor | discriminate]. Qed.
Lemma built_wf : forall Q ks, not_public Q -> built Q ks -> wf_keyset ks.
Proof.
  intros Q ks NP (F & _ & PI). split; [unfold uint32_range; change (2 ^ 32)%N with 4294967296%N; lia |]. intros k IK. rewrite Forall_forall in F.
  destruct (F k IK) as (S & T & ID & d & E & X). split; [intros d' E'; rewrite E in E'; apply some_inj in E'; subst d'; exact (proj1 (NP _ X)) |].
  split; [destruct S as [-> | ->]; split; discriminate || reflexivity |]. split; [unfold uint32_range; change (2 ^ 32)%N with 4294967296%N; lia |]. rewrite T. split; discriminate || reflexivity.
Qed.
Lemma nodup_positions : forall (l : list key) i j k k', NoDup (map k_key_id l) -> nth_error l i = Some k -> nth_error l j = Some k' -> k_key_id k = k_key_id k' -> i = j.
Proof.
  intros l i j k k' ND Hi Hj E. apply (proj1 (NoDup_nth_error _) ND).
  - rewrite map_length. apply nth_error_Some. rewrite Hi. discriminate.
  - rewrite !nth_error_map, Hi, Hj. cbn [option_map]. rewrite E. reflexivity.
Qed.
Lemma built_valid : forall Q ks, not_public Q -> built Q ks -> (valid_keyset ks <-> primary_on ks).
Proof.
  intros Q ks NP (F & ND & _). rewrite Forall_forall in F. split.
  - intros ((k0 & I0 & _) & _ & _ & [(i & k & Hn & S & E) | PUB]).
    + exists k. split; [exact (nth_error_In _ _ Hn) | auto].
    + exfalso. destruct (F k0 I0) as (_ & _ & _ & d & ED & X). specialize (PUB k0 I0). unfold k_key_data in PUB. rewrite ED in PUB. exact (proj2 (NP _ X) PUB).
  - intros (k & IK & S & E). split; [exists k; split; [exact IK | rewrite S; discriminate] |]. split; [| split].
    + intros k' IK' _. destruct (F k' IK') as (S' & T & _ & d & ED & _). split; [exists d; exact ED |]. split; [rewrite T; discriminate | destruct S' as [-> | ->]; discriminate].
    + intros i j (k1 & H1 & _ & E1) (k2 & H2 & _ & E2). apply (nodup_positions _ _ _ _ _ ND H1 H2). congruence.
    + left. destruct (In_nth_error _ _ IK) as (i & Hn). exists i, k. auto.
Qed.
Lemma same_id : forall Q ks k k', built Q ks -> In k (ks_key ks) -> In k' (ks_key ks) -> k_key_id k = k_key_id k' -> k = k'.
Proof.
  intros Q ks k k' (_ & ND & _) I I' E. destruct (In_nth_error _ _ I) as (i & Hi), (In_nth_error _ _ I') as (j & Hj).
  pose proof (nodup_positions _ _ _ _ _ ND Hi Hj E). subst j. congruence.
Qed.
(** ** The key of a past primary *)
Lemma with_status_same : forall k s, k_status k = s -> with_status s k = k.
Proof. intros k s <-. destruct k; reflexivity. Qed.
Lemma stays : forall Q reg ops ks rs ks' k, built Q ks -> In k (ks_key ks) -> k_status k = ENABLED -> builder_run reg ops ks = Some (rs, ks') -> stays_on (k_key_id k) ops -> In k (ks_key ks').
Proof.
  intros Q reg ops ks rs ks' k B IK S H (ND & SA). destruct (in_split _ _ IK) as (b & a & E).
  assert (W : first_with (Z.of_N (k_key_id k)) ks b k a).
  { split; [exact E |]. split; [reflexivity |]. rewrite Forall_forall. intros k' I' HI. unfold has_id in HI. apply N2Z.inj in HI.
    destruct B as (_ & NDi & _). rewrite E, map_app in NDi. cbn [map] in NDi. apply NoDup_remove_2 in NDi. apply NDi, in_app_iff. left. rewrite <- HI. apply in_map. exact I'. }
  destruct (builder_key_persists _ _ _ _ _ _ _ _ _ H W ND) as (b' & a' & E' & _). rewrite S, SA in E'.
  rewrite (with_status_same k ENABLED S) in E'. rewrite E'. apply in_app_iff. right. left. reflexivity.
Qed.
Lemma no_add_unknown : forall reg ops ks rs ks' id, builder_run reg ops ks = Some (rs, ks') -> Forall (fun op => is_add op = false) ops -> unknown_id id ks -> unknown_id id ks'.
Proof.
  intros reg ops. induction ops as [| op ops IH]; intros ks rs ks' id H NA U; cbn [builder_run] in H; [injection H as <- <-; exact U |].
  destruct (builder_step reg op ks) as [[r k1] |] eqn:Es; [| discriminate]. destruct (builder_run reg ops k1) as [[rs' k2] |] eqn:Er; [| discriminate]. injection H as <- ->.
  inversion NA as [| ? ? N1 N2]; subst. apply (IH _ _ _ id Er N2). apply builder_step_effect in Es. unfold unknown_id in *.
  destruct op; cbn [builder_effect] in Es; try discriminate N1; destruct Es as [(_ & -> & _) | (b & k & a & (E & _) & _ & ->)]; try exact U; cbn [ks_key]; try exact U;
    rewrite E in U; apply Forall_app in U; destruct U as (U1 & U2); inversion U2; subst; apply Forall_app; split; try assumption; constructor; assumption.
Qed.
Lemma run_app : forall reg ops1 ops2 ks rs ks', builder_run reg (ops1 ++ ops2) ks = Some (rs, ks') -> exists rs1 ks1 rs2, builder_run reg ops1 ks = Some (rs1, ks1) /\ builder_run reg ops2 ks1 = Some (rs2, ks').
Proof.
  intros reg ops1. induction ops1 as [| op ops1 IH]; intros ops2 ks rs ks' H; cbn [app builder_run] in *; [exists [], ks, rs; auto |].
  destruct (builder_step reg op ks) as [[r k1] |]; [| discriminate]. destruct (builder_run reg (ops1 ++ ops2) k1) as [[rs' k2] |] eqn:Er; [| discriminate]. injection H as <- ->.
  destruct (IH _ _ _ _ Er) as (rs1 & ks1 & rs2 & E1 & E2). exists (r :: rs1), ks1, rs2. rewrite E1. auto.
Qed.
Lemma goes : forall Q templates reg ops ks rs ks' k, makes_keys Q templates reg -> Forall (adds_predefined templates) ops -> built Q ks -> In k (ks_key ks) -> k_status k = ENABLED ->
  builder_run reg ops ks = Some (rs, ks') -> goes_off (k_key_id k) ops -> forall k', In k' (ks_key ks') -> k_status k' = ENABLED -> k_key_id k' <> k_key_id k.
Proof.
  intros Q templates reg ops ks rs ks' k MK AP B IK S H [(ND & SA) | (o1 & o2 & -> & NA)] k' I' S' E'.
  - destruct (in_split _ _ IK) as (b & a & E).
    assert (W : first_with (Z.of_N (k_key_id k)) ks b k a).
    { split; [exact E |]. split; [reflexivity |]. rewrite Forall_forall. intros x Ix HI. unfold has_id in HI. apply N2Z.inj in HI.
      destruct B as (_ & NDi & _). rewrite E, map_app in NDi. cbn [map] in NDi. apply NoDup_remove_2 in NDi. apply NDi, in_app_iff. left. rewrite <- HI. apply in_map. exact Ix. }
    destruct (builder_key_persists _ _ _ _ _ _ _ _ _ H W ND) as (b' & a' & EQ & _). rewrite S, SA in EQ.
    destruct (built_run _ _ _ _ _ _ _ MK AP H B) as (B' & _).
    assert (X : In (with_status DISABLED k) (ks_key ks')) by (rewrite EQ; apply in_app_iff; right; left; reflexivity).
    pose proof (same_id _ _ _ _ B' I' X E') as ->. discriminate S'.
  - destruct (run_app _ _ _ _ _ _ H) as (rs1 & ks1 & rs2 & R1 & R2). apply Forall_app in AP. destruct AP as (AP1 & _).
    destruct (built_run _ _ _ _ _ _ _ MK AP1 R1 B) as (B1 & _). cbn [builder_run] in R2.
    destruct (builder_step reg (DeleteKey (Z.of_N (k_key_id k))) ks1) as [[r k2] |] eqn:Es; [| discriminate]. destruct (builder_run reg o2 k2) as [[rs' k3] |] eqn:Er; [| discriminate]. injection R2 as <- ->.
    destruct (builder_delete_gone _ _ _ _ _ Es (proj1 (proj2 B1))) as (U & _). pose proof (no_add_unknown _ _ _ _ _ _ Er NA U) as U'. unfold unknown_id in U'. rewrite Forall_forall in U'.
    apply (U' k' I'). unfold has_id. rewrite E'. reflexivity.
Qed.
(** ** New keys for predefined templates *)
Definition sym_data_ok (is_for : sym_key -> bool) (d : key_data) (sk : sym_key) : Prop :=
  wf_key_data d /\ proto_size (serialize_key_data d) /\ is_key d sk /\ is_for sk = true /\ usable sk.
Definition sym_data_for (is_for : sym_key -> bool) (d : key_data) : Prop := kd_key_material_type d = SYMMETRIC /\ exists sk, sym_data_ok is_for d sk.
Lemma new_key_made : forall P (c : pclass) (managers : pystr -> option (cc_lib_manager P)) is_for pkg random templates table w env r,
  (forall k, is_for k = true -> In (sk_name k, c, false) (key_types pkg)) ->
  (forall url m, managers url = Some m -> cc_functions w c url = Some (cl_key_type m, cl_new_key_data m, cl_public_key_data m)) ->
  (forall rnd url x m d, managers url = Some m -> cl_new_key_data m rnd x = StOk d ->
     kd_type_url d = url /\ kd_key_material_type d = SYMMETRIC /\
     exists k, is_for k = true /\ asks_for_key url x k /\ usable k /\ requestable k /\ chosen random rnd k /\ (proto_size (kd_value d) -> is_key d k)) ->
  (forall rnd url x k, is_for k = true -> asks_for_key url x k -> usable k -> requestable k ->
     exists m d, managers url = Some m /\ cl_new_key_data m rnd x = StOk d) ->
  (forall name t rnd m d, In (name, Ok t) templates -> managers (kt_type_url t) = Some m -> cl_new_key_data m rnd (kt_value t) = StOk d -> sizes_fit t d) ->
  Forall2 template_asks templates table -> Forall (fun x => is_for (snd (fst x)) = true /\ (snd x = TINK \/ snd x = RAW)) table ->
  configured w env pkg r -> makes_keys (sym_data_for is_for) templates r.
Proof.
  intros P c managers is_for pkg random templates table w env r HK HW HN HA HS HT HF HC name t rnd Hin.
  destruct (template_found _ _ _ _ HT Hin) as (sk0 & pt & IT & A0 & U0 & R0 & EP).
  rewrite Forall_forall in HF. destruct (HF _ IT) as (F0 & TP). cbn [fst snd] in *.
  destruct (HA rnd _ _ _ F0 A0 U0 R0) as (m & d & M & ND). destruct (HS _ _ _ _ _ Hin M ND) as (W1 & W2 & W3 & W4 & W5 & _).
  destruct (HN _ _ _ _ _ M ND) as (D1 & D2 & sk & F & A & U & R & CH & K). specialize (K W4).
  assert (HR : registry_new_key_data r rnd t = Ok d).
  { destruct A as (EU & A). pose proof (HW _ _ M) as CF. rewrite EU in CF.
    pose proof (configured_new_key _ _ _ _ _ _ _ _ _ _ rnd t HC (HK _ F) CF EU W1 W2) as Q. rewrite ND in Q. apply Q.
    intros d' E. injection E as <-. split; assumption. }
  exists d. split; [exact HR |]. split; [exact D2 |]. exists sk. repeat split; assumption || apply W3 || apply K.
Qed.
Lemma aead_makes_keys : forall lib random w env r, sym_world lib random w -> random_law random -> configured w env Aead r -> makes_keys (sym_data_for for_aead) aead_templates r.
Proof.
  intros lib random w env r SW RL HC. pose proof SW as (_ & HW & _).
  apply (new_key_made _ ClsAead (aead_managers lib random) for_aead Aead random aead_templates aead_template_keys w env r).
  - intros []; intros X; try discriminate X; cbn; tauto.
  - intros url m M. cbn [cc_functions]. rewrite (HW _ _ M). reflexivity.
  - intros rnd url x m d M ND. exact (aead_new_key lib random url rnd x m d M ND RL).
  - intros rnd url x k F A U R. exact (proj1 (new_key_accepted lib random url rnd x k A U R) F).
  - intros name t rnd m d Hin. exact (aead_template_sizes name t lib random rnd m d RL Hin).
  - exact (proj1 symmetric_templates).
  - table_ok.
  - exact HC.
Qed.
Lemma daead_makes_keys : forall lib random w env r, sym_world lib random w -> random_law random -> configured w env Daead r -> makes_keys (sym_data_for for_daead) daead_templates r.
Proof.
  intros lib random w env r SW RL HC. pose proof SW as (_ & _ & HW & _).
  apply (new_key_made _ ClsDaead (daead_managers lib random) for_daead Daead random daead_templates daead_template_keys w env r).
  - intros []; intros X; try discriminate X; cbn; tauto.
  - intros url m M. cbn [cc_functions]. rewrite (HW _ _ M). reflexivity.
  - intros rnd url x m d M ND. exact (daead_new_key lib random url rnd x m d M ND RL).
  - intros rnd url x k F A U R. exact (proj1 (proj2 (new_key_accepted lib random url rnd x k A U R)) F).
  - intros name t rnd m d Hin. exact (daead_template_sizes name t lib random rnd m d RL Hin).
  - exact (proj1 (proj2 symmetric_templates)).
  - table_ok.
  - exact HC.
Qed.
Lemma mac_makes_keys : forall lib random w env r, sym_world lib random w -> random_law random -> configured w env Mac r -> makes_keys (sym_data_for for_mac) mac_templates r.
Proof.
  intros lib random w env r SW RL HC. pose proof SW as (_ & _ & _ & HW & _).
  apply (new_key_made _ ClsMac (mac_managers lib random) for_mac Mac random mac_templates mac_template_keys w env r).
  - intros []; intros X; try discriminate X; cbn; tauto.
  - intros url m M. cbn [cc_functions]. rewrite (HW _ _ M). reflexivity.
  - intros rnd url x m d M ND. exact (mac_new_key lib random url rnd x m d M ND RL).
  - intros rnd url x k F A U R. exact (proj1 (proj2 (proj2 (new_key_accepted lib random url rnd x k A U R))) F).
  - intros name t rnd m d Hin. exact (mac_template_sizes name t lib random rnd m d RL Hin).
  - exact (proj1 (proj2 (proj2 symmetric_templates))).
  - table_ok.
  - exact HC.
Qed.

(** ** The keys as values *)
Lemma sym_not_public : forall is_for, not_public (sym_data_for is_for).
Proof. intros is_for d (M & sk & W & _). split; [exact W | rewrite M; discriminate]. Qed.
Lemma key_data_dec : forall x y : key_data, {x = y} + {x <> y}.
Proof. decide equality; [apply Z.eq_dec | apply (list_eq_dec Byte.byte_eq_dec) | apply (list_eq_dec N.eq_dec)]. Qed.
Lemma choose_keys : forall (Q : key_data -> sym_key -> Prop) ds, Forall (fun d => exists sk, Q d sk) ds -> exists g : key_data -> sym_key, Forall (fun d => Q d (g d)) ds.
Proof.
  intros Q ds H. induction H as [| d ds (sk & QS) H (g & IH)]; [exists (fun _ => GcmKey []); constructor |].
  exists (fun x => if key_data_dec x d then sk else g x). constructor; [destruct (key_data_dec d d); [exact QS | contradiction] |].
  rewrite Forall_forall in *. intros x Hx. destruct (key_data_dec x d) as [-> | _]; [exact QS | exact (IH x Hx)].
Qed.
Definition values (g : key_data -> sym_key) (ks : keyset) : list (key * sym_key) := map (fun k => (k, g (k_key_data k))) (enabled_keys ks).
Definition gives (is_for : sym_key -> bool) (g : key_data -> sym_key) (ks : keyset) : Prop :=
  Forall (fun k => sym_data_ok is_for (k_key_data k) (g (k_key_data k))) (ks_key ks).
Lemma two_values : forall is_for ks ks', built (sym_data_for is_for) ks -> built (sym_data_for is_for) ks' -> exists g, gives is_for g ks /\ gives is_for g ks'.
Proof.
  intros is_for ks ks' (F & _) (F' & _). destruct (choose_keys (sym_data_ok is_for) (map k_key_data (ks_key ks ++ ks_key ks'))) as (g & G).
  - rewrite Forall_forall. intros d Hd. apply in_map_iff in Hd. destruct Hd as (k & <- & IK). apply in_app_iff in IK. rewrite Forall_forall in F, F'.
    assert (OK : key_ok (sym_data_for is_for) k) by (destruct IK; auto). destruct OK as (_ & _ & _ & d & E & _ & sk & X). exists sk. unfold k_key_data. rewrite E. exact X.
  - exists g. unfold gives. rewrite !Forall_forall in *. split; intros k IK; apply G, in_map, in_app_iff; auto.
Qed.
Lemma values_in : forall g ks k sk, In (k, sk) (values g ks) <-> In k (ks_key ks) /\ k_status k = ENABLED /\ sk = g (k_key_data k).
Proof.
  intros g ks k sk. unfold values, enabled_keys. rewrite in_map_iff. split.
  - intros (k' & E & I). injection E as <- <-. apply filter_In in I. destruct I as (I & S). split; [exact I |]. split; [apply Z.eqb_eq; exact S | reflexivity].
  - intros (I & S & ->). exists k. split; [reflexivity |]. apply filter_In. split; [exact I | apply Z.eqb_eq; exact S].
Qed.
Lemma built_sym : forall is_for g ks, built (sym_data_for is_for) ks -> primary_on ks -> gives is_for g ks -> sym_keyset is_for ks (values g ks).
Proof.
  intros is_for g ks B PO G. split; [apply (built_valid _ _ (sym_not_public _) B); exact PO |]. split; [unfold values; rewrite map_map; apply map_id |].
  rewrite Forall_forall. intros (k & sk) IK. apply values_in in IK. destruct IK as (IK & S & ->). cbn [fst snd]. unfold gives in G. rewrite Forall_forall in G.
  destruct (G k IK) as (G1 & G2 & G3 & G4 & G5). do 5 (split; [assumption |]). destruct B as (F & _). rewrite Forall_forall in F. destruct (F k IK) as (_ & T & ID & _).
  apply has_prefix_exists. right. split; [left; exact T |]. change (2 ^ 32)%N with 4294967296%N. lia.
Qed.
Lemma built_apart : forall is_for g ks k, built (sym_data_for is_for) ks -> In k (ks_key ks) -> tells_apart k (g (k_key_data k)) (values g ks).
Proof.
  intros is_for g ks k B IK. assert (T : forall k', In k' (ks_key ks) -> k_output_prefix_type k' <> RAW).
  { intros k' I'. destruct B as (F & _). rewrite Forall_forall in F. destruct (F k' I') as (_ & -> & _). discriminate. }
  split; [exact (T k IK) |]. intros k' sk' I'. apply values_in in I'. destruct I' as (I' & _ & ->). split; [exact (T k' I') |]. intros E. rewrite (same_id _ _ _ _ B I' IK E). reflexivity.
Qed.
Lemma built_primary : forall is_for g ks, built (sym_data_for is_for) ks -> primary_on ks -> exists k, In k (ks_key ks) /\ k_status k = ENABLED /\ k_key_id k = ks_primary_key_id ks /\
  is_primary ks (values g ks) k (g (k_key_data k)).
Proof. intros is_for g ks B (k & I & S & E). exists k. repeat split; auto. apply values_in. auto. Qed.
