(** Proofs: new keyset handles for the predefined symmetric templates, and round trips. *)
From Coq Require Import Strings.Byte Strings.String List NArith ZArith Bool Lia.
From Verif Require Import M_Base M_Utf8 M_Proto M_Wire M_ProtoMsg M_KeyFormats M_Prims M_PrimitiveSet M_Registry M_KeysetHandle M_Wrappers M_StreamTypes M_CcStream M_CcManagers
  M_Templates M_CcAes M_CcStreamKeys M_CcModes M_CcSymmetric M_CcSymKeys S_Keyset S_Wrappers S_Wire S_Config S_CcLaws S_CcAes S_CcStreamKeys S_CcModes S_CcSymmetric
  S_CcSymKeys S_CcSymHandles L_Base L_Registry L_Wire L_PrimitiveSet L_Keyset L_Wrappers L_Handle L_Config L_Config2 L_Config3 L_Config4
  L_CcStreamKeys L_CcSymKeys L_CcSymKeys2 L_CcSymHandles L_CcSymHandles2 L_CcSymHandles3.
Import ListNotations.
Open Scope string_scope.
Open Scope list_scope.
Open Scope nat_scope.

(** ** Ciphertexts that only one key opens *)
Lemma stamped_id : forall k k' C c c', k_output_prefix_type k <> RAW -> k_output_prefix_type k' <> RAW ->
  stamped k C c -> stamped k' C c' -> k_key_id k = k_key_id k' /\ c = c'.
Proof.
  intros k k' C c c' R R' (p & Hp & ->) (p' & Hp' & E).
  destruct Hp as [(X & _) | (s & b3 & b2 & b1 & b0 & -> & Hn & _)]; [contradiction |].
  destruct Hp' as [(X & _) | (s' & c3 & c2 & c1 & c0 & -> & Hn' & _)]; [contradiction |].
  cbn [app] in E. injection E as <- <- <- <- <- <-. split; congruence.
Qed.
Lemma same_stamp : forall k k' C c, k_output_prefix_type k' = k_output_prefix_type k -> k_key_id k' = k_key_id k -> stamped k C c -> stamped k' C c.
Proof. intros k k' C c T I (p & Hp & E). exists p. rewrite T, I. auto. Qed.
Lemma aead_unambiguous : forall lib ks l k sk nonce ad P C c, crypto_laws lib -> sym_keyset for_aead ks l -> tells_apart k sk l -> usable sk ->
  stamped k C c -> aead_ciphertext lib sk nonce ad P c -> forall P', opens lib l C ad P' -> P' = P.
Proof.
  intros lib ks l k sk nonce ad P C c CL KS (R & T) U S X P' (k' & sk' & nonce' & c' & I & S' & X').
  destruct (T _ _ I) as (R' & T'). destruct (stamped_id _ _ _ _ _ R R' S S') as (EI & <-). rewrite (T' (eq_sym EI)) in X'.
  exact (aead_ciphertext_plain _ _ _ _ _ _ _ _ CL U X' X).
Qed.
Lemma daead_ciphertext_plain : forall lib k ad P P' C, crypto_laws lib -> usable k ->
  daead_ciphertext lib k ad P C -> daead_ciphertext lib k ad P' C -> P = P'.
Proof.
  intros lib k ad P P' C CL U X X'. assert (F : for_daead k = true) by (destruct k; try contradiction X; reflexivity).
  destruct (proj1 (proj2 (usable_keys_work lib (fun _ _ => []) k U)) F) as (cc & O).
  apply (daead_object_decrypts lib k cc CL F O) in X, X'. congruence.
Qed.
Lemma daead_unambiguous : forall lib ks l k sk ad P C c, crypto_laws lib -> sym_keyset for_daead ks l -> tells_apart k sk l -> usable sk ->
  stamped k C c -> daead_ciphertext lib sk ad P c -> forall P', daead_opens lib l C ad P' -> P' = P.
Proof.
  intros lib ks l k sk ad P C c CL KS (R & T) U S X P' (k' & sk' & c' & I & S' & X').
  destruct (T _ _ I) as (R' & T'). destruct (stamped_id _ _ _ _ _ R R' S S') as (EI & <-). rewrite (T' (eq_sym EI)) in X'.
  exact (daead_ciphertext_plain _ _ _ _ _ _ CL U X' X).
Qed.

(** ** From one keyset to another *)
Theorem aead_carries_over : forall lib random ks l a ks2 l2 a2 k k2 sk rnd P ad C,
  aead_works lib random ks l a -> is_primary ks l k sk -> aead_works lib random ks2 l2 a2 ->
  In (k2, sk) l2 -> k_key_id k2 = k_key_id k -> k_output_prefix_type k2 = k_output_prefix_type k ->
  aead_encrypt a rnd P ad = Ok C ->
  (exists P', aead_decrypt a2 C ad = Ok P' /\ opens lib l2 C ad P') /\
  ((forall P', opens lib l2 C ad P' -> P' = P) -> aead_decrypt a2 C ad = Ok P).
Proof.
  intros lib random ks l a ks2 l2 a2 k k2 sk rnd P ad C (E & _) PR (_ & _ & D1 & D2 & _) I EI ET EC.
  apply (proj1 (E k sk PR rnd P ad)) in EC. destruct EC as (c & S & X).
  assert (O : opens lib l2 C ad P) by (exists k2, sk; do 2 eexists; split; [exact I |]; split; [exact (same_stamp _ _ _ _ ET EI S) | exact X]).
  destruct (D2 _ _ _ O) as (P' & ED). split; [exists P'; split; [exact ED | exact (D1 _ _ _ ED)] |].
  intros UN. rewrite ED, (UN P' (D1 _ _ _ ED)). reflexivity.
Qed.
Theorem sym_aead_rotation : forall lib random ks l a ks2 l2 a2 k k2 sk rnd P ad C,
  crypto_laws lib -> aead_works lib random ks l a -> is_primary ks l k sk -> sym_keyset for_aead ks2 l2 -> aead_works lib random ks2 l2 a2 ->
  In (k2, sk) l2 -> k_key_id k2 = k_key_id k -> k_output_prefix_type k2 = k_output_prefix_type k -> tells_apart k2 sk l2 ->
  aead_encrypt a rnd P ad = Ok C -> aead_decrypt a2 C ad = Ok P.
Proof.
  intros lib random ks l a ks2 l2 a2 k k2 sk rnd P ad C CL W PR KS W2 I EI ET TA EC.
  apply (proj2 (aead_carries_over _ _ _ _ _ _ _ _ _ _ _ _ _ _ _ W PR W2 I EI ET EC)).
  apply (proj1 (proj1 W k sk PR rnd P ad)) in EC. destruct EC as (c & S & X).
  exact (aead_unambiguous _ _ _ _ _ _ _ _ _ _ CL KS TA (proj1 (keyset_key _ _ _ _ _ KS I)) (same_stamp _ _ _ _ ET EI S) X).
Qed.
Theorem daead_carries_over : forall lib ks l a ks2 l2 a2 k k2 sk P ad C,
  daead_works lib ks l a -> is_primary ks l k sk -> daead_works lib ks2 l2 a2 ->
  In (k2, sk) l2 -> k_key_id k2 = k_key_id k -> k_output_prefix_type k2 = k_output_prefix_type k ->
  daead_encrypt a P ad = Ok C ->
  (exists P', daead_decrypt a2 C ad = Ok P' /\ daead_opens lib l2 C ad P') /\
  ((forall P', daead_opens lib l2 C ad P' -> P' = P) -> daead_decrypt a2 C ad = Ok P).
Proof.
  intros lib ks l a ks2 l2 a2 k k2 sk P ad C (E & _) PR (_ & _ & D1 & D2 & _) I EI ET EC.
  apply (proj1 (E k sk PR P ad)) in EC. destruct EC as (c & S & X).
  assert (O : daead_opens lib l2 C ad P) by (exists k2, sk, c; split; [exact I |]; split; [exact (same_stamp _ _ _ _ ET EI S) | exact X]).
  destruct (D2 _ _ _ O) as (P' & ED). split; [exists P'; split; [exact ED | exact (D1 _ _ _ ED)] |].
  intros UN. rewrite ED, (UN P' (D1 _ _ _ ED)). reflexivity.
Qed.
Theorem sym_daead_rotation : forall lib ks l a ks2 l2 a2 k k2 sk P ad C,
  crypto_laws lib -> daead_works lib ks l a -> is_primary ks l k sk -> sym_keyset for_daead ks2 l2 -> daead_works lib ks2 l2 a2 ->
  In (k2, sk) l2 -> k_key_id k2 = k_key_id k -> k_output_prefix_type k2 = k_output_prefix_type k -> tells_apart k2 sk l2 ->
  daead_encrypt a P ad = Ok C -> daead_decrypt a2 C ad = Ok P.
Proof.
  intros lib ks l a ks2 l2 a2 k k2 sk P ad C CL W PR KS W2 I EI ET TA EC.
  apply (proj2 (daead_carries_over _ _ _ _ _ _ _ _ _ _ _ _ _ W PR W2 I EI ET EC)).
  apply (proj1 (proj1 W k sk PR P ad)) in EC. destruct EC as (c & S & X).
  exact (daead_unambiguous _ _ _ _ _ _ _ _ _ CL KS TA (proj1 (keyset_key _ _ _ _ _ KS I)) (same_stamp _ _ _ _ ET EI S) X).
Qed.
Theorem sym_mac_rotation : forall lib ks l a ks2 l2 a2 k k2 sk data T,
  mac_works lib ks l a -> is_primary ks l k sk -> mac_works lib ks2 l2 a2 ->
  In (k2, sk) l2 -> k_key_id k2 = k_key_id k -> k_output_prefix_type k2 = k_output_prefix_type k ->
  mac_compute a data = Ok T -> mac_verify a2 T data = Ok tt.
Proof.
  intros lib ks l a ks2 l2 a2 k k2 sk data T (E & _) PR (_ & _ & V & _) I EI ET EC.
  apply (proj1 (E k sk PR data)) in EC. destruct EC as (t & S & X). apply V. exists k2, sk, t. split; [exact I |].
  split; [exact (same_stamp _ _ _ _ ET EI S) |]. unfold legacy_data in *. rewrite ET. exact X.
Qed.

(** ** One key *)
Lemma only_key : forall lib is_for ks k sk l, sym_keyset is_for ks l -> l = [(k, sk)] -> crypto_laws lib ->
  (forall nonce ad P C c, stamped k C c -> aead_ciphertext lib sk nonce ad P c -> forall P', opens lib l C ad P' -> P' = P) /\
  (forall ad P C c, stamped k C c -> daead_ciphertext lib sk ad P c -> forall P', daead_opens lib l C ad P' -> P' = P).
Proof.
  intros lib is_for ks k sk l KS -> CL. destruct (keyset_key _ _ _ k sk KS (or_introl eq_refl)) as (U & _). split.
  - intros nonce ad P C c S X P' (k' & sk' & nonce' & c' & [I | []] & S' & X'). injection I as <- <-.
    rewrite <- (stamped_fun _ _ _ _ S S') in X'. exact (aead_ciphertext_plain _ _ _ _ _ _ _ _ CL U X' X).
  - intros ad P C c S X P' (k' & sk' & c' & [I | []] & S' & X'). injection I as <- <-.
    rewrite <- (stamped_fun _ _ _ _ S S') in X'. exact (daead_ciphertext_plain _ _ _ _ _ _ CL U X' X).
Qed.

(** ** tink.new_keyset_handle *)
Lemma template_found : forall l l' name t, Forall2 template_asks l l' -> In (name, Ok t) l ->
  exists sk0 pt, In (name, sk0, pt) l' /\ asks_for_key (kt_type_url t) (kt_value t) sk0 /\ usable sk0 /\ requestable sk0 /\ kt_output_prefix_type t = pt.
Proof.
  intros l l' name t F Hin. induction F as [| (n1 & x) ((n2 & y) & pt) l l' (E & t' & Et & H) F IH]; [contradiction |]. cbn [fst snd] in *. subst n2.
  destruct Hin as [Hin | Hin].
  - injection Hin as -> ->. injection Et as ->. exists y, pt. split; [left; reflexivity | exact H].
  - destruct (IH Hin) as (sk & pt' & I & J). exists sk, pt'. split; [right; exact I | exact J].
Qed.
Lemma new_handle_made : forall P (c : pclass) (managers : pystr -> option (cc_lib_manager P)) is_for pkg random templates table
  w env r name t rnd raw draws,
  (forall k, is_for k = true -> In (sk_name k, c, false) (key_types pkg)) ->
  (forall url m, managers url = Some m -> cc_functions w c url = Some (cl_key_type m, cl_new_key_data m, cl_public_key_data m)) ->
  (forall url x m d, managers url = Some m -> cl_new_key_data m rnd x = StOk d ->
     kd_type_url d = url /\ kd_key_material_type d = SYMMETRIC /\
     exists k, is_for k = true /\ asks_for_key url x k /\ usable k /\ requestable k /\ chosen random rnd k /\ (proto_size (kd_value d) -> is_key d k)) ->
  (forall url x k, is_for k = true -> asks_for_key url x k -> usable k -> requestable k ->
     exists m d, managers url = Some m /\ cl_new_key_data m rnd x = StOk d) ->
  (forall m d, managers (kt_type_url t) = Some m -> cl_new_key_data m rnd (kt_value t) = StOk d -> sizes_fit t d) ->
  Forall2 template_asks templates table -> Forall (fun x => is_for (snd (fst x)) = true /\ (snd x = TINK \/ snd x = RAW)) table ->
  configured w env pkg r -> In (name, Ok t) templates ->
  exists h k sk, generate_new r rnd (raw :: draws) t = Some (Ok h) /\ new_handle random rnd is_for table name h k sk.
Proof.
  intros P c managers is_for pkg random templates table w env r name t rnd raw draws HK HW HN HA HS HT HF HC Hin.
  destruct (template_found _ _ _ _ HT Hin) as (sk0 & pt & IT & A0 & U0 & R0 & EP).
  rewrite Forall_forall in HF. destruct (HF _ IT) as (F0 & TP). cbn [fst snd] in *.
  destruct (HA _ _ _ F0 A0 U0 R0) as (m & d & M & ND). destruct (HS _ _ M ND) as (W1 & W2 & W3 & W4 & W5 & _).
  destruct (HN _ _ _ _ M ND) as (D1 & D2 & sk & F & A & U & R & CH & K). specialize (K W4).
  assert (HR : registry_new_key_data r rnd t = Ok d).
  { destruct A as (EU & A). pose proof (HW _ _ M) as CF. rewrite EU in CF.
    pose proof (configured_new_key _ _ _ _ _ _ _ _ _ _ rnd t HC (HK _ F) CF EU W1 W2) as Q. rewrite ND in Q. apply Q.
    intros d' E. injection E as <-. split; assumption. }
  assert (V : valid_keyset (S_Handle.single_key_keyset d (1 + raw mod 2147483647)%N (kt_output_prefix_type t)))
    by (apply L_Handle.single_valid; rewrite EP; destruct TP as [-> | ->]; discriminate).
  set (id := (1 + raw mod 2147483647)%N) in *. assert (LI : (id < 2 ^ 32)%N).
  { unfold id. pose proof (N.mod_lt raw 2147483647 ltac:(discriminate)). change (2 ^ 32)%N with 4294967296%N. lia. }
  exists (mk_handle (mk_keyset id [mk_key (Some d) ENABLED id (kt_output_prefix_type t)])), (mk_key (Some d) ENABLED id (kt_output_prefix_type t)), sk.
  split; [| exists sk0, pt; split; [exact IT |]; split; [exact (asks_alike _ _ _ _ A0 A U0 U) |]; split; [exact CH |]; split; [| split; [exact EP | reflexivity]]].
  - unfold generate_new. rewrite HR. cbn [generate_unused_key_id ks_key map mem_N existsb negb]. f_equal. apply create_ok. split; [exact V | reflexivity].
  - split; [exact V |]. split; [reflexivity |]. constructor; [| constructor]. cbn [fst snd k_key_data k_key_data_opt k_output_prefix_type k_key_id].
    split; [exact W3 |]. split; [exact W5 |]. split; [exact K |]. split; [exact F |]. split; [exact U |].
    apply has_prefix_exists. rewrite EP. destruct TP as [-> | ->]; [right; split; [left; reflexivity | exact LI] | left; reflexivity].
Qed.
Ltac table_ok := repeat apply Forall_cons; try apply Forall_nil; cbn [fst snd]; split; try reflexivity; (left; reflexivity) || (right; reflexivity).
Theorem new_aead_handle : forall lib random w env r name t rnd raw draws,
  sym_world lib random w -> crypto_laws lib -> random_law random -> configured w env Aead r -> In (name, Ok t) aead_templates ->
  exists h k sk a, generate_new r rnd (raw :: draws) t = Some (Ok h) /\ new_handle random rnd for_aead aead_template_keys name h k sk /\
    handle_primitive r h ClsAead = Ok (PrimAead a) /\
    forall rnd' P ad, admits sk P ad -> exists C, aead_encrypt a rnd' P ad = Ok C /\ aead_decrypt a C ad = Ok P.
Proof.
  intros lib random w env r name t rnd raw draws SW CL RL HC Hin. pose proof SW as (_ & HW & _).
  destruct (new_handle_made _ ClsAead (aead_managers lib random) for_aead Aead random aead_templates aead_template_keys w env r name t rnd raw draws)
    as (h & k & sk & G & NH).
  - intros []; intros X; try discriminate X; cbn; tauto.
  - intros url m M. cbn [cc_functions]. rewrite (HW _ _ M). reflexivity.
  - intros url x m d M ND. exact (aead_new_key lib random url rnd x m d M ND RL).
  - intros url x k F A U R. exact (proj1 (new_key_accepted lib random url rnd x k A U R) F).
  - intros m d. exact (aead_template_sizes name t lib random rnd m d RL Hin).
  - exact (proj1 symmetric_templates).
  - table_ok.
  - exact HC.
  - exact Hin.
  - exists h, k, sk. pose proof NH as (sk0 & pt & _ & _ & _ & KS & _ & PI). destruct h as [ks]. cbn [kh_keyset] in *.
    destruct (aead_handle_works _ _ _ _ _ _ _ SW CL RL HC KS) as (a & HA & W). exists a. do 3 (split; [assumption |]).
    intros rnd' P ad AD. assert (PR : is_primary ks [(k, sk)] k sk) by (split; [left; reflexivity | exact PI]).
    destruct (proj1 W k sk PR rnd' P ad) as (X & Y). destruct (Y AD) as (C & EC). exists C. split; [exact EC |].
    apply (aead_carries_over _ _ _ _ _ _ _ _ _ _ _ _ _ _ _ W PR W (or_introl eq_refl) eq_refl eq_refl EC).
    apply X in EC. destruct EC as (c & S & Z). exact (proj1 (only_key lib _ _ _ _ _ KS eq_refl CL) _ _ _ _ _ S Z).
Qed.
Theorem new_daead_handle : forall lib random w env r name t rnd raw draws,
  sym_world lib random w -> crypto_laws lib -> random_law random -> configured w env Daead r -> In (name, Ok t) daead_templates ->
  exists h k sk a, generate_new r rnd (raw :: draws) t = Some (Ok h) /\ new_handle random rnd for_daead daead_template_keys name h k sk /\
    handle_primitive r h ClsDaead = Ok (PrimDaead a) /\
    forall P ad, exists C, daead_encrypt a P ad = Ok C /\ daead_decrypt a C ad = Ok P.
Proof.
  intros lib random w env r name t rnd raw draws SW CL RL HC Hin. pose proof SW as (_ & _ & HW & _).
  destruct (new_handle_made _ ClsDaead (daead_managers lib random) for_daead Daead random daead_templates daead_template_keys w env r name t rnd raw draws)
    as (h & k & sk & G & NH).
  - intros []; intros X; try discriminate X; cbn; tauto.
  - intros url m M. cbn [cc_functions]. rewrite (HW _ _ M). reflexivity.
  - intros url x m d M ND. exact (daead_new_key lib random url rnd x m d M ND RL).
  - intros url x k F A U R. exact (proj1 (proj2 (new_key_accepted lib random url rnd x k A U R)) F).
  - intros m d. exact (daead_template_sizes name t lib random rnd m d RL Hin).
  - exact (proj1 (proj2 symmetric_templates)).
  - table_ok.
  - exact HC.
  - exact Hin.
  - exists h, k, sk. pose proof NH as (sk0 & pt & _ & _ & _ & KS & _ & PI). destruct h as [ks]. cbn [kh_keyset] in *.
    destruct (daead_handle_works _ _ _ _ _ _ _ SW CL HC KS) as (a & HA & W). exists a. do 3 (split; [assumption |]).
    intros P ad. assert (PR : is_primary ks [(k, sk)] k sk) by (split; [left; reflexivity | exact PI]).
    destruct (proj1 W k sk PR P ad) as (X & (C & EC)). exists C. split; [exact EC |].
    apply (daead_carries_over _ _ _ _ _ _ _ _ _ _ _ _ _ W PR W (or_introl eq_refl) eq_refl eq_refl EC).
    apply X in EC. destruct EC as (c & S & Z). exact (proj2 (only_key lib _ _ _ _ _ KS eq_refl CL) _ _ _ _ S Z).
Qed.
Theorem new_mac_handle : forall lib random w env r name t rnd raw draws,
  sym_world lib random w -> crypto_laws lib -> random_law random -> configured w env Mac r -> In (name, Ok t) mac_templates ->
  exists h k sk a, generate_new r rnd (raw :: draws) t = Some (Ok h) /\ new_handle random rnd for_mac mac_template_keys name h k sk /\
    handle_primitive r h ClsMac = Ok (PrimMac a) /\
    forall data, exists T, mac_compute a data = Ok T /\ forall T', mac_verify a T' data = Ok tt <-> T' = T.
Proof.
  intros lib random w env r name t rnd raw draws SW CL RL HC Hin. pose proof SW as (_ & _ & _ & HW & _).
  destruct (new_handle_made _ ClsMac (mac_managers lib random) for_mac Mac random mac_templates mac_template_keys w env r name t rnd raw draws)
    as (h & k & sk & G & NH).
  - intros []; intros X; try discriminate X; cbn; tauto.
  - intros url m M. cbn [cc_functions]. rewrite (HW _ _ M). reflexivity.
  - intros url x m d M ND. exact (mac_new_key lib random url rnd x m d M ND RL).
  - intros url x k F A U R. exact (proj1 (proj2 (proj2 (new_key_accepted lib random url rnd x k A U R))) F).
  - intros m d. exact (mac_template_sizes name t lib random rnd m d RL Hin).
  - exact (proj1 (proj2 (proj2 symmetric_templates))).
  - table_ok.
  - exact HC.
  - exact Hin.
  - exists h, k, sk. pose proof NH as (sk0 & pt & _ & _ & _ & KS & _ & PI). destruct h as [ks]. cbn [kh_keyset] in *.
    destruct (mac_handle_works _ _ _ _ _ _ _ SW CL HC KS) as (a & HA & W). exists a. do 3 (split; [assumption |]).
    intros data. assert (PR : is_primary ks [(k, sk)] k sk) by (split; [left; reflexivity | exact PI]).
    destruct (proj1 W k sk PR data) as (X & (T & ET)). exists T. split; [exact ET |]. destruct W as (_ & _ & V & _). intros T'. rewrite V. split.
    + intros (k' & sk' & t' & [I | []] & S & Z). injection I as <- <-. enough (Ok T' = Ok T) by congruence. rewrite <- ET. symmetry. apply X. exists t'. auto.
    + intros ->. apply X in ET. destruct ET as (t' & S & Z). exists k, sk, t'. split; [left; reflexivity | auto].
Qed.
Theorem new_prf_handle : forall lib random w env r name t rnd raw draws,
  sym_world lib random w -> crypto_laws lib -> random_law random -> configured w env Prf r -> In (name, Ok t) prf_templates ->
  exists h k sk f, generate_new r rnd (raw :: draws) t = Some (Ok h) /\ new_handle random rnd for_prf prf_template_keys name h k sk /\
    prf_works lib sk f /\
    exists pid all prim0, handle_primitive r h ClsPrfSet = Ok (PrimPrfSet pid all prim0) /\ pid = Ok (k_key_id k) /\ prim0 = Ok (PrimPrf f).
Proof.
  intros lib random w env r name t rnd raw draws SW CL RL HC Hin. pose proof SW as (_ & _ & _ & _ & HW).
  destruct (new_handle_made _ ClsPrf (prf_managers lib random) for_prf Prf random prf_templates prf_template_keys w env r name t rnd raw draws)
    as (h & k & sk & G & NH).
  - intros []; intros X; try discriminate X; cbn; tauto.
  - intros url m M. cbn [cc_functions]. rewrite (HW _ _ M). reflexivity.
  - intros url x m d M ND. exact (prf_new_key lib random url rnd x m d M ND RL).
  - intros url x k F A U R. exact (proj2 (proj2 (proj2 (new_key_accepted lib random url rnd x k A U R))) F).
  - intros m d. exact (prf_template_sizes name t lib random rnd m d RL Hin).
  - exact (proj2 (proj2 (proj2 symmetric_templates))).
  - table_ok.
  - exact HC.
  - exact Hin.
  - exists h, k, sk. pose proof NH as (sk0 & pt & IT & _ & _ & KS & EP & PI). destruct h as [ks]. cbn [kh_keyset] in *.
    assert (RT : pt = RAW) by (repeat destruct IT as [IT | IT]; try contradiction IT; injection IT as _ _ <-; reflexivity).
    destruct (prf_handle_works _ _ _ _ _ _ _ SW CL HC KS) as (pid & all & prim0 & HA & W); [constructor; [cbn; congruence | constructor] |].
    destruct W as (_ & _ & W & _). destruct (W k sk) as (E1 & f & E2 & F); [split; [left; reflexivity | exact PI] |].
    exists f. do 3 (split; [assumption |]). exists pid, all, prim0. auto.
Qed.

(** ** The C++ library can set up the packages. *)
Theorem sym_world_ready : forall lib random w p, sym_world lib random w -> In p [Aead; Daead; Mac; Prf] -> cc_ready w p.
Proof.
  intros lib random w p (C & HA & HD & HM & HP) Hp.
  assert (X : forall P (l : list (key_type_manager P)) (lookup : pystr -> option (cc_lib_manager P)) t,
    (forall url m, find_manager random l url = Some m -> lookup url = Some m) -> NoDup (map kt_name l) -> In t l ->
    exists create public, manager_functions (lookup (type_url (kt_name t))) = Some (type_url (kt_name t), create, public)).
  { intros P l lookup t H ND I.
    assert (M : find_manager random l (type_url (kt_name t)) = Some (key_manager_impl random t)) by (apply find_manager_some; [exact ND |]; exists t; auto).
    rewrite (H _ _ M). cbn [manager_functions key_manager_impl cl_key_type]. rewrite <- type_urls. do 2 eexists. reflexivity. }
  pose proof (fun t => X _ _ _ t HA (proj1 (aead_family lib random))) as XA.
  pose proof (fun t => X _ _ _ t HD (proj1 (daead_family lib))) as XD.
  pose proof (fun t => X _ _ _ t HM (proj1 (mac_family lib))) as XM.
  pose proof (fun t => X _ _ _ t HP (proj1 (prf_family lib))) as XP.
  destruct Hp as [<- | [<- | [<- | [<- | []]]]]; (split; [exact C |]); intros n c b Hin; cbn [key_types In] in Hin;
    repeat destruct Hin as [Hin | Hin]; try contradiction Hin; injection Hin as <- <- <-; cbn [cc_functions].
  - apply (XA (aes_gcm_key_manager lib random)). cbn; tauto.
  - apply (XA (aes_gcm_siv_key_manager lib random)). cbn; tauto.
  - apply (XA (aes_eax_key_manager lib random)). cbn; tauto.
  - apply (XA (aes_ctr_hmac_aead_key_manager lib random)). cbn; tauto.
  - apply (XA (xchacha20_poly1305_key_manager lib random)). cbn; tauto.
  - apply (XD (aes_siv_key_manager lib)). cbn; tauto.
  - apply (XM (hmac_key_manager lib)). cbn; tauto.
  - apply (XM (aes_cmac_key_manager lib)). cbn; tauto.
  - apply (XP (hmac_prf_key_manager lib)). cbn; tauto.
  - apply (XP (hkdf_prf_key_manager lib)). cbn; tauto.
  - apply (XP (aes_cmac_prf_key_manager lib)). cbn; tauto.
Qed.
