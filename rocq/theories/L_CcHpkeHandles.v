(** Proofs: hybrid encryption with HPKE keysets. *)
From Coq Require Import Strings.Byte Strings.String List NArith ZArith Bool Lia.
From Verif Require Import M_Base M_Utf8 M_Proto M_Wire M_ProtoMsg M_KeyFormats M_Prims M_PrimitiveSet M_Registry M_KeysetHandle M_Wrappers M_StreamTypes M_CcStream M_CcManagers
  M_Templates M_CcAes M_CcStreamKeys M_CcModes M_CcSymmetric M_CcSymKeys M_CcEcies M_CcEciesKeys M_CcHpke S_Keyset S_Handle S_Wrappers S_Wire S_Config S_CcLaws S_CcAes S_CcStreamKeys S_CcModes S_CcSymmetric
  S_CcSymKeys S_CcSymHandles S_CcEcies S_CcEciesKeys S_CcEciesHandles S_CcHpke S_CcHpkeHandles L_Base L_Registry L_Wire L_PrimitiveSet L_Keyset L_Wrappers L_Wrappers2 L_Wrappers3 L_Handle L_Config L_Config2 L_Config3 L_Config4 L_Cli3
  L_CcStreamKeys L_CcSymKeys L_CcSymKeys2 L_CcSymHandles L_CcSymHandles2 L_CcSymHandles3 L_CcSymHandles4 L_CcEcies L_CcEcies2 L_CcEcies3 L_CcEcies4 L_CcEcies5 L_CcEciesKeys L_CcEciesKeys2
  L_CcEciesHandles L_CcEciesHandles2 L_CcEciesHandles3 L_CcHpke L_CcHpke2.
Import ListNotations.
Open Scope string_scope.
Open Scope list_scope.
Open Scope nat_scope.

Theorem hpke_encrypt_handle_works : forall ec hc w env r ks l, hpke_world ec hc w ->
  configured w env Hybrid r -> hybrid_keyset is_hpke_public good_hpke_public ks l ->
  exists a, handle_primitive r (mk_handle ks) ClsHybridEncrypt = Ok (PrimHybridEncrypt a) /\ hpke_encrypt_works hc ks l a.
Proof.
  intros ec hc w env r ks l (_ & HW) HC KS.
  assert (HP : forall d q, is_hpke_public d q -> good_hpke_public q -> kd_type_url d = type_url "HpkePublicKey" /\
    exists m cc, cw_hybrid_encrypt w (type_url "HpkePublicKey") = Some m /\ cl_get_primitive m d = StOk cc).
  { intros d q K ((a & W) & NE). split; [exact (proj1 K) |]. destruct (proj2 (hpke_encrypter_made hc d)) as (cc & G); [exists q; split; [exact K |]; split; [exact NE | exact (suite_works_taken _ _ W)] |].
    do 2 eexists. split; [exact HW | exact G]. }
  destruct (hybrid_cc_keyset _ _ ClsHybridEncrypt (cw_hybrid_encrypt w) is_hpke_public good_hpke_public Hybrid _ false HP ltac:(cbn; intuition discriminate) ltac:(cbn; tauto) ks l KS) as (l' & CK & F2).
  destruct (hybrid_encrypt_over_cc_ok w env r ks l' HC CK) as (a & HA & E & N). exists a. split; [exact HA |]. split.
  - intros k q (I & PI) rnd P info. destruct (made_for_l _ _ _ _ _ _ _ _ _ F2 I) as (cc & I' & _ & K & G & m & M & CG). cbn [fst snd] in *.
    rewrite (proj1 K), HW in M. injection M as <-. destruct (prefixed_stamped _ _ _ (E k cc (conj I' PI) rnd P info)) as (T & S).
    destruct (hpke_encrypts hc _ _ cc K CG rnd P info) as (A & _). split; [| exact T].
    intros C. rewrite S. split.
    + intros (c & X & Y). apply A in X. destruct X as (alg & X). exists c, alg. split; [exact Y | exact X].
    + intros (c & alg & X & Y). exists c. split; [apply A; exists alg; exact Y | exact X].
  - intros NP. apply N. intros k cc (I & PI). destruct (made_for_r _ _ _ _ _ _ _ _ _ F2 I) as (q & I' & _). exact (NP k q (conj I' PI)).
Qed.

Lemma good_hpke_pair : forall ec lib q, ec_laws ec lib -> good_hpke_private ec q -> good_hpke_public (hprv_public q) /\ hprv_key q <> [] /\ suite_taken (hpub_suite (hprv_public q)).
Proof.
  intros ec lib q EL ((a & W) & (L & E)). split; [split; [exists a; exact W |]; rewrite E; exact (x25519_public_set ec lib _ EL L) |]. split; [intros X; rewrite X in L; discriminate L | exact (suite_works_taken _ _ W)].
Qed.
Lemma hpke_plaintext_size : forall hc a sk info C P, hpke_plaintext hc a sk info C P -> C <> [].
Proof. intros hc a sk info C P (enc & ctx & c & -> & L & _) E. apply app_eq_nil in E. destruct E as (-> & _). discriminate L. Qed.
Lemma hpke_plain_fun : forall hc a sk info C P P', hpke_plaintext hc a sk info C P -> hpke_plaintext hc a sk info C P' -> P = P'.
Proof.
  intros hc a sk info C P P' (enc & ctx & c & E & L & _ & S & O) (enc' & ctx' & c' & E' & L' & _ & S' & O'). rewrite E in E'.
  assert (EE : enc = enc') by (apply (f_equal (firstn 32)) in E'; rewrite !firstn_app, L, L', Nat.sub_diag, !firstn_O, !app_nil_r, <- L, firstn_all, L, <- L', firstn_all in E'; exact E').
  subst enc'. apply app_inv_head in E'. subst c'. congruence.
Qed.
Theorem hpke_decrypt_handle_works : forall ec lib hc w env r ks l, hpke_world ec hc w -> ec_laws ec lib -> hpke_laws ec hc ->
  configured w env Hybrid r -> hybrid_keyset is_hpke_private (good_hpke_private ec) ks l ->
  exists a, handle_primitive r (mk_handle ks) ClsHybridDecrypt = Ok (PrimHybridDecrypt a) /\ hpke_decrypt_works hc l a.
Proof.
  intros ec lib hc w env r ks l (HW & _) EL HL HC KS.
  assert (HP : forall d q, is_hpke_private d q -> good_hpke_private ec q -> kd_type_url d = type_url "HpkePrivateKey" /\
    exists m cc, cw_hybrid_decrypt w (type_url "HpkePrivateKey") = Some m /\ cl_get_primitive m d = StOk cc).
  { intros d q K G. split; [exact (proj1 K) |]. destruct (good_hpke_pair ec lib q EL G) as (_ & NE & TK). destruct (proj2 (hpke_decrypter_made ec hc d)) as (cc & G'); [exists q; auto |].
    do 2 eexists. split; [exact HW | exact G']. }
  destruct (hybrid_cc_keyset _ _ ClsHybridDecrypt (cw_hybrid_decrypt w) is_hpke_private (good_hpke_private ec) Hybrid _ true HP ltac:(cbn; intuition discriminate) ltac:(cbn; tauto) ks l KS) as (l' & CK & F2).
  destruct (hybrid_decrypt_over_cc_ok w env r ks l' HC CK) as (a & HA & D). exists a. split; [exact HA |].
  assert (T : forall C info, tink_total (hd_decrypt a C info) /\ _ /\ _) by (intros C info; exact (keys_tried _ _ _ _ _ _ (fun k q body => chd_decrypt q body info) C _ CK (D C info))).
  split; [| split].
  - intros C info P E. destruct (T C info) as (_ & A & _). destruct (A P E) as (k & cc & body & I & R & X).
    destruct (made_for_r _ _ _ _ _ _ _ _ _ F2 I) as (q & I' & _ & K & _ & m & M & CG). cbn [fst snd] in *. rewrite (proj1 K), HW in M. injection M as <-.
    apply (proj1 (hpke_decrypts ec hc _ _ cc HL K CG body info)) in X. destruct X as (alg & X1 & X2).
    exists k, q, alg, body. split; [exact I' |]. split; [exact (reaches_stamped _ _ _ R) |]. split; assumption.
  - intros C info P (k & q & alg & c & I & ST & X1 & X2). destruct (T C info) as (_ & _ & A).
    destruct (made_for_l _ _ _ _ _ _ _ _ _ F2 I) as (cc & I' & _ & K & _ & m & M & CG). cbn [fst snd] in *. rewrite (proj1 K), HW in M. injection M as <-.
    apply (A k cc c P I'); [| apply (proj1 (hpke_decrypts ec hc _ _ cc HL K CG c info)); exists alg; auto].
    apply stamped_reaches; [exact ST |]. exact (hpke_plaintext_size _ _ _ _ _ _ X2).
  - intros C info. apply T.
Qed.

(** ** What is encrypted for a public keyset is decrypted with the private keyset. *)
Theorem hpke_carries_over : forall ec hc ks l a ks2 l2 a2 k k2 q rnd P info, hpke_laws ec hc ->
  hpke_encrypt_works hc ks l a -> is_primary ks l k (hprv_public q) -> hybrid_keyset is_hpke_private (good_hpke_private ec) ks2 l2 -> hpke_decrypt_works hc l2 a2 ->
  In (k2, q) l2 -> k_key_id k2 = k_key_id k -> k_output_prefix_type k2 = k_output_prefix_type k ->
  (hpke_admits P -> exists C, he_encrypt a rnd P info = Ok C) /\
  forall C, he_encrypt a rnd P info = Ok C ->
    (exists P', hd_decrypt a2 C info = Ok P' /\ hpke_opens hc l2 C info P') /\
    ((forall P', hpke_opens hc l2 C info P' -> P' = P) -> hd_decrypt a2 C info = Ok P) /\
    (hpke_told_apart k2 q l2 -> hd_decrypt a2 C info = Ok P).
Proof.
  intros ec hc ks l a ks2 l2 a2 k k2 q rnd P info HL (E & _) PR KS (D1 & D2 & _) I EI ET.
  destruct (hybrid_key _ _ _ _ _ _ _ KS I) as (K & (alg & W) & (LS & EP)). destruct (E k _ PR rnd P info) as (EC & _).
  assert (PX : exists p, has_prefix (k_output_prefix_type k) (k_key_id k) p).
  { destruct KS as (_ & _ & F). rewrite Forall_forall in F. destruct (F _ I) as (_ & _ & _ & _ & p & HP). cbn [fst] in HP. rewrite EI, ET in HP. exists p. exact HP. }
  split.
  { intros AD. destruct (hpke_seals ec hc alg _ info rnd P HL LS AD) as (c & HC). destruct PX as (p & HP). exists (p ++ c). apply EC. exists c, alg. split; [exists p; auto |]. rewrite EP. auto. }
  intros C HC. apply EC in HC. destruct HC as (c & b & ST & Wb & X). rewrite EP in X. pose proof (hpke_opens_sealed ec hc b _ info rnd P c HL LS X) as X3. pose proof (same_stamp _ _ _ _ ET EI ST) as ST2.
  assert (O : hpke_opens hc l2 C info P) by (exists k2, q, b, c; auto).
  destruct (D2 _ _ _ O) as (P' & ED). pose proof (D1 _ _ _ ED) as O'. split; [exists P'; auto |].
  assert (UN : (forall P', hpke_opens hc l2 C info P' -> P' = P) -> hd_decrypt a2 C info = Ok P) by (intros UN; rewrite ED, (UN P' O'); reflexivity).
  split; [exact UN |]. intros TA. apply UN. intros P2 (k3 & q3 & b3 & c3 & I3 & ST3 & Y1 & Y2).
  assert (Q : q3 = q /\ c3 = c).
  { destruct TA as [-> | (R & TA)].
    - destruct I3 as [I3 | []]. injection I3 as <- <-. split; [reflexivity |]. exact (stamped_fun _ _ _ _ ST3 ST2).
    - destruct (TA _ _ I3) as (R3 & T3). destruct (stamped_id _ _ _ _ _ R R3 ST2 ST3) as (EI3 & <-). split; [exact (T3 (eq_sym EI3)) | reflexivity]. }
  destruct Q as (-> & ->). rewrite (suite_works_fun _ _ _ Y1 Wb) in Y2. exact (hpke_plain_fun _ _ _ _ _ _ _ Y2 X3).
Qed.

(** ** Public keysets *)
Lemma hpke_url_text : valid_text (type_url "HpkePublicKey") /\ valid_text (type_url "HpkePrivateKey").
Proof. split; apply low_text; vm_compute; reflexivity. Qed.
Theorem hpke_public_handle : forall ec lib hc w env r ks l, hpke_world ec hc w -> ec_laws ec lib -> configured w env Hybrid r ->
  valid_keyset ks -> all_hpke_private ks l -> (forall k, In k (ks_key ks) -> k_output_prefix_type k <> UNKNOWN_PREFIX /\ k_status k <> UNKNOWN_STATUS) ->
  (forall k, In k (ks_key ks) -> hpke_public_fits ec hc k) ->
  exists ph l', public_keyset_handle r (mk_handle ks) = Ok ph /\ ks_primary_key_id (kh_keyset ph) = ks_primary_key_id ks /\
    map fst l' = ks_key (kh_keyset ph) /\ Forall2 hpke_public_half l l' /\ Forall (fun y => kd_key_material_type (k_key_data (fst y)) = ASYMMETRIC_PUBLIC) l' /\
    (hybrid_keyset is_hpke_private (good_hpke_private ec) ks (enabled_of l) -> hybrid_keyset is_hpke_public good_hpke_public (kh_keyset ph) (enabled_of l')).
Proof.
  intros ec lib hc w env r ks l (HW & _) EL HC V (EM & F) KN PF.
  assert (G : exists l', Forall2 (fun x y => hpke_public_half x y /\ public_counterpart r (fst x) (fst y) /\ kd_key_material_type (k_key_data (fst y)) = ASYMMETRIC_PUBLIC /\
    wf_key_data (k_key_data (fst y)) /\ proto_size (serialize_key_data (k_key_data (fst y)))) l l').
  { assert (PF' : forall x, In x l -> hpke_public_fits ec hc (fst x)) by (intros x I; apply PF; rewrite <- EM; apply in_map; exact I).
    clear KN PF EM V. induction F as [| (k & q) l (W & S & A & K & ST) F IH]; [exists []; constructor |]. destruct IH as (l' & IH); [intros x I; apply PF'; right; exact I |].
    cbn [fst snd] in *. destruct (hpke_public_key ec hc _ _ K ST) as (get & d' & G1 & G2 & U & MT & HP).
    destruct (PF' (k, q) (or_introl eq_refl) get d' G1 G2) as (S1 & S2).
    assert (WD : wf_key_data d') by (split; [rewrite U; apply hpke_url_text | rewrite MT; apply low_int; vm_compute; reflexivity]).
    exists ((mk_key (Some d') (k_status k) (k_key_id k) (k_output_prefix_type k), hprv_public q) :: l'). constructor; [| exact IH].
    cbn [fst snd]. split; [| split; [| split; [exact MT |]; split; assumption]].
    - do 3 (split; [reflexivity |]). split; [exact (HP S1) | reflexivity].
    - split; [| auto]. exists d'. split; [reflexivity |]. apply registry_public_key_data_ok.
      assert (AN : answers (registry_public_key_data r (k_key_data k)) (get (kd_value (k_key_data k)))).
      { eapply (configured_public_key w env Hybrid r "HpkePrivateKey" ClsHybridDecrypt); [exact HC | cbn; tauto | | exact (proj1 K) | exact A | exact W | exact S |].
        - cbn [cc_functions]. rewrite HW. cbn [manager_functions]. rewrite G1. reflexivity.
        - intros d2 E. rewrite G2 in E. injection E as <-. auto. }
      rewrite G2 in AN. exact AN. }
  destruct G as (l' & G). set (ks' := mk_keyset (ks_primary_key_id ks) (map fst l')).
  assert (G1 : Forall2 (fun x y => k_status y = k_status x /\ k_key_id y = k_key_id x /\ k_output_prefix_type y = k_output_prefix_type x /\ public_counterpart r x y) (ks_key ks) (map fst l')).
  { rewrite <- EM. clear - G. induction G as [| x y l l' (H & H' & _) G IH]; constructor; [| exact IH]. destruct H as (A & B & C & _). auto. }
  assert (V' : valid_keyset ks').
  { destruct V as ((k0 & I0 & D0) & _ & UQ & _).
    assert (PP : forall i, primary_positions ks' i -> primary_positions ks i).
    { intros i (k & N & S & E). cbn [ks_key ks_primary_key_id ks'] in *. destruct (Forall2_nth _ _ _ _ _ _ _ G1 N) as (k1 & N1 & A & B & C & _). exists k1. split; [exact N1 |]. split; congruence. }
    split; [| split; [| split]].
    - destruct (Forall2_in_l _ _ _ _ _ _ G1 I0) as (y & I & A & _). exists y. split; [exact I | congruence].
    - intros k I _. destruct (Forall2_in_r _ _ _ _ _ _ G1 I) as (x & IX & A & B & C & (d & ED & _) & _). destruct (KN _ IX). split; [exists d; exact ED |]. split; congruence.
    - intros i j A B. apply UQ; apply PP; assumption.
    - right. intros k I. apply in_map_iff in I. destruct I as (y & <- & I). destruct (Forall2_in_r _ _ _ _ _ _ G I) as (x & _ & _ & _ & M & _). exact M. }
  exists (mk_handle ks'), l'. split; [| split; [reflexivity |]; split; [reflexivity |]; split; [| split]].
  - apply public_keyset_handle_ok. cbn [kh_keyset ks_key ks_primary_key_id ks']. split; [reflexivity |]. split; [| split; [exact KN | exact V']].
    clear - G1. induction G1 as [| x y a b (_ & _ & _ & H) G1 IH]; constructor; assumption.
  - clear - G. induction G as [| x y l l' (H & _) G IH]; constructor; assumption.
  - clear - G. induction G as [| x y l l' (_ & _ & H & _) G IH]; constructor; assumption.
  - intros (_ & _ & FE). split; [exact V' |]. unfold enabled_of in *. cbn [kh_keyset].
    assert (EF : forall K (a : list (key * K)), map fst (filter (fun x => Z.eqb (k_status (fst x)) ENABLED) a) = filter is_enabled (map fst a)).
    { intros K a. induction a as [| x a IH]; [reflexivity |]. cbn [filter map]. unfold is_enabled at 1. destruct (Z.eqb (k_status (fst x)) ENABLED); cbn [map]; rewrite IH; reflexivity. }
    split; [apply EF |]. clear - EL G FE. induction G as [| x y l l' H G IH]; [constructor |]. destruct H as ((A & B & C & K & E) & _ & M & W & S).
    cbn [filter] in *. rewrite A. destruct (Z.eqb (k_status (fst x)) ENABLED); [| exact (IH FE)].
    inversion_clear FE as [| ? ? (_ & _ & _ & GP & (p & HP)) FE']. constructor; [| exact (IH FE')]. split; [exact W |]. split; [exact S |]. rewrite E. split; [exact K |].
    split; [exact (proj1 (good_hpke_pair _ _ _ EL GP)) |]. exists p. rewrite B, C. exact HP.
Qed.
