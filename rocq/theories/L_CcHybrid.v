(** Proofs: hybrid encryption with keysets of ECIES keys and HPKE keys. *)
From Coq Require Import Strings.Byte Strings.String List NArith ZArith Bool Lia.
From Verif Require Import M_Base M_Utf8 M_Proto M_Wire M_ProtoMsg M_KeyFormats M_Prims M_PrimitiveSet M_Registry M_KeysetHandle M_Wrappers M_StreamTypes M_CcStream M_CcManagers
  M_Templates M_Cli M_CcAes M_CcStreamKeys M_CcModes M_CcSymmetric M_CcSymKeys M_CcEcies M_CcEciesKeys M_CcHpke S_Keyset S_Handle S_Wrappers S_Wire S_Config S_Cli S_CcLaws S_CcAes S_CcStreamKeys S_CcModes S_CcSymmetric
  S_CcSymKeys S_CcSymHandles S_CcEcies S_CcEciesKeys S_CcEciesHandles S_CcHpke S_CcHpkeHandles S_CcHybrid L_Base L_Registry L_Wire L_PrimitiveSet L_Keyset L_Wrappers L_Wrappers2 L_Wrappers3 L_Handle L_Config L_Config2 L_Config3 L_Config4 L_Cli3
  L_CcStreamKeys L_CcSymKeys L_CcSymKeys2 L_CcSymHandles L_CcSymHandles2 L_CcSymHandles3 L_CcSymHandles4 L_CcEcies L_CcEcies2 L_CcEcies3 L_CcEcies4 L_CcEcies5 L_CcEciesKeys L_CcEciesKeys2
  L_CcEciesHandles L_CcEciesHandles2 L_CcEciesHandles3 L_CcHpke L_CcHpke2 L_CcHpkeHandles.
From Verif Require L_CcSigHandles.
Import ListNotations.
Open Scope string_scope.
Open Scope list_scope.
Open Scope nat_scope.

(** ** The objects of the keys *)
Lemma any_public_made : forall ec lib random hc w ks l, ecies_world ec lib random w -> hpke_world ec hc w ->
  hybrid_keyset is_any_public (good_any_public ec) ks l ->
  exists l', cc_keyset ClsHybridEncrypt (cw_hybrid_encrypt w) ks l' /\ Forall2 (made_for (cw_hybrid_encrypt w) is_any_public (good_any_public ec)) l l'.
Proof.
  intros ec lib random hc w ks l (_ & HE) (_ & HH) KS.
  refine (L_CcSigHandles.sig_cc_keyset _ _ ClsHybridEncrypt (cw_hybrid_encrypt w) is_any_public (good_any_public ec) Hybrid _ ltac:(cbn; intuition discriminate) ks l KS).
  intros d [q | q] K G; cbn [is_any_public good_any_public] in *.
  - destruct G as (PR & OK). destruct (proj2 (ecies_public_primitive ec lib random d _ _ _ K (proj1 (proj2 (proj2 (proj2 (proj2 PR)))))) OK) as (cc & G).
    exists "EciesAeadHkdfPublicKey", false. do 2 eexists. split; [cbn; tauto |]. split; [exact (proj1 K) |]. split; [exact HE | exact G].
  - destruct G as ((a & W) & NE). destruct (proj2 (hpke_encrypter_made hc d)) as (cc & G); [exists q; split; [exact K |]; split; [exact NE | exact (suite_works_taken _ _ W)] |].
    exists "HpkePublicKey", false. do 2 eexists. split; [cbn; tauto |]. split; [exact (proj1 K) |]. split; [exact HH | exact G].
Qed.
Lemma any_private_made : forall ec lib random hc w ks l, ecies_world ec lib random w -> hpke_world ec hc w -> ec_laws ec lib ->
  hybrid_keyset is_any_private (good_any_private ec) ks l ->
  exists l', cc_keyset ClsHybridDecrypt (cw_hybrid_decrypt w) ks l' /\ Forall2 (made_for (cw_hybrid_decrypt w) is_any_private (good_any_private ec)) l l'.
Proof.
  intros ec lib random hc w ks l (HE & _) (HH & _) EL KS.
  refine (L_CcSigHandles.sig_cc_keyset _ _ ClsHybridDecrypt (cw_hybrid_decrypt w) is_any_private (good_any_private ec) Hybrid _ ltac:(cbn; intuition discriminate) ks l KS).
  intros d [q | q] K G; cbn [is_any_private good_any_private] in *.
  - destruct G as (PR & OK). destruct (key_pair_ok _ _ _ _ _ _ EL OK) as (_ & OK').
    destruct (proj2 (ecies_private_primitive ec lib random d _ _ _ _ K (proj1 (proj2 (proj2 (proj2 (proj2 PR)))))) OK') as (cc & G).
    exists "EciesAeadHkdfPrivateKey", true. do 2 eexists. split; [cbn; tauto |]. split; [exact (proj1 K) |]. split; [exact HE | exact G].
  - destruct (good_hpke_pair ec lib q EL G) as (_ & NE & TK). destruct (proj2 (hpke_decrypter_made ec hc d)) as (cc & G'); [exists q; auto |].
    exists "HpkePrivateKey", true. do 2 eexists. split; [cbn; tauto |]. split; [exact (proj1 K) |]. split; [exact HH | exact G'].
Qed.
Lemma any_encrypts : forall ec lib random hc w k q cc, ecies_world ec lib random w -> hpke_world ec hc w -> ec_laws ec lib -> crypto_laws lib -> random_law random -> hpke_laws ec hc ->
  made_for (cw_hybrid_encrypt w) is_any_public (good_any_public ec) (k, q) (k, cc) -> forall rnd P info, ~ any_ends ec q rnd ->
  (forall C, che_encrypt cc rnd P info = StOk C <-> any_ciphertext ec lib random hc q rnd info P C) /\
  (any_admits q P -> (exists s, good_any_private ec s /\ any_public_of s = q) -> exists C, che_encrypt cc rnd P info = StOk C).
Proof.
  intros ec lib random hc w k q cc (_ & HE) (_ & HH) EL CL RL HL (_ & K & G & m & M & CG) rnd P info NE. cbn [fst snd] in *.
  destruct q as [q | q]; cbn [is_any_public good_any_public any_ends any_ciphertext any_admits] in *.
  - rewrite (proj1 K), HE in M. injection M as <-. destruct (ecies_public_encrypts ec lib random _ _ _ _ cc EL CL RL K (proj1 G) CG rnd P info) as (A & B & _).
    split; [exact A |]. intros AD _. destruct (B AD) as [X | X]; [destruct (NE X) | exact X].
  - rewrite (proj1 K), HH in M. injection M as <-. destruct (hpke_encrypts hc _ _ cc K CG rnd P info) as (A & _). split; [exact A |].
    intros AD ([s | s] & GS & E); cbn [any_public_of good_any_private] in *; [discriminate E |]. injection E as <-. destruct GS as ((a & W) & (LS & EP)).
    destruct (hpke_seals ec hc a _ info rnd P HL LS AD) as (c & HC). exists c. apply A. exists a. rewrite EP. auto.
Qed.
Lemma any_decrypts : forall ec lib random hc w k q cc, ecies_world ec lib random w -> hpke_world ec hc w -> ec_laws ec lib -> crypto_laws lib -> hpke_laws ec hc ->
  made_for (cw_hybrid_decrypt w) is_any_private (good_any_private ec) (k, q) (k, cc) -> forall C info P,
  chd_decrypt cc C info = StOk P <-> any_plaintext ec lib hc q info C P.
Proof.
  intros ec lib random hc w k q cc (HE & _) (HH & _) EL CL HL (_ & K & G & m & M & CG) C info P. cbn [fst snd] in *.
  destruct q as [q | q]; cbn [is_any_private good_any_private any_plaintext] in *.
  - rewrite (proj1 K), HE in M. injection M as <-. exact (ecies_private_decrypts ec lib random _ _ _ _ _ cc EL CL K (proj1 G) CG C info P).
  - rewrite (proj1 K), HH in M. injection M as <-. exact (proj1 (hpke_decrypts ec hc _ _ cc HL K CG C info) P).
Qed.
Lemma any_plaintext_size : forall ec lib hc q info C P, crypto_laws lib -> good_any_private ec q -> any_plaintext ec lib hc q info C P -> C <> [].
Proof.
  intros ec lib hc [q | q] info C P CL G; cbn [good_any_private any_plaintext] in *.
  - intros (kem & S & nonce & X1 & X2) ->. pose proof (ecies_ciphertext_size _ _ _ _ _ _ _ _ _ _ CL (proj1 G) X1 X2) as L. pose proof (overhead_positive _ (proj1 G)). cbn [length] in L. lia.
  - intros (a & _ & X). exact (hpke_plaintext_size _ _ _ _ _ _ X).
Qed.
Lemma any_plaintext_fun : forall ec lib hc d q info C P P', ec_laws ec lib -> crypto_laws lib -> is_any_private d q -> good_any_private ec q ->
  any_plaintext ec lib hc q info C P -> any_plaintext ec lib hc q info C P' -> P = P'.
Proof.
  intros ec lib hc d [q | q] info C P P' EL CL K G; cbn [is_any_private good_any_private any_plaintext] in *.
  - intros (kem & S & nonce & X1 & X2) (kem' & S' & nonce' & Y1 & Y2). destruct (good_pair _ _ _ EL G) as (PP & OK & _).
    exact (private_plain _ _ _ _ _ _ _ _ _ _ _ _ _ _ _ _ _ EL CL K PP OK X1 X2 Y1 Y2).
  - intros (a & W & X) (b & W' & Y). rewrite (suite_works_fun _ _ _ W' W) in Y. exact (hpke_plain_fun _ _ _ _ _ _ _ X Y).
Qed.
Lemma any_agree : forall ec lib random hc q rnd info P C, ec_laws ec lib -> hpke_laws ec hc -> good_any_private ec q ->
  any_ciphertext ec lib random hc (any_public_of q) rnd info P C -> any_plaintext ec lib hc q info C P.
Proof.
  intros ec lib random hc [q | q] rnd info P C EL HL G; cbn [good_any_private any_public_of any_ciphertext any_plaintext] in *.
  - intros (kem & S & X1 & X2). exists kem, S. eexists. split; [exact (secrets_agree _ _ _ _ _ _ _ _ _ EL (proj2 G) X1) | exact X2].
  - intros (a & W & X). destruct G as (_ & LS & EP). rewrite EP in X. exists a. split; [exact W |]. exact (hpke_opens_sealed ec hc a _ info rnd P C HL LS X).
Qed.
Lemma any_pair_not_low : forall ec lib q rnd, ec_laws ec lib -> good_any_private ec q -> ~ any_ends ec (any_public_of q) rnd.
Proof. intros ec lib [q | q] rnd EL G; [exact (pair_not_low _ _ _ rnd EL G) | intros []]. Qed.
Lemma any_pair_public : forall ec lib q, ec_laws ec lib -> good_any_private ec q -> good_any_public ec (any_public_of q).
Proof. intros ec lib [q | q] EL G; [exact (proj2 (proj2 (good_pair _ _ _ EL G))) | exact (proj1 (good_hpke_pair _ _ _ EL G))]. Qed.

(** ** What the keys make of an outcome *)
Lemma any_encrypt_outcome : forall ec lib random hc w ks l l' rnd P info y, ecies_world ec lib random w -> hpke_world ec hc w -> ec_laws ec lib -> crypto_laws lib -> random_law random -> hpke_laws ec hc ->
  Forall2 (made_for (cw_hybrid_encrypt w) is_any_public (good_any_public ec)) l l' ->
  (forall k q, is_primary ks l' k q -> prefixed k (che_encrypt q rnd P info) y) -> ((forall k q, ~ is_primary ks l' k q) -> raises_tink y) ->
  (forall k q, is_primary ks l k q -> ~ any_ends ec q rnd ->
     (forall C, y = Ok C <-> exists c, stamped k C c /\ any_ciphertext ec lib random hc q rnd info P c) /\
     (any_admits q P -> (exists s, good_any_private ec s /\ any_public_of s = q) -> exists C, y = Ok C) /\ tink_total y) /\
  ((forall k q, ~ is_primary ks l k q) -> raises_tink y).
Proof.
  intros ec lib random hc w ks l l' rnd P info y HE HH EL CL RL HL F2 E N. split.
  - intros k q (I & PI) NE. destruct (made_for_l _ _ _ _ _ _ _ _ _ F2 I) as (cc & I' & M). pose proof (E k cc (conj I' PI)) as PF.
    destruct (prefixed_stamped _ _ _ PF) as (T & S). destruct (any_encrypts _ _ _ _ _ _ _ _ HE HH EL CL RL HL M rnd P info NE) as (A & B). split; [| split; [| exact T]].
    + intros C. rewrite S. split.
      * intros (c & X & Y). exists c. split; [exact Y |]. apply A, X.
      * intros (c & X & Y). exists c. split; [apply A, Y | exact X].
    + intros AD PR. destruct (B AD PR) as (c & X). destruct PF as (p & Hp & _). exists (p ++ c). apply S. exists c. split; [exact X |]. exists p. auto.
  - intros NP. apply N. intros k cc (I & PI). destruct (made_for_r _ _ _ _ _ _ _ _ _ F2 I) as (q & I' & _). exact (NP k q (conj I' PI)).
Qed.
Lemma any_decrypt_outcome : forall ec lib random hc w ks l l' C info y, ecies_world ec lib random w -> hpke_world ec hc w -> ec_laws ec lib -> crypto_laws lib -> hpke_laws ec hc ->
  cc_keyset ClsHybridDecrypt (cw_hybrid_decrypt w) ks l' -> Forall2 (made_for (cw_hybrid_decrypt w) is_any_private (good_any_private ec)) l l' ->
  first_success (attempts l' C (fun _ q body => of_status (chd_decrypt q body info))) y ->
  tink_total y /\ (forall P, y = Ok P -> any_opens ec lib hc l C info P) /\ (forall P, any_opens ec lib hc l C info P -> exists P', y = Ok P').
Proof.
  intros ec lib random hc w ks l l' C info y HE HH EL CL HL CK F2 FS.
  destruct (keys_tried _ _ _ _ _ _ (fun _ q body => chd_decrypt q body info) C y CK FS) as (T & D1 & D2). split; [exact T |]. split.
  - intros P E. destruct (D1 P E) as (k & cc & body & I & R & X). destruct (made_for_r _ _ _ _ _ _ _ _ _ F2 I) as (q & I' & M).
    exists k, q, body. split; [exact I' |]. split; [exact (reaches_stamped _ _ _ R) |]. apply (any_decrypts _ _ _ _ _ _ _ _ HE HH EL CL HL M), X.
  - intros P (k & q & c & I & ST & X). destruct (made_for_l _ _ _ _ _ _ _ _ _ F2 I) as (cc & I' & M). pose proof M as (_ & _ & G & _). cbn [snd] in G.
    apply (D2 k cc c P I'); [| apply (any_decrypts _ _ _ _ _ _ _ _ HE HH EL CL HL M), X]. apply stamped_reaches; [exact ST |]. exact (any_plaintext_size _ _ _ _ _ _ _ CL G X).
Qed.

(** ** Handles *)
Theorem any_encrypt_handle : forall ec lib random hc w env r ks l, ecies_world ec lib random w -> hpke_world ec hc w -> ec_laws ec lib -> crypto_laws lib -> random_law random -> hpke_laws ec hc ->
  configured w env Hybrid r -> hybrid_keyset is_any_public (good_any_public ec) ks l ->
  exists a, handle_primitive r (mk_handle ks) ClsHybridEncrypt = Ok (PrimHybridEncrypt a) /\ any_encrypt_works ec lib random hc ks l a.
Proof.
  intros ec lib random hc w env r ks l HE HH EL CL RL HL HC KS. destruct (any_public_made _ _ _ _ _ _ _ HE HH KS) as (l' & CK & F2).
  destruct (hybrid_encrypt_over_cc_ok w env r ks l' HC CK) as (a & HA & E & N). exists a. split; [exact HA |]. split.
  - intros k q PR rnd P info NE. refine (proj1 (any_encrypt_outcome _ _ _ _ _ _ _ _ rnd P info _ HE HH EL CL RL HL F2 (fun k q PR => E k q PR rnd P info) (fun NP => N NP rnd P info)) k q PR NE).
  - intros NP rnd P info. exact (proj2 (any_encrypt_outcome _ _ _ _ _ _ _ _ rnd P info _ HE HH EL CL RL HL F2 (fun k q PR => E k q PR rnd P info) (fun NP => N NP rnd P info)) NP).
Qed.
Theorem any_decrypt_handle : forall ec lib random hc w env r ks l, ecies_world ec lib random w -> hpke_world ec hc w -> ec_laws ec lib -> crypto_laws lib -> hpke_laws ec hc ->
  configured w env Hybrid r -> hybrid_keyset is_any_private (good_any_private ec) ks l ->
  exists a, handle_primitive r (mk_handle ks) ClsHybridDecrypt = Ok (PrimHybridDecrypt a) /\ any_decrypt_works ec lib hc l a.
Proof.
  intros ec lib random hc w env r ks l HE HH EL CL HL HC KS. destruct (any_private_made _ _ _ _ _ _ _ HE HH EL KS) as (l' & CK & F2).
  destruct (hybrid_decrypt_over_cc_ok w env r ks l' HC CK) as (a & HA & D). exists a. split; [exact HA |].
  assert (T : forall C info, _ /\ _ /\ _) by (intros C info; exact (any_decrypt_outcome _ _ _ _ _ _ _ _ C info _ HE HH EL CL HL CK F2 (D C info))).
  split; [| split]; intros C info; apply T.
Qed.
(** A ciphertext for the public key of [q] is opened as nothing else by a keyset in which its
    prefix means [q]. *)
Lemma any_unambiguous : forall ec lib random hc ks l k q rnd info P C c, ec_laws ec lib -> crypto_laws lib -> hpke_laws ec hc -> hybrid_keyset is_any_private (good_any_private ec) ks l ->
  In (k, q) l -> stamped k C c -> any_ciphertext ec lib random hc (any_public_of q) rnd info P c ->
  any_opens ec lib hc l C info P /\ (any_told_apart k q l -> forall P', any_opens ec lib hc l C info P' -> P' = P).
Proof.
  intros ec lib random hc ks l k q rnd info P C c EL CL HL KS I ST X. destruct (hybrid_key _ _ _ _ _ _ _ KS I) as (K & G). pose proof (any_agree _ _ _ _ _ _ _ _ _ EL HL G X) as X'.
  split; [exists k, q, c; auto |]. intros TA P2 (k3 & q3 & c3 & I3 & ST3 & Y).
  assert (Q : q3 = q /\ c3 = c).
  { destruct TA as [-> | (R & TA)].
    - destruct I3 as [I3 | []]. injection I3 as <- <-. split; [reflexivity |]. exact (stamped_fun _ _ _ _ ST3 ST).
    - destruct (TA _ _ I3) as (R3 & T3). destruct (stamped_id _ _ _ _ _ R R3 ST ST3) as (EI3 & <-). split; [exact (T3 (eq_sym EI3)) | reflexivity]. }
  destruct Q as (-> & ->). exact (any_plaintext_fun _ _ _ _ _ _ _ _ _ EL CL K G Y X').
Qed.
Theorem any_carries_over : forall ec lib random hc ks l a ks2 l2 a2 k k2 q rnd P info, ec_laws ec lib -> crypto_laws lib -> hpke_laws ec hc ->
  any_encrypt_works ec lib random hc ks l a -> is_primary ks l k (any_public_of q) -> hybrid_keyset is_any_private (good_any_private ec) ks2 l2 -> any_decrypt_works ec lib hc l2 a2 ->
  In (k2, q) l2 -> k_key_id k2 = k_key_id k -> k_output_prefix_type k2 = k_output_prefix_type k ->
  (any_admits (any_public_of q) P -> exists C, he_encrypt a rnd P info = Ok C) /\
  forall C, he_encrypt a rnd P info = Ok C ->
    (exists P', hd_decrypt a2 C info = Ok P' /\ any_opens ec lib hc l2 C info P') /\
    ((forall P', any_opens ec lib hc l2 C info P' -> P' = P) -> hd_decrypt a2 C info = Ok P) /\
    (any_told_apart k2 q l2 -> hd_decrypt a2 C info = Ok P).
Proof.
  intros ec lib random hc ks l a ks2 l2 a2 k k2 q rnd P info EL CL HL (E & _) PR KS (D1 & D2 & _) I EI ET.
  destruct (hybrid_key _ _ _ _ _ _ _ KS I) as (K & G). destruct (E k _ PR rnd P info (any_pair_not_low _ _ _ rnd EL G)) as (E1 & E2 & _). split; [intros AD; apply E2; [exact AD | exists q; auto] |].
  intros C HC. apply E1 in HC. destruct HC as (c & ST & X). pose proof (same_stamp _ _ _ _ ET EI ST) as ST2.
  destruct (any_unambiguous _ _ _ _ _ _ _ _ _ _ _ _ _ EL CL HL KS I ST2 X) as (O & TA).
  destruct (D2 _ _ _ O) as (P' & ED). pose proof (D1 _ _ _ ED) as O'. split; [exists P'; auto |].
  assert (UN : (forall P', any_opens ec lib hc l2 C info P' -> P' = P) -> hd_decrypt a2 C info = Ok P) by (intros UN; rewrite ED, (UN P' O'); reflexivity).
  split; [exact UN |]. intros TT. apply UN, TA, TT.
Qed.

(** ** Public keysets *)
Theorem any_public_handle : forall ec lib random hc w env r ks l, ecies_world ec lib random w -> hpke_world ec hc w -> ec_laws ec lib -> configured w env Hybrid r ->
  valid_keyset ks -> all_any_private ks l -> (forall k, In k (ks_key ks) -> k_output_prefix_type k <> UNKNOWN_PREFIX /\ k_status k <> UNKNOWN_STATUS) ->
  (forall k q, In (k, q) l -> any_public_fits ec lib random hc k q) ->
  exists ph l', public_keyset_handle r (mk_handle ks) = Ok ph /\ ks_primary_key_id (kh_keyset ph) = ks_primary_key_id ks /\
    map fst l' = ks_key (kh_keyset ph) /\ Forall2 any_public_half l l' /\ Forall (fun y => kd_key_material_type (k_key_data (fst y)) = ASYMMETRIC_PUBLIC) l' /\
    (hybrid_keyset is_any_private (good_any_private ec) ks (enabled_of l) -> hybrid_keyset is_any_public (good_any_public ec) (kh_keyset ph) (enabled_of l')).
Proof.
  intros ec lib random hc w env r ks l (HE & _) (HH & _) EL HC V (EM & F) KN PF.
  assert (G : exists l', Forall2 (fun x y => any_public_half x y /\ public_counterpart r (fst x) (fst y) /\ kd_key_material_type (k_key_data (fst y)) = ASYMMETRIC_PUBLIC /\
    wf_key_data (k_key_data (fst y)) /\ proto_size (serialize_key_data (k_key_data (fst y)))) l l').
  { clear KN EM V. induction F as [| (k & q) l (W & S & A & K & ST) F IH]; [exists []; constructor |]. destruct IH as (l' & IH); [intros k0 q0 I; apply PF; right; exact I |].
    cbn [fst snd] in *. pose proof (PF k q (or_introl eq_refl)) as FT.
    assert (GG : exists name create get d', In (name, ClsHybridDecrypt, true) (key_types Hybrid) /\ cc_functions w ClsHybridDecrypt (type_url name) = Some (type_url name, create, Some get) /\
      kd_type_url (k_key_data k) = type_url name /\ get (kd_value (k_key_data k)) = StOk d' /\ wf_key_data d' /\ kd_key_material_type d' = ASYMMETRIC_PUBLIC /\
      is_any_public d' (any_public_of q) /\ proto_size (kd_value d') /\ proto_size (serialize_key_data d')).
    { destruct q as [q | q]; cbn [is_any_private any_public_fits any_public_of is_any_public] in *.
      - destruct (ecies_public_key ec lib random _ _ _ _ _ K) as (get & d' & G1 & G2 & U & MT & HP). destruct (FT get d' G1 G2) as (S1 & S2).
        exists "EciesAeadHkdfPrivateKey". do 2 eexists. exists d'. split; [cbn; tauto |]. split; [cbn [cc_functions]; rewrite HE; cbn [manager_functions]; rewrite G1; reflexivity |]. split; [exact (proj1 K) |].
        split; [exact G2 |]. split; [split; [rewrite U; apply url_text | rewrite MT; apply low_int; vm_compute; reflexivity] |]. split; [exact MT |]. split; [exact (HP S1) |]. auto.
      - destruct (hpke_public_key ec hc _ _ K ST) as (get & d' & G1 & G2 & U & MT & HP). destruct (FT get d' G1 G2) as (S1 & S2).
        exists "HpkePrivateKey". do 2 eexists. exists d'. split; [cbn; tauto |]. split; [cbn [cc_functions]; rewrite HH; cbn [manager_functions]; rewrite G1; reflexivity |]. split; [exact (proj1 K) |].
        split; [exact G2 |]. split; [split; [rewrite U; apply hpke_url_text | rewrite MT; apply low_int; vm_compute; reflexivity] |]. split; [exact MT |]. split; [exact (HP S1) |]. auto. }
    destruct GG as (name & create & get & d' & KT & HW & U & G2 & WD & MT & HP & S1 & S2).
    exists ((mk_key (Some d') (k_status k) (k_key_id k) (k_output_prefix_type k), any_public_of q) :: l'). constructor; [| exact IH].
    cbn [fst snd]. split; [| split; [| split; [exact MT |]; split; assumption]].
    - do 3 (split; [reflexivity |]). split; [exact HP | reflexivity].
    - split; [| auto]. exists d'. split; [reflexivity |]. apply registry_public_key_data_ok.
      assert (AN : answers (registry_public_key_data r (k_key_data k)) (get (kd_value (k_key_data k)))).
      { eapply (configured_public_key w env Hybrid r name ClsHybridDecrypt); [exact HC | exact KT | exact HW | exact U | exact A | exact W | exact S |].
        intros d2 E. rewrite G2 in E. injection E as <-. auto. }
      rewrite G2 in AN. exact AN. }
  destruct G as (l' & G). set (ks' := mk_keyset (ks_primary_key_id ks) (map fst l')).
  assert (G1 : Forall2 (fun x y => k_status y = k_status x /\ k_key_id y = k_key_id x /\ k_output_prefix_type y = k_output_prefix_type x /\ public_counterpart r x y) (ks_key ks) (map fst l')).
  { rewrite <- EM. clear - G. induction G as [| x y l l' (H & H' & _) G IH]; constructor; [| exact IH]. destruct H as (A & B & C & _). auto. }
  assert (V' : valid_keyset ks').
  { destruct V as ((k0 & I0 & D0) & _ & UQ & _).
    assert (PP : forall i, primary_positions ks' i -> primary_positions ks i).
    { intros i (k & N & S & E). cbn [ks_key ks_primary_key_id ks'] in *. destruct (Forall2_nth _ _ _ _ _ _ _ G1 N) as (k1 & N1 & A & B & C & _). exists k1. split; [exact N1 |]. split; congruence. }
    split; [| split; [| split]].
    - destruct (Forall2_in_l _ _ _ _ _ _ G1 I0) as (y & I & A & _). exists y. split; [exact I | congruence].
    - intros k I _. destruct (Forall2_in_r _ _ _ _ _ _ G1 I) as (x & IX & A & B & C & (d & ED & _) & _). destruct (KN _ IX). split; [exists d; exact ED |]. split; congruence.
    - intros i j A B. apply UQ; apply PP; assumption.
    - right. intros k I. apply in_map_iff in I. destruct I as (y & <- & I). destruct (Forall2_in_r _ _ _ _ _ _ G I) as (x & _ & _ & _ & M & _). exact M. }
  exists (mk_handle ks'), l'. split; [| split; [reflexivity |]; split; [reflexivity |]; split; [| split]].
  - apply public_keyset_handle_ok. cbn [kh_keyset ks_key ks_primary_key_id ks']. split; [reflexivity |]. split; [| split; [exact KN | exact V']].
    clear - G1. induction G1 as [| x y a b (_ & _ & _ & H) G1 IH]; constructor; assumption.
  - clear - G. induction G as [| x y l l' (H & _) G IH]; constructor; assumption.
  - clear - G. induction G as [| x y l l' (_ & _ & H & _) G IH]; constructor; assumption.
  - intros (_ & _ & FE). split; [exact V' |]. unfold enabled_of in *. cbn [kh_keyset].
    assert (EF : forall K (a : list (key * K)), map fst (filter (fun x => Z.eqb (k_status (fst x)) ENABLED) a) = filter is_enabled (map fst a)).
    { intros K a. induction a as [| x a IH]; [reflexivity |]. cbn [filter map]. unfold is_enabled at 1. destruct (Z.eqb (k_status (fst x)) ENABLED); cbn [map]; rewrite IH; reflexivity. }
    split; [apply EF |]. clear - EL G FE. induction G as [| x y l l' H G IH]; [constructor |]. destruct H as ((A & B & C & K & E) & _ & M & W & S).
    cbn [filter] in *. rewrite A. destruct (Z.eqb (k_status (fst x)) ENABLED); [| exact (IH FE)].
    inversion_clear FE as [| ? ? (_ & _ & _ & GP & (p & HP)) FE']. constructor; [| exact (IH FE')]. split; [exact W |]. split; [exact S |]. rewrite E. split; [exact K |].
    split; [exact (any_pair_public _ _ _ EL GP) |]. exists p. rewrite B, C. exact HP.
Qed.

(** ** The example programs *)
Lemma hybrid_library_ready : forall ec lib random hc w, hybrid_library ec lib random hc w -> cc_ready w Hybrid.
Proof.
  intros ec lib random hc w ((E1 & E2) & (H1 & H2) & T & H). split; [split; assumption |].
  intros name c b [E | [E | [E | [E | []]]]]; injection E as <- <- <-; cbn [cc_functions]; rewrite ?E1, ?E2, ?H1, ?H2; do 2 eexists; reflexivity.
Qed.
Lemma stored_writes : forall run out y fs C, stores_or_empties run out y fs -> (writes run out C fs <-> y = Ok C).
Proof.
  intros run out [x | e] fs C S; cbn [stores_or_empties] in S; split.
  - intros (_ & W & _). destruct S as (_ & W' & _). congruence.
  - intros E. injection E as <-. exact S.
  - intros (W & _). destruct S as (W' & _). rewrite W in W'. discriminate W'.
  - discriminate.
Qed.
Theorem any_hybrid_cli_encrypt : forall ec lib random hc w env pb o rnd f fs ks l info data, hybrid_library ec lib random hc w -> ec_laws ec lib -> crypto_laws lib -> random_law random -> hpke_laws ec hc ->
  cf_mode f = Encrypt -> holds_keyset (pe_rt env) fs (cf_keyset_path f) ks -> hybrid_keyset is_any_public (good_any_public ec) ks l ->
  flag_is (cf_associated_data f) info -> content fs (cf_input_path f) = Some data -> may_write o (cf_output_path f) = true ->
  hybrid_encrypts_file ec lib random hc ks l rnd data info (hybrid_cli w env pb o rnd f fs) (cf_output_path f) fs.
Proof.
  intros ec lib random hc w env pb o rnd f fs ks l info data HW EL CL RL HL M HK KS HF HD HO. pose proof (hybrid_library_ready _ _ _ _ _ HW) as R. destruct HW as (HE & HH & _).
  destruct (any_public_made _ _ _ _ _ _ _ HE HH KS) as (l' & CK & F2). destruct (hybrid_cli_encrypt_spec w env pb o rnd f fs ks l' info data R M HK CK HF HD HO) as (y & E & N & S).
  destruct (any_encrypt_outcome _ _ _ _ _ _ _ _ rnd data info y HE HH EL CL RL HL F2 E N) as (E' & N'). split.
  - intros k q PR NE. destruct (E' k q PR NE) as (A & B & _). split; [| split].
    + intros C. rewrite (stored_writes _ _ _ _ C S). apply A.
    + intros AD PS. destruct (B AD PS) as (C & X). exists C. apply (stored_writes _ _ _ _ C S), X.
    + destruct y as [x | e]; [left; exists x; exact S | right; exact S].
  - intros NP. destruct (N' NP) as (e & -> & _). exact S.
Qed.
Theorem any_hybrid_cli_decrypt : forall ec lib random hc w env pb o rnd f fs ks l info data, hybrid_library ec lib random hc w -> ec_laws ec lib -> crypto_laws lib -> hpke_laws ec hc ->
  cf_mode f = Decrypt -> holds_keyset (pe_rt env) fs (cf_keyset_path f) ks -> hybrid_keyset is_any_private (good_any_private ec) ks l ->
  flag_is (cf_associated_data f) info -> content fs (cf_input_path f) = Some data -> may_write o (cf_output_path f) = true ->
  hybrid_decrypts_file ec lib hc l data info (hybrid_cli w env pb o rnd f fs) (cf_output_path f) fs.
Proof.
  intros ec lib random hc w env pb o rnd f fs ks l info data HW EL CL HL M HK KS HF HD HO. pose proof (hybrid_library_ready _ _ _ _ _ HW) as R. destruct HW as (HE & HH & _).
  destruct (any_private_made _ _ _ _ _ _ _ HE HH EL KS) as (l' & CK & F2). destruct (hybrid_cli_decrypt_spec w env pb o rnd f fs ks l' info data R M HK CK HF HD HO) as (y & FS & S).
  destruct (any_decrypt_outcome _ _ _ _ _ _ _ _ data info y HE HH EL CL HL CK F2 FS) as (_ & A & B). destruct y as [P | e]; [left | right].
  - exists P. split; [apply A; reflexivity | exact S].
  - split; [| exact S]. intros P O. destruct (B P O) as (P' & X). discriminate X.
Qed.
(** From one run to another: a file encrypted for the public keyset, decrypted with a private
    keyset that has the key. *)
Theorem any_hybrid_files : forall ec lib random hc w env pb o rnd f fs ks l info data k q w2 env2 pb2 o2 random2,
  hybrid_library ec lib random hc w -> ec_laws ec lib -> crypto_laws lib -> random_law random -> hpke_laws ec hc ->
  holds_keyset (pe_rt env) fs (cf_keyset_path f) ks -> hybrid_keyset is_any_public (good_any_public ec) ks l -> is_primary ks l k (any_public_of q) -> good_any_private ec q -> any_admits (any_public_of q) data ->
  cf_mode f = Encrypt -> flag_is (cf_associated_data f) info -> content fs (cf_input_path f) = Some data -> may_write o (cf_output_path f) = true ->
  hybrid_library ec lib random2 hc w2 ->
  fst (hybrid_cli w env pb o rnd f fs) = Ok 0%Z /\
  forall rnd2 g fs2 ks2 l2 k2, cf_mode g = Decrypt -> holds_keyset (pe_rt env2) fs2 (cf_keyset_path g) ks2 -> hybrid_keyset is_any_private (good_any_private ec) ks2 l2 ->
    In (k2, q) l2 -> k_key_id k2 = k_key_id k -> k_output_prefix_type k2 = k_output_prefix_type k -> any_told_apart k2 q l2 ->
    flag_is (cf_associated_data g) info ->
    content fs2 (cf_input_path g) = content (snd (hybrid_cli w env pb o rnd f fs)) (cf_output_path f) ->
    may_write o2 (cf_output_path g) = true ->
    writes (hybrid_cli w2 env2 pb2 o2 rnd2 g fs2) (cf_output_path g) data fs2.
Proof.
  intros ec lib random hc w env pb o rnd f fs ks l info data k q w2 env2 pb2 o2 random2 HW EL CL RL HL HK KS PR G AD M HF HD HO HW2.
  destruct (any_hybrid_cli_encrypt ec lib random hc w env pb o rnd f fs ks l info data HW EL CL RL HL M HK KS HF HD HO) as (E & _).
  destruct (E k _ PR (any_pair_not_low _ _ _ rnd EL G)) as (E1 & E2 & _). destruct (E2 AD (ex_intro _ q (conj G eq_refl))) as (C & W). pose proof W as (W1 & W2 & _). split; [exact W1 |].
  intros rnd2 g fs2 ks2 l2 k2 M2 HK2 KS2 I EI ET TA HF2 HD2 HO2. rewrite W2 in HD2. apply E1 in W. destruct W as (c & ST & X). pose proof (same_stamp _ _ _ _ ET EI ST) as ST2.
  destruct (any_unambiguous _ _ _ _ _ _ _ _ _ _ _ _ _ EL CL HL KS2 I ST2 X) as (O & UN).
  destruct (any_hybrid_cli_decrypt ec lib random2 hc w2 env2 pb2 o2 rnd2 g fs2 ks2 l2 info C HW2 EL CL HL M2 HK2 KS2 HF2 HD2 HO2) as [(P & OP & D) | (NO & _)].
  - rewrite <- (UN TA P OP). exact D.
  - destruct (NO data O).
Qed.
