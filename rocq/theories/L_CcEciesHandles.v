(** Proofs: hybrid encryption with ECIES keysets. *)
From Coq Require Import Strings.Byte Strings.String List NArith ZArith Bool Lia.
From Verif Require Import M_Base M_Utf8 M_Proto M_Wire M_ProtoMsg M_KeyFormats M_Prims M_PrimitiveSet M_Registry M_KeysetHandle M_Wrappers M_StreamTypes M_CcStream M_CcManagers
  M_Templates M_CcAes M_CcStreamKeys M_CcModes M_CcSymmetric M_CcSymKeys M_CcEcies M_CcEciesKeys S_Keyset S_Handle S_Wrappers S_Wire S_Config S_CcLaws S_CcAes S_CcStreamKeys S_CcModes S_CcSymmetric
  S_CcSymKeys S_CcSymHandles S_CcEcies S_CcEciesKeys S_CcEciesHandles L_Base L_Registry L_Wire L_PrimitiveSet L_Keyset L_Wrappers L_Wrappers2 L_Wrappers3 L_Handle L_Config L_Config2 L_Config3 L_Config4 L_Cli3
  L_CcStreamKeys L_CcSymKeys L_CcSymKeys2 L_CcSymHandles L_CcSymHandles2 L_CcSymHandles3 L_CcSymHandles4 L_CcEcies L_CcEcies2 L_CcEcies3 L_CcEcies4 L_CcEcies5 L_CcEciesKeys L_CcEciesKeys2.
Import ListNotations.
Open Scope string_scope.
Open Scope list_scope.
Open Scope nat_scope.

(** ** The objects of the keys *)
Definition made_for {P K} (lookup : pystr -> option (cc_lib_manager P)) (is_key : key_data -> K -> Prop) (good : K -> Prop) (x : key * K) (y : key * P) : Prop :=
  fst x = fst y /\ is_key (k_key_data (fst x)) (snd x) /\ good (snd x) /\
  exists m, lookup (kd_type_url (k_key_data (fst x))) = Some m /\ cl_get_primitive m (k_key_data (fst x)) = StOk (snd y).
Lemma hybrid_cc_keyset : forall P K c (lookup : pystr -> option (cc_lib_manager P)) (is_key : key_data -> K -> Prop) (good : K -> Prop) pkg name b,
  (forall d q, is_key d q -> good q -> kd_type_url d = type_url name /\ exists m cc, lookup (type_url name) = Some m /\ cl_get_primitive m d = StOk cc) ->
  ~ In pkg [JwtMac; JwtSignature] -> In (name, c, b) (key_types pkg) ->
  forall ks l, hybrid_keyset is_key good ks l -> exists l', cc_keyset c lookup ks l' /\ Forall2 (made_for lookup is_key good) l l'.
Proof.
  intros P K c lookup is_key good pkg name b HP HJ HK ks l (V & E & F).
  assert (G : exists l', Forall2 (made_for lookup is_key good) l l' /\ Forall (fun kq => cc_key c (k_key_data (fst kq)) /\
    exists m, lookup (kd_type_url (k_key_data (fst kq))) = Some m /\ cl_get_primitive m (k_key_data (fst kq)) = StOk (snd kq)) l').
  { clear V E. induction F as [| (k & q) l (W & S & I & U & _) F IH]; [exists []; split; constructor |].
    destruct IH as (l' & IH1 & IH2). cbn [fst snd] in *. destruct (HP _ _ I U) as (EU & m & cc & M & G).
    exists ((k, cc) :: l'). split; constructor; try assumption; cbn [fst snd].
    - split; [reflexivity |]. cbn [fst snd]. split; [exact I |]. split; [exact U |]. exists m. rewrite EU. auto.
    - split; [| exists m; rewrite EU; auto]. split; [exact W |]. split; [exact S |]. exists pkg, name, b. auto. }
  destruct G as (l' & G1 & G2). exists l'. split; [| exact G1]. split; [exact V |].
  assert (EM : map fst l' = map fst l).
  { clear - G1. induction G1 as [| x y l l' (H & _) _ IH]; [reflexivity |]. cbn. rewrite H, IH. reflexivity. }
  split; [split; [rewrite EM; exact E | exact G2] |].
  rewrite <- E. apply Forall_forall. intros k Hk. apply in_map_iff in Hk. destruct Hk as (x & <- & Hx).
  rewrite Forall_forall in F. destruct (F _ Hx) as (_ & _ & _ & _ & P'). exact P'.
Qed.
Lemma made_for_l : forall P K (lookup : pystr -> option (cc_lib_manager P)) (is_key : key_data -> K -> Prop) (good : K -> Prop) l l' k q, Forall2 (made_for lookup is_key good) l l' -> In (k, q) l ->
  exists cc, In (k, cc) l' /\ made_for lookup is_key good (k, q) (k, cc).
Proof.
  intros P K lookup is_key good l l' k q H. induction H as [| (k1 & q1) (k2 & c2) l l' M H IH]; [contradiction |]. pose proof (proj1 M) as E. cbn [fst] in E. subst k2. intros [X | X].
  - injection X as -> ->. exists c2. split; [left; reflexivity | exact M].
  - destruct (IH X) as (cc & I & O). exists cc. split; [right; exact I | exact O].
Qed.
Lemma made_for_r : forall P K (lookup : pystr -> option (cc_lib_manager P)) (is_key : key_data -> K -> Prop) (good : K -> Prop) l l' k cc, Forall2 (made_for lookup is_key good) l l' -> In (k, cc) l' ->
  exists q, In (k, q) l /\ made_for lookup is_key good (k, q) (k, cc).
Proof.
  intros P K lookup is_key good l l' k cc H. induction H as [| (k1 & q1) (k2 & c2) l l' M H IH]; [contradiction |]. pose proof (proj1 M) as E. cbn [fst] in E. subst k2. intros [X | X].
  - injection X as -> ->. exists q1. split; [left; reflexivity | exact M].
  - destruct (IH X) as (q & I & O). exists q. split; [right; exact I | exact O].
Qed.

(** ** Encryption *)
Theorem hybrid_encrypt_handle_works : forall ec lib random w env r ks l, ecies_world ec lib random w -> ec_laws ec lib -> crypto_laws lib -> random_law random ->
  configured w env Hybrid r -> hybrid_keyset is_public (good_public ec) ks l ->
  exists a, handle_primitive r (mk_handle ks) ClsHybridEncrypt = Ok (PrimHybridEncrypt a) /\ hybrid_encrypt_works ec lib random ks l a.
Proof.
  intros ec lib random w env r ks l (_ & HW) EL CL RL HC KS.
  assert (HP : forall d q, is_public d q -> good_public ec q -> kd_type_url d = type_url "EciesAeadHkdfPublicKey" /\
    exists m cc, cw_hybrid_encrypt w (type_url "EciesAeadHkdfPublicKey") = Some m /\ cl_get_primitive m d = StOk cc).
  { intros d q K (PR & OK). split; [exact (proj1 K) |]. destruct (proj2 (ecies_public_primitive ec lib random d _ _ _ K (proj1 (proj2 (proj2 (proj2 (proj2 PR)))))) OK) as (cc & G).
    do 2 eexists. split; [exact HW | exact G]. }
  destruct (hybrid_cc_keyset _ _ ClsHybridEncrypt (cw_hybrid_encrypt w) is_public (good_public ec) Hybrid _ false HP ltac:(cbn; intuition discriminate) ltac:(cbn; tauto) ks l KS) as (l' & CK & F2).
  destruct (hybrid_encrypt_over_cc_ok w env r ks l' HC CK) as (a & HA & E & N). exists a. split; [exact HA |]. split.
  - intros k q (I & PI) rnd P info LO. destruct (made_for_l _ _ _ _ _ _ _ _ _ F2 I) as (cc & I' & _ & K & G & m & M & CG). cbn [fst snd] in *.
    rewrite (proj1 K), HW in M. injection M as <-. destruct (prefixed_stamped _ _ _ (E k cc (conj I' PI) rnd P info)) as (T & S).
    destruct (ecies_public_encrypts ec lib random _ _ _ _ cc EL CL RL K (proj1 G) CG rnd P info) as (A & B & _). split; [| split; [| exact T]].
    + intros C. rewrite S. split.
      * intros (c & X & Y). exists c. split; [exact Y |]. apply A, X.
      * intros (c & X & Y). exists c. split; [apply A, Y | exact X].
    + intros AD. destruct (B AD) as [X | (c & X)]; [exfalso; exact (LO X) |]. destruct (E k cc (conj I' PI) rnd P info) as (p & Hp & _).
      exists (p ++ c). apply S. exists c. split; [exact X |]. exists p. auto.
  - intros NP. apply N. intros k cc (I & PI). destruct (made_for_r _ _ _ _ _ _ _ _ _ F2 I) as (q & I' & _). exact (NP k q (conj I' PI)).
Qed.

(** ** Decryption *)
Lemma private_plain : forall ec lib p s X Y d kem S nonce kem' S' nonce' info P P' C, ec_laws ec lib -> crypto_laws lib -> is_ecies_private d p s X Y -> proper p -> private_ok (ep_curve p) s X Y ->
  recipient_secret ec p s kem S -> ecies_ciphertext lib p kem S info nonce P C ->
  recipient_secret ec p s kem' S' -> ecies_ciphertext lib p kem' S' info nonce' P' C -> P = P'.
Proof.
  intros ec lib p s X Y d kem S nonce kem' S' nonce' info P P' C EL CL K PR OK R1 C1 R2 C2.
  destruct (proj2 (ecies_private_primitive ec lib (fun _ _ => []) d _ _ _ _ K (proj1 (proj2 (proj2 (proj2 (proj2 PR)))))) OK) as (cc & G).
  pose proof (ecies_private_decrypts ec lib _ d p s X Y cc EL CL K PR G C info) as D.
  assert (A : chd_decrypt cc C info = StOk P) by (apply D; exists kem, S, nonce; auto).
  assert (B : chd_decrypt cc C info = StOk P') by (apply D; exists kem', S', nonce'; auto). congruence.
Qed.
Lemma overhead_positive : forall p, proper p -> ecies_overhead p <> 0.
Proof.
  intros p (P1 & _ & P3 & _). unfold ecies_overhead, kem_size. destruct (ep_curve p); try contradiction; try lia; destruct (ep_format p); try contradiction; cbn [coordinate_size]; lia.
Qed.
Theorem hybrid_decrypt_handle_works : forall ec lib random w env r ks l, ecies_world ec lib random w -> ec_laws ec lib -> crypto_laws lib ->
  configured w env Hybrid r -> hybrid_keyset is_private (good_private ec) ks l ->
  exists a, handle_primitive r (mk_handle ks) ClsHybridDecrypt = Ok (PrimHybridDecrypt a) /\ hybrid_decrypt_works ec lib l a.
Proof.
  intros ec lib random w env r ks l (HW & _) EL CL HC KS.
  assert (HP : forall d q, is_private d q -> good_private ec q -> kd_type_url d = type_url "EciesAeadHkdfPrivateKey" /\
    exists m cc, cw_hybrid_decrypt w (type_url "EciesAeadHkdfPrivateKey") = Some m /\ cl_get_primitive m d = StOk cc).
  { intros d q K (PR & OK). split; [exact (proj1 K) |]. destruct (key_pair_ok _ _ _ _ _ _ EL OK) as (_ & OK').
    destruct (proj2 (ecies_private_primitive ec lib random d _ _ _ _ K (proj1 (proj2 (proj2 (proj2 (proj2 PR)))))) OK') as (cc & G).
    do 2 eexists. split; [exact HW | exact G]. }
  destruct (hybrid_cc_keyset _ _ ClsHybridDecrypt (cw_hybrid_decrypt w) is_private (good_private ec) Hybrid _ true HP ltac:(cbn; intuition discriminate) ltac:(cbn; tauto) ks l KS) as (l' & CK & F2).
  destruct (hybrid_decrypt_over_cc_ok w env r ks l' HC CK) as (a & HA & D). exists a. split; [exact HA |].
  assert (T : forall C info, tink_total (hd_decrypt a C info) /\ _ /\ _) by (intros C info; exact (keys_tried _ _ _ _ _ _ (fun k q body => chd_decrypt q body info) C _ CK (D C info))).
  split; [| split].
  - intros C info P E. destruct (T C info) as (_ & A & _). destruct (A P E) as (k & cc & body & I & R & X).
    destruct (made_for_r _ _ _ _ _ _ _ _ _ F2 I) as (q & I' & _ & K & (PR & KP) & m & M & CG). cbn [fst snd] in *. rewrite (proj1 K), HW in M. injection M as <-.
    apply (ecies_private_decrypts ec lib random _ _ _ _ _ cc EL CL K PR CG) in X. destruct X as (kem & S & nonce & X1 & X2).
    exists k, q, kem, S, nonce, body. split; [exact I' |]. split; [exact (reaches_stamped _ _ _ R) |]. split; assumption.
  - intros C info P (k & q & kem & S & nonce & c & I & ST & X1 & X2). destruct (T C info) as (_ & _ & A).
    destruct (made_for_l _ _ _ _ _ _ _ _ _ F2 I) as (cc & I' & _ & K & (PR & KP) & m & M & CG). cbn [fst snd] in *. rewrite (proj1 K), HW in M. injection M as <-.
    apply (A k cc c P I'); [| apply (ecies_private_decrypts ec lib random _ _ _ _ _ cc EL CL K PR CG); exists kem, S, nonce; auto].
    apply stamped_reaches; [exact ST |]. intros ->. pose proof (ecies_ciphertext_size _ _ _ _ _ _ _ _ _ _ CL PR X1 X2) as L. pose proof (overhead_positive _ PR). cbn [length] in L. lia.
  - intros C info. apply T.
Qed.

(** ** What is encrypted for a public keyset is decrypted with the private keyset. *)
Lemma hybrid_key : forall K (is_key : key_data -> K -> Prop) (good : K -> Prop) ks l k q, hybrid_keyset is_key good ks l -> In (k, q) l -> is_key (k_key_data k) q /\ good q.
Proof. intros K is_key good ks l k q (_ & _ & F) I. rewrite Forall_forall in F. destruct (F _ I) as (_ & _ & A & B & _). split; assumption. Qed.
Lemma good_pair : forall ec lib q, ec_laws ec lib -> good_private ec q ->
  proper (pub_params (prv_public q)) /\ private_ok (ep_curve (pub_params (prv_public q))) (prv_value q) (pub_x (prv_public q)) (pub_y (prv_public q)) /\ good_public ec (prv_public q).
Proof. intros ec lib q EL (PR & KP). destruct (key_pair_ok _ _ _ _ _ _ EL KP) as (A & B). split; [exact PR |]. split; [exact B |]. split; assumption. Qed.
Lemma pair_not_low : forall ec lib q rnd, ec_laws ec lib -> good_private ec q -> ~ low_order ec (prv_public q) rnd.
Proof.
  intros ec lib q rnd EL (PR & KP) (C & D). unfold key_pair in KP. rewrite C in KP. destruct KP as (L & EX & _). rewrite EX in D.
  destruct (law_x25519_agree _ _ EL _ _ (law_x25519_generate _ _ EL rnd) L) as (S & H & _). congruence.
Qed.
Theorem hybrid_carries_over : forall ec lib random ks l a ks2 l2 a2 k k2 q rnd P info C, ec_laws ec lib -> crypto_laws lib ->
  hybrid_encrypt_works ec lib random ks l a -> is_primary ks l k (prv_public q) -> hybrid_keyset is_private (good_private ec) ks2 l2 -> hybrid_decrypt_works ec lib l2 a2 ->
  In (k2, q) l2 -> k_key_id k2 = k_key_id k -> k_output_prefix_type k2 = k_output_prefix_type k ->
  he_encrypt a rnd P info = Ok C ->
  (exists P', hd_decrypt a2 C info = Ok P' /\ hybrid_opens ec lib l2 C info P') /\
  ((forall P', hybrid_opens ec lib l2 C info P' -> P' = P) -> hd_decrypt a2 C info = Ok P) /\
  (told_apart k2 q l2 -> hd_decrypt a2 C info = Ok P).
Proof.
  intros ec lib random ks l a ks2 l2 a2 k k2 q rnd P info C EL CL (E & _) PR KS (D1 & D2 & _) I EI ET EC.
  apply (proj1 (E k _ PR rnd P info (pair_not_low _ _ _ rnd EL (proj2 (hybrid_key _ _ _ _ _ _ _ KS I))))) in EC. destruct EC as (c & ST & kem & S & X1 & X2). destruct (hybrid_key _ _ _ _ _ _ _ KS I) as (K & G).
  destruct (good_pair _ _ _ EL G) as (PP & OK & _). pose proof (secrets_agree _ _ _ _ _ _ _ _ _ EL (proj2 G) X1) as X3. pose proof (same_stamp _ _ _ _ ET EI ST) as ST2.
  assert (O : hybrid_opens ec lib l2 C info P) by (exists k2, q, kem, S; do 2 eexists; split; [exact I |]; split; [exact ST2 |]; split; [exact X3 | exact X2]).
  destruct (D2 _ _ _ O) as (P' & ED). pose proof (D1 _ _ _ ED) as O'. split; [exists P'; auto |].
  assert (UN : (forall P', hybrid_opens ec lib l2 C info P' -> P' = P) -> hd_decrypt a2 C info = Ok P) by (intros UN; rewrite ED, (UN P' O'); reflexivity).
  split; [exact UN |]. intros (R & TA). apply UN. intros P2 (k3 & q3 & kem3 & S3 & nonce3 & c3 & I3 & ST3 & Y1 & Y2).
  destruct (TA _ _ I3) as (R3 & T3). destruct (stamped_id _ _ _ _ _ R R3 ST2 ST3) as (EI3 & <-). rewrite (T3 (eq_sym EI3)) in Y1, Y2.
  symmetry. exact (private_plain _ _ _ _ _ _ _ _ _ _ _ _ _ _ _ _ _ EL CL K PP OK X3 X2 Y1 Y2).
Qed.
