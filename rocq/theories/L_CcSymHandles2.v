(** Proofs: AEAD, deterministic AEAD, MAC and PRF of keyset handles. *)
From Coq Require Import Strings.Byte Strings.String List NArith ZArith Bool Lia.
From Verif Require Import M_Base M_Proto M_Wire M_ProtoMsg M_KeyFormats M_Prims M_PrimitiveSet M_Registry M_KeysetHandle M_Wrappers M_StreamTypes M_CcStream M_CcManagers
  M_CcAes M_CcStreamKeys M_CcModes M_CcSymmetric M_CcSymKeys S_Keyset S_Wrappers S_Wire S_Config S_CcLaws S_CcAes S_CcStreamKeys S_CcModes S_CcSymmetric
  S_CcSymKeys S_CcSymHandles L_Base L_Registry L_Wire L_PrimitiveSet L_Keyset L_Wrappers L_Wrappers2 L_Wrappers3 L_Handle L_Config L_Config2 L_Config3 L_Config4 L_Cli3
  L_CcSymKeys L_CcSymKeys2 L_CcSymHandles.
Import ListNotations.
Open Scope string_scope.
Open Scope list_scope.
Open Scope nat_scope.

(** ** Keysets *)
Definition made_by {P} (obj : sym_key -> st_or P) (x : key * sym_key) (y : key * P) : Prop := fst x = fst y /\ obj (snd x) = StOk (snd y).
Lemma sym_cc_keyset : forall P (c : pclass) (lookup managers : pystr -> option (cc_lib_manager P)) is_for (obj : sym_key -> st_or P) pkg,
  (forall d cc, (exists m, managers (kd_type_url d) = Some m /\ cl_get_primitive m d = StOk cc) <->
     (exists k, is_for k = true /\ is_key d k /\ usable k /\ obj k = StOk cc)) ->
  (forall k, usable k -> is_for k = true -> exists cc, obj k = StOk cc) ->
  (forall url m, managers url = Some m -> lookup url = Some m) ->
  ~ In pkg [JwtMac; JwtSignature] -> (forall k, is_for k = true -> In (sk_name k, c, false) (key_types pkg)) ->
  forall ks l, sym_keyset is_for ks l -> exists l', cc_keyset c lookup ks l' /\ Forall2 (made_by obj) l l'.
Proof.
  intros P c lookup managers is_for obj pkg HP HO HL HJ HK ks l (V & E & F).
  assert (G : exists l', Forall2 (made_by obj) l l' /\ Forall (fun kq => cc_key c (k_key_data (fst kq)) /\
    exists m, lookup (kd_type_url (k_key_data (fst kq))) = Some m /\ cl_get_primitive m (k_key_data (fst kq)) = StOk (snd kq)) l').
  { clear V E. induction F as [| (k & sk) l (W & S & K & I & U & _) F IH]; [exists []; split; constructor |].
    destruct IH as (l' & IH1 & IH2). destruct (HO sk U I) as (cc & Ecc). cbn [fst snd] in *.
    exists ((k, cc) :: l'). split; [constructor; [split; [reflexivity | exact Ecc] | exact IH1] |]. constructor; [| exact IH2]. cbn [fst snd].
    split.
    - split; [exact W |]. split; [exact S |]. exists pkg, (sk_name sk), false. split; [exact HJ |]. split; [exact (HK _ I) | exact (proj1 K)].
    - destruct (proj2 (HP (k_key_data k) cc)) as (m & M1 & M2); [exists sk; auto |]. exists m. split; [exact (HL _ _ M1) | exact M2]. }
  destruct G as (l' & G1 & G2). exists l'. split; [| exact G1]. split; [exact V |].
  assert (EM : map fst l' = map fst l).
  { clear - G1. induction G1 as [| x y l l' (H & _) _ IH]; [reflexivity |]. cbn. rewrite H, IH. reflexivity. }
  split; [split; [rewrite EM; exact E | exact G2] |].
  rewrite <- E. apply Forall_forall. intros k Hk. apply in_map_iff in Hk. destruct Hk as (x & <- & Hx).
  rewrite Forall_forall in F. destruct (F _ Hx) as (_ & _ & _ & _ & _ & P'). exact P'.
Qed.
Lemma made_by_l : forall P (obj : sym_key -> st_or P) l l' k sk, Forall2 (made_by obj) l l' -> In (k, sk) l ->
  exists q, In (k, q) l' /\ obj sk = StOk q.
Proof.
  intros P obj l l' k sk H. induction H as [| (k1 & s1) (k2 & q2) l l' (E & O) H IH]; [contradiction |]. cbn [fst snd] in *. subst k2. intros [X | X].
  - injection X as -> ->. exists q2. split; [left; reflexivity | exact O].
  - destruct (IH X) as (q & I & O'). exists q. split; [right; exact I | exact O'].
Qed.
Lemma made_by_r : forall P (obj : sym_key -> st_or P) l l' k q, Forall2 (made_by obj) l l' -> In (k, q) l' ->
  exists sk, In (k, sk) l /\ obj sk = StOk q.
Proof.
  intros P obj l l' k q H. induction H as [| (k1 & s1) (k2 & q2) l l' (E & O) H IH]; [contradiction |]. cbn [fst snd] in *. subst k2. intros [X | X].
  - injection X as -> ->. exists s1. split; [left; reflexivity | exact O].
  - destruct (IH X) as (sk & I & O'). exists sk. split; [right; exact I | exact O'].
Qed.
Lemma keyset_key : forall is_for ks l k sk, sym_keyset is_for ks l -> In (k, sk) l -> usable sk /\ is_for sk = true.
Proof. intros is_for ks l k sk (_ & _ & F) I. rewrite Forall_forall in F. destruct (F _ I) as (_ & _ & _ & A & B & _). split; assumption. Qed.

(** ** Trying the keys *)
Lemma keys_tried : forall P A c (lookup : pystr -> option (cc_lib_manager P)) ks l (f : key -> P -> bytes -> st_or A)
  x y, cc_keyset c lookup ks l -> first_success (attempts l x (fun k q body => of_status (f k q body))) y ->
  tink_total y /\ (forall v, y = Ok v -> exists k q body, In (k, q) l /\ reaches k x body /\ f k q body = StOk v) /\
  (forall k q body v, In (k, q) l -> reaches k x body -> f k q body = StOk v -> exists v', y = Ok v').
Proof.
  intros P A c lookup ks l f x y Hk (z & Hz & Hs). pose proof (cc_prefixes _ _ _ _ _ Hk) as Hpf.
  pose proof (first_ok_total _ _ _ Hz (attempts_total _ _ _ _ _)) as Ht.
  assert (Hy : tink_total y) by (destruct Hs as [<- | [_ (e & -> & He)]]; [exact Ht | exact He]).
  split; [exact Hy |]. split.
  - intros v ->. destruct Hs as [-> | [_ (e & E & _)]]; [| discriminate].
    assert (Hin : In (Ok v) (attempts l x (fun k q body => of_status (f k q body)))).
    { clear - Hz. remember (Ok v) as r. induction Hz; subst; try discriminate.
      - left. congruence.
      - right. auto. }
    apply attempts_in in Hin; [| exact Hpf]. destruct Hin as (k & q & body & Hi & Hr & E).
    exists k, q, body. split; [exact Hi |]. split; [exact Hr |].
    destruct (f k q body) as [v' | s]; [injection E as <-; reflexivity | discriminate].
  - intros k q body v Hi Hr E.
    destruct (first_ok_some _ _ z v Hz (attempts_total _ _ _ _ _)) as (v' & -> & _).
    + apply attempts_in; [exact Hpf |]. exists k, q, body. rewrite E. auto.
    + apply same_outcome_ok in Hs. exists v'. exact Hs.
Qed.
Lemma reaches_stamped : forall k x b, reaches k x b -> stamped k x b.
Proof.
  intros k x b [(R & ->) | (p & Hp & _ & -> & _)].
  - exists []. split; [left; auto | reflexivity].
  - exists p. auto.
Qed.
Lemma stamped_reaches : forall k x b, stamped k x b -> b <> [] -> reaches k x b.
Proof.
  intros k x b (p & Hp & ->) N. destruct (has_prefix_length _ _ _ Hp) as [(R & ->) | (R & L)].
  - left. auto.
  - right. exists p. auto.
Qed.
Lemma stamped_fun : forall k x b b', stamped k x b -> stamped k x b' -> b = b'.
Proof. intros k x b b' (p & Hp & ->) (p' & Hp' & E). rewrite (has_prefix_fun _ _ _ _ Hp Hp') in E. apply app_inv_head in E. exact E. Qed.
Lemma prefixed_stamped : forall k s x, prefixed k s x ->
  tink_total x /\ (forall C, x = Ok C <-> exists c, s = StOk c /\ stamped k C c).
Proof.
  intros k s x (p & Hp & A). destruct s as [c | e]; cbn in A.
  - subst x. split; [exact I |]. intros C. split.
    + intros E. injection E as <-. exists c. split; [reflexivity |]. exists p. auto.
    + intros (c' & E & S). injection E as <-. destruct S as (p' & Hp' & ->). rewrite (has_prefix_fun _ _ _ _ Hp Hp'). reflexivity.
  - destruct A as (e' & -> & T). split; [exact T |]. intros C. split; [discriminate |]. intros (c & E & _). discriminate.
Qed.
Lemma nonempty : forall (x : bytes) n, length x = S n -> x <> [].
Proof. intros x n H ->. discriminate. Qed.
Lemma no_primary_dec : forall P ks (l : list (key * P)), (exists k q, is_primary ks l k q) \/ (forall k q, ~ is_primary ks l k q).
Proof.
  intros P ks l. induction l as [| (k & q) l [(k' & q' & I & E) | IH]].
  - right. intros k q (H & _). exact H.
  - left. exists k', q'. split; [right; exact I | exact E].
  - destruct (N.eq_dec (k_key_id k) (ks_primary_key_id ks)) as [E | E].
    + left. exists k, q. split; [left; reflexivity | exact E].
    + right. intros k' q' ([H | H] & H'); [injection H as -> ->; contradiction | exact (IH _ _ (conj H H'))].
Qed.
Lemma raises_total : forall A (x : result A), raises_tink x -> tink_total x.
Proof. intros A x (e & -> & T). exact T. Qed.

(** ** AEAD *)
Theorem aead_handle_works : forall lib random w env r ks l, sym_world lib random w -> crypto_laws lib -> random_law random ->
  configured w env Aead r -> sym_keyset for_aead ks l ->
  exists a, handle_primitive r (mk_handle ks) ClsAead = Ok (PrimAead a) /\ aead_works lib random ks l a.
Proof.
  intros lib random w env r ks l (_ & HW & _) CL RL HC KS.
  destruct (sym_cc_keyset _ ClsAead (cw_aead w) (aead_managers lib random) for_aead (aead_object lib random) Aead
    (aead_key_primitive lib random) (fun k U => proj1 (usable_keys_work lib random k U)) HW
    ltac:(cbn; intuition discriminate) ltac:(intros []; intros X; try discriminate X; cbn; tauto) ks l KS) as (l' & CK & F2).
  destruct (aead_over_cc_ok w env r ks l' HC CK) as (a & HA & D & E & N). exists a. split; [exact HA |].
  assert (EN : forall k sk, is_primary ks l k sk -> forall rnd P ad, exists q, usable sk /\ for_aead sk = true /\ aead_object lib random sk = StOk q /\
    prefixed k (ca_encrypt q rnd P ad) (aead_encrypt a rnd P ad)).
  { intros k sk (I & PI) rnd P ad. destruct (keyset_key _ _ _ _ _ KS I) as (U & FA). destruct (made_by_l _ _ _ _ _ _ F2 I) as (q & I' & O).
    exists q. do 3 (split; [assumption |]). exact (E k q (conj I' PI) rnd P ad). }
  assert (DE : forall C ad, _) by (intros C ad; exact (keys_tried _ _ _ _ ks l' (fun _ q body => ca_decrypt q body ad) C _ CK (D C ad))).
  split; [| split; [| split; [| split; [| split]]]].
  - intros k sk PR rnd P ad. destruct (EN k sk PR rnd P ad) as (q & U & FA & O & PF). destruct (prefixed_stamped _ _ _ PF) as (_ & PS).
    destruct (aead_object_encrypts lib random sk q CL RL U FA O rnd P ad) as (X & Y). split.
    + intros C. rewrite PS. split; intros (c & A & B); exists c; (split; [exact B || (apply X; exact B) | exact A || (apply X; exact A)]).
    + intros Z. destruct (Y Z) as (c & Ec). destruct PF as (p & Hp & A). rewrite Ec in A. cbn in A. exists (p ++ c). exact A.
  - intros rnd P ad. destruct (no_primary_dec _ ks l) as [(k & sk & PR) | NP].
    + destruct (EN k sk PR rnd P ad) as (q & _ & _ & _ & PF). exact (proj1 (prefixed_stamped _ _ _ PF)).
    + apply raises_total, N. intros k q (I & PI). destruct (made_by_r _ _ _ _ _ _ F2 I) as (sk & I' & _). exact (NP k sk (conj I' PI)).
  - intros C ad P EP. destruct (DE C ad) as (_ & DE1 & _). destruct (DE1 P EP) as (k & q & body & I & R & ED).
    destruct (made_by_r _ _ _ _ _ _ F2 I) as (sk & I' & O). destruct (keyset_key _ _ _ _ _ KS I') as (U & FA).
    apply (aead_object_decrypts lib random sk q CL U FA O) in ED. destruct ED as (nonce & X). exists k, sk, nonce, body.
    split; [exact I' |]. split; [apply reaches_stamped, R | exact X].
  - intros C ad P (k & sk & nonce & c & I & S & X). destruct (keyset_key _ _ _ _ _ KS I) as (U & FA). destruct (made_by_l _ _ _ _ _ _ F2 I) as (q & I' & O).
    destruct (DE C ad) as (_ & _ & DE2). apply (DE2 k q c P I').
    + apply (stamped_reaches _ _ _ S). pose proof (aead_ciphertext_length _ _ _ _ _ _ CL U X) as LX. intros ->.
      assert (0 < overhead sk) by (unfold overhead; destruct sk; try contradiction; cbn [usable nonce_size] in *; try lia; destruct U as (_ & U & _); lia).
      cbn in LX. lia.
    + apply (aead_object_decrypts lib random sk q CL U FA O). exists nonce. exact X.
  - intros C ad. exact (proj1 (DE C ad)).
  - intros NP rnd P ad. apply N. intros k q (I & PI). destruct (made_by_r _ _ _ _ _ _ F2 I) as (sk & I' & _). exact (NP k sk (conj I' PI)).
Qed.

(** ** Deterministic AEAD *)
Theorem daead_handle_works : forall lib random w env r ks l, sym_world lib random w -> crypto_laws lib ->
  configured w env Daead r -> sym_keyset for_daead ks l ->
  exists a, handle_primitive r (mk_handle ks) ClsDaead = Ok (PrimDaead a) /\ daead_works lib ks l a.
Proof.
  intros lib random w env r ks l (_ & _ & HW & _) CL HC KS.
  destruct (sym_cc_keyset _ ClsDaead (cw_daead w) (daead_managers lib random) for_daead (daead_object lib) Daead
    (daead_key_primitive lib random) (fun k U => proj1 (proj2 (usable_keys_work lib random k U))) HW
    ltac:(cbn; intuition discriminate) ltac:(intros []; intros X; try discriminate X; cbn; tauto) ks l KS) as (l' & CK & F2).
  destruct (daead_over_cc_ok w env r ks l' HC CK) as (a & HA & D & E & N). exists a. split; [exact HA |].
  assert (EN : forall k sk, is_primary ks l k sk -> forall P ad, exists q, usable sk /\ for_daead sk = true /\ daead_object lib sk = StOk q /\
    prefixed k (cda_encrypt q P ad) (daead_encrypt a P ad)).
  { intros k sk (I & PI) P ad. destruct (keyset_key _ _ _ _ _ KS I) as (U & FA). destruct (made_by_l _ _ _ _ _ _ F2 I) as (q & I' & O).
    exists q. do 3 (split; [assumption |]). exact (E k q (conj I' PI) P ad). }
  assert (DE : forall C ad, _) by (intros C ad; exact (keys_tried _ _ _ _ ks l' (fun _ q body => cda_decrypt q body ad) C _ CK (D C ad))).
  split; [| split; [| split; [| split; [| split]]]].
  - intros k sk PR P ad. destruct (EN k sk PR P ad) as (q & U & FA & O & PF). destruct (prefixed_stamped _ _ _ PF) as (_ & PS).
    destruct (daead_object_encrypts lib sk q CL FA O P ad) as (X & c & Ec). split.
    + intros C. rewrite PS. split; intros (c' & A & B); exists c'; (split; [exact B || (apply X; exact B) | exact A || (apply X; exact A)]).
    + destruct PF as (p & Hp & A). rewrite Ec in A. cbn in A. exists (p ++ c). exact A.
  - intros P ad. destruct (no_primary_dec _ ks l) as [(k & sk & PR) | NP].
    + destruct (EN k sk PR P ad) as (q & _ & _ & _ & PF). exact (proj1 (prefixed_stamped _ _ _ PF)).
    + apply raises_total, N. intros k q (I & PI). destruct (made_by_r _ _ _ _ _ _ F2 I) as (sk & I' & _). exact (NP k sk (conj I' PI)).
  - intros C ad P EP. destruct (DE C ad) as (_ & DE1 & _). destruct (DE1 P EP) as (k & q & body & I & R & ED).
    destruct (made_by_r _ _ _ _ _ _ F2 I) as (sk & I' & O). destruct (keyset_key _ _ _ _ _ KS I') as (U & FA).
    apply (daead_object_decrypts lib sk q CL FA O) in ED. exists k, sk, body.
    split; [exact I' |]. split; [apply reaches_stamped, R | exact ED].
  - intros C ad P (k & sk & c & I & S & X). destruct (keyset_key _ _ _ _ _ KS I) as (U & FA). destruct (made_by_l _ _ _ _ _ _ F2 I) as (q & I' & O).
    destruct (DE C ad) as (_ & _ & DE2). apply (DE2 k q c P I').
    + apply (stamped_reaches _ _ _ S). pose proof (daead_ciphertext_length _ _ _ _ _ CL U X) as LX. intros ->. cbn in LX. lia.
    + apply (daead_object_decrypts lib sk q CL FA O). exact X.
  - intros C ad. exact (proj1 (DE C ad)).
  - intros NP P ad. apply N. intros k q (I & PI). destruct (made_by_r _ _ _ _ _ _ F2 I) as (sk & I' & _). exact (NP k sk (conj I' PI)).
Qed.

(** ** MAC *)
Theorem mac_handle_works : forall lib random w env r ks l, sym_world lib random w -> crypto_laws lib ->
  configured w env Mac r -> sym_keyset for_mac ks l ->
  exists a, handle_primitive r (mk_handle ks) ClsMac = Ok (PrimMac a) /\ mac_works lib ks l a.
Proof.
  intros lib random w env r ks l (_ & _ & _ & HW & _) CL HC KS.
  destruct (sym_cc_keyset _ ClsMac (cw_mac w) (mac_managers lib random) for_mac (mac_object lib) Mac
    (mac_key_primitive lib random) (fun k U => proj1 (proj2 (proj2 (usable_keys_work lib random k U)))) HW
    ltac:(cbn; intuition discriminate) ltac:(intros []; intros X; try discriminate X; cbn; tauto) ks l KS) as (l' & CK & F2).
  destruct (mac_over_cc_ok w env r ks l' HC CK) as (a & HA & SH & D & E & N). exists a. split; [exact HA |].
  assert (EN : forall k sk, is_primary ks l k sk -> forall data, exists q, usable sk /\ for_mac sk = true /\ mac_object lib sk = StOk q /\
    prefixed k (cm_compute q (legacy_data k data)) (mac_compute a data)).
  { intros k sk (I & PI) data. destruct (keyset_key _ _ _ _ _ KS I) as (U & FA). destruct (made_by_l _ _ _ _ _ _ F2 I) as (q & I' & O).
    exists q. do 3 (split; [assumption |]). exact (E k q (conj I' PI) data). }
  assert (DE : forall T data, (5 < length T)%nat -> _)
    by (intros T data L; exact (keys_tried _ _ _ _ ks l' (fun k q body => cm_verify q body (legacy_data k data)) T _ CK (D T data L))).
  split; [| split; [| split; [| split]]].
  - intros k sk PR data. destruct (EN k sk PR data) as (q & U & FA & O & PF). destruct (prefixed_stamped _ _ _ PF) as (_ & PS).
    destruct (mac_object_works lib sk q CL U FA O (legacy_data k data)) as (X & (t & Et) & _). split.
    + intros T. rewrite PS. split; intros (t' & A & B); exists t'; (split; [exact B || (apply X; exact B) | exact A || (apply X; exact A)]).
    + destruct PF as (p & Hp & A). rewrite Et in A. cbn in A. exists (p ++ t). exact A.
  - intros data. destruct (no_primary_dec _ ks l) as [(k & sk & PR) | NP].
    + destruct (EN k sk PR data) as (q & _ & _ & _ & PF). exact (proj1 (prefixed_stamped _ _ _ PF)).
    + apply raises_total, N. intros k q (I & PI). destruct (made_by_r _ _ _ _ _ _ F2 I) as (sk & I' & _). exact (NP k sk (conj I' PI)).
  - intros T data. split.
    + intros EV. assert (L : 5 < length T).
      { destruct (Nat.le_gt_cases (length T) 5) as [L | L]; [| exact L]. destruct (SH T data L) as (e & X & _). congruence. }
      destruct (DE T data L) as (_ & DE1 & _). destruct (DE1 tt EV) as (k & q & body & I & R & ED).
      destruct (made_by_r _ _ _ _ _ _ F2 I) as (sk & I' & O). destruct (keyset_key _ _ _ _ _ KS I') as (U & FA).
      destruct (mac_object_works lib sk q CL U FA O (legacy_data k data)) as (_ & _ & V & _). exists k, sk, body.
      split; [exact I' |]. split; [apply reaches_stamped, R | apply V, ED].
    + intros (k & sk & t & I & S & X). destruct (keyset_key _ _ _ _ _ KS I) as (U & FA). destruct (made_by_l _ _ _ _ _ _ F2 I) as (q & I' & O).
      destruct (mac_object_works lib sk q CL U FA O (legacy_data k data)) as (_ & _ & V & LT). pose proof (LT t X) as LX.
      assert (L : 5 < length T) by (destruct S as (p & _ & ->); rewrite app_length; lia).
      destruct (DE T data L) as (_ & _ & DE2). destruct (DE2 k q t tt I') as ([] & EV); [| apply V, X | exact EV].
      apply (stamped_reaches _ _ _ S). intros ->. cbn in LX. lia.
  - intros T data. destruct (Nat.le_gt_cases (length T) 5) as [L | L]; [apply raises_total, SH, L | exact (proj1 (DE T data L))].
  - intros NP data. apply N. intros k q (I & PI). destruct (made_by_r _ _ _ _ _ _ F2 I) as (sk & I' & _). exact (NP k sk (conj I' PI)).
Qed.

(** ** PRF *)
Lemma prf_set_exists : forall reg ks l, dict_get pclass_eqb ClsPrfSet (r_wrappers reg) = Some prf_set_wrapper -> valid_keyset ks ->
  keys_with PrimPrf reg ClsPrf ks l -> Forall (fun kp => k_output_prefix_type (fst kp) = RAW) l ->
  exists Q, handle_primitive reg (mk_handle ks) ClsPrfSet = Ok Q.
Proof.
  intros reg ks l Hw V (E & F) R.
  set (ps := pset_for ClsPrf (ks_primary_key_id ks) (map (lift PrimPrf) l)).
  exists (PrimPrfSet (wrapped_prf_primary_id ps) (wrapped_prf_all ps) (wrapped_prf_primary ps)).
  apply (handle_primitive_ok _ _ _ _ _ Hw). split; [exact V |]. cbn [w_input_primitive_class prf_set_wrapper w_wrap kh_keyset].
  exists (map (lift PrimPrf) l). rewrite map_fst_lift. split; [exact E |]. split.
  - rewrite Forall_forall in *. intros kp Hi. apply in_map_iff in Hi. destruct Hi as (kp' & <- & Hi). split; [| split].
    + apply F. exact Hi.
    + reflexivity.
    + exists []. left. split; [exact (R _ Hi) | reflexivity].
  - fold ps. assert (validate_primitive_set ps = Ok tt) as ->.
    { apply validate_primitive_set_ok. rewrite Forall_map. exact R. }
    reflexivity.
Qed.
Lemma last_with_id_paired : forall P Q (R : P -> Q -> Prop) id (l : list (key * P)) (l' : list (key * Q)),
  Forall2 (fun x y => fst x = fst y /\ R (snd x) (snd y)) l l' ->
  match last_with_id id l, last_with_id id l' with Some p, Some q => R p q | None, None => True | _, _ => False end.
Proof.
  intros P Q R id l l' H. unfold last_with_id.
  assert (G : forall a b, match a, b with Some p, Some q => R p q | None, None => True | _, _ => False end ->
    match fold_left (fun acc kp => if N.eqb (k_key_id (fst kp)) id then Some (snd kp) else acc) l a,
          fold_left (fun acc kp => if N.eqb (k_key_id (fst kp)) id then Some (snd kp) else acc) l' b
    with Some p, Some q => R p q | None, None => True | _, _ => False end).
  { induction H as [| (k & p) (k' & q) l l' (E & X) H IH]; intros a b AB; [exact AB |]. cbn [fold_left fst snd] in *. subst k'. apply IH.
    destruct (N.eqb (k_key_id k) id); [exact X | exact AB]. }
  exact (G None None I).
Qed.
Lemma Forall2_trans' : forall A B C (R : A -> B -> Prop) (S : B -> C -> Prop) (T : A -> C -> Prop) l m n,
  (forall a b c, In a l -> R a b -> S b c -> T a c) -> Forall2 R l m -> Forall2 S m n -> Forall2 T l n.
Proof.
  intros A B C R S T l m n H F. revert n H. induction F as [| a b l m X F IH]; intros n H G; inversion G as [| ? c ? n' Y G']; subst; constructor.
  - apply (H a b c); [left; reflexivity | exact X | exact Y].
  - apply IH; [| exact G']. intros a' b' c' I. apply H. right. exact I.
Qed.
Theorem prf_handle_works : forall lib random w env r ks l, sym_world lib random w -> crypto_laws lib ->
  configured w env Prf r -> sym_keyset for_prf ks l -> Forall (fun x => k_output_prefix_type (fst x) = RAW) l ->
  exists pid all prim0, handle_primitive r (mk_handle ks) ClsPrfSet = Ok (PrimPrfSet pid all prim0) /\ prf_set_works lib ks l pid all prim0.
Proof.
  intros lib random w env r ks l (_ & _ & _ & _ & HW) CL HC KS RAWS.
  destruct (sym_cc_keyset _ ClsPrf (cw_prf w) (prf_managers lib random) for_prf (prf_object lib) Prf
    (prf_key_primitive lib random) (fun k U => proj2 (proj2 (proj2 (usable_keys_work lib random k U)))) HW
    ltac:(cbn; intuition discriminate) ltac:(intros []; intros X; try discriminate X; cbn; tauto) ks l KS) as (l' & CK & F2).
  destruct CK as (V & CK & PF).
  assert (Hw : dict_get pclass_eqb ClsPrfSet (r_wrappers r) = Some prf_set_wrapper)
    by (apply (configured_wrapper _ _ _ _ _ _ HC); [cbn; tauto | reflexivity]).
  destruct (lift_keys w env Prf r HC ClsPrf (cw_prf w) PrimPrf
    (fun q a => forall x n, (n < 2 ^ 64)%N -> answers (prf_compute a x (Z.of_N n)) (cp_compute q x n))
    ltac:(one_package) ltac:(cbn; intuition discriminate) (fun d x H => H) ks l' CK) as (l2 & Hkw & H2).
  assert (T : Forall2 (fun x y => fst x = fst y /\ prf_works lib (snd x) (snd y)) l l2).
  { refine (Forall2_trans' _ _ _ _ _ _ _ _ _ _ F2 H2). intros (k & sk) (k' & q) (k2 & f) I (E1 & O) (E2 & A). cbn [fst snd] in *. subst k' k2.
    split; [reflexivity |]. destruct (keyset_key _ _ _ _ _ KS I) as (U & FA). intros x n Hn.
    destruct (prf_object_works lib sk q CL U FA O x n Hn) as (X & Y).
    assert (H64 : (n < 2 ^ 64)%N) by (apply (N.lt_trans _ _ _ Hn); reflexivity). specialize (A x n H64).
    assert (Z : forall y, prf_compute f x (Z.of_N n) = Ok y <-> cp_compute q x n = StOk y).
    { intros y. destruct (cp_compute q x n) as [y' | e]; cbn in A.
      - rewrite A. split; intros J; injection J as ->; reflexivity.
      - destruct A as (e' & -> & _). split; discriminate. }
    split; [intros y; rewrite Z; apply X |]. split; [rewrite <- Y; split; intros (y & J); exists y; apply Z, J |].
    destruct (cp_compute q x n); cbn in A; [rewrite A; exact I0 || exact Logic.I | apply raises_total, A]. }
  assert (R2 : Forall (fun kp => k_output_prefix_type (fst kp) = RAW) l2).
  { clear - T RAWS. induction T as [| x y l l2 (E & _) T IH]; [constructor |]. inversion RAWS as [| ? ? R1 R2]; subst. constructor; [rewrite <- E; exact R1 | exact (IH R2)]. }
  destruct (prf_set_exists r ks l2 Hw V Hkw R2) as (Q & HQ).
  assert (QE : exists pid all prim0, Q = PrimPrfSet pid all prim0).
  { destruct (handle_kind _ _ _ _ _ Hw HQ) as (ps & Hps). cbn [w_wrap prf_set_wrapper] in Hps. apply bind_ok in Hps. destruct Hps as (u & _ & Hps).
    injection Hps as <-. eauto. }
  destruct QE as (pid & all & prim0 & ->). exists pid, all, prim0. split; [exact HQ |].
  destruct (prf_set_handle_spec _ _ _ _ _ Hw HQ) as (l3 & Hkw3 & _ & _ & HG & HP & HN). cbn [kh_keyset] in *.
  assert (l3 = l2) by (refine (keys_with_fun _ _ _ _ _ _ _ _ Hkw3 Hkw); congruence). subst l3.
  split; [| split; [| split]].
  - intros id. rewrite HG. pose proof (last_with_id_paired _ _ _ id l l2 T) as LP.
    destruct (last_with_id id l), (last_with_id id l2); try contradiction; cbn; split; congruence.
  - intros id sk E. pose proof (last_with_id_paired _ _ _ id l l2 T) as LP. rewrite E in LP. rewrite HG.
    destruct (last_with_id id l2) as [f |]; [| contradiction]. exists f. split; [reflexivity | exact LP].
  - intros k sk (I & PI). destruct (Forall2_in_l _ _ _ _ _ _ T I) as ((k' & f) & I' & E & W). cbn [fst snd] in *. subst k'.
    destruct (HP k f (conj I' PI)) as (X & Y). split; [rewrite PI; exact X |]. exists f. auto.
  - intros NP. apply HN. intros k f (I & PI). destruct (Forall2_in_r _ _ _ _ _ _ T I) as ((k' & sk) & I' & E & _). cbn [fst snd] in *. subst k'.
    exact (NP k sk (conj I' PI)).
Qed.
