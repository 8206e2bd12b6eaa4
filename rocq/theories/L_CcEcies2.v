(** The data encapsulation of ECIES. *)
From Coq Require Import Strings.Byte Strings.String List NArith ZArith Bool Lia.
From Verif Require Import M_Base L_Base M_Proto M_Utf8 M_Wire L_Wire S_Wire M_ProtoMsg S_ProtoMsg L_ProtoMsg M_KeyFormats M_Prims M_StreamTypes M_CcStream M_CcManagers M_CcAes
  M_CcStreamKeys M_CcModes M_CcSymmetric M_CcSymKeys M_CcEcies S_Config S_CcAes S_CcStreamKeys S_CcModes S_CcSymmetric S_CcSymKeys S_CcSymHandles
  S_CcEcies L_CcStreamKeys L_CcModes L_CcModes4 L_CcSymmetric L_CcSymmetric2 L_CcSymKeys L_CcSymHandles L_CcEcies.
Import ListNotations.
Open Scope string_scope.
Open Scope list_scope.
Open Scope nat_scope.

(** What the helper remembers of a key format *)
Definition describes (dk : dem_key_params) (t : sym_key) : Prop :=
  match t with
  | GcmKey key => dk = mk_dem_key_params AES_GCM_KEY (Z.of_nat (length key)) 0 0 0 0
  | SivKey key => dk = mk_dem_key_params AES_SIV_KEY (Z.of_nat (length key)) 0 0 0 0
  | XChaChaKey _ => dk = mk_dem_key_params XCHACHA20_POLY1305_KEY 32 0 0 0 0
  | CtrHmacAeadKey k =>
      exists z, hash_number (hmac_hash k) z /\
      dk = mk_dem_key_params AES_CTR_HMAC_AEAD_KEY (uint32 (Z.of_nat (length (aes_key k)) + Z.of_nat (length (hmac_key k))))
             (Z.of_nat (length (aes_key k))) (Z.of_nat (iv_size k)) z (Z.of_nat (hmac_tag_size k))
  | _ => False
  end.
Lemma dem_described : forall url x t, dem_kind t = true -> asks_for_key url x t -> exists dk, get_key_params url x = StOk dk /\ describes dk t.
Proof.
  intros url x t D (-> & m & P & A). unfold get_key_params.
  destruct t as [| key | | key | k | key | | | | |]; try discriminate D; cbn [sk_name sk_format format_attributes] in *; rewrite P; attrs.
  - match goal with |- context [if ?b then _ else _] => replace b with true by (vm_compute; reflexivity) end.
    eexists. split; [reflexivity |]. cbn [describes]. congruence.
  - do 2 match goal with |- context [if str_eqb ?a ?b then _ else _] => replace (str_eqb a b) with false by (vm_compute; reflexivity) end.
    match goal with |- context [if ?b then _ else _] => replace b with true by (vm_compute; reflexivity) end.
    eexists. split; [reflexivity | reflexivity].
  - match goal with |- context [if str_eqb ?a ?b then _ else _] => replace (str_eqb a b) with false by (vm_compute; reflexivity) end.
    match goal with |- context [if ?b then _ else _] => replace b with true by (vm_compute; reflexivity) end.
    eexists. split; [reflexivity |]. cbn [describes]. eexists. split; [eassumption |]. congruence.
  - do 3 match goal with |- context [if str_eqb ?a ?b then _ else _] => replace (str_eqb a b) with false by (vm_compute; reflexivity) end.
    match goal with |- context [if ?b then _ else _] => replace b with true by (vm_compute; reflexivity) end.
    eexists. split; [reflexivity |]. cbn [describes]. congruence.
Qed.
Definition dem_object (lib : crypto) (random : coins -> Z -> bytes) (k : sym_key) : st_or aead_or_daead :=
  match k with
  | SivKey _ => bind_st (daead_object lib k) (fun p => StOk (inr p))
  | _ => bind_st (aead_object lib random k) (fun p => StOk (inl p))
  end.
Lemma hash_number_subtle : forall h z, hash_number h z -> proto_to_subtle z = h.
Proof. intros h z H. cbn in H. repeat (destruct H as [H | H]; [injection H as <- <-; reflexivity |]). contradiction. Qed.
Lemma dem_size_material : forall t, dem_kind t = true -> dem_size t =
  match t with GcmKey key | XChaChaKey key | SivKey key => length key | CtrHmacAeadKey k => length (aes_key k) + length (hmac_key k) | _ => 0 end.
Proof. intros t D. unfold dem_size. destruct t; try discriminate D; cbn [material concat]; rewrite ?app_nil_r, ?app_length; reflexivity. Qed.
Lemma described_size : forall dk t, dem_kind t = true -> usable t -> describes dk t -> (Z.of_nat (dem_size t) < 2 ^ 32)%Z -> dk_size dk = Z.of_nat (dem_size t).
Proof.
  intros dk t D U E S. rewrite (dem_size_material t D) in *. destruct t as [| key | | key | k | key | | | | |]; try discriminate D; cbn [describes usable] in *.
  - subst dk. reflexivity.
  - subst dk. cbn [dk_size]. lia.
  - destruct E as (z & _ & ->). cbn [dk_size]. unfold uint32. change (2 ^ 32)%Z with 4294967296%Z in S. rewrite Z.mod_small by lia. lia.
  - subst dk. reflexivity.
Qed.
Lemma dem_made : forall lib random dk t K, describes dk t -> usable t -> dem_kind t = true -> length K = dem_size t -> (Z.of_nat (dem_size t) < 2 ^ 32)%Z ->
  get_aead_or_daead lib random dk K = Some (dem_object lib random (dem_key t K)).
Proof.
  intros lib random dk t K E U D LK S. pose proof (described_size dk t D U E S) as SZ. unfold get_aead_or_daead. rewrite LK, SZ, Z.eqb_refl. cbn [negb].
  rewrite (dem_size_material t D) in *. destruct t as [| key | | key | k | key | | | | |]; try discriminate D; cbn [describes] in E.
  - subst dk. reflexivity.
  - subst dk. reflexivity.
  - destruct E as (z & HN & ->). cbn [dk_type dk_aes_ctr_key_size dk_size dk_aes_ctr_key_iv_size dk_hmac_key_hash dk_hmac_key_tag_size].
    destruct (Z.ltb_spec (Z.of_nat (length (aes_key k) + length (hmac_key k))) (Z.of_nat (length (aes_key k)))); [lia |].
    cbn [dem_object dem_key aead_object]. do 2 f_equal. unfold ctr_hmac_new. cbn [aes_key iv_size hmac_hash hmac_tag_size hmac_key].
    cbn [aes_ctr_hmac_aead_key_manager kt_create]. cbv zeta. rewrite !Nat2Z.id.
    rewrite <- (hash_number_subtle _ _ HN). cbn. rewrite !Nat2Z.id. reflexivity.
  - subst dk. reflexivity.
Qed.
Lemma dem_key_usable : forall t K, dem_kind t = true -> length K = dem_size t -> (usable (dem_key t K) <-> usable t).
Proof.
  intros t K D LK. rewrite (dem_size_material t D) in LK. destruct t as [| key | | key | k | key | | | | |]; try discriminate D; cbn [dem_key usable]; try (rewrite LK; reflexivity).
  unfold ctr_hmac_key_ok. cbn [aes_key iv_size hmac_hash hmac_tag_size hmac_key]. rewrite firstn_length_le by lia. rewrite skipn_length, LK.
  replace (length (aes_key k) + length (hmac_key k) - length (aes_key k)) with (length (hmac_key k)) by lia. reflexivity.
Qed.
Lemma dem_key_kind : forall t K, dem_kind t = true -> dem_kind (dem_key t K) = true.
Proof. intros t K D. destruct t; try discriminate D; reflexivity. Qed.
Lemma dem_object_made : forall lib random k, dem_kind k = true -> ((exists p, dem_object lib random k = StOk p) <-> usable k).
Proof.
  intros lib random k D.
  assert (B : forall (A B : Type) (a : st_or A) (f : A -> B), (exists p, bind_st a (fun p => StOk (f p)) = StOk p) <-> exists p, a = StOk p).
  { intros A B a f. destruct a; split; intros (p & H); try discriminate H; eexists; reflexivity. }
  destruct k as [| key | | key | k | key | | | | |]; try discriminate D; cbn [dem_object aead_object daead_object usable]; rewrite B.
  - apply one_shot_made.
  - rewrite one_shot_made. cbn. split; [intros [H | []]; congruence | intros ->; auto].
  - apply ctr_hmac_made.
  - apply aes_siv_made.
Qed.
(** The nonce of AES-SIV does not matter. *)
Lemma dem_encrypts : forall lib random k p, crypto_laws lib -> random_law random -> usable k -> dem_kind k = true -> dem_object lib random k = StOk p ->
  forall rnd P, (forall C, aod_encrypt p rnd P [] = StOk C <-> dem_ciphertext lib k (random rnd (Z.of_nat (nonce_size k))) P C) /\
    (dem_admits k P -> exists C, aod_encrypt p rnd P [] = StOk C).
Proof.
  intros lib random k p CL RL U D O rnd P.
  assert (A : for_aead k = true -> (match k with SivKey _ => False | _ => True end) -> (forall C, aod_encrypt p rnd P [] = StOk C <-> dem_ciphertext lib k (random rnd (Z.of_nat (nonce_size k))) P C) /\
    (dem_admits k P -> exists C, aod_encrypt p rnd P [] = StOk C)).
  { intros F NS. assert (O' : bind_st (aead_object lib random k) (fun p => StOk (inl p)) = StOk p) by (destruct k; try contradiction; exact O).
    destruct (aead_object lib random k) as [a | s] eqn:E; [| discriminate O']. injection O' as <-. cbn [aod_encrypt].
    destruct (aead_object_encrypts lib random k a CL RL U F E rnd P []) as (X & Y).
    destruct k; try contradiction; try discriminate F; split; assumption. }
  destruct k as [| key | | key | k | key | | | | |]; try discriminate D; try (apply A; [reflexivity | exact Logic.I]).
  cbn [dem_object] in O. destruct (daead_object lib (SivKey key)) as [a | s] eqn:E; [| discriminate O]. injection O as <-. cbn [aod_encrypt dem_ciphertext dem_admits].
  destruct (daead_object_encrypts lib (SivKey key) a CL eq_refl E P []) as (X & Y). split; [exact X | intros _; exact Y].
Qed.
Lemma dem_decrypts : forall lib random k p, crypto_laws lib -> usable k -> dem_kind k = true -> dem_object lib random k = StOk p ->
  forall C P, aod_decrypt p C [] = StOk P <-> exists nonce, dem_ciphertext lib k nonce P C.
Proof.
  intros lib random k p CL U D O C P.
  assert (A : for_aead k = true -> (match k with SivKey _ => False | _ => True end) -> aod_decrypt p C [] = StOk P <-> exists nonce, dem_ciphertext lib k nonce P C).
  { intros F NS. assert (O' : bind_st (aead_object lib random k) (fun p => StOk (inl p)) = StOk p) by (destruct k; try contradiction; exact O).
    destruct (aead_object lib random k) as [a | s] eqn:E; [| discriminate O']. injection O' as <-. cbn [aod_decrypt].
    rewrite (aead_object_decrypts lib random k a CL U F E C [] P). destruct k; try contradiction; try discriminate F; reflexivity. }
  destruct k as [| key | | key | k | key | | | | |]; try discriminate D; try (apply A; [reflexivity | exact Logic.I]).
  cbn [dem_object] in O. destruct (daead_object lib (SivKey key)) as [a | s] eqn:E; [| discriminate O]. injection O as <-. cbn [aod_decrypt dem_ciphertext].
  rewrite (daead_object_decrypts lib (SivKey key) a CL eq_refl E C [] P). split; [intros X; exists []; exact X | intros (_ & X); exact X].
Qed.
(** What a helper that has made an object was made from *)
Lemma dem_read : forall lib random url x dk K p, get_key_params url x = StOk dk -> get_aead_or_daead lib random dk K = Some (StOk p) ->
  exists t, dem_kind t = true /\ asks_for_key url x t /\ usable t /\ describes dk t /\ dem_size t = length K /\ dk_size dk = Z.of_nat (dem_size t) /\ t = dem_key t K.
Proof.
  intros lib random url x dk K p G H. unfold get_key_params in G. unfold get_aead_or_daead in H.
  destruct (Z.eqb_spec (Z.of_nat (length K)) (dk_size dk)) as [SZ |]; [cbn [negb] in H | discriminate H].
  destruct (str_eqb url _) eqn:E1 in G; [| clear E1; destruct (str_eqb url _) eqn:E2 in G; [| clear E2; destruct (str_eqb url _) eqn:E3 in G; [| clear E3; destruct (str_eqb url _) eqn:E4 in G; [| discriminate G]]]].
  - apply str_eqb_spec in E1. destruct (parse_message AesGcmKeyFormat x) as [m |] eqn:P; [| discriminate G]. injection G as <-. cbn [dk_type dk_size] in *.
    pose proof (parse_holds _ _ _ P) as HM. destruct (read_number AesGcmKeyFormat m ["key_size"] HM eq_refl) as (z & Z1 & _). rewrite (num_at_number _ _ _ _ Z1) in *.
    destruct (aes_gcm_new lib random K) as [a |] eqn:M; [| discriminate H].
    exists (GcmKey K). assert (U : usable (GcmKey K)) by (cbn [usable]; apply (one_shot_made lib random AesGcm); exists a; exact M).
    split; [reflexivity |]. split; [split; [exact E1 |]; exists m; split; [exact P |]; constructor; [| constructor]; unfold has, size_of; cbn [fst snd]; rewrite SZ; exact Z1 |].
    split; [exact U |]. split; [cbn [describes]; rewrite SZ; reflexivity |]. rewrite dem_size_material by reflexivity. split; [reflexivity |]. split; [symmetry; exact SZ | reflexivity].
  - apply str_eqb_spec in E2. destruct (parse_message AesCtrHmacAeadKeyFormat x) as [m |] eqn:P; [| discriminate G]. injection G as <-. cbn [dk_type dk_size dk_aes_ctr_key_size dk_aes_ctr_key_iv_size dk_hmac_key_hash dk_hmac_key_tag_size] in *.
    pose proof (parse_holds _ _ _ P) as HM.
    destruct (read_number AesCtrHmacAeadKeyFormat m ["aes_ctr_key_format"; "key_size"] HM eq_refl) as (a & A1 & A2).
    destruct (read_number AesCtrHmacAeadKeyFormat m ["hmac_key_format"; "key_size"] HM eq_refl) as (b & B1 & B2).
    destruct (read_number AesCtrHmacAeadKeyFormat m ["aes_ctr_key_format"; "params"; "iv_size"] HM eq_refl) as (iv & I1 & I2).
    destruct (read_number AesCtrHmacAeadKeyFormat m ["hmac_key_format"; "params"; "tag_size"] HM eq_refl) as (ts & T1 & T2).
    destruct (read_enum AesCtrHmacAeadKeyFormat m ["hmac_key_format"; "params"; "hash"] HM eq_refl) as (h & H1).
    rewrite (num_at_number _ _ _ _ A1), (num_at_number _ _ _ _ B1), (num_at_number _ _ _ _ I1), (num_at_number _ _ _ _ T1), (num_at_number _ _ _ _ H1) in *.
    unfold u32 in *.
    assert (SUM : (uint32 (a + b) = a + b \/ uint32 (a + b) = a + b - 4294967296)%Z).
    { unfold uint32. destruct (Z_lt_le_dec (a + b) 4294967296); [left; apply Z.mod_small; lia | right]. symmetry. apply (Z.mod_unique _ _ 1); lia. }
    destruct (Z.ltb_spec (uint32 (a + b)) a) as [| W]; [discriminate H |].
    assert (SUM' : uint32 (a + b) = (a + b)%Z) by (destruct SUM; lia). clear SUM.
    remember (kt_create _ _) as o eqn:O in H. destruct o as [o |]; [| discriminate H]. clear H.
    set (k := mk_ctr_hmac_key (firstn (Z.to_nat a) K) (Z.to_nat iv) (skipn (Z.to_nat a) K) (proto_to_subtle h) (Z.to_nat ts)).
    assert (U : ctr_hmac_key_ok k).
    { apply (ctr_hmac_made lib random). exists o. rewrite O. reflexivity. }
    assert (HN : hash_number (proto_to_subtle h) h).
    { destruct U as (_ & _ & _ & U). unfold k in U. cbn [hmac_tag_size hmac_hash] in U.
      destruct h as [| q | q]; [cbn in U; lia | | cbn in U; lia]. do 3 try (destruct q as [q | q |]; try (cbn in U; lia)); cbn; tauto. }
    assert (LA : Z.of_nat (length (firstn (Z.to_nat a) K)) = a) by (rewrite firstn_length_le; lia).
    assert (LB : Z.of_nat (length (skipn (Z.to_nat a) K)) = b) by (rewrite skipn_length; lia).
    exists (CtrHmacAeadKey k). split; [reflexivity |].
    split; [split; [exact E2 |]; exists m; split; [exact P |]; cbn [format_attributes sk_format]; repeat apply Forall_cons; [.. | constructor]; unfold has, size_of, count; cbn [fst snd k aes_key hmac_key hmac_hash iv_size hmac_tag_size]; rewrite ?LA, ?LB, ?Z2Nat.id by lia; try assumption; exists h; split; assumption |].
    split; [exact U |].
    split; [cbn [describes]; exists h; unfold k; cbn [aes_key hmac_key hmac_hash iv_size hmac_tag_size]; rewrite LA, LB, ?Z2Nat.id by lia; split; [exact HN | reflexivity] |].
    rewrite dem_size_material by reflexivity. unfold k. cbn [aes_key hmac_key].
    split; [lia |]. split; [lia |]. cbn [dem_key aes_key hmac_key iv_size hmac_hash hmac_tag_size]. do 2 f_equal; [f_equal; lia | f_equal; lia].
  - apply str_eqb_spec in E3. destruct (parse_message XChaCha20Poly1305KeyFormat x) as [m |] eqn:P; [| discriminate G]. injection G as <-. cbn [dk_type dk_size] in *.
    exists (XChaChaKey K). split; [reflexivity |]. split; [split; [exact E3 |]; exists m; split; [exact P | constructor] |].
    split; [cbn [usable]; lia |]. split; [reflexivity |]. rewrite dem_size_material by reflexivity. split; [reflexivity |]. split; [lia | reflexivity].
  - apply str_eqb_spec in E4. destruct (parse_message AesSivKeyFormat x) as [m |] eqn:P; [| discriminate G]. injection G as <-. cbn [dk_type dk_size] in *.
    pose proof (parse_holds _ _ _ P) as HM. destruct (read_number AesSivKeyFormat m ["key_size"] HM eq_refl) as (z & Z1 & _). rewrite (num_at_number _ _ _ _ Z1) in *.
    destruct (aes_siv_new (aes_encrypt lib) K) as [a |] eqn:M; [| discriminate H].
    exists (SivKey K). assert (U : usable (SivKey K)) by (cbn [usable]; apply (aes_siv_made (aes_encrypt lib)); exists a; exact M).
    split; [reflexivity |]. split; [split; [exact E4 |]; exists m; split; [exact P |]; constructor; [| constructor]; unfold has, size_of; cbn [fst snd]; rewrite SZ; exact Z1 |].
    split; [exact U |]. split; [cbn [describes]; rewrite SZ; reflexivity |]. rewrite dem_size_material by reflexivity. split; [reflexivity |]. split; [symmetry; exact SZ | reflexivity].
Qed.
