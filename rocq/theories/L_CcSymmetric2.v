(** MACs and PRFs. *)
From Coq Require Import Strings.Byte Strings.String List NArith ZArith Bool Lia.
From Verif Require Import M_Base M_Prims M_StreamTypes M_CcStream M_CcManagers M_CcAes M_CcModes M_CcSymmetric
  S_CcAes S_CcModes S_CcSymmetric L_Base L_CcModes L_CcModes2 L_CcModes3 L_CcModes4 L_CcSymmetric.
Import ListNotations.
Open Scope string_scope.
Open Scope list_scope.
Open Scope nat_scope.

(** ** MACs *)
Theorem hmac_made : forall lib h ts key,
  (exists m, hmac_new lib h ts key = StOk m) <-> h <> UNKNOWN_HASH /\ (ts <= hash_size h)%nat /\ (16 <= length key)%nat.
Proof.
  intros. split; [intros (m & H); apply hmac_new_ok in H; tauto |]. intros (A & B & C). eexists. apply hmac_new_ok. auto.
Qed.
Theorem hmac_computes : forall lib h ts key m data, hmac_new lib h ts key = StOk m -> hmac_size_law lib ->
  exists tag, cm_compute m data = StOk tag /\ length tag = ts /\ (exists rest, tag ++ rest = evp_hmac lib h key data) /\
    forall tag', cm_verify m tag' data = StOk tt <-> tag' = tag.
Proof.
  intros lib h ts key m data H L. apply hmac_new_ok in H. destruct H as (T & _ & _ & ->). cbn [cm_compute cm_verify].
  exists (firstn ts (evp_hmac lib h key data)). split; [reflexivity |].
  assert (LT : length (firstn ts (evp_hmac lib h key data)) = ts) by (apply firstn_length_le; rewrite L; exact T).
  split; [exact LT |]. split; [exists (skipn ts (evp_hmac lib h key data)); apply firstn_skipn |]. intros tag'. split.
  - destruct (negb (Nat.eqb (length tag') ts)); [discriminate |]. destruct (bytes_eqb _ tag') eqn:B; [| discriminate].
    intros _. apply bytes_eqb_spec in B. symmetry. exact B.
  - intros ->. rewrite LT, Nat.eqb_refl. cbn [negb]. rewrite (proj2 (bytes_eqb_spec _ _) eq_refl). reflexivity.
Qed.
Lemma cmac_new_ok : forall lib key ts m, cmac_new lib key ts = StOk m ->
  In (length key) [16; 32] /\ ts <= 16 /\ m = mk_cc_mac
      (cmac_compute lib key ts)
      (fun mac data =>
         if negb (Nat.eqb (length mac) ts) then StErr (NotOk "Incorrect tag size")
         else match cmac_compute lib key ts data with
              | StErr s => StErr s
              | StOk computed_mac =>
                  if negb (bytes_eqb computed_mac mac) then StErr (NotOk "CMAC verification failed") else StOk tt
              end).
Proof.
  intros lib key ts m. unfold cmac_new. destruct (Nat.eqb_spec (length key) 16) as [E | E]; cbn [negb andb].
  - destruct (Nat.ltb_spec 16 ts); [discriminate |]. intros H0. injection H0 as <-. cbn. auto.
  - destruct (Nat.eqb_spec (length key) 32) as [E' | E']; cbn [negb]; [| discriminate].
    destruct (Nat.ltb_spec 16 ts); [discriminate |]. intros H0. injection H0 as <-. cbn. auto.
Qed.
Theorem cmac_made : forall lib key ts,
  (exists m, cmac_new lib key ts = StOk m) <-> In (length key) [16; 32]%nat /\ (ts <= 16)%nat.
Proof.
  intros lib key ts. split; [intros (m & H); apply cmac_new_ok in H; tauto |]. intros (K & T). unfold cmac_new.
  destruct (Nat.ltb_spec 16 ts); [lia |]. destruct K as [K | [K | []]]; rewrite <- K; cbn; eexists; reflexivity.
Qed.
Lemma cmac_compute_ok : forall lib key ts data, In (length key) [16; 32] ->
  cmac_compute lib key ts data = StOk (firstn ts (evp_cmac lib key data)).
Proof. intros lib key ts data K. unfold cmac_compute. rewrite (proj2 (cipher_for_key_size_spec _) K). reflexivity. Qed.
Lemma in_16_32 : forall n, In n [16; 32] -> In n [16; 24; 32].
Proof. cbn. tauto. Qed.
Theorem cmac_computes : forall lib key ts m data, cmac_new lib key ts = StOk m -> aes_law (aes_encrypt lib) -> cmac_law lib ->
  exists tag T, cm_compute m data = StOk tag /\ length tag = ts /\ cmac (aes_encrypt lib key) data T /\ (exists rest, tag ++ rest = T) /\
    forall tag', cm_verify m tag' data = StOk tt <-> tag' = tag.
Proof.
  intros lib key ts m data H A L. apply cmac_new_ok in H. destruct H as (K & T & ->). cbn [cm_compute cm_verify].
  rewrite (cmac_compute_ok lib key ts data K). exists (firstn ts (evp_cmac lib key data)), (evp_cmac lib key data). split; [reflexivity |].
  assert (L16 : length (evp_cmac lib key data) = 16) by (apply (cmac_length (aes_encrypt lib key) data); [exact (A key (in_16_32 _ K)) | apply L, K]).
  assert (LT : length (firstn ts (evp_cmac lib key data)) = ts) by (apply firstn_length_le; lia).
  split; [exact LT |]. split; [apply L, K |]. split; [exists (skipn ts (evp_cmac lib key data)); apply firstn_skipn |]. intros tag'. split.
  - destruct (negb (Nat.eqb (length tag') ts)); [discriminate |]. destruct (bytes_eqb _ tag') eqn:B; [| discriminate].
    intros _. apply bytes_eqb_spec in B. symmetry. exact B.
  - intros ->. rewrite LT, Nat.eqb_refl. cbn [negb]. rewrite (proj2 (bytes_eqb_spec _ _) eq_refl). reflexivity.
Qed.

(** ** PRFs from MACs *)
Lemma prf_output : forall (f : bytes -> bytes) k x n o, length (f x) = k ->
  (cp_compute (prf_from_stateful_mac (StOk f)) x n = StOk o <->
   (n <= N.of_nat k)%N /\ length o = N.to_nat n /\ exists rest, o ++ rest = f x).
Proof.
  intros f k x n o L. cbn [cp_compute prf_from_stateful_mac]. cbv zeta. rewrite L.
  destruct (N.ltb_spec (N.of_nat k) n); [split; [discriminate | lia] |]. split.
  - intros E. injection E as <-. split; [lia |]. split; [apply firstn_length_le; lia |].
    exists (skipn (N.to_nat n) (f x)). apply firstn_skipn.
  - intros (_ & Lo & rest & E). rewrite <- E, <- Lo, firstn_app, firstn_all, Nat.sub_diag. cbn. rewrite app_nil_r. reflexivity.
Qed.
Theorem hmac_prf_output : forall lib h key x n o, h <> UNKNOWN_HASH -> (16 <= length key)%nat -> hmac_size_law lib ->
  (cp_compute (prf_from_stateful_mac (stateful_hmac lib h (hash_size h) key)) x n = StOk o <->
   (n <= N.of_nat (hash_size h))%N /\ length o = N.to_nat n /\ exists rest, o ++ rest = evp_hmac lib h key x).
Proof.
  intros lib h key x n o H K L.
  assert (E : stateful_hmac lib h (hash_size h) key = StOk (fun data => firstn (hash_size h) (evp_hmac lib h key data))).
  { unfold stateful_hmac. destruct h; cbn [evp_md_size hash_size]; try (destruct (Nat.ltb_spec (length key) 16); [lia | reflexivity]). contradiction. }
  assert (F : firstn (hash_size h) (evp_hmac lib h key x) = evp_hmac lib h key x) by (rewrite <- (L h key x); apply firstn_all).
  rewrite E. rewrite (prf_output (fun data => firstn (hash_size h) (evp_hmac lib h key data)) (hash_size h) x n o) by (rewrite F; apply L).
  rewrite F. reflexivity.
Qed.
Theorem cmac_prf_output : forall lib key x n o, In (length key) [16; 32]%nat -> aes_law (aes_encrypt lib) -> cmac_law lib ->
  (cp_compute (prf_from_stateful_mac (stateful_cmac lib 16 key)) x n = StOk o <->
   (n <= 16)%N /\ length o = N.to_nat n /\ exists rest, cmac (aes_encrypt lib key) x (o ++ rest)).
Proof.
  intros lib key x n o K A L. unfold stateful_cmac. rewrite (proj2 (cipher_for_key_size_spec _) K). cbn [negb Nat.ltb Nat.leb].
  assert (C : cmac (aes_encrypt lib key) x (evp_cmac lib key x)) by (apply L, K).
  assert (L16 : length (evp_cmac lib key x) = 16) by (apply (cmac_length (aes_encrypt lib key) x); [exact (A key (in_16_32 _ K)) | exact C]).
  assert (F : firstn 16 (evp_cmac lib key x) = evp_cmac lib key x) by (rewrite <- L16 at 1; apply firstn_all).
  rewrite (prf_output (fun data => firstn 16 (evp_cmac lib key data)) 16 x n o) by (rewrite F; exact L16). rewrite F.
  split; intros (X & Y & rest & Z); (split; [exact X |]; split; [exact Y |]; exists rest); [rewrite Z; exact C |].
  exact (cmac_fun _ _ _ _ Z C).
Qed.

(** ** HKDF *)
Section Hkdf.
  Variable hmac : bytes -> bytes -> bytes.
  Variables prk input : bytes.
  Variable H : nat.
  Hypothesis Hpos : 0 < H.
  Hypothesis Hlen : forall key data, length (hmac key data) = H.
  Local Notation T := (hkdf_t hmac prk input).
  Definition remaining (s : hkdf_stream) : bytes :=
    skipn (hs_position s) (hs_ti s) ++ concat (map T (seq (S (N.to_nat (hs_i s))) (255 - N.to_nat (hs_i s)))).
  Definition hkdf_inv (s : hkdf_stream) : Prop :=
    exists i, hs_i s = N.of_nat i /\ 1 <= i <= 255 /\ hs_ti s = T i /\ hs_position s <= H /\ hs_eof s = false.
  Lemma t_length : forall i, 1 <= i -> length (T i) = H.
  Proof. intros [| i] L; [lia |]. cbn [hkdf_t]. apply Hlen. Qed.
  Lemma next_spec : forall s, hkdf_inv s ->
    (remaining s = [] /\ exists s', hkdf_next hmac prk input s = (StErr OutOfRange, s')) \/
    exists chunk s', hkdf_next hmac prk input s = (StOk chunk, s') /\ chunk <> [] /\ remaining s = chunk ++ remaining s' /\ hkdf_inv s'.
  Proof.
    intros [ti ii pos eof] (i & Ei & Ii & Et & Ep & Ee). cbn [hs_ti hs_i hs_position hs_eof] in *. subst ii ti eof.
    unfold hkdf_next, remaining. cbn [hs_ti hs_i hs_position hs_eof]. rewrite t_length by lia. rewrite Nat2N.id.
    destruct (Nat.ltb_spec pos H) as [Hp | Hp].
    - right. unfold return_data. cbn [hs_ti hs_i hs_position hs_eof]. rewrite t_length by lia. do 2 eexists. split; [reflexivity |].
      cbn [hs_ti hs_i hs_position hs_eof]. rewrite Nat2N.id. split; [| split].
      + intros E. apply (f_equal (@length byte)) in E. rewrite skipn_length, t_length in E by lia. cbn in E. lia.
      + rewrite (skipn_all2 (n := H) (T i)) by (rewrite t_length by lia; lia). reflexivity.
      + exists i. cbn. auto.
    - rewrite (skipn_all2 (n := pos) (T i)) by (rewrite t_length by lia; lia). cbn [app].
      destruct (N.eqb_spec (N.of_nat i) 255) as [E | E].
      + left. assert (i = 255) as -> by lia. split; [reflexivity | eexists; reflexivity].
      + right. unfold return_data, update_ti. cbn [hs_ti hs_i hs_position hs_eof]. rewrite Hlen.
        assert (TS : hmac prk ((if (N.of_nat i =? 0)%N then [] else T i) ++ input ++ [byte_of_N (N.of_nat i + 1)]) = T (S i)).
        { cbn [hkdf_t]. destruct (N.eqb_spec (N.of_nat i) 0); [lia |]. do 4 f_equal. f_equal. lia. }
        rewrite TS. cbn [skipn]. do 2 eexists. split; [reflexivity |]. cbn [hs_ti hs_i hs_position hs_eof].
        replace (N.to_nat (N.of_nat i + 1)) with (S i) by lia. split; [| split].
        * intros X. apply (f_equal (@length byte)) in X. rewrite t_length in X by lia. cbn in X. lia.
        * rewrite (skipn_all2 (n := H) (T (S i))) by (rewrite t_length by lia; lia). cbn [app].
          replace (255 - i) with (S (255 - S i)) by lia. reflexivity.
        * exists (S i). cbn. split; [lia |]. split; [lia |]. auto.
  Qed.
  Lemma back_up_0 : forall s, hkdf_back_up 0 s = s.
  Proof. intros [ti i p e]. unfold hkdf_back_up. cbn. rewrite Nat.sub_0_r. reflexivity. Qed.
  Lemma read_bytes_spec : forall fuel n result s, hkdf_inv s -> length result <= n -> n - length result <= fuel ->
    read_bytes hmac prk input fuel n result s =
    if Nat.leb (n - length result) (length (remaining s)) then StOk (result ++ firstn (n - length result) (remaining s)) else StErr OutOfRange.
  Proof.
    induction fuel as [| fuel IH]; intros n result s I L Fu; unfold read_bytes; fold read_bytes.
    - destruct (Nat.ltb_spec (length result) n); [lia |]. replace (n - length result) with 0 by lia. cbn. rewrite app_nil_r. reflexivity.
    - destruct (Nat.ltb_spec (length result) n) as [Hn | Hn]; cbn [negb].
      2: { replace (n - length result) with 0 by lia. cbn. rewrite app_nil_r. reflexivity. }
      destruct (next_spec s I) as [(R & s' & E) | (chunk & s' & E & Hc & R & I')]; rewrite E.
      + rewrite R. cbn [length]. destruct (Nat.leb_spec (n - length result) 0); [lia | reflexivity].
      + rewrite R. assert (Lc : 0 < length chunk) by (destruct chunk; [contradiction | cbn; lia]).
        destruct (Nat.le_gt_cases (n - length result) (length chunk)) as [X | X].
        * rewrite Nat.min_l by exact X. set (s'' := hkdf_back_up _ s').
          assert (D : forall fu r, length r = n -> read_bytes hmac prk input fu n r s'' = StOk r).
          { intros fu r Lr. destruct fu; cbn [read_bytes]; (destruct (Nat.ltb_spec (length r) n); [lia | reflexivity]). }
          rewrite D by (rewrite app_length, firstn_length_le by exact X; lia).
          rewrite app_length. destruct (Nat.leb_spec (n - length result) (length chunk + length (remaining s'))); [| lia].
          rewrite firstn_app. replace (n - length result - length chunk) with 0 by lia. cbn [firstn]. rewrite app_nil_r. reflexivity.
        * rewrite Nat.min_r by lia. rewrite firstn_all, Nat.sub_diag, back_up_0.
          rewrite IH by (try exact I'; rewrite app_length; lia). rewrite !app_length.
          replace (n - (length result + length chunk)) with (n - length result - length chunk) by lia.
          destruct (Nat.leb_spec (n - length result - length chunk) (length (remaining s'))) as [Y | Y];
            destruct (Nat.leb_spec (n - length result) (length chunk + length (remaining s'))) as [Z | Z]; try lia; [| reflexivity].
          rewrite <- app_assoc. do 2 f_equal. rewrite firstn_app. f_equal. symmetry. apply firstn_all2. lia.
  Qed.
  Lemma hkdf_compute : forall n,
    let all := concat (map T (seq 1 255)) in
    read_bytes hmac prk input n n [] (update_ti hmac prk input (mk_hkdf_stream [] 0 0 false)) =
    if Nat.leb n (length all) then StOk (firstn n all) else StErr OutOfRange.
  Proof.
    intros n all. set (s := update_ti _ _ _ _).
    assert (TI : hs_ti s = T 1) by reflexivity.
    assert (R : remaining s = all).
    { unfold remaining. rewrite TI. change (hs_position s) with 0. cbn [skipn]. change (N.to_nat (hs_i s)) with 1. reflexivity. }
    rewrite read_bytes_spec; [| | cbn; lia | cbn; lia].
    - cbn [length app]. rewrite Nat.sub_0_r, R. reflexivity.
    - exists 1. split; [reflexivity |]. split; [lia |]. split; [exact TI |]. split; [cbn; lia | reflexivity].
  Qed.
  Lemma all_length : length (concat (map T (seq 1 255))) = 255 * H.
  Proof.
    assert (X : forall m a, 1 <= a -> length (concat (map T (seq a m))) = m * H).
    { induction m as [| m IH]; intros a La; [reflexivity |]. cbn [seq map concat]. rewrite app_length, t_length, IH by lia. lia. }
    apply X. lia.
  Qed.
End Hkdf.
Theorem hkdf_prf_made : forall lib h key salt,
  (exists p, hkdf_prf_new lib h key salt = StOk p) <-> In h [SHA1; SHA256; SHA512] /\ (10 <= length key)%nat.
Proof.
  intros lib h key salt. unfold hkdf_prf_new. assert (X : known_hash h = true <-> In h [SHA1; SHA256; SHA512]).
  { destruct h; cbn; split; try tauto; try discriminate; intros A; decompose [or] A; try discriminate; contradiction. }
  destruct (known_hash h); cbn [negb].
  - destruct (Nat.ltb_spec (length key) 10); (split; [intros (p & E); try discriminate | intros (A & B)]); [lia | split; [apply X; reflexivity | lia] | eexists; reflexivity].
  - split; [intros (p & E); discriminate | intros (A & _); apply X in A; discriminate A].
Qed.
Theorem hkdf_prf_output : forall lib h key salt p x n, hkdf_prf_new lib h key salt = StOk p -> hmac_size_law lib -> (n < 2 ^ 31)%N ->
  (forall o, cp_compute p x n = StOk o <-> hkdf_output (evp_hmac lib h) salt key x (N.to_nat n) o) /\
  ((exists o, cp_compute p x n = StOk o) <-> (n <= N.of_nat (255 * hash_size h))%N) /\
  ((N.of_nat (255 * hash_size h) < n)%N -> cp_compute p x n = StErr OutOfRange).
Proof.
  intros lib h key salt p x n Hp L Hn. assert (M : In h [SHA1; SHA256; SHA512]) by (apply (hkdf_prf_made lib h key salt); eexists; exact Hp).
  unfold hkdf_prf_new in Hp. destruct (negb (known_hash h)); [discriminate |]. destruct (Nat.ltb (length key) 10); [discriminate |].
  injection Hp as <-. cbn [cp_compute]. cbv zeta.
  assert (TN : Z.to_nat (to_int n) = N.to_nat n).
  { unfold to_int. rewrite N.mod_small by lia. destruct (Z.ltb_spec (Z.of_N n) 2147483648); [lia |]. change (2 ^ 31)%N with 2147483648%N in Hn. lia. }
  assert (P : 0 < hash_size h) by (destruct M as [<- | [<- | [<- | []]]]; cbn; lia).
  assert (Hl : forall k d, length (evp_hmac lib h k d) = hash_size h) by (intros; apply L).
  rewrite TN, (hkdf_compute (evp_hmac lib h) (evp_hmac lib h salt key) x (hash_size h) P Hl (N.to_nat n)).
  unfold hkdf_output. set (all := concat _). pose proof (all_length (evp_hmac lib h) (evp_hmac lib h salt key) x (hash_size h) P Hl) as AL. fold all in AL.
  rewrite AL. destruct (Nat.leb_spec (N.to_nat n) (255 * hash_size h)) as [X | X]; (split; [| split]).
  - intros o. split.
    + intros E. injection E as <-. split; [apply firstn_length_le; lia |]. exists (skipn (N.to_nat n) all). apply firstn_skipn.
    + intros (Lo & rest & E). fold all in E. rewrite <- E, <- Lo, firstn_app, firstn_all, Nat.sub_diag. cbn. rewrite app_nil_r. reflexivity.
  - split; [intros _; lia | intros _; eexists; reflexivity].
  - lia.
  - intros o. split; [discriminate |]. intros (Lo & rest & E). fold all in E. apply (f_equal (@length byte)) in E. rewrite app_length in E. lia.
  - split; [intros (o & E); discriminate | lia].
  - reflexivity.
Qed.
Theorem hkdf_prf_wraps : forall lib h key salt p x n m, hkdf_prf_new lib h key salt = StOk p -> (n mod 2 ^ 32 = m)%N ->
  ((2 ^ 31 <= m)%N -> cp_compute p x n = StOk []) /\ cp_compute p x n = cp_compute p x m.
Proof.
  intros lib h key salt p x n m Hp E.
  unfold hkdf_prf_new in Hp. destruct (negb (known_hash h)); [discriminate |]. destruct (Nat.ltb (length key) 10); [discriminate |].
  injection Hp as <-. cbn [cp_compute]. cbv zeta. change (2 ^ 32)%N with 4294967296%N in E. change (2 ^ 31)%N with 2147483648%N. split.
  - intros Hm. assert (Z.to_nat (to_int n) = 0%nat) as ->.
    { unfold to_int. rewrite E. pose proof (N.mod_lt n 4294967296). destruct (Z.ltb_spec (Z.of_N m) 2147483648); lia. }
    reflexivity.
  - assert (to_int n = to_int m) as ->; [| reflexivity]. unfold to_int. rewrite E, <- E, N.mod_mod by discriminate. reflexivity.
Qed.
