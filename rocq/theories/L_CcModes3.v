(** Proofs: CMAC, S2V and SIV as the C++ class computes them. *)
From Coq Require Import Strings.Byte Strings.String List NArith ZArith Bool Lia.
From Verif Require Import M_Base M_StreamTypes M_CcStream M_CcManagers M_CcModes S_CcModes L_Base L_CcModes L_CcModes2.
Import ListNotations.
Open Scope list_scope.
Open Scope nat_scope.

Lemma xor_zeros : forall (x : bytes) n, length x = n -> xor_bytes x (repeat x00 n) = x.
Proof. intros x n <-. apply xor_bytes_0. lia. Qed.
Lemma xor_zeros_l : forall (x : bytes) n, length x = n -> xor_bytes (repeat x00 n) x = x.
Proof. intros. rewrite xor_bytes_comm. apply xor_zeros. assumption. Qed.
Lemma firstn_len : forall (a b : bytes) n, length a = n -> firstn n (a ++ b) = a.
Proof. intros a b n <-. rewrite firstn_app, Nat.sub_diag, firstn_all. apply app_nil_r. Qed.
Lemma skipn_len : forall (a b : bytes) n, length a = n -> skipn n (a ++ b) = b.
Proof. intros a b n <-. rewrite skipn_app, Nat.sub_diag, skipn_all. reflexivity. Qed.
Lemma xor_app : forall a b c d : bytes, length a = length c -> xor_bytes (a ++ b) (c ++ d) = xor_bytes a c ++ xor_bytes b d.
Proof. induction a as [| x a IH]; intros b [| y c] d L; try discriminate; [reflexivity |]. cbn. f_equal. apply IH. injection L as L. exact L. Qed.

(** Three parts of a block *)
Lemma split3 : forall (b : bytes) s l, s + l <= length b ->
  exists u v w, b = u ++ v ++ w /\ length u = s /\ length v = l /\ length w = length b - s - l.
Proof.
  intros b s l H. exists (firstn s b), (firstn l (skipn s b)), (skipn l (skipn s b)).
  rewrite firstn_skipn, firstn_skipn. split; [reflexivity |]. rewrite firstn_length, firstn_length, skipn_length, !skipn_length. lia.
Qed.
Lemma xor_at_spec : forall s b y, s + length y <= length b ->
  xor_at s b y = xor_bytes b (repeat x00 s ++ y ++ repeat x00 (length b - s - length y)).
Proof.
  intros s b y H. destruct (split3 b s (length y) H) as (u & v & w & -> & Hu & Hv & Hw). unfold xor_at.
  rewrite <- Hw. rewrite firstn_len by exact Hu. rewrite skipn_len by exact Hu. rewrite firstn_len by exact Hv.
  replace (s + length y) with (length y + s) by lia. rewrite <- skip_skip, skipn_len by exact Hu. rewrite skipn_len by exact Hv.
  rewrite xor_app by (rewrite repeat_length; exact Hu). rewrite xor_app by exact Hv.
  rewrite (xor_zeros u) by exact Hu. rewrite (xor_zeros w) by reflexivity. reflexivity.
Qed.
Lemma xor_at_length : forall s b y, s + length y <= length b -> length (xor_at s b y) = length b.
Proof. intros. rewrite xor_at_spec, xor_bytes_length, !app_length, !repeat_length by assumption. lia. Qed.
(** The last, incomplete block *)
Lemma pad_at : forall b last, length b = 16 -> length last < 16 ->
  xor_at (length last) (xor_at 0 b last) [x80] = xor_bytes b (pad last).
Proof.
  intros b last Lb Ll. rewrite xor_at_spec by (rewrite xor_at_length; cbn; lia). rewrite xor_at_length by (cbn; lia).
  rewrite xor_at_spec by (cbn; lia). rewrite Lb, xor_bytes_assoc. f_equal. cbn [repeat app length].
  rewrite xor_app by (rewrite repeat_length; reflexivity). rewrite xor_zeros by reflexivity. unfold pad. f_equal.
  replace (16 - 0 - length last) with (1 + (15 - length last)) by lia. replace (16 - length last - 1) with (15 - length last) by lia.
  cbn [repeat Nat.add xor_bytes]. rewrite xor_zeros by apply repeat_length. reflexivity.
Qed.

Section SivProofs.
  Variable E : bytes -> bytes.
  Hypothesis HE : block_cipher E.
  Let k1 := dbl (E zero_block).
  Let k2 := dbl k1.
  Lemma siv_k1_spec : siv_k1 E = k1.
  Proof. unfold siv_k1. apply siv_dbl. apply HE. reflexivity. Qed.
  Lemma siv_k2_spec : siv_k2 E = k2.
  Proof. unfold siv_k2. rewrite siv_k1_spec. apply siv_dbl. apply dbl_length. Qed.
  Lemma cmac_loop_spec : forall full last x, Forall (fun b => length b = 16) full ->
    cmac_loop E (length full) x (concat full ++ last) = fold_left (fun x m => E (xors x m)) full x.
  Proof.
    induction full as [| b full IH]; intros last x F; [reflexivity |]. pose proof (Forall_inv F) as Hb. cbn beta in Hb.
    cbn [length cmac_loop concat fold_left]. unfold kBlockSize. rewrite <- app_assoc, firstn_len, skipn_len by exact Hb. rewrite (xors_f x b).
    apply IH. exact (Forall_inv_tail F).
  Qed.
  Lemma concat_length16 : forall full : list bytes, Forall (fun b => length b = 16) full -> length (concat full) = 16 * length full.
  Proof. induction full as [| b full IH]; intros F; [reflexivity |]. cbn [concat length]. rewrite app_length, (Forall_inv F), (IH (Forall_inv_tail F)). lia. Qed.
  Theorem siv_cmac_spec : forall M, cmac E M (siv_cmac E M).
  Proof.
    intros M. destruct (chunks (length M) M (le_n _)) as (full & last & EM & F & L & Nl & Hl).
    exists full, last. split; [exact EM |]. split; [exact F |]. split; [exact L |]. split; [exact Nl |]. cbv zeta. fold k1 k2.
    unfold siv_cmac, kBlockSize.
    assert (B : Nat.max 1 ((length M + 16 - 1) / 16) = S (length full)).
    { rewrite Hl. destruct last as [| c last].
      - rewrite (Nl eq_refl). reflexivity.
      - pose proof (Nat.div_mod (16 * length full + length (c :: last) + 16 - 1) 16 ltac:(discriminate)) as D.
        pose proof (Nat.mod_upper_bound (16 * length full + length (c :: last) + 16 - 1) 16 ltac:(discriminate)) as U.
        set (q := (16 * length full + length (c :: last) + 16 - 1) / 16) in *. cbn [length] in *. lia. }
    rewrite B. replace (S (length full) - 1) with (length full) by lia.
    replace (length M - 16 * length full) with (length last) by lia.
    assert (A1 : cmac_loop E (length full) (repeat x00 16) M = cbc E full) by (rewrite EM; apply cmac_loop_spec; exact F).
    assert (A2 : skipn (16 * length full) M = last) by (rewrite EM; apply skipn_len, concat_length16; exact F).
    rewrite A1, A2. assert (Lc : length (cbc E full) = 16) by (apply cbc_length; [exact HE | reflexivity | exact F]).
    rewrite siv_k1_spec, siv_k2_spec. f_equal. destruct (Nat.eqb (length last) 16) eqn:X.
    - apply Nat.eqb_eq in X. rewrite xor_at_spec by (rewrite Lc; cbn; lia). rewrite Lc, X. cbn [repeat app Nat.sub]. rewrite app_nil_r.
      rewrite !xors_f. apply xor_bytes_assoc.
    - apply Nat.eqb_neq in X. rewrite pad_at by (try exact Lc; lia). rewrite !xors_f. apply xor_bytes_assoc.
  Qed.

  (** CmacLong *)
  Lemma cmac_long_loop_spec : forall (bs : list bytes) (rest : bytes) fuel B, Forall (fun b => length b = 16) bs -> length rest < 16 -> length bs <= fuel ->
    cmac_long_loop E fuel B (concat bs ++ rest) = (fold_left (fun B m => xor_bytes (E B) m) bs B, rest).
  Proof.
    induction bs as [| b bs IH]; intros rest fuel B F L Hf.
    - cbn [concat app fold_left]. destruct fuel; cbn [cmac_long_loop]; [reflexivity |].
      replace (Nat.leb kBlockSize (length rest)) with false by (symmetry; apply Nat.leb_gt; exact L). reflexivity.
    - destruct fuel as [| fuel]; [cbn in Hf; lia |]. pose proof (Forall_inv F) as Hb. cbn beta in Hb.
      cbn [cmac_long_loop concat fold_left]. rewrite <- app_assoc. unfold kBlockSize.
      replace (Nat.leb 16 (length (b ++ concat bs ++ rest))) with true by (symmetry; apply Nat.leb_le; rewrite app_length; lia).
      rewrite firstn_len, skipn_len by exact Hb. apply IH; [exact (Forall_inv_tail F) | exact L | cbn in Hf; lia].
  Qed.
  Lemma long_chain : forall (bs : list bytes) (b0 : bytes), Forall (fun b => length b = 16) bs -> length b0 = 16 ->
    exists pre bk, b0 :: bs = pre ++ [bk] /\ Forall (fun b => length b = 16) pre /\ length bk = 16 /\
      fold_left (fun B m => xor_bytes (E B) m) bs b0 = xor_bytes (cbc E pre) bk.
  Proof.
    induction bs as [| m bs IH] using rev_ind; intros b0 F H0.
    - exists [], b0. split; [reflexivity |]. split; [constructor |]. split; [exact H0 |]. cbn [fold_left]. unfold cbc. cbn [fold_left].
      unfold zero_block. symmetry. apply xor_zeros_l. exact H0.
    - apply Forall_app in F. destruct F as [F Fm]. apply Forall_inv in Fm. destruct (IH b0 F H0) as (pre & bk & E1 & Fp & Lk & Ef).
      exists (pre ++ [bk]), m. split; [rewrite app_comm_cons, E1; reflexivity |]. split; [apply Forall_app; split; [exact Fp | repeat constructor; exact Lk] |].
      split; [exact Fm |]. rewrite fold_left_app. cbn [fold_left]. match goal with |- xor_bytes (E ?t) m = _ => replace t with (xor_bytes (cbc E pre) bk) by (symmetry; exact Ef) end. unfold cbc. rewrite fold_left_app. cbn [fold_left]. rewrite (xors_f _ bk). reflexivity.
  Qed.
  Lemma chunks_lt : forall k (M : bytes), length M <= k -> exists full rest, M = concat full ++ rest /\ Forall (fun b => length b = 16) full /\ length rest < 16.
  Proof.
    induction k as [| k IH]; intros M H.
    - exists [], M. split; [reflexivity |]. split; [constructor | lia].
    - destruct (Nat.lt_ge_cases (length M) 16) as [L | L].
      + exists [], M. split; [reflexivity |]. split; [constructor | lia].
      + destruct (IH (skipn 16 M)) as (full & rest & Em & F & Lr); [rewrite skipn_length; lia |].
        exists (firstn 16 M :: full), rest. cbn [concat]. rewrite <- app_assoc, <- Em, firstn_skipn. split; [reflexivity |].
        split; [constructor; [rewrite firstn_length; lia | exact F] | exact Lr].
  Qed.
  Lemma siv_cmac_long_spec : forall data d, 16 <= length data -> length d = 16 ->
    cmac E (firstn (length data - 16) data ++ xors (skipn (length data - 16) data) d) (siv_cmac_long E data d).
  Proof.
    intros data d Ld Hd. destruct (chunks_lt (length data) (skipn 16 data)) as (bs & rest & Es & F & Lr); [rewrite skipn_length; lia |].
    set (b0 := firstn 16 data). assert (L0 : length b0 = 16) by (unfold b0; rewrite firstn_length; lia).
    assert (Lbs : length bs <= length data).
    { pose proof (f_equal (@length byte) Es) as X. rewrite skipn_length, app_length, concat_length16 in X by exact F. unfold bytes in *. lia. }
    destruct (long_chain bs b0 F L0) as (pre & bk & Eb & Fp & Lk & Ef).
    unfold siv_cmac_long, kBlockSize. fold b0. rewrite Es, cmac_long_loop_spec by assumption. rewrite Ef.
    assert (Ed : data = concat pre ++ bk ++ rest).
    { rewrite <- (firstn_skipn 16 data). fold b0. rewrite Es, app_assoc. pose proof (f_equal (@concat byte) Eb) as Ec. rewrite concat_app in Ec.
      cbn [concat] in Ec. rewrite app_nil_r in Ec. rewrite (app_assoc (concat pre)). f_equal. exact Ec. }
    set (r := length rest) in *. set (K := cbc E pre). assert (LK : length K = 16) by (apply cbc_length; [exact HE | reflexivity | exact Fp]).
    assert (Hlen : length data - 16 = length (concat pre) + r) by (rewrite Ed, !app_length; fold r; lia).
    rewrite Hlen.
    destruct (split3 bk 0 r) as (u0 & u & w & Ebk & Hu0 & Hu & Hw); [lia |]. destruct u0; [| discriminate]. cbn [app] in Ebk.
    assert (F1 : firstn (length (concat pre) + r) data = concat pre ++ u).
    { rewrite Ed, Ebk, firstn_app_2, <- app_assoc, firstn_len by exact Hu. reflexivity. }
    assert (S1 : skipn (length (concat pre) + r) data = w ++ rest).
    { rewrite Nat.add_comm, <- skip_skip, Ed, Ebk, skipn_len by reflexivity. rewrite <- app_assoc. apply skipn_len. exact Hu. }
    rewrite F1, S1. rewrite xors_f.
    destruct (split3 d 0 (16 - r)) as (v0 & dw & dr & Edd & Hv0 & Hdw & Hdr); [lia |]. destruct v0; [| discriminate]. cbn [app] in Edd.
    rewrite Edd. rewrite xor_app by lia. rewrite (firstn_len dw) by exact Hdw. rewrite (skipn_len dw) by exact Hdw.
    (* the block with the beginning of [d] *)
    assert (XB : xor_at r (xor_bytes K bk) dw = xor_bytes K (u ++ xor_bytes w dw)).
    { rewrite xor_at_spec by (rewrite xor_bytes_length; lia). rewrite xor_bytes_length, LK, Lk, Hdw.
      replace (Nat.min 16 16 - r - (16 - r)) with 0 by lia. cbn [repeat]. rewrite app_nil_r, xor_bytes_assoc, Ebk.
      rewrite xor_app by (rewrite repeat_length; exact Hu). rewrite xor_zeros by exact Hu. reflexivity. }
    rewrite XB. rewrite siv_k1_spec, siv_k2_spec.
    destruct (Nat.eqb r 0) eqn:R.
    - apply Nat.eqb_eq in R. destruct rest as [| c rest]; [| cbn in r; lia]. destruct u; [| cbn in Hu; lia]. destruct dr as [| c dr]; [| cbn in Hdr; lia].
      cbn [xor_bytes app]. rewrite !app_nil_r. exists pre, (xor_bytes w dw). cbn [length] in *.
      assert (Lx : length (xor_bytes w dw) = 16) by (rewrite xor_bytes_length; lia).
      split; [reflexivity |]. split; [exact Fp |]. split; [lia |]. split; [intros Z; rewrite Z in Lx; discriminate |]. cbv zeta. fold k1.
      rewrite Lx. cbn [Nat.eqb]. fold K. rewrite !xors_f. f_equal. apply xor_bytes_assoc.
    - apply Nat.eqb_neq in R. set (m := u ++ xor_bytes w dw).
      assert (Lm : length m = 16) by (unfold m; rewrite app_length, xor_bytes_length; lia).
      set (last := xor_bytes rest dr). assert (Ll : length last = r) by (unfold last; rewrite xor_bytes_length; fold r; lia).
      exists (pre ++ [m]), last. split; [rewrite concat_app; cbn [concat]; unfold m; rewrite app_nil_r, <- !app_assoc; reflexivity |].
      split; [apply Forall_app; split; [exact Fp | repeat constructor; exact Lm] |]. split; [lia |].
      split; [intros Z; rewrite Z in Ll; cbn in Ll; lia |]. cbv zeta. fold k1 k2. rewrite Ll.
      replace (Nat.eqb r 16) with false by (symmetry; apply Nat.eqb_neq; lia).
      unfold cbc. rewrite fold_left_app. cbn [fold_left]. fold (cbc E pre). fold K. rewrite (xors_f K m). set (B := E (xor_bytes K m)).
      assert (LB : length B = 16) by (apply HE; rewrite xor_bytes_length; lia).
      assert (X2 : xor_at 0 (xor_at 0 B dr) rest = xor_at 0 B last).
      { assert (length dr = r) by lia.
        rewrite !(xor_at_spec 0) by (try rewrite xor_at_spec by (cbn; lia); try rewrite xor_bytes_length, !app_length, !repeat_length; fold r; cbn; lia).
        rewrite xor_bytes_length, !app_length, !repeat_length. cbn [repeat app Nat.sub]. rewrite LB. fold r. rewrite H, Ll, xor_bytes_assoc. f_equal.
        replace (Nat.min 16 (0 + (r + (16 - 0 - r))) - 0 - r) with (16 - r) by lia. rewrite !Nat.sub_0_r.
        rewrite xor_app by (fold r; lia). rewrite xor_zeros by apply repeat_length. unfold last. rewrite (xor_bytes_comm dr). reflexivity. }
      rewrite X2, <- Ll, pad_at by (try exact LB; lia). rewrite !xors_f. f_equal. apply xor_bytes_assoc.
  Qed.
  Theorem siv_s2v_spec : forall ad P, s2v E ad P (siv_s2v E ad P).
  Proof.
    intros ad P. exists (siv_cmac E zero_block), (siv_cmac E ad). split; [apply siv_cmac_spec |]. split; [apply siv_cmac_spec |]. cbv zeta.
    unfold siv_s2v, kBlockSize. fold zero_block.
    assert (L0 : length (siv_cmac E zero_block) = 16) by (eapply cmac_length; [exact HE | apply siv_cmac_spec]).
    assert (L1 : length (siv_cmac E ad) = 16) by (eapply cmac_length; [exact HE | apply siv_cmac_spec]).
    rewrite siv_dbl by exact L0. rewrite (xors_f (dbl _)). set (d := xor_bytes (dbl (siv_cmac E zero_block)) (siv_cmac E ad)).
    assert (Ld : length d = 16) by (unfold d; rewrite xor_bytes_length, dbl_length; lia).
    destruct (Nat.leb 16 (length P)) eqn:X.
    - apply Nat.leb_le in X. apply siv_cmac_long_spec; assumption.
    - apply Nat.leb_gt in X. rewrite siv_dbl by exact Ld. rewrite pad_at by (try apply dbl_length; lia). rewrite xors_f. apply siv_cmac_spec.
  Qed.
  Lemma s2v_fun : forall ad P V V', s2v E ad P V -> s2v E ad P V' -> V = V'.
  Proof.
    intros ad P V V' (z & a & Hz & Ha & H) (z' & a' & Hz' & Ha' & H'). cbv zeta in *.
    rewrite (cmac_fun _ _ _ _ Hz' Hz), (cmac_fun _ _ _ _ Ha' Ha) in H'. exact (cmac_fun _ _ _ _ H H').
  Qed.
  Lemma siv_s2v_length : forall ad P, length (siv_s2v E ad P) = 16.
  Proof. intros ad P. destruct (siv_s2v_spec ad P) as (z & a & _ & _ & H). cbv zeta in H. eapply cmac_length; [exact HE | exact H]. Qed.
End SivProofs.

(** The two bits that are cleared *)
Lemma and_mask : forall v, length v = 16 -> and_at 12 (and_at 8 v) = block_of (N.ldiff (num v) (2 ^ 63 + 2 ^ 31)).
Proof.
  intros v H. set (m := repeat x00 8 ++ x80 :: repeat x00 3 ++ x80 :: repeat x00 3).
  assert (Em : (2 ^ 63 + 2 ^ 31)%N = num m) by reflexivity.
  assert (X : num (fbytes N.ldiff v m) = N.ldiff (num v) (num m)).
  { apply (num_fbytes N.ldiff (fun a b => andb a (negb b)) N.ldiff_spec eq_refl). exact H. }
  assert (Ef : and_at 12 (and_at 8 v) = fbytes N.ldiff v m).
  { do 16 (destruct v as [| ? v]; [discriminate |]). destruct v; [| discriminate]. unfold and_at, m. cbn [firstn skipn nth app repeat Nat.add fbytes].
    assert (Z0 : forall a, fbyte N.ldiff a x00 = a) by (destruct a; reflexivity).
    assert (Z1 : forall a, fbyte N.ldiff a x80 = and_7f a) by (destruct a; reflexivity).
    rewrite !Z0, !Z1. reflexivity. }
  rewrite Em, <- X, <- Ef. symmetry. apply block_of_num. rewrite Ef, fbytes_length, H. reflexivity.
Qed.
Section SivTheorems.
  Variables E E2 : bytes -> bytes.
  Hypothesis HE : block_cipher E.
  Lemma siv_ctr_spec : forall P v, length v = 16 -> ctr_mode E2 (block_of (N.ldiff (num v) (2 ^ 63 + 2 ^ 31))) P (siv_ctr E2 P v).
  Proof. intros P v H. unfold siv_ctr. rewrite and_mask by exact H. apply ctr_crypt_spec. apply block_of_length. Qed.
  Theorem siv_encrypt_spec : forall P ad C, siv_encrypt E E2 P ad = StOk C <-> siv_ciphertext E E2 ad P C.
  Proof.
    intros P ad C. unfold siv_encrypt. set (v := siv_s2v E ad P). assert (Lv : length v = 16) by (apply siv_s2v_length; exact HE). split.
    - intros H. injection H as <-. exists v, (siv_ctr E2 P v). split; [apply siv_s2v_spec; exact HE |]. split; [apply siv_ctr_spec; exact Lv | reflexivity].
    - intros (v' & c & Hv & Hc & ->). rewrite (s2v_fun E ad P v' v Hv (siv_s2v_spec E HE ad P)) in *.
      rewrite (ctr_mode_fun _ _ _ _ _ Hc (siv_ctr_spec P v Lv)). reflexivity.
  Qed.
  Theorem siv_decrypt_spec : forall C ad P, siv_decrypt E E2 C ad = StOk P <-> siv_ciphertext E E2 ad P C.
  Proof.
    intros C ad P. unfold siv_decrypt, kBlockSize. split.
    - destruct (Nat.ltb (length C) 16) eqn:L; [discriminate |]. apply Nat.ltb_ge in L. set (v := firstn 16 C).
      assert (Lv : length v = 16) by (unfold v; rewrite firstn_length; lia).
      destruct (bytes_eqb v (siv_s2v E ad (siv_ctr E2 (skipn 16 C) v))) eqn:Q; cbn [negb]; [| discriminate].
      intros H0. assert (H : siv_ctr E2 (skipn 16 C) v = P) by congruence. apply bytes_eqb_spec in Q. rewrite H in Q.
      exists v, (skipn 16 C). split; [rewrite Q; apply siv_s2v_spec; exact HE |]. split; [| symmetry; apply firstn_skipn].
      apply ctr_mode_sym. rewrite <- H. apply siv_ctr_spec. exact Lv.
    - intros (v & c & Hv & Hc & ->). rewrite (s2v_fun E ad P v _ Hv (siv_s2v_spec E HE ad P)) in *. set (w := siv_s2v E ad P) in *.
      assert (Lw : length w = 16) by (apply siv_s2v_length; exact HE).
      replace (Nat.ltb (length (w ++ c)) 16) with false by (symmetry; apply Nat.ltb_ge; rewrite app_length; lia).
      rewrite firstn_len, skipn_len by exact Lw.
      rewrite (ctr_mode_fun _ _ _ _ _ (siv_ctr_spec c w Lw) (ctr_mode_sym _ _ _ _ Hc)). fold w.
      replace (bytes_eqb w w) with true by (symmetry; apply bytes_eqb_spec; reflexivity). reflexivity.
  Qed.
  Lemma siv_ciphertext_length : forall ad P C, siv_ciphertext E E2 ad P C -> length C = 16 + length P.
  Proof.
    intros ad P C (v & c & Hv & Hc & ->). rewrite app_length, (proj1 Hc), (s2v_fun E ad P v _ Hv (siv_s2v_spec E HE ad P)), siv_s2v_length by exact HE. reflexivity.
  Qed.
End SivTheorems.
