(** Ciphertexts in segments: genuine ones, and others. *)
From Coq Require Import Strings.Byte Strings.String List NArith ZArith Bool Lia.
From Verif Require Import M_Base L_Base M_StreamTypes M_CcStream M_CcSegments S_CcStream S_Buffered S_CcSegments
  L_CcStream L_CcStream3 L_CcStream4 L_CcSegments L_CcSegments2.
Import ListNotations.
Open Scope list_scope.
Open Scope nat_scope.

(** ** Encryption *)

Lemma segments_exist : forall rest P size, 0 < rest -> 0 < size -> exists l, segmented rest size P l.
Proof.
  intros rest P. remember (length P) as k eqn:Ek. revert P Ek. induction k as [k IH] using lt_wf_ind. intros P -> size Hr Hs.
  destruct (Nat.le_gt_cases (length P) size) as [L | L].
  - exists [P]. apply Segmented_last. exact L.
  - destruct (IH (length (skipn size P))) with (P := skipn size P) (size := rest) as (l & Hl); auto.
    + rewrite skipn_length. lia.
    + exists (firstn size P :: l). rewrite <- (firstn_skipn size P) at 1. apply Segmented_more; [| | exact Hl].
      * rewrite firstn_length. lia.
      * intros Z. apply (f_equal (@length byte)) in Z. rewrite skipn_length in Z. cbn in Z. lia.
Qed.
Lemma app_same_length : forall (a b c d : bytes), a ++ b = c ++ d -> length a = length c -> a = c /\ b = d.
Proof.
  intros a. induction a as [| x a IH]; intros b [| y c] d E L; cbn in *; try discriminate; [auto |].
  injection E as -> E. injection L as L. destruct (IH _ _ _ E L) as (-> & ->). auto.
Qed.
Lemma segmented_unique : forall rest size P l, segmented rest size P l -> forall l', segmented rest size P l' -> l = l'.
Proof.
  intros rest size P l H. induction H as [size s L | size s P l L N H IH]; intros l' H'.
  - inversion H' as [? ? L' | ? s' P' l0 L' N' H0]; subst; [reflexivity |]. rewrite app_length in L.
    destruct P'; [congruence |]. cbn in L. lia.
  - remember (s ++ P) as Q eqn:EQ. destruct H' as [size' s' L' | size' s' P' l0 L' N' H0].
    + subst s'. rewrite app_length in L'. destruct P; [congruence |]. cbn in L'. lia.
    + assert (s = s' /\ P = P') as (-> & ->).
      { apply app_same_length in EQ; [destruct EQ; auto | lia]. }
      f_equal. apply IH. exact H0.
Qed.
Lemma segmented_concat : forall rest size P l, segmented rest size P l -> concat l = P.
Proof. intros rest size P l H. induction H as [size s L | size s P l L N H IH]; cbn; [apply app_nil_r | rewrite IH; reflexivity]. Qed.
Lemma segmented_sizes : forall rest size P l, segmented rest size P l -> size <= rest -> Forall (fun s => length s <= rest) l.
Proof.
  intros rest size P l H. induction H as [size s L | size s P l L N H IH]; intros K; constructor; try lia; auto.
Qed.
Lemma segmented_count : forall rest size P l, 0 < rest -> segmented rest size P l ->
  length P <= size + (length l - 1) * rest /\ (1 < length l -> size + (length l - 2) * rest < length P) /\ l <> [].
Proof.
  intros rest size P l Hr H. induction H as [size s L | size s P l L N H (IH1 & IH2 & IH3)].
  - cbn. split; [lia |]. split; [lia | discriminate].
  - rewrite app_length. destruct l as [| s1 l]; [congruence |]. cbn [length] in *. split; [nia |]. split; [| discriminate]. intros _.
    destruct l as [| s2 l]; cbn [length] in *.
    + destruct P; [congruence |]. cbn [length]. lia.
    + specialize (IH2 ltac:(lia)). replace (S (S (S (length l))) - 2) with (S (length l)) by lia.
      replace (S (S (length l)) - 2) with (length l) in IH2 by lia. nia.
Qed.
Lemma sealed_unique : forall encrypt i l D, sealed encrypt i l D -> forall D', sealed encrypt i l D' -> D = D'.
Proof.
  intros encrypt i l D H. induction H as [i s c E | i s c l D E N H IH]; intros D' H'; inversion H' as [? ? c' E' | ? ? c' ? D0 E' N' H0]; subst; try congruence.
  rewrite E in E'. injection E' as <-. f_equal. apply IH. exact H0.
Qed.
Lemma segment_encryption_unique : forall se P C C', segment_encryption se P C -> segment_encryption se P C' -> C = C'.
Proof.
  intros se P C C' (l & D & H1 & H2 & ->) (l' & D' & H1' & H2' & ->). rewrite (segmented_unique _ _ _ _ H1' _ H1) in H2'.
  rewrite (sealed_unique _ _ _ _ H2 _ H2'). reflexivity.
Qed.
Lemma sealed_exists : forall encrypt ps m l i,
  (forall j is_last s, length s <= ps -> (j + 1 < m \/ j + 1 = m /\ is_last = true)%N -> exists c, encrypt j is_last s = StOk c) ->
  Forall (fun s => length s <= ps) l -> l <> [] -> (i + N.of_nat (length l) <= m)%N -> exists D, sealed encrypt i l D.
Proof.
  intros encrypt ps m l. induction l as [| s l IH]; intros i T A N L; [congruence |]. inversion A as [| ? ? A1 A2]; subst.
  destruct l as [| s' l].
  - destruct (T i true s A1) as (c & E); [cbn in L; lia |]. exists c. apply Sealed_last. exact E.
  - destruct (T i false s A1) as (c & E); [cbn [length] in L; lia |].
    destruct (IH (i + 1)%N T A2) as (D & HD); [discriminate | cbn [length] in *; lia |].
    exists (c ++ D). apply Sealed_more; [exact E | discriminate | exact HD].
Qed.
Lemma segment_encryption_exists : forall se m P, has_space se -> takes_segments se m -> length P <= capacity se m ->
  exists C, segment_encryption se P C.
Proof.
  intros se m P S (M & T) L. unfold has_space in S. unfold capacity in L.
  destruct (segments_exist (se_plaintext_segment_size se) P
    (se_plaintext_segment_size se - se_ciphertext_offset se - length (se_header se))) as (l & Hl); [lia | lia |].
  pose proof (segmented_count (se_plaintext_segment_size se) _ _ _ ltac:(lia) Hl) as (_ & K2 & K3).
  destruct (sealed_exists (se_encrypt se) (se_plaintext_segment_size se) m l 0 T) as (D & HD).
  - apply (segmented_sizes _ _ _ _ Hl). lia.
  - exact K3.
  - unfold bytes in *. destruct (Nat.le_gt_cases (length l) 1) as [K | K]; [clear - K M; lia |]. specialize (K2 K).
    assert (A : length l - 2 < N.to_nat (m - 1)) by nia. clear - A K. lia.
  - exists (se_header se ++ D), l, D. auto.
Qed.

Lemma nonce_based_encrypts : forall F n new_encrypter new_decrypter ad se m,
  new_encrypter ad = StOk se -> has_space se -> takes_segments se m ->
  cc_encrypts F (capacity se m) (segment_encryption se) (nonce_based_streaming_aead n new_encrypter new_decrypter) ad.
Proof.
  intros F n new_encrypter new_decrypter ad se m E S T r o H. cbn in H. rewrite E in H. apply owrites_ret in H. destruct H as (-> & ->).
  unfold new_segment_encrypting_stream. destruct (Nat.eqb_spec (first_segment_size se) 0) as [Z | _].
  - unfold has_space in S. unfold first_segment_size in Z. lia.
  - apply segment_stream_encrypts; assumption.
Qed.

(** ** Decryption of any bytes *)

Lemma unsealed_exists : forall decrypt rest, 0 < rest -> forall C size i, 0 < size ->
  exists P whole, unsealed decrypt rest size i C P whole.
Proof.
  intros decrypt rest Hr C. remember (length C) as k eqn:Ek. revert C Ek. induction k as [k IH] using lt_wf_ind. intros C -> size i Hs.
  destruct (Nat.le_gt_cases size (length C)) as [L | L].
  - destruct (decrypt i false (firstn size C)) as [s | e] eqn:E1.
    + destruct (IH (length (skipn size C))) with (C := skipn size C) (size := rest) (i := (i + 1)%N) as (P & w & H); auto.
      * rewrite skipn_length. lia.
      * exists (s ++ P), w. apply Unsealed_more; assumption.
    + destruct (decrypt i true (firstn size C)) as [s | e'] eqn:E2.
      * exists s, true. apply (Unsealed_last _ _ _ _ _ e); assumption.
      * exists [], false. apply (Unsealed_bad _ _ _ _ _ e e'); assumption.
  - destruct (decrypt i true C) as [s | e'] eqn:E2.
    + exists s, true. apply Unsealed_short; assumption.
    + exists [], false. apply (Unsealed_short_bad _ _ _ _ _ e'); assumption.
Qed.
Lemma unsealed_stream_exists : forall sd C, sd_ciphertext_offset sd + sd_header_size sd < sd_ciphertext_segment_size sd ->
  exists P whole, unsealed_stream sd C P whole.
Proof.
  intros sd C S. destruct (Nat.le_gt_cases (sd_header_size sd) (length C)) as [L | L].
  - destruct (sd_init sd (firstn (sd_header_size sd) C)) as [decrypt | e] eqn:E.
    + destruct (unsealed_exists decrypt (sd_ciphertext_segment_size sd) ltac:(lia) (skipn (sd_header_size sd) C)
        (sd_ciphertext_segment_size sd - sd_ciphertext_offset sd - sd_header_size sd) 0 ltac:(lia)) as (P & w & H).
      exists P, w. apply (Unsealed_stream _ _ _ _ _ L E H).
    + exists [], false. apply (Unsealed_bad_header _ _ _ L E).
  - exists [], false. apply Unsealed_no_header. exact L.
Qed.
Lemma unsealed_unique : forall decrypt rest size i C P whole, unsealed decrypt rest size i C P whole ->
  forall P' whole', unsealed decrypt rest size i C P' whole' -> P = P' /\ whole = whole'.
Proof.
  intros decrypt rest size i C P whole H.
  induction H; intros P' whole' H'; inversion H'; subst; try lia; try congruence; try (split; congruence).
  match goal with A : decrypt ?i false ?x = StOk ?a, B : decrypt ?i false ?x = StOk ?b |- _ => rewrite A in B; injection B as <- end.
  match goal with IH : forall P' whole', _ -> _ /\ _, K : unsealed _ _ _ _ _ _ _ |- _ => destruct (IH _ _ K) as (-> & ->) end. auto.
Qed.
Lemma unsealed_stream_unique : forall sd C P whole P' whole', unsealed_stream sd C P whole -> unsealed_stream sd C P' whole' ->
  P = P' /\ whole = whole'.
Proof.
  intros sd C P whole P' whole' H H'. destruct H as [L | e L E | decrypt P whole L E H]; destruct H' as [L' | e' L' E' | decrypt' P' whole' L' E' H'];
    try lia; try congruence; auto. rewrite E in E'. injection E' as <-. apply (unsealed_unique _ _ _ _ _ _ _ H _ _ H').
Qed.

Lemma nonce_based_gives : forall F n new_encrypter new_decrypter ad sd C P whole,
  new_decrypter ad = StOk sd -> 0 < sd_header_size sd ->
  sd_ciphertext_offset sd + sd_header_size sd < sd_ciphertext_segment_size sd -> errors_are_errors sd ->
  unsealed_stream sd C P whole ->
  cc_gives F (F \/ whole = false) (whole = true) (nonce_based_streaming_aead n new_encrypter new_decrypter) ad C P.
Proof.
  intros F n new_encrypter new_decrypter ad sd C P whole E Hh Hs He Hu r i H. cbn in H. rewrite E in H.
  apply ireads_ret in H. destruct H as (-> & ->).
  unfold new_segment_decrypting_stream. destruct (Nat.eqb_spec (first_ciphertext_size sd) 0) as [Z | _].
  - unfold first_ciphertext_size in Z. lia.
  - eexists. split; [reflexivity |]. apply segment_stream_gives; assumption.
Qed.

(** ** Genuine ciphertexts *)

Lemma sealed_not_nil : forall encrypt i l D, sealed encrypt i l D -> l <> [].
Proof. intros encrypt i l D H. destruct H; discriminate. Qed.
Lemma sealed_unsealed : forall encrypt decrypt overhead rest junk,
  (forall i is_last s c, encrypt i is_last s = StOk c ->
      length c = length s + overhead /\ decrypt i is_last c = StOk s /\
      (is_last = true -> exists m, decrypt i false c = StErr m)) ->
  forall size P l, segmented rest size P l -> forall i D, sealed encrypt i l D ->
    junk = [] \/ length P = size + (length l - 1) * rest ->
    unsealed decrypt (rest + overhead) (size + overhead) i (D ++ junk) P true.
Proof.
  intros encrypt decrypt overhead rest junk O size P l H. induction H as [size s L | size s P l L N H IH]; intros i D HD J.
  - inversion HD as [? ? c E | ? ? c l' D' E N' HD']; subst; [| exfalso; apply N'; reflexivity].
    destruct (O _ _ _ _ E) as (O1 & O2 & O3). destruct (O3 eq_refl) as (m & O4).
    destruct (Nat.le_gt_cases size (length s)) as [K | K].
    + assert (F : firstn (size + overhead) (D ++ junk) = D).
      { rewrite firstn_app, firstn_all2 by lia. replace (size + overhead - length D) with 0 by lia. rewrite firstn_O. apply app_nil_r. }
      apply (Unsealed_last _ _ _ _ _ m); rewrite ?F; auto. rewrite app_length. lia.
    + destruct J as [-> | J]; [| cbn in J; lia]. rewrite app_nil_r. apply Unsealed_short; [lia | exact O2].
  - inversion HD as [? ? c E | ? ? c l' D' E N' HD']; subst; [inversion H |].
    destruct (O _ _ _ _ E) as (O1 & O2 & _). rewrite <- app_assoc.
    assert (F : firstn (length s + overhead) (c ++ D' ++ junk) = c).
    { rewrite firstn_app, firstn_all2 by lia. replace (length s + overhead - length c) with 0 by lia. rewrite firstn_O. apply app_nil_r. }
    apply Unsealed_more; rewrite ?F; auto.
    + rewrite app_length. lia.
    + rewrite skipn_app, skipn_all2 by lia. replace (length s + overhead - length c) with 0 by lia. cbn [app skipn].
      apply IH; [exact HD' |]. destruct J as [J | J]; [left; exact J | right]. rewrite app_length in J. cbn [length] in J.
      destruct l; [congruence |]. cbn [length] in *. nia.
Qed.
Lemma genuine_unsealed : forall se sd P C junk, has_space se -> opens_segments se sd -> segment_encryption se P C ->
  junk = [] \/ (exists k, length P = first_segment_size se + k * se_plaintext_segment_size se) ->
  unsealed_stream sd (C ++ junk) P true.
Proof.
  intros se sd P C junk Sp (ov & decrypt & O1 & O2 & O3 & O4 & O5 & O6) (l & D & H1 & H2 & ->) J. unfold has_space in Sp.
  rewrite <- app_assoc. apply (Unsealed_stream _ _ decrypt).
  - rewrite O1, app_length. lia.
  - rewrite O1, firstn_app, firstn_all, Nat.sub_diag, firstn_O, app_nil_r. exact O5.
  - rewrite O1, skipn_app, skipn_all, Nat.sub_diag, O3, O4. cbn [app skipn].
    replace (se_plaintext_segment_size se + ov - se_ciphertext_offset se - length (se_header se)) with
      (se_plaintext_segment_size se - se_ciphertext_offset se - length (se_header se) + ov) by lia.
    apply (sealed_unsealed (se_encrypt se) decrypt ov (se_plaintext_segment_size se) junk O6 _ P l H1 0 D H2).
    destruct J as [J | (k & J)]; [left; exact J | right].
    pose proof (segmented_count (se_plaintext_segment_size se) _ _ _ ltac:(lia) H1) as (K1 & K2 & K3). unfold first_segment_size in J.
    destruct l as [| s [| s2 l]]; [congruence | cbn [length] in * |].
    + assert (k = 0) by nia. subst k. lia.
    + specialize (K2 ltac:(cbn; lia)). cbn [length] in *.
      replace (S (S (length l)) - 1) with (S (length l)) in * by lia. replace (S (S (length l)) - 2) with (length l) in * by lia.
      assert (k = S (length l)) by nia. subst k. exact J.
Qed.

Lemma gives_decrypts : forall (F E Fin : Prop) cc ad C P, (E -> F) -> cc_gives F E Fin cc ad C P -> cc_decrypts F cc ad C P.
Proof.
  intros F E Fin cc ad C P EF H r i Hr. destruct (H r i Hr) as (d & -> & J & J1 & J2 & J3). exists d. split; [reflexivity |].
  exists J. split; [exact J1 |]. split; [| exact J3]. intros st i0 p r st' i' HJ Hn. destruct (J2 _ _ _ _ _ _ HJ Hn) as (p' & Hp & HJ').
  exists p'. split; [| exact HJ']. inversion Hp; subst; constructor; auto.
Qed.
Lemma nonce_based_decrypts : forall F n new_encrypter new_decrypter ad se sd C P,
  new_decrypter ad = StOk sd -> has_space se -> opens_segments se sd -> errors_are_errors sd ->
  segment_encryption se P C ->
  cc_decrypts F (nonce_based_streaming_aead n new_encrypter new_decrypter) ad C P.
Proof.
  intros F n new_encrypter new_decrypter ad se sd C P E Sp O Er H.
  assert (U : unsealed_stream sd (C ++ []) P true) by (apply (genuine_unsealed se sd P C [] Sp O H); left; reflexivity).
  rewrite app_nil_r in U. destruct O as (ov & decrypt & O1 & O2 & O3 & O4 & O5 & O6). unfold has_space in Sp.
  apply (gives_decrypts F (F \/ true = false) (true = true)); [intros [K | K]; [exact K | discriminate] |].
  apply (nonce_based_gives F n new_encrypter new_decrypter ad sd C P true E); auto; lia.
Qed.
Lemma nonce_based_ignores_junk : forall F n new_encrypter new_decrypter ad se sd C P junk k,
  new_decrypter ad = StOk sd -> has_space se -> opens_segments se sd -> errors_are_errors sd ->
  segment_encryption se P C -> length P = first_segment_size se + k * se_plaintext_segment_size se ->
  cc_decrypts F (nonce_based_streaming_aead n new_encrypter new_decrypter) ad (C ++ junk) P.
Proof.
  intros F n new_encrypter new_decrypter ad se sd C P junk k E Sp O Er H K.
  assert (U : unsealed_stream sd (C ++ junk) P true) by (apply (genuine_unsealed se sd P C junk Sp O H); right; exists k; exact K).
  destruct O as (ov & decrypt & O1 & O2 & O3 & O4 & O5 & O6). unfold has_space in Sp.
  apply (gives_decrypts F (F \/ true = false) (true = true)); [intros [Z | Z]; [exact Z | discriminate] |].
  apply (nonce_based_gives F n new_encrypter new_decrypter ad sd (C ++ junk) P true E); auto; lia.
Qed.
