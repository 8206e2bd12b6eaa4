(** Ciphertexts in segments that were tampered with. *)
From Coq Require Import Strings.Byte Strings.String List NArith ZArith Bool Lia.
From Verif Require Import M_Base L_Base M_StreamTypes M_CcStream M_CcSegments S_CcStream S_Buffered S_CcSegments
  L_CcStream L_CcSegments L_CcSegments2 L_CcSegments3.
Import ListNotations.
Open Scope list_scope.
Open Scope nat_scope.

Lemma NoDup_map_inj : forall A B (f : A -> B) l x y, NoDup (map f l) -> In x l -> In y l -> f x = f y -> x = y.
Proof.
  intros A B f l. induction l as [| a l IH]; intros x y N Hx Hy E; [contradiction |]. cbn in N. inversion N as [| ? ? N1 N2]; subst.
  destruct Hx as [-> | Hx]; destruct Hy as [-> | Hy]; auto.
  - exfalso. apply N1. rewrite E. apply in_map. exact Hy.
  - exfalso. apply N1. rewrite <- E. apply in_map. exact Hx.
Qed.
Lemma nth_error_skipn : forall A (l : list A) i x, nth_error l i = Some x -> skipn i l = x :: skipn (i + 1) l.
Proof.
  intros A l. induction l as [| a l IH]; intros i x E; destruct i; cbn in *; try discriminate; [injection E as ->; reflexivity |].
  apply IH. exact E.
Qed.

(** The segments [at i], [at (i + 1)], ... are those of [C]. *)
Definition located (at_ : N -> bytes) (rest size : nat) (i : N) (C : bytes) : Prop :=
  at_ i = firstn size C /\
  forall j, at_ (i + 1 + N.of_nat j)%N = firstn rest (skipn (size + j * rest) C).
Lemma located_next : forall at_ rest size i C, located at_ rest size i C -> located at_ rest rest (i + 1) (skipn size C).
Proof.
  intros at_ rest size i C (L1 & L2). split.
  - specialize (L2 0). rewrite N.add_0_r in L2. rewrite L2. f_equal. f_equal. lia.
  - intros j. specialize (L2 (S j)). replace (i + 1 + 1 + N.of_nat j)%N with (i + 1 + N.of_nat (S j))%N by lia. rewrite L2.
    rewrite skipn_add. reflexivity.
Qed.
Lemma located_at : forall sd C, sd_ciphertext_offset sd + sd_header_size sd < sd_ciphertext_segment_size sd ->
  located (segment_at sd C) (sd_ciphertext_segment_size sd) (sd_ciphertext_segment_size sd - sd_ciphertext_offset sd - sd_header_size sd) 0
    (skipn (sd_header_size sd) C).
Proof.
  intros sd C H. split; [reflexivity |]. intros j. unfold segment_at.
  destruct (N.eqb_spec (0 + 1 + N.of_nat j) 0) as [K | _]; [lia |]. rewrite skipn_add. f_equal. f_equal.
  replace (N.to_nat (0 + 1 + N.of_nat j)) with (S j) by lia. cbn [Nat.mul]. set (x := j * _). lia.
Qed.

(** Segments of one stream, from the segment [i] on. *)
Lemma unsealed_segments : forall encrypt decrypt segs rest (at_ : N -> bytes),
  (forall i is_last s, decrypt i is_last (at_ i) = StOk s ->
     nth_error segs (N.to_nat i) = Some s /\ is_last = Nat.eqb (N.to_nat i + 1) (length segs) /\ encrypt i is_last s = StOk (at_ i)) ->
  forall size i C P whole, unsealed decrypt rest size i C P whole -> located at_ rest size i C ->
  (exists r, concat (skipn (N.to_nat i) segs) = P ++ r) /\
  (whole = true -> P = concat (skipn (N.to_nat i) segs) /\ exists D junk, sealed encrypt i (skipn (N.to_nat i) segs) D /\
     C = D ++ junk /\ (junk = [] \/ exists j, length D = size + j * rest)).
Proof.
  intros encrypt decrypt segs rest at_ O size i C P whole H.
  assert (Last : forall i s, decrypt i true (at_ i) = StOk s -> skipn (N.to_nat i) segs = [s] /\ encrypt i true s = StOk (at_ i)).
  { intros j s E. destruct (O _ _ _ E) as (K1 & K2 & K3). split; [| exact K3]. rewrite (nth_error_skipn _ _ _ _ K1). f_equal.
    apply skipn_all2. symmetry in K2. apply Nat.eqb_eq in K2. lia. }
  induction H as [size i C P L E | size i C e L E | size i C s P whole L E H IH | size i C e P L E1 E2 | size i C e e' L E1 E2]; intros Loc;
    pose proof (proj1 Loc) as At.
  - rewrite firstn_all2 in At by lia. rewrite <- At in E. destruct (Last _ _ E) as (-> & K). cbn [concat]. rewrite app_nil_r.
    split; [exists []; symmetry; apply app_nil_r |]. intros _. split; [reflexivity |].
    exists C, []. split; [apply Sealed_last; rewrite <- At; exact K |]. split; [symmetry; apply app_nil_r | left; reflexivity].
  - split; [eexists; reflexivity | discriminate].
  - specialize (IH (located_next _ _ _ _ _ Loc)). destruct IH as (IH1 & IH2). rewrite <- At in E.
    destruct (O _ _ _ E) as (K1 & K2 & K3). rewrite At in K3. replace (N.to_nat (i + 1)) with (N.to_nat i + 1) in * by lia.
    rewrite (nth_error_skipn _ _ _ _ K1). cbn [concat]. split.
    + destruct IH1 as (r & IH1). exists r. rewrite IH1, app_assoc. reflexivity.
    + intros W. destruct (IH2 W) as (-> & D & junk & HD & HC & J). split; [reflexivity |].
      exists (firstn size C ++ D), junk. split; [apply Sealed_more; [exact K3 | apply (sealed_not_nil _ _ _ _ HD) | exact HD] |].
      split; [rewrite <- app_assoc, <- HC, firstn_skipn; reflexivity |].
      destruct J as [J | (j & J)]; [left; exact J | right]. exists (S j). rewrite app_length, J, firstn_length. nia.
  - rewrite <- At in E2. destruct (Last _ _ E2) as (-> & K). rewrite At in K. cbn [concat]. rewrite app_nil_r.
    split; [exists []; symmetry; apply app_nil_r |]. intros _. split; [reflexivity |].
    exists (firstn size C), (skipn size C). split; [apply Sealed_last; exact K |]. split; [symmetry; apply firstn_skipn |].
    right. exists 0. rewrite firstn_length. lia.
  - split; [eexists; reflexivity | discriminate].
Qed.

(** The first segment decides. *)
Lemma unsealed_first : forall sd C decrypt P whole,
  sd_ciphertext_offset sd + sd_header_size sd < sd_ciphertext_segment_size sd ->
  unsealed decrypt (sd_ciphertext_segment_size sd)
    (sd_ciphertext_segment_size sd - sd_ciphertext_offset sd - sd_header_size sd) 0 (skipn (sd_header_size sd) C) P whole ->
  (P = [] /\ whole = false) \/ exists is_last s, decrypt 0%N is_last (segment_at sd C 0) = StOk s.
Proof.
  intros sd C decrypt P whole Hs H. unfold segment_at. cbn [N.eqb]. inversion H; subst; eauto 10.
  right. rewrite firstn_all2 by lia. eauto.
Qed.

(** Whatever the ciphertext is. *)
Lemma tampered_unsealed : forall sd streams C P whole,
  sd_ciphertext_offset sd + sd_header_size sd < sd_ciphertext_segment_size sd ->
  opens_only sd streams C -> headers_differ streams -> unsealed_stream sd C P whole ->
  P = [] /\ whole = false \/
  exists se Q, In (se, Q) streams /\ se_header se = firstn (sd_header_size sd) C /\ (exists rest, Q = P ++ rest) /\
    (whole = true -> P = Q /\ exists D junk, segment_encryption se P D /\ C = D ++ junk /\
       (junk = [] \/ exists k, sd_ciphertext_offset sd + length D = k * sd_ciphertext_segment_size sd)).
Proof.
  intros sd streams C P whole Hs O N H. destruct H as [L | e L E | decrypt P whole L E H]; [left; auto | left; auto |].
  specialize (O decrypt). set (header := firstn (sd_header_size sd) C) in *.
  assert (Lh : length header = sd_header_size sd) by (unfold header; rewrite firstn_length; lia).
  destruct (unsealed_first sd C decrypt P whole Hs H) as [First | (l0 & s0 & D0)]; [left; exact First | right].
  destruct (O _ _ _ E D0) as (se & Q & segs & K1 & K2 & K3 & _). exists se, Q. split; [exact K1 |].
  assert (O' : forall i is_last s, decrypt i is_last (segment_at sd C i) = StOk s ->
     nth_error segs (N.to_nat i) = Some s /\ is_last = Nat.eqb (N.to_nat i + 1) (length segs) /\
     se_encrypt se i is_last s = StOk (segment_at sd C i)).
  { intros i is_last s Hd. destruct (O _ _ _ E Hd) as (se' & Q' & segs' & J1 & J2 & J3 & J4 & J5 & J6).
    assert (X : (se, Q) = (se', Q')) by (apply (NoDup_map_inj _ _ (fun x => se_header (fst x)) streams); auto; cbn; congruence).
    injection X as <- <-. rewrite (segmented_unique _ _ _ _ J3 _ K3) in *. auto. }
  destruct (unsealed_segments (se_encrypt se) decrypt segs _ _ O' _ _ _ _ _ H (located_at sd C Hs)) as ((r & U1) & U2). cbn [N.to_nat skipn] in *.
  rewrite (segmented_concat _ _ _ _ K3) in *. split; [exact K2 |]. split; [exists r; exact U1 |].
  intros W. destruct (U2 W) as (-> & D & junk & HD & HC & J). split; [reflexivity |].
  exists (header ++ D), junk. split; [exists segs, D; split; [exact K3 |]; split; [exact HD | rewrite K2; reflexivity] |]. split.
  - rewrite <- app_assoc, <- HC. unfold header. symmetry. apply firstn_skipn.
  - destruct J as [J | (j & J)]; [left; exact J | right]. exists (S j). rewrite app_length, Lh, J. nia.
Qed.

Lemma nonce_based_tampered : forall F n new_encrypter new_decrypter ad sd streams C,
  new_decrypter ad = StOk sd -> 0 < sd_header_size sd ->
  sd_ciphertext_offset sd + sd_header_size sd < sd_ciphertext_segment_size sd -> errors_are_errors sd ->
  opens_only sd streams C -> headers_differ streams ->
  exists P whole, cc_gives F (F \/ whole = false) (whole = true) (nonce_based_streaming_aead n new_encrypter new_decrypter) ad C P /\
    (P = [] /\ whole = false \/
     exists se Q, In (se, Q) streams /\ se_header se = firstn (sd_header_size sd) C /\ (exists rest, Q = P ++ rest) /\
       (whole = true -> P = Q /\ exists D junk, segment_encryption se P D /\ C = D ++ junk /\
          (junk = [] \/ exists k, sd_ciphertext_offset sd + length D = k * sd_ciphertext_segment_size sd))).
Proof.
  intros F n new_encrypter new_decrypter ad sd streams C E Hh Hs He O N.
  destruct (unsealed_stream_exists sd C Hs) as (P & whole & U). exists P, whole. split.
  - apply (nonce_based_gives F n new_encrypter new_decrypter ad sd C P whole E Hh Hs He U).
  - apply (tampered_unsealed sd streams C P whole Hs O N U).
Qed.

(** A ciphertext that was cut off never comes to an end. *)
Lemma cut_off_unsealed : forall sd streams se Q D C cut P whole,
  sd_header_size sd = length (se_header se) ->
  sd_ciphertext_offset sd + sd_header_size sd < sd_ciphertext_segment_size sd ->
  opens_only sd streams C -> headers_differ streams ->
  In (se, Q) streams -> segment_encryption se Q D -> D = C ++ cut -> cut <> [] ->
  unsealed_stream sd C P whole -> whole = false /\ exists rest, Q = P ++ rest.
Proof.
  intros sd streams se Q D C cut P whole Hl Hs O N I HD EC NC U.
  destruct (tampered_unsealed sd streams C P whole Hs O N U) as [(-> & W) | (se' & Q' & I' & Hd & R & W)];
    [split; [exact W | exists Q; reflexivity] |].
  destruct (Nat.le_gt_cases (sd_header_size sd) (length C)) as [L | L].
  2: { destruct U; try lia. split; [reflexivity | exists Q; reflexivity]. }
  assert (X : (se, Q) = (se', Q')).
  { apply (NoDup_map_inj _ _ (fun x => se_header (fst x)) streams); auto. cbn. rewrite Hd.
    destruct HD as (segs & D0 & _ & _ & K3). rewrite EC in K3. apply (f_equal (firstn (sd_header_size sd))) in K3.
    rewrite firstn_app in K3. replace (sd_header_size sd - length C) with 0 in K3 by lia.
    rewrite firstn_O, app_nil_r in K3. rewrite K3, Hl, firstn_app, firstn_all, Nat.sub_diag, firstn_O. symmetry. apply app_nil_r. }
  injection X as <- <-. destruct whole; [| split; [reflexivity | exact R]].
  exfalso. destruct (W eq_refl) as (-> & D1 & junk & HD1 & EC1 & _). rewrite (segment_encryption_unique _ _ _ _ HD1 HD) in EC1.
  rewrite EC in EC1. apply (f_equal (@length byte)) in EC1. rewrite !app_length in EC1. destruct cut; [congruence |]. cbn in EC1. lia.
Qed.
Lemma gives_weaken : forall (F E E' Fin Fin' : Prop) cc ad C P, (E -> E') -> (Fin -> Fin') -> cc_gives F E Fin cc ad C P ->
  cc_gives F E' Fin' cc ad C P.
Proof.
  intros F E E' Fin Fin' cc ad C P HE HF G r i Hr. destruct (G r i Hr) as (d & Ed & J & J1 & J2 & J3). exists d. split; [exact Ed |].
  exists J. split; [exact J1 |]. split; [| exact J3].
  intros st i0 p r0 st' i' HJ Hn. destruct (J2 _ _ _ _ _ _ HJ Hn) as (p' & Hp & HJ'). exists p'. split; [| exact HJ'].
  inversion Hp; subst; constructor; auto.
Qed.
Lemma nonce_based_cut_off : forall F n new_encrypter new_decrypter ad sd streams se Q C cut,
  new_decrypter ad = StOk sd -> 0 < sd_header_size sd -> sd_header_size sd = length (se_header se) ->
  sd_ciphertext_offset sd + sd_header_size sd < sd_ciphertext_segment_size sd -> errors_are_errors sd ->
  opens_only sd streams C -> headers_differ streams ->
  In (se, Q) streams -> segment_encryption se Q (C ++ cut) -> cut <> [] ->
  exists P rest, cc_gives F True False (nonce_based_streaming_aead n new_encrypter new_decrypter) ad C P /\ Q = P ++ rest.
Proof.
  intros F n new_encrypter new_decrypter ad sd streams se Q C cut E Hh Hl Hs He O N I HD NC.
  destruct (unsealed_stream_exists sd C Hs) as (P & whole & U).
  pose proof (nonce_based_gives F n new_encrypter new_decrypter ad sd C P whole E Hh Hs He U) as G.
  destruct (cut_off_unsealed sd streams se Q _ C cut P whole Hl Hs O N I HD eq_refl NC U) as (-> & rest & R).
  exists P, rest. split; [| exact R]. apply (gives_weaken F (F \/ false = false) True (false = true) False _ _ _ _); [auto | discriminate | exact G].
Qed.
(** A ciphertext with an unknown header gives nothing. *)
Lemma unknown_header_unsealed : forall sd streams C P whole,
  sd_ciphertext_offset sd + sd_header_size sd < sd_ciphertext_segment_size sd ->
  opens_only sd streams C -> (forall x, In x streams -> se_header (fst x) <> firstn (sd_header_size sd) C) ->
  unsealed_stream sd C P whole -> P = [] /\ whole = false.
Proof.
  intros sd streams C P whole Hs O N H. destruct H as [L | e L E | decrypt P whole L E H]; auto.
  destruct (unsealed_first sd C decrypt P whole Hs H) as [First | (l0 & s0 & D0)]; [exact First |].
  destruct (O _ _ _ _ E D0) as (se & Q & segs & K1 & K2 & _). destruct (N _ K1 K2).
Qed.
Lemma nonce_based_unknown_header : forall F n new_encrypter new_decrypter ad sd streams C,
  new_decrypter ad = StOk sd -> 0 < sd_header_size sd ->
  sd_ciphertext_offset sd + sd_header_size sd < sd_ciphertext_segment_size sd -> errors_are_errors sd ->
  opens_only sd streams C -> (forall x, In x streams -> se_header (fst x) <> firstn (sd_header_size sd) C) ->
  cc_refuses F (nonce_based_streaming_aead n new_encrypter new_decrypter) ad C.
Proof.
  intros F n new_encrypter new_decrypter ad sd streams C E Hh Hs He O N r i Hr.
  destruct (unsealed_stream_exists sd C Hs) as (P & whole & U).
  destruct (unknown_header_unsealed sd streams C P whole Hs O N U) as (-> & ->).
  destruct (nonce_based_gives F n new_encrypter new_decrypter ad sd C [] false E Hh Hs He U r i Hr) as (d & -> & J & J1 & J2 & J3).
  exists d. split; [reflexivity |].
  exists (fun st i => exists p, J st i p /\ forall s, p = Ended s -> exists m, s = NotOk m). split.
  - exists (Open 0 0). split; [exact J1 | discriminate].
  - intros st i0 r st' i' (p & HJ & Hp) Hn. destruct (J2 _ _ _ _ _ _ HJ Hn) as (p' & Hn' & HJ').
    inversion Hn' as [q w d0 Hd | q w HF HE | q w m HE | s]; subst.
    + split; [left; f_equal; rewrite <- Hd, skipn_nil, firstn_nil; reflexivity | exists (Open (q + length d0) (length d0)); split; [exact HJ' | discriminate]].
    + discriminate.
    + split; [right; eauto |]. eexists; split; [exact HJ' |]. intros s Es. injection Es as <-. eauto.
    + split; [right; destruct (Hp s eq_refl) as (m & ->); eauto |]. eexists; split; [exact HJ' | exact Hp].
Qed.
