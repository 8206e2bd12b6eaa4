(** Encrypting in segments. *)
From Coq Require Import Strings.Byte Strings.String List NArith ZArith Bool Lia.
From Verif Require Import M_Base L_Base M_StreamTypes M_CcStream M_CcSegments S_CcStream S_CcSegments L_CcStream3 L_CcStream4.
Import ListNotations.
Open Scope list_scope.
Open Scope nat_scope.

Lemma length_resize : forall n b, length (resize n b) = n.
Proof. intros n b. unfold resize. rewrite app_length, firstn_length, repeat_length. lia. Qed.

(** WriteToStream *)
Lemma write_to_stream_done : forall n extra, write_to_stream n [] extra =
  if Nat.ltb 0 extra then OBackUp (Z.of_nat extra) (ORet (StOk tt)) else ORet (StOk tt).
Proof. destruct n; reflexivity. Qed.
Lemma write_to_stream_more : forall n remaining extra, remaining <> [] -> write_to_stream (S n) remaining extra =
  ONext (fun next_result =>
    match next_result with
    | StErr s => ORet (StErr s)
    | StOk available_space =>
        OStore 0 (firstn (Nat.min available_space (length remaining)) remaining)
          (write_to_stream n (skipn (Nat.min available_space (length remaining)) remaining)
             (available_space - Nat.min available_space (length remaining)))
    end).
Proof. intros n [| b rest] extra H; [congruence | reflexivity]. Qed.

Lemma write_to_stream_gen : forall F n remaining X T start r o',
  owrites F (OOpen (T ++ X) start) (write_to_stream n remaining (length X)) r o' -> start <= length T ->
  remaining = [] \/ X = [] ->
  match r with
  | StOk _ => exists s', s' <= length (T ++ remaining) /\ o' = OOpen (T ++ remaining) s'
  | StErr _ => F
  end.
Proof.
  intros F n. induction n as [| n IH]; intros remaining X T start r o' H Hs Hc.
  all: assert (D : remaining = [] \/ remaining <> []) by (destruct remaining; [left; reflexivity | right; discriminate]).
  all: destruct D as [-> | D].
  1, 3: rewrite write_to_stream_done in H; destruct (Nat.ltb_spec 0 (length X)) as [L | L];
    [ inversion H as [| | | ? ? ? ? ? Hk |]; subst; apply owrites_ret in Hk; destruct Hk as (-> & ->);
      exists start; split; [rewrite app_nil_r; exact Hs |]; cbn [ideal_oback_up]; rewrite app_length, Nat2Z.id, app_nil_r;
      replace (length T + length X - Nat.min (length X) (length T + length X - start)) with (length T) by lia;
      rewrite firstn_app, firstn_all, Nat.sub_diag, firstn_O, app_nil_r; reflexivity
    | apply owrites_ret in H; destruct H as (-> & ->); destruct X; [| cbn in L; lia]; exists start; split;
      [rewrite app_nil_r; exact Hs | reflexivity] ].
  - destruct remaining as [| b rest]; [congruence |]. inversion H.
  - destruct Hc as [Hc | ->]; [congruence |]. rewrite app_nil_r in H. rewrite write_to_stream_more in H by exact D.
    inversion H as [| ? ? x o1 ? ? Hn Hk | | |]; subst. clear H.
    inversion Hn as [T0 s0 junk | T0 s0 e Hf | | |]; subst.
    + inversion Hk as [| | ? ? ? ? ? ? Hst | |]; subst. clear Hk.
      remember (Nat.min (length junk) (length remaining)) as wc eqn:Ew.
      assert (Lf : length (firstn wc remaining) = wc) by (rewrite firstn_length; lia).
      cbn [ideal_store] in Hst. rewrite Nat.add_0_r, Lf in Hst.
      destruct (Nat.leb_spec (length T + wc) (length (T ++ junk))) as [_ | K]; [| rewrite app_length in K; lia].
      rewrite firstn_app, firstn_all, Nat.sub_diag, firstn_O, app_nil_r in Hst.
      rewrite skipn_app, skipn_all2 in Hst by lia. cbn [app] in Hst.
      replace (length T + wc - length T) with wc in Hst by lia.
      rewrite app_assoc in Hst. replace (length junk - wc) with (length (skipn wc junk)) in Hst by (rewrite skipn_length; reflexivity).
      apply IH in Hst.
      * rewrite <- app_assoc, firstn_skipn in Hst. exact Hst.
      * rewrite app_length. lia.
      * destruct (Nat.le_ge_cases (length remaining) (length junk)) as [K | K].
        -- left. apply skipn_all2. lia.
        -- right. apply skipn_all2. lia.
    + apply owrites_ret in Hk. destruct Hk as (-> & ->). exact Hf.
Qed.
Lemma write_to_stream_ok : forall F n data T start r o', start <= length T ->
  owrites F (OOpen T start) (write_to_stream n data 0) r o' ->
  match r with
  | StOk _ => exists s', s' <= length (T ++ data) /\ o' = OOpen (T ++ data) s'
  | StErr _ => F
  end.
Proof.
  intros F n data T start r o' Hs H. apply (write_to_stream_gen F n data [] T start r o'); [| exact Hs | right; reflexivity].
  rewrite app_nil_r. exact H.
Qed.

(** ** Segments that have been written *)
Inductive sealed_front (encrypt : N -> bool -> bytes -> st_or bytes) : N -> list bytes -> bytes -> Prop :=
| Sealed_none : forall i, sealed_front encrypt i [] []
| Sealed_next : forall i s c l D, encrypt i false s = StOk c -> sealed_front encrypt (i + 1) l D ->
    sealed_front encrypt i (s :: l) (c ++ D).
Lemma sealed_front_snoc : forall encrypt l i D s c, sealed_front encrypt i l D ->
  encrypt (i + N.of_nat (length l))%N false s = StOk c -> sealed_front encrypt i (l ++ [s]) (D ++ c).
Proof.
  intros encrypt l. induction l as [| a l IH]; intros i D s c H E; inversion H as [| ? ? c' ? D' E1 H1]; subst.
  - cbn [length N.of_nat] in E. rewrite N.add_0_r in E. cbn [app].
    rewrite <- (app_nil_r c). apply Sealed_next; [exact E | apply Sealed_none].
  - cbn [app]. rewrite <- app_assoc. apply Sealed_next; [exact E1 |]. apply IH; [exact H1 |].
    cbn [length] in E. rewrite Nat2N.inj_succ in E. rewrite <- E. f_equal. lia.
Qed.
Lemma sealed_front_last : forall encrypt l i D s c, sealed_front encrypt i l D ->
  encrypt (i + N.of_nat (length l))%N true s = StOk c -> sealed encrypt i (l ++ [s]) (D ++ c).
Proof.
  intros encrypt l. induction l as [| a l IH]; intros i D s c H E; inversion H as [| ? ? c' ? D' E1 H1]; subst.
  - cbn [length N.of_nat] in E. rewrite N.add_0_r in E. cbn [app]. apply Sealed_last. exact E.
  - cbn [app]. rewrite <- app_assoc. apply Sealed_more; [exact E1 | destruct l; discriminate |]. apply IH; [exact H1 |].
    cbn [length] in E. rewrite Nat2N.inj_succ in E. rewrite <- E. f_equal. lia.
Qed.
Fixpoint filled (rest size : nat) (l : list bytes) : Prop :=
  match l with
  | [] => True
  | s :: l' => length s = size /\ filled rest rest l'
  end.
Lemma filled_snoc : forall rest l size s, filled rest size l ->
  length s = match l with [] => size | _ => rest end -> filled rest size (l ++ [s]).
Proof.
  intros rest l. induction l as [| a l IH]; intros size s H E; cbn [app filled] in *; [auto |].
  destruct H as (H1 & H2). split; [exact H1 |]. apply IH; [exact H2 |]. destruct l; exact E.
Qed.
Lemma filled_app : forall rest l size s, filled rest size (l ++ [s]) ->
  filled rest size l /\ length s = match l with [] => size | _ => rest end.
Proof.
  intros rest l. induction l as [| a l IH]; intros size s H; cbn [app filled] in *; [tauto |].
  destruct H as (H1 & H2). apply IH in H2. destruct H2 as (H2 & H3). split; [tauto |]. destruct l; exact H3.
Qed.
Lemma filled_length : forall rest l size, filled rest size l -> l <> [] ->
  length (concat l) = size + (length l - 1) * rest.
Proof.
  intros rest l. induction l as [| a l IH]; intros size H N; [congruence |]. cbn [filled concat length] in *.
  destruct H as (H1 & H2). rewrite app_length. destruct l as [| b l].
  - cbn. lia.
  - rewrite (IH rest) by (auto; discriminate). cbn [length]. replace (S (S (length l)) - 1) with (S (S (length l) - 1)) by lia.
    cbn [Nat.mul]. lia.
Qed.
Lemma filled_segmented : forall rest l size s, filled rest size l -> length s <= match l with [] => size | _ => rest end ->
  s <> [] \/ l = [] -> segmented rest size (concat l ++ s) (l ++ [s]).
Proof.
  intros rest l. induction l as [| a l IH]; intros size s H E N; cbn [app filled concat] in *.
  - apply Segmented_last. exact E.
  - destruct H as (H1 & H2). destruct N as [N | N]; [| discriminate]. rewrite <- app_assoc.
    apply Segmented_more; [exact H1 | intros Z; apply app_eq_nil in Z; tauto |].
    apply IH; [exact H2 | destruct l; exact E | left; exact N].
Qed.

(** Stores into a part of a buffer. *)
Lemma store_firstn : forall k at_ (d buf : bytes), at_ + length d <= k -> k <= length buf ->
  firstn at_ (firstn k buf) ++ d ++ skipn (at_ + length d) (firstn k buf) =
  firstn k (firstn at_ buf ++ d ++ skipn (at_ + length d) buf).
Proof.
  intros k at_ d buf H K. rewrite firstn_firstn, Nat.min_l by lia.
  rewrite firstn_app, firstn_firstn, firstn_length, (Nat.min_l at_ (length buf)), (Nat.min_r k at_) by lia. f_equal.
  rewrite firstn_app, (firstn_all2 d) by lia. f_equal. rewrite skipn_firstn_comm. f_equal. lia.
Qed.

(** ** The encrypting stream *)
Section Encrypting.
  Variables (F : Prop) (n : nat) (se : segment_encrypter) (m : N).
  Hypothesis (Space : has_space se) (Takes : takes_segments se m).
  Local Notation ps := (se_plaintext_segment_size se).
  Local Notation first := (first_segment_size se).
  Local Notation header := (se_header se).
  Local Notation cap := (capacity se m).

  Lemma first_pos : 0 < first.
  Proof. unfold has_space in Space. unfold first_segment_size. lia. Qed.
  Lemma first_le : first <= ps.
  Proof. unfold first_segment_size. lia. Qed.
  Lemma cap_eq : cap = first + N.to_nat (m - 1) * ps.
  Proof. reflexivity. Qed.
  Lemma encrypt_error : forall i is_last s e, length s <= ps -> se_encrypt se i is_last s = StErr e ->
    (m <= i + (if is_last then 0 else 1))%N.
  Proof.
    intros i is_last s e L E. destruct Takes as (_ & T). destruct (N.le_gt_cases m (i + (if is_last then 0 else 1))) as [K | K]; [exact K |].
    exfalso. destruct (T i is_last s L) as (c & Ec); [destruct is_last; lia | congruence].
  Qed.

  Inductive enc_inv : enc_segments -> ostate -> ostate -> Prop :=
  | Enc_live : forall (buf te : bytes) (is_first : bool) backedup offset segs (D : bytes) s0,
      backedup <= length buf -> offset <= length buf - backedup ->
      s0 <= length (if is_first then [] else header ++ D) ->
      sealed_front (se_encrypt se) 0 segs D ->
      (te = [] /\ segs = [] /\ length buf = first \/
       te <> [] /\ filled ps first (segs ++ [te]) /\ length buf = ps) ->
      (is_first = true -> te = [] /\ segs = [] /\ backedup = length buf /\ offset = 0) ->
      enc_inv (mk_enc_segments buf te is_first backedup offset (N.of_nat (length segs)) None)
        (OOpen (if is_first then [] else header ++ D) s0)
        (OOpen ((concat segs ++ te) ++ firstn (length buf - backedup) buf) (length (concat segs ++ te) + offset))
  | Enc_failed : forall st o T, eg_status st <> None -> enc_inv st o (OFailed T)
  | Enc_closed : forall st C P, eg_status st <> None -> segment_encryption se P C -> enc_inv st (OClosed C) (OClosed P)
  | Enc_unspecified : forall st o, enc_inv st o OUnspecified.

  Lemma enc_inv_init : enc_inv (mk_enc_segments (resize first []) [] true first 0 0 None) (OOpen [] 0) (OOpen [] 0).
  Proof.
    pose proof (Enc_live (resize first []) [] true first 0 [] [] 0) as H. rewrite length_resize in H.
    rewrite Nat.sub_diag in H. cbn [length concat app Nat.add N.of_nat firstn] in H. apply H; auto; try lia.
    apply Sealed_none.
  Qed.
  Lemma enc_inv_store : forall st o p i d, enc_inv st o p -> enc_inv (eg_store st i d) o (ideal_store p i d).
  Proof.
    intros st o p i d H.
    assert (S : eg_status (eg_store st i d) = eg_status st).
    { unfold eg_store. destruct (Nat.leb _ _); reflexivity. }
    inversion H as [buf te f bk off segs D s0 H1 H2 H3 H4 H5 H6 | st0 o0 T H1 | st0 C P H1 H2 | st0 o0]; subst.
    2: { apply Enc_failed. rewrite S. exact H1. }
    2: { apply Enc_closed; [rewrite S; exact H1 | exact H2]. }
    2: { apply Enc_unspecified. }
    clear S H. unfold eg_store. cbn [eg_offset eg_pt_buffer eg_count_backedup eg_pt_to_encrypt eg_is_first eg_number eg_status].
    cbn [ideal_store]. set (A := concat segs ++ te) in *.
    rewrite app_length, firstn_length, (Nat.min_l (length buf - bk)) by lia.
    destruct (Nat.leb_spec (off + i + length d) (length buf - bk)) as [L | L];
      destruct (Nat.leb_spec (length A + off + i + length d) (length A + (length buf - bk))) as [L' | L']; try lia.
    - replace (length A + off + i) with (length A + (off + i)) by lia.
      rewrite firstn_app_2, skipn_app, (skipn_all2 A) by lia. cbn [app].
      replace (length A + (off + i) + length d - length A) with (off + i + length d) by lia.
      rewrite <- app_assoc, store_firstn by lia.
      assert (LB : length (firstn (off + i) buf ++ d ++ skipn (off + i + length d) buf) = length buf).
      { rewrite !app_length, firstn_length, skipn_length. lia. }
      rewrite <- LB. apply Enc_live; rewrite ?LB; auto.
    - apply Enc_unspecified.
  Qed.
  Lemma enc_inv_back_up : forall st o p c, enc_inv st o p -> enc_inv (eg_back_up st c) o (ideal_oback_up p c).
  Proof.
    intros st o p c H.
    assert (S : eg_status (eg_back_up st c) = eg_status st).
    { unfold eg_back_up. destruct (_ || _)%bool; reflexivity. }
    inversion H as [buf te f bk off segs D s0 H1 H2 H3 H4 H5 H6 | st0 o0 T H1 | st0 C P H1 H2 | st0 o0]; subst.
    2: { apply Enc_failed. rewrite S. exact H1. }
    2: { apply Enc_closed; [rewrite S; exact H1 | exact H2]. }
    2: { apply Enc_unspecified. }
    clear S. cbn [ideal_oback_up]. set (A := concat segs ++ te) in *.
    rewrite app_length, firstn_length, (Nat.min_l (length buf - bk)) by lia.
    replace (length A + (length buf - bk) - (length A + off)) with (length buf - bk - off) by lia.
    unfold eg_back_up. cbn [eg_offset eg_pt_buffer eg_count_backedup eg_pt_to_encrypt eg_is_first eg_number eg_status].
    assert (E : forall k, k <= length buf - bk - off ->
      firstn (length A + (length buf - bk) - k) (A ++ firstn (length buf - bk) buf) = A ++ firstn (length buf - (bk + k)) buf).
    { intros k K. replace (length A + (length buf - bk) - k) with (length A + (length buf - (bk + k))) by lia.
      rewrite firstn_app_2, firstn_firstn. f_equal. f_equal. lia. }
    destruct f.
    - destruct (H6 eq_refl) as (-> & -> & -> & ->). cbn [orb].
      rewrite E by lia. replace (length buf - (length buf + Nat.min (Z.to_nat c) (length buf - length buf - 0))) with (length buf - length buf) by lia.
      exact H.
    - cbn [orb]. destruct (Z.ltb_spec c 1) as [L | L].
      + replace (Nat.min (Z.to_nat c) (length buf - bk - off)) with 0 by lia. rewrite E, Nat.add_0_r by lia. exact H.
      + rewrite E by lia. replace (length buf - off - bk) with (length buf - bk - off) by lia.
        apply (Enc_live buf te false _ off segs D s0); auto; lia.
  Qed.

  Lemma eg_write_segment_ok : forall buf te f bk off segs D s0 segment (is_last : bool) r st' o',
    s0 <= length (header ++ D) -> sealed_front (se_encrypt se) 0 segs D -> length segment <= ps ->
    owrites F (OOpen (header ++ D) s0)
      (eg_write_segment n se (mk_enc_segments buf te f bk off (N.of_nat (length segs)) None) segment is_last) (r, st') o' ->
    match r with
    | StOk _ => exists c s1, se_encrypt se (N.of_nat (length segs)) is_last segment = StOk c /\
        s1 <= length (header ++ D ++ c) /\ o' = OOpen (header ++ D ++ c) s1 /\
        st' = mk_enc_segments buf te f bk off (N.of_nat (length segs) + 1) None
    | StErr _ => eg_status st' <> None /\ (F \/ (m <= N.of_nat (length segs) + (if is_last then 0 else 1))%N)
    end.
  Proof.
    intros buf te f bk off segs D s0 segment is_last r st' o' Hs Hd Hl H. unfold eg_write_segment in H. cbn [eg_number] in H.
    destruct (se_encrypt se (N.of_nat (length segs)) is_last segment) as [c | e] eqn:E.
    - apply owrites_bind in H. destruct H as (x & o1 & Hw & Hk). apply (write_to_stream_ok _ _ _ _ _ _ _ Hs) in Hw.
      destruct x as [u | e]; apply owrites_ret in Hk; destruct Hk as (E1 & E2); injection E1; intros -> ->.
      + destruct Hw as (s1 & L1 & ->). rewrite <- app_assoc in *. exists c, s1. auto.
      + split; [discriminate | left; exact Hw].
    - apply owrites_ret in H. destruct H as (E1 & E2). injection E1. intros -> ->. split; [discriminate |]. right.
      apply (encrypt_error _ _ _ _ Hl E).
  Qed.

  Lemma phase_length : forall segs te, filled ps first (segs ++ [te]) -> length (concat segs ++ te) = first + length segs * ps.
  Proof.
    intros segs te H. apply filled_length in H; [| destruct segs; discriminate].
    rewrite concat_app in H. cbn [concat] in H. rewrite app_nil_r in H. rewrite H, app_length. cbn [length].
    replace (length segs + 1 - 1) with (length segs) by lia. reflexivity.
  Qed.
  Lemma phase_te : forall segs te, filled ps first (segs ++ [te]) -> length te <= ps.
  Proof. intros segs te H. apply filled_app in H. destruct H as (_ & H). pose proof first_le. destruct segs; lia. Qed.
  Lemma pos_ps : 0 < ps.
  Proof. pose proof first_pos. pose proof first_le. lia. Qed.

  Lemma eg_next_ok : forall st o p r st' o', enc_inv st o p -> owrites F o (eg_next n se st) (r, st') o' ->
    exists p', ideal_onext (F \/ cap < size_of p) p r p' /\ enc_inv st' o' p'.
  Proof.
    intros st o p r st' o' H W.
    inversion H as [buf te f bk off segs D s0 H1 H2 H3 H4 H5 H6 | st0 o0 T H1 | st0 C P H1 H2 | st0 o0]; subst; unfold eg_next in W.
    2: { destruct (eg_status st) as [s |] eqn:E; [| congruence]. apply owrites_ret in W. destruct W as (W1 & W2).
         injection W1. intros -> ->. exists (OFailed T). split; [apply ON_failed | apply Enc_failed; congruence]. }
    2: { destruct (eg_status st) as [s |] eqn:E; [| congruence]. apply owrites_ret in W. destruct W as (W1 & W2).
         injection W1. intros -> ->. subst o'. exists (OClosed P). split; [apply ON_closed | apply Enc_closed; [congruence | exact H2]]. }
    2: { exists OUnspecified. split; [apply ON_unspecified | apply Enc_unspecified]. }
    cbn [eg_offset eg_pt_buffer eg_count_backedup eg_pt_to_encrypt eg_is_first eg_number eg_status] in W.
    destruct f.
    - destruct (H6 eq_refl) as (-> & -> & -> & ->). apply owrites_bind in W. destruct W as (x & o1 & Hw & Hk).
      apply (write_to_stream_ok _ _ _ _ _ _ _ H3) in Hw.
      rewrite Nat.sub_diag. cbn [concat app length Nat.add firstn].
      destruct x as [u | e]; apply owrites_ret in Hk; destruct Hk as (E1 & E2); injection E1; intros -> ->.
      + destruct Hw as (s1 & L1 & ->). exists (OOpen ([] ++ buf) 0). split; [apply (ON_space _ [] 0 buf) |]. subst o'.
        pose proof (Enc_live buf [] false 0 0 [] [] s1) as K. rewrite Nat.sub_0_r, firstn_all, app_nil_r in K.
        cbn [concat app length Nat.add] in K. inversion H4; subst. apply K; auto; try lia; try discriminate.
      + exists (OFailed []). split; [apply ON_error; left; exact Hw | apply Enc_failed; discriminate].
    - destruct (Nat.ltb_spec 0 bk) as [L | L].
      + apply owrites_ret in W. destruct W as (E1 & E2). injection E1; intros -> ->. subst o'. clear E1.
        set (A := concat segs ++ te) in *.
        exists (OOpen ((A ++ firstn (length buf - bk) buf) ++ skipn (length buf - bk) buf) (length (A ++ firstn (length buf - bk) buf))).
        split.
        * replace bk with (length (skipn (length buf - bk) buf)) at 3 by (rewrite skipn_length; lia). apply ON_space.
        * rewrite <- app_assoc, firstn_skipn, app_length, firstn_length, (Nat.min_l (length buf - bk)) by lia.
          pose proof (Enc_live buf te false 0 (length buf - bk) segs D s0) as K. rewrite Nat.sub_0_r, firstn_all in K.
          apply K; auto; try lia; discriminate.
      + assert (bk = 0) by lia. subst bk. rewrite Nat.sub_0_r, firstn_all in *. clear L.
        destruct H5 as [(-> & -> & Lb) | (Ht & Hf & Lb)].
        * apply owrites_ret in W. destruct W as (E1 & E2). unfold eg_fresh in E1.
          cbn [eg_offset eg_pt_buffer eg_count_backedup eg_pt_to_encrypt eg_is_first eg_number eg_status] in E1.
          injection E1; intros -> ->. subst o'. clear E1. cbn [concat app].
          exists (OOpen (buf ++ resize ps []) (length buf)). split; [apply ON_space |].
          pose proof (Enc_live (resize ps []) buf false 0 0 [] D s0) as K.
          rewrite Nat.sub_0_r, firstn_all, Nat.add_0_r in K. cbn [concat app] in K. apply K; auto; try lia; try discriminate.
          right. repeat split; [| exact Lb | apply length_resize].
          intros ->. pose proof first_pos. cbn in Lb. lia.
        * destruct te as [| b te0]; [congruence |]. remember (b :: te0) as te eqn:Ete. clear Ete.
          apply owrites_bind in W. destruct W as ((x & st1) & o1 & Hw & Hk).
          apply (eg_write_segment_ok _ _ _ _ _ _ _ _ _ _ _ _ _ H3 H4 (phase_te _ _ Hf)) in Hw. cbn [fst snd] in Hk.
          destruct x as [u | e]; apply owrites_ret in Hk; destruct Hk as (E1 & E2).
          -- destruct Hw as (c & s1 & Ec & L1 & -> & ->). unfold eg_fresh in E1.
             cbn [eg_offset eg_pt_buffer eg_count_backedup eg_pt_to_encrypt eg_is_first eg_number eg_status] in E1.
             injection E1; intros -> ->. subst o'. clear E1.
             exists (OOpen (((concat segs ++ te) ++ buf) ++ resize ps te) (length ((concat segs ++ te) ++ buf))). split; [apply ON_space |].
             pose proof (Enc_live (resize ps te) buf false 0 0 (segs ++ [te]) (D ++ c) s1) as K.
             rewrite Nat.sub_0_r, firstn_all, Nat.add_0_r, concat_app in K. cbn [concat] in K. rewrite app_nil_r in K.
             rewrite (app_length segs [te]), Nat2N.inj_add in K. apply K; auto; try lia; try discriminate.
             ++ apply sealed_front_snoc; [exact H4 | exact Ec].
             ++ right. repeat split.
                ** intros ->. pose proof pos_ps. cbn in Lb. lia.
                ** apply filled_snoc; [exact Hf |]. destruct segs; exact Lb.
                ** apply length_resize.
          -- injection E1; intros -> ->. destruct Hw as (Hst & Hw).
             exists (OFailed ((concat segs ++ te) ++ buf)). split; [| apply Enc_failed; exact Hst]. apply ON_error.
             destruct Hw as [Hw | Hw]; [left; exact Hw | right]. cbn [size_of]. rewrite app_length, (phase_length _ _ Hf).
             rewrite cap_eq. destruct Takes as (M & _). assert (N.to_nat (m - 1) <= length segs) by lia. pose proof pos_ps. nia.
  Qed.

  Lemma eg_last_ok : forall buf te f bk off segs D s0 segment P start r st' o',
    s0 <= length (header ++ D) -> sealed_front (se_encrypt se) 0 segs D -> length segment <= ps ->
    segmented ps first P (segs ++ [segment]) ->
    ((m <= N.of_nat (length segs))%N -> cap < length P) ->
    owrites F (OOpen (header ++ D) s0)
      (oio_bind (eg_write_segment n se (mk_enc_segments buf te f bk off (N.of_nat (length segs)) None) segment true) (fun x =>
         eg_or_close x (fun st' => OClose (fun r => ORet (r, eg_fail st' (NotOk "Stream closed")))))) (r, st') o' ->
    exists p', ideal_close (F \/ cap < length P) (OOpen P start) r p' /\ enc_inv st' o' p'.
  Proof.
    intros buf te f bk off segs D s0 segment P start r st' o' Hs Hd Hl Hseg Hc W.
    apply owrites_bind in W. destruct W as ((x & st1) & o1 & Hw & Hk).
    apply (eg_write_segment_ok _ _ _ _ _ _ _ _ _ _ _ _ _ Hs Hd Hl) in Hw. unfold eg_or_close in Hk. cbn [fst snd] in Hk.
    destruct x as [u | e].
    - destruct Hw as (c & s1 & Ec & L1 & -> & ->). inversion Hk as [| | | | ? ? x o1 ? ? Hcl Hr]; subst. clear Hk.
      apply owrites_ret in Hr. destruct Hr as (E1 & E2). injection E1; intros -> ->. subst o1.
      inversion Hcl as [? ? | ? ? e ? Hf Ho | | |]; subst.
      + exists (OClosed P). split; [apply OC_ok |]. apply Enc_closed; [discriminate |].
        exists (segs ++ [segment]), (D ++ c). split; [exact Hseg |]. split; [| reflexivity].
        apply sealed_front_last; [exact Hd | exact Ec].
      + exists (OFailed P). split; [apply OC_error; [left; exact Hf | right; reflexivity] | apply Enc_failed; discriminate].
    - destruct Hw as (Hst & Hw). inversion Hk as [| | | | ? ? x o2 ? ? Hcl Hr]; subst. clear Hk.
      apply owrites_ret in Hr. destruct Hr as (E1 & E2). injection E1; intros -> ->.
      exists (OFailed P). split; [| apply Enc_failed; exact Hst]. apply OC_error; [| right; reflexivity].
      destruct Hw as [Hw | Hw]; [left; exact Hw | right; apply Hc; lia].
  Qed.
  Lemma eg_finish_ok : forall buf te f bk off segs D s0 r st' o',
    bk <= length buf -> off <= length buf - bk -> s0 <= length (header ++ D) ->
    sealed_front (se_encrypt se) 0 segs D ->
    (te = [] /\ segs = [] /\ length buf = first \/ te <> [] /\ filled ps first (segs ++ [te]) /\ length buf = ps) ->
    owrites F (OOpen (header ++ D) s0)
      (eg_finish n se (mk_enc_segments buf te f bk off (N.of_nat (length segs)) None)) (r, st') o' ->
    forall P start, P = (concat segs ++ te) ++ firstn (length buf - bk) buf ->
    exists p', ideal_close (F \/ cap < length P) (OOpen P start) r p' /\ enc_inv st' o' p'.
  Proof.
    intros buf te f bk off segs D s0 r st' o' H1 H2 H3 H4 H5 W P start HP. unfold eg_finish in W.
    cbn [eg_offset eg_pt_buffer eg_count_backedup eg_pt_to_encrypt eg_is_first eg_number eg_status] in W.
    pose proof pos_ps as PP. pose proof first_le as FL. destruct Takes as (M & _).
    destruct (Nat.ltb_spec bk (length buf)) as [L | L].
    - destruct H5 as [(-> & -> & Lb) | (Ht & Hf & Lb)].
      + apply (eg_last_ok _ _ _ _ _ [] D _ _ P start) in W; auto.
        * rewrite firstn_length. lia.
        * subst P. cbn [concat app]. apply Segmented_last. rewrite firstn_length. lia.
        * cbn [length N.of_nat]. lia.
      + destruct te as [| b te0]; [congruence |]. remember (b :: te0) as te eqn:Ete. clear Ete.
        apply owrites_bind in W. destruct W as ((x & st1) & o1 & Hw & Hk).
        apply (eg_write_segment_ok _ _ _ _ _ _ _ _ _ _ _ _ _ H3 H4 (phase_te _ _ Hf)) in Hw.
        unfold eg_or_close at 1 in Hk. cbn [fst snd] in Hk.
        assert (LP : length P = first + length segs * ps + (length buf - bk)).
        { subst P. rewrite app_length, (phase_length _ _ Hf), firstn_length. lia. }
        destruct x as [u | e].
        * destruct Hw as (c & s1 & Ec & L1 & -> & ->).
          replace (N.of_nat (length segs) + 1)%N with (N.of_nat (length (segs ++ [te]))) in Hk by (rewrite app_length, Nat2N.inj_add; reflexivity).
          apply (eg_last_ok _ _ _ _ _ (segs ++ [te]) (D ++ c) _ _ P start) in Hk; auto.
          -- apply sealed_front_snoc; [exact H4 | exact Ec].
          -- rewrite firstn_length. lia.
          -- subst P. replace (concat segs ++ te) with (concat (segs ++ [te])) by (rewrite concat_app; cbn; rewrite app_nil_r; reflexivity).
             apply filled_segmented; [exact Hf | rewrite firstn_length; destruct segs; cbn [app]; lia |].
             left. intros Z. apply (f_equal (@length byte)) in Z. rewrite firstn_length in Z. cbn in Z. lia.
          -- rewrite app_length. cbn [length]. intros K. rewrite cap_eq. assert (N.to_nat (m - 1) <= length segs) by lia. nia.
        * destruct Hw as (Hst & Hw). inversion Hk as [| | | | ? ? x o2 ? ? Hcl Hr]; subst. clear Hk.
          apply owrites_ret in Hr. destruct Hr as (E1 & E2). injection E1; intros -> ->.
          exists (OFailed ((concat segs ++ te) ++ firstn (length buf - bk) buf)). split; [| apply Enc_failed; exact Hst].
          apply OC_error; [| right; reflexivity]. destruct Hw as [Hw | Hw]; [left; exact Hw | right]. rewrite LP, cap_eq.
          assert (N.to_nat (m - 1) <= length segs) by lia. nia.
    - replace (length buf - bk) with 0 in HP by lia. cbn [firstn] in HP. rewrite app_nil_r in HP.
      apply (eg_last_ok _ _ _ _ _ segs D _ _ P start) in W; auto.
      + destruct H5 as [(-> & -> & Lb) | (Ht & Hf & Lb)]; [cbn; lia | apply (phase_te _ _ Hf)].
      + subst P. destruct H5 as [(-> & -> & Lb) | (Ht & Hf & Lb)].
        * apply Segmented_last. cbn. lia.
        * pose proof (filled_app _ _ _ _ Hf) as (Hf1 & Hf2). apply filled_segmented; [exact Hf1 | lia | left; exact Ht].
      + intros K. subst P. destruct H5 as [(-> & -> & Lb) | (Ht & Hf & Lb)]; [cbn in K; lia |].
        rewrite (phase_length _ _ Hf), cap_eq. assert (S (N.to_nat (m - 1)) <= length segs) by lia. nia.
  Qed.
  Lemma eg_close_ok : forall st o p r st' o', enc_inv st o p -> owrites F o (eg_close n se st) (r, st') o' ->
    exists p', ideal_close (F \/ cap < size_of p) p r p' /\ enc_inv st' o' p'.
  Proof.
    intros st o p r st' o' H W.
    inversion H as [buf te f bk off segs D s0 H1 H2 H3 H4 H5 H6 | st0 o0 T H1 | st0 C P H1 H2 | st0 o0]; subst; unfold eg_close in W.
    2: { destruct (eg_status st) as [s |] eqn:E; [| congruence]. apply owrites_ret in W. destruct W as (W1 & W2).
         injection W1. intros -> ->. exists (OFailed T). split; [apply OC_failed | apply Enc_failed; congruence]. }
    2: { destruct (eg_status st) as [s |] eqn:E; [| congruence]. apply owrites_ret in W. destruct W as (W1 & W2).
         injection W1. intros -> ->. subst o'. exists (OClosed P). split; [apply OC_closed | apply Enc_closed; [congruence | exact H2]]. }
    2: { exists OUnspecified. split; [apply OC_unspecified | apply Enc_unspecified]. }
    cbn [eg_offset eg_pt_buffer eg_count_backedup eg_pt_to_encrypt eg_is_first eg_number eg_status] in W. cbn [size_of].
    destruct f.
    - destruct (H6 eq_refl) as (-> & -> & -> & ->). apply owrites_bind in W. destruct W as (x & o1 & Hw & Hk).
      apply (write_to_stream_ok _ _ _ _ _ _ _ H3) in Hw. inversion H4; subst. destruct x as [u | e].
      + destruct Hw as (s1 & L1 & ->). cbn [app] in *. rewrite <- (app_nil_r header) in Hk at 1. rewrite <- (app_nil_r header) in L1.
        apply (eg_finish_ok _ _ _ _ _ [] _ _ _ _ _ H1 H2 L1 H4 H5 Hk). reflexivity.
      + apply owrites_ret in Hk. destruct Hk as (E1 & E2). injection E1; intros -> ->.
        eexists. split; [apply OC_error; [left; exact Hw | right; reflexivity] | apply Enc_failed; discriminate].
    - apply (eg_finish_ok _ _ _ _ _ _ _ _ _ _ _ H1 H2 H3 H4 H5 W). reflexivity.
  Qed.

  Lemma segment_stream_encrypts : stream_encrypts F cap (segment_encryption se) (segment_encrypting_stream n se) (OOpen [] 0).
  Proof.
    exists enc_inv. split; [apply enc_inv_init |]. split; [apply eg_next_ok |]. split.
    { intros st o p i d st' o' H W. cbn in W. apply owrites_ret in W. destruct W as (-> & ->). apply enc_inv_store. exact H. }
    split.
    { intros st o p c st' o' H W. cbn in W. apply owrites_ret in W. destruct W as (-> & ->). apply enc_inv_back_up. exact H. }
    split; [apply eg_close_ok |].
    intros st o P H. inversion H; subst. eauto.
  Qed.
End Encrypting.
