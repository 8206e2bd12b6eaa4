(** Input streams between Python and C++. *)
From Coq Require Import Strings.String List NArith ZArith Bool Lia.
From Verif Require Import M_Base L_Base M_StreamTypes M_CcStream M_Stream S_Stream S_CcStream L_Stream L_Stream2.
Import ListNotations.
Open Scope list_scope.
Open Scope Z_scope.

Lemma reads_bind : forall A B X C (m : rio A) (f : A -> rio B) p b p'',
  reads X C p (rio_bind m f) b p'' <-> exists a p', reads X C p m a p' /\ reads X C p' (f a) b p''.
Proof.
  intros A B X C m f. induction m as [a | n k IH |]; intros p b p''; cbn; [| | split; [intros H; inversion H | intros (a & p' & H & _); inversion H]].
  - split; [intros H; exists a, p; split; [constructor | exact H] |].
    intros (a' & p' & H1 & H2). inversion H1; subst. exact H2.
  - split.
    + intros H. inversion H; subst. match goal with K : reads _ _ _ (rio_bind _ _) _ _ |- _ => apply IH in K; destruct K as (a & p2 & K1 & K2) end.
      exists a, p2. split; [econstructor; eauto | exact K2].
    + intros (a & p' & H1 & H2). inversion H1; subst. econstructor; [eassumption |]. apply IH. eauto.
Qed.
Lemma reads_ret : forall A X C p (a b : A) p', reads X C p (RRet a) b p' <-> b = a /\ p' = p.
Proof. intros. split; [intros H; inversion H; auto | intros (-> & ->); constructor]. Qed.

Lemma ireads_bind : forall A B F C (m : iio A) (f : A -> iio B) s b s'',
  ireads F C s (iio_bind m f) b s'' <-> exists a s', ireads F C s m a s' /\ ireads F C s' (f a) b s''.
Proof.
  intros A B F C m f. induction m as [a | k IH | c k IH |]; intros s b s''; cbn; [| | | split; [intros H; inversion H | intros (a & p' & H & _); inversion H]].
  - split; [intros H; exists a, s; split; [constructor | exact H] |].
    intros (a' & p' & H1 & H2). inversion H1; subst. exact H2.
  - split.
    + intros H. inversion H; subst. match goal with K : ireads _ _ _ (iio_bind _ _) _ _ |- _ => apply IH in K; destruct K as (a & p2 & K1 & K2) end.
      exists a, p2. split; [econstructor; eauto | exact K2].
    + intros (a & p' & H1 & H2). inversion H1; subst. econstructor; [eassumption |]. apply IH. eauto.
  - split.
    + intros H. inversion H; subst. match goal with K : ireads _ _ _ (iio_bind _ _) _ _ |- _ => apply IH in K; destruct K as (a & p2 & K1 & K2) end.
      exists a, p2. split; [econstructor; eauto | exact K2].
    + intros (a & p' & H1 & H2). inversion H1; subst. econstructor. apply IH. eauto.
Qed.
Lemma ireads_ret : forall A F C s (a b : A) s', ireads F C s (IRet a) b s' <-> b = a /\ s' = s.
Proof. intros. split; [intros H; inversion H; auto | intros (-> & ->); constructor]. Qed.

(** ** PythonInputStream *)
Section Input.
  Context (what : exn -> string) (X : exn -> Prop) (C : bytes).
  Hypothesis clear : eof_is_clear what X.

  (** The stream is in state [s], the file at position [q]; it implements [i]. *)
  Definition in_rel (s : input_stream) (q : nat) (i : istate) : Prop :=
    match i with
    | Ended st => is_status s = Some st
    | Open p w => is_status s = None /\ is_buffer s <> [] /\ is_position s = Z.of_nat p /\
        (is_count_backedup s <= is_count_in_buffer s)%nat /\ q = (p + is_count_backedup s)%nat /\
        w = (is_count_in_buffer s - is_count_backedup s)%nat /\ (is_count_in_buffer s <= q)%nat /\ (q <= length C)%nat /\
        firstn (is_count_in_buffer s) (skipn (is_buffer_offset s) (is_buffer s)) =
          firstn (is_count_in_buffer s) (skipn (q - is_count_in_buffer s) C)
    end.

  Lemma in_rel_new : forall buffer, buffer <> [] -> in_rel (new_input_stream buffer) 0 (Open 0 0).
  Proof. intros buffer H. cbn. repeat split; auto; lia. Qed.

  Lemma firstn_skipn_len : forall {A} (l : list A) a b, (a + b <= length l)%nat -> length (firstn b (skipn a l)) = b.
  Proof. intros. rewrite firstn_length, skipn_length. lia. Qed.

  Lemma input_next_ok : forall s q i r s' q', in_rel s q i -> reads X C q (input_next what s) (r, s') q' ->
    exists i', ideal_next (raises X) C i r i' /\ in_rel s' q' i'.
  Proof.
    intros s q i r s' q' R H. unfold input_next in H. destruct i as [p w | st].
    - destruct R as (R1 & R2 & R3 & R4 & R5 & R6 & R7 & R8 & R9). rewrite R1 in H.
      destruct (Nat.ltb_spec 0 (is_count_backedup s)) as [Hb | Hb].
      + apply reads_ret in H. destruct H as (H & ->). pose proof (f_equal fst H) as H1. pose proof (f_equal snd H) as H2. cbn in H1, H2. subst r s'.
        set (d := firstn (is_count_backedup s) (skipn (is_buffer_offset s + (is_count_in_buffer s - is_count_backedup s)) (is_buffer s))).
        assert (Ed : d = firstn (is_count_backedup s) (skipn p C)).
        { unfold d. rewrite <- (Nat.add_comm (is_count_in_buffer s - is_count_backedup s)), <- skipn_skipn.
          assert (K : forall l m : bytes, firstn (is_count_in_buffer s) l = firstn (is_count_in_buffer s) m ->
                   firstn (is_count_backedup s) (skipn (is_count_in_buffer s - is_count_backedup s) l) =
                   firstn (is_count_backedup s) (skipn (is_count_in_buffer s - is_count_backedup s) m)).
          { intros l m E. assert (Z1 : forall l : bytes, firstn (is_count_backedup s) (skipn (is_count_in_buffer s - is_count_backedup s) l) =
                skipn (is_count_in_buffer s - is_count_backedup s) (firstn (is_count_in_buffer s) l)).
            { intros l0. rewrite skipn_firstn_comm. f_equal. lia. }
            rewrite !Z1, E. reflexivity. }
          rewrite (K _ _ R9), skipn_skipn. do 2 f_equal. lia. }
        assert (Ld : length d = is_count_backedup s).
        { rewrite Ed, firstn_length, skipn_length. lia. }
        exists (Open (p + length d) (length d)). split.
        * constructor. rewrite Ld. symmetry. exact Ed.
        * cbn [in_rel is_status is_buffer is_position is_count_backedup is_count_in_buffer is_buffer_offset].
          rewrite Ld. repeat split; auto; try lia.
          fold d. rewrite Ed. do 2 f_equal. lia.
      + assert (E0 : is_count_backedup s = 0%nat) by lia. apply reads_bind in H. destruct H as (x & p1 & H1 & H2).
        apply reads_ret in H2. destruct H2 as (H2 & Eq1). subst p1. unfold adapter_read in H1.
        destruct (Z.ltb_spec (Z.of_nat (length (is_buffer s))) 0) as [K | _]; [lia |].
        inversion H1 as [| ? ? ? a0 p2 ? ? Hf Hk]; subst. apply reads_ret in Hk. destruct Hk as (-> & Eq2). subst p2.
        assert (Hq : (p + is_count_backedup s)%nat = p) by lia. rewrite Hq in *.
        assert (Hbuf : (0 < length (is_buffer s))%nat) by (destruct (is_buffer s); [contradiction | cbn; lia]).
        assert (Done : forall d : bytes, firstn (length d) (skipn p C) = d -> (r, s') = input_next_new s (StOk d) ->
                       q' = (p + length d)%nat ->
                       exists i', ideal_next (raises X) C (Open p (is_count_in_buffer s - is_count_backedup s)) r i' /\ in_rel s' q' i').
        { intros d Hd E Eq. unfold input_next_new in E. injection E as -> ->.
          assert (Hle : (length d <= length C - p)%nat).
          { rewrite <- Hd, firstn_length, skipn_length. lia. }
          rewrite firstn_app, firstn_all, Nat.sub_diag, firstn_O, app_nil_r.
          exists (Open (p + length d) (length d)). split; [constructor; exact Hd |].
          cbn [in_rel is_status is_buffer is_position is_count_backedup is_count_in_buffer is_buffer_offset].
          repeat split; auto; try lia.
          - intros K. apply (f_equal (@length _)) in K. rewrite app_length, skipn_length in K. cbn in K. lia.
          - cbn [skipn]. rewrite firstn_app, firstn_all, Nat.sub_diag, firstn_O, app_nil_r, Eq.
            replace (p + length d - length d)%nat with p by lia. symmetry. exact Hd. }
        destruct (clear) as (Ce & Cx).
        inversion Hf as [d Hd Hs Hc | He | | e p3 Hx Hp Hz]; subst; cbn [file_read_answer] in H2.
        * destruct d as [| b d]; [contradiction |]. cbn [file_read_answer trampoline] in H2. eapply Done; [exact Hc | exact H2 | reflexivity].
        * destruct (Z.ltb_spec 0 (Z.of_nat (length (is_buffer s)))) as [_ | K]; [| lia].
          cbn [trampoline input_next_new is_eof] in H2. rewrite Ce in H2. injection H2 as -> ->.
          exists (Ended OutOfRange). split; [apply IN_end; destruct He; [assumption | lia] | reflexivity].
        * cbn [trampoline] in H2. eapply (Done []); [reflexivity | exact H2 | cbn; lia].
        * assert (Eq : q' = p) by (apply Hz; lia).
          assert (Fail : (forall n, e <> BlockingIOError n) -> (r, s') = input_next_new s (trampoline what (Err e)) ->
                   exists i', ideal_next (raises X) C (Open p (is_count_in_buffer s - is_count_backedup s)) r i' /\ in_rel s' q' i').
          { intros Hn E. cbn [trampoline input_next_new is_eof] in E. rewrite (Cx e Hx Hn) in E. injection E as -> ->.
            exists (Ended (NotOk (what e))). split; [apply IN_error; exists e; auto | reflexivity]. }
          assert (Hblock : (exists n, e = BlockingIOError n) \/ forall n, e <> BlockingIOError n).
          { destruct e; try (right; discriminate). left; eauto. }
          destruct Hblock as [(n & ->) | Hn].
          -- cbn [trampoline] in H2. eapply (Done []); [reflexivity | exact H2 | cbn; lia].
          -- apply Fail; [exact Hn |]. rewrite H2. destruct e; try reflexivity. elim (Hn characters_written). reflexivity.
    - cbn in R. rename R into E. rewrite E in H. apply reads_ret in H. destruct H as (H & ->). injection H as -> ->.
      exists (Ended st). split; [constructor | exact E].
  Qed.

  Lemma input_back_up_ok : forall s q i c, in_rel s q i -> in_rel (input_back_up s c) q (ideal_back_up i c).
  Proof.
    intros s q i c R. unfold input_back_up. destruct i as [p w | st].
    - destruct R as (R1 & R2 & R3 & R4 & R5 & R6 & R7 & R8 & R9). rewrite R1. cbn [orb].
      destruct (Z.ltb_spec c 1) as [Hc | Hc]; cbn [orb].
      + replace (ideal_back_up (Open p w) c) with (Open p w); [repeat split; auto |].
        cbn. replace (Z.to_nat c) with 0%nat by lia. cbn. rewrite !Nat.sub_0_r. reflexivity.
      + destruct (Nat.eqb_spec (is_count_backedup s) (is_count_in_buffer s)) as [E | E].
        * assert (Hw : w = 0%nat) by lia.
          replace (ideal_back_up (Open p w) c) with (Open p w); [repeat split; auto |].
          cbn. rewrite Hw, Nat.min_0_r, !Nat.sub_0_r. reflexivity.
        * cbn [ideal_back_up in_rel is_status is_buffer is_position is_count_backedup is_count_in_buffer is_buffer_offset].
          rewrite <- R6. repeat split; auto; lia.
    - cbn in R. rewrite R. exact R.
  Qed.

  (** A C++ program that reads the Python file object through PythonInputStream sees an
      InputStream with the content of the file. *)
  Lemma run_iio_ok : forall A (m : iio A) s q i a s' q', in_rel s q i ->
    reads X C q (run_iio what m s) (a, s') q' -> exists i', ireads (raises X) C i m a i' /\ in_rel s' q' i'.
  Proof.
    intros A m. induction m as [a0 | k IH | c k IH |]; intros s q i a s' q' R H; cbn [run_iio] in H; [| | | inversion H].
    - apply reads_ret in H. destruct H as (H & ->). injection H as -> ->. exists i. split; [constructor | exact R].
    - apply reads_bind in H. destruct H as ((r & s1) & q1 & H1 & H2). cbn [fst snd] in H2.
      destruct (input_next_ok _ _ _ _ _ _ R H1) as (i1 & N1 & R1).
      destruct (IH _ _ _ _ _ _ _ R1 H2) as (i2 & N2 & R2). exists i2. split; [econstructor; eauto | exact R2].
    - destruct (IH _ _ _ _ _ _ (input_back_up_ok _ _ _ c R) H) as (i2 & N2 & R2). exists i2. split; [constructor; exact N2 | exact R2].
  Qed.
End Input.

Theorem input_stream_ok : forall A what X C buffer (m : iio A) a s q, eof_is_clear what X -> buffer <> [] ->
  reads X C 0 (run_iio what m (new_input_stream buffer)) (a, s) q ->
  exists i, ireads (raises X) C (Open 0 0) m a i /\
    match i with Open p _ => is_position s = Z.of_nat p | Ended st => is_status s = Some st end.
Proof.
  intros A what X C buffer m a s q Hc Hb H.
  destruct (run_iio_ok what X C Hc A m _ _ _ _ _ _ (in_rel_new C buffer Hb) H) as (i & H1 & H2).
  exists i. split; [exact H1 |]. destruct i; [apply H2 | exact H2].
Qed.

Lemma client_ended : forall F C ops st l i', ireads F C (Ended st) (client ops) l i' -> i' = Ended st /\ length l = length ops.
Proof.
  intros F C ops st. induction ops as [| [| c] ops IH]; intros l i' H; cbn [client] in H.
  - apply ireads_ret in H. destruct H as (-> & ->). auto.
  - inversion H as [| ? ? r s1 ? ? Hn Hk |]; subst. apply ireads_bind in Hk. destruct Hk as (l' & s2 & Hk1 & Hk2).
    apply ireads_ret in Hk2. destruct Hk2 as (-> & Ei). subst s2. inversion Hn; subst. destruct (IH _ _ Hk1) as (-> & L). cbn. auto.
  - inversion H as [| | ? ? ? ? ? Hk]; subst. apply ireads_bind in Hk. destruct Hk as (l' & s2 & Hk1 & Hk2).
    apply ireads_ret in Hk2. destruct Hk2 as (-> & Ei). subst s2. destruct (IH _ _ Hk1) as (-> & L). cbn. auto.
Qed.

(** For every sequence of Next and BackUp calls: what was consumed is the beginning of
    the file, and Position() its length. The end is reported at the end of the file
    only. *)
Lemma client_ok : forall F C ops i outs i', ireads F C i (client ops) outs i' ->
  forall p w, i = Open p w -> (w <= p <= length C)%nat ->
  length outs = length ops /\
  match i' with
  | Open p' _ => consumed (firstn p C) w (combine ops outs) = firstn p' C /\ (p' <= length C)%nat
  | Ended _ => True
  end /\
  (In (StErr OutOfRange) outs -> ~ F -> consumed (firstn p C) w (combine ops outs) = C).
Proof.
  intros F C ops. induction ops as [| [| c] ops IH]; intros i outs i' H p w -> Hw; cbn [client] in H.
  - apply ireads_ret in H. destruct H as (-> & ->). cbn. repeat split; auto; [lia | intros []].
  - inversion H as [| ? ? r s1 ? ? Hn Hk |]; subst. apply ireads_bind in Hk. destruct Hk as (l & s2 & Hk1 & Hk2).
    apply ireads_ret in Hk2. destruct Hk2 as (-> & Ei). subst s2.
    inversion Hn as [? ? d Hd | ? ? He | ? ? m Hf |]; subst.
    + assert (Hle : (length d <= length C - p)%nat) by (rewrite <- Hd, firstn_length, skipn_length; lia).
      destruct (IH _ _ _ Hk1 _ _ eq_refl) as (L & K1 & K2); [lia |]. cbn [length combine consumed].
      split; [congruence |].
      assert (E : firstn p C ++ d = firstn (p + length d) C) by (rewrite <- firstn_plus, Hd; reflexivity).
      rewrite E. split; [exact K1 |]. intros [K | K]; [discriminate | auto].
    + destruct (client_ended _ _ _ _ _ _ Hk1) as (-> & L).
      cbn [length combine consumed]. split; [congruence |]. split; [exact I |]. intros _ _. apply firstn_all.
    + destruct (client_ended _ _ _ _ _ _ Hk1) as (-> & L).
      cbn [length combine consumed]. split; [congruence |]. split; [exact I |]. intros _ Hnf. contradiction.
  - inversion H as [| | ? ? ? ? ? Hk]; subst. apply ireads_bind in Hk. destruct Hk as (l & s2 & Hk1 & Hk2).
    apply ireads_ret in Hk2. destruct Hk2 as (-> & Ei). subst s2. cbn [ideal_back_up] in Hk1.
    destruct (IH _ _ _ Hk1 _ _ eq_refl) as (L & K1 & K2); [lia |]. cbn [length combine consumed].
    split; [congruence |]. rewrite firstn_length, Nat.min_l, firstn_firstn, Nat.min_l by lia.
    split; [exact K1 |]. intros [K | K]; [discriminate | auto].
Qed.

Theorem input_stream_consumed : forall what X C buffer ops outs s q, eof_is_clear what X -> buffer <> [] ->
  reads X C 0 (run_iio what (client ops) (new_input_stream buffer)) (outs, s) q ->
  length outs = length ops /\
  (is_status s = None -> consumed [] 0 (combine ops outs) = firstn (Z.to_nat (is_position s)) C /\
                         0 <= is_position s <= Z.of_nat (length C)) /\
  (In (StErr OutOfRange) outs -> ~ raises X -> consumed [] 0 (combine ops outs) = C).
Proof.
  intros what X C buffer ops outs s q Hc Hb H.
  destruct (run_iio_ok what X C Hc _ _ _ _ _ _ _ _ (in_rel_new C buffer Hb) H) as (i & H1 & H2).
  destruct (client_ok _ _ _ _ _ _ H1 0%nat 0%nat eq_refl) as (K1 & K2 & K3); [lia |]. split; [exact K1 |]. split; [| exact K3].
  intros Hs. destruct i as [p w | st].
  - destruct H2 as (_ & _ & Hp & _). rewrite Hp, Nat2Z.id. destruct K2 as (K2 & K4). split; [exact K2 | lia].
  - cbn in H2. congruence.
Qed.
