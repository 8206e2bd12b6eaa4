(** Output streams between Python and C++. *)
From Coq Require Import Strings.String List NArith ZArith Bool Lia.
From Verif Require Import M_Base L_Base M_StreamTypes M_CcStream M_Stream S_Stream S_CcStream L_Stream L_Stream2.
Import ListNotations.
Open Scope list_scope.
Open Scope Z_scope.

Lemma writes_bind : forall A B X (m : wio A) (f : A -> wio B) W b W'',
  writes X W (wio_bind m f) b W'' <-> exists a W', writes X W m a W' /\ writes X W' (f a) b W''.
Proof.
  intros A B X m f. induction m as [a | d k IH | k IH |]; intros W b W''; cbn; [| | | split; [intros H; inversion H | intros (a & p' & H & _); inversion H]].
  - split; [intros H; exists a, W; split; [constructor | exact H] |].
    intros (a' & p' & H1 & H2). inversion H1; subst. exact H2.
  - split.
    + intros H. inversion H; subst. match goal with K : writes _ _ (wio_bind _ _) _ _ |- _ => apply IH in K; destruct K as (a & p2 & K1 & K2) end.
      exists a, p2. split; [econstructor; eauto | exact K2].
    + intros (a & p' & H1 & H2). inversion H1; subst. econstructor; [eassumption |]. apply IH. eauto.
  - split.
    + intros H. inversion H; subst. match goal with K : writes _ _ (wio_bind _ _) _ _ |- _ => apply IH in K; destruct K as (a & p2 & K1 & K2) end.
      exists a, p2. split; [econstructor; eauto | exact K2].
    + intros (a & p' & H1 & H2). inversion H1; subst. econstructor; [eassumption |]. apply IH. eauto.
Qed.
Lemma writes_ret : forall A X W (a b : A) W', writes X W (WRet a) b W' <-> b = a /\ W' = W.
Proof. intros. split; [intros H; inversion H; auto | intros (-> & ->); constructor]. Qed.

Lemma owrites_bind : forall A B F (m : oio A) (f : A -> oio B) s b s'',
  owrites F s (oio_bind m f) b s'' <-> exists a s', owrites F s m a s' /\ owrites F s' (f a) b s''.
Proof.
  intros A B F m f. induction m as [a | k IH | i d k IH | c k IH | k IH |]; intros s b s''; cbn; [| | | | | split; [intros H; inversion H | intros (a & p' & H & _); inversion H]].
  - split; [intros H; exists a, s; split; [constructor | exact H] |].
    intros (a' & p' & H1 & H2). inversion H1; subst. exact H2.
  - split.
    + intros H. inversion H; subst. match goal with K : owrites _ _ (oio_bind _ _) _ _ |- _ => apply IH in K; destruct K as (a & p2 & K1 & K2) end.
      exists a, p2. split; [econstructor; eauto | exact K2].
    + intros (a & p' & H1 & H2). inversion H1; subst. econstructor; [eassumption |]. apply IH. eauto.
  - split.
    + intros H. inversion H; subst. match goal with K : owrites _ _ (oio_bind _ _) _ _ |- _ => apply IH in K; destruct K as (a & p2 & K1 & K2) end.
      exists a, p2. split; [constructor; eauto | exact K2].
    + intros (a & p' & H1 & H2). inversion H1; subst. constructor. apply IH. eauto.
  - split.
    + intros H. inversion H; subst. match goal with K : owrites _ _ (oio_bind _ _) _ _ |- _ => apply IH in K; destruct K as (a & p2 & K1 & K2) end.
      exists a, p2. split; [constructor; eauto | exact K2].
    + intros (a & p' & H1 & H2). inversion H1; subst. constructor. apply IH. eauto.
  - split.
    + intros H. inversion H; subst. match goal with K : owrites _ _ (oio_bind _ _) _ _ |- _ => apply IH in K; destruct K as (a & p2 & K1 & K2) end.
      exists a, p2. split; [econstructor; eauto | exact K2].
    + intros (a & p' & H1 & H2). inversion H1; subst. econstructor; [eassumption |]. apply IH. eauto.
Qed.
Lemma owrites_ret : forall A F s (a b : A) s', owrites F s (ORet a) b s' <-> b = a /\ s' = s.
Proof. intros. split; [intros H; inversion H; auto | intros (-> & ->); constructor]. Qed.

(** ** PythonOutputStream *)
Section Output.
  Context (what : exn -> string) (X : exn -> Prop).

  (** The stream is in state [s], the file has received [W]; it implements [o]. *)
  Definition out_rel (W : bytes) (s : output_stream) (o : ostate) : Prop :=
    match o with
    | OOpen T start => os_status s = None /\ (os_count_in_buffer s <= length (os_buffer s))%nat /\
        (os_buffer_offset s <= os_count_in_buffer s)%nat /\
        W ++ firstn (os_count_in_buffer s) (os_buffer s) = T /\ start = (length W + os_buffer_offset s)%nat /\
        os_position s = Z.of_nat (length T) /\
        (os_is_first_call s = true -> W = [] /\ os_count_in_buffer s = 0%nat)
    | OFailed T => os_status s <> None /\ exists rest, W ++ rest = T
    | OClosed T => os_status s <> None /\ W = T
    | OUnspecified => True
    end.
  Lemma out_rel_received : forall W s o, out_rel W s o -> received W o.
  Proof.
    intros W s [T st | T | T |] R; cbn in *; auto.
    - destruct R as (_ & _ & _ & R & _). eauto.
    - tauto.
    - tauto.
  Qed.
  Lemma out_rel_new : forall buffer, out_rel [] (new_output_stream buffer) (OOpen [] 0).
  Proof. intros buffer. cbn. repeat split; auto; lia. Qed.

  Lemma adapter_write_ok : forall W data r W', writes X W (adapter_write data) r W' ->
    match r with
    | Ok k => 0 <= k <= Z.of_nat (length data) /\ W' = W ++ firstn (Z.to_nat k) data
    | Err e => X e /\ exists j, W' = W ++ firstn j data
    end.
  Proof.
    intros W data r W' H. unfold adapter_write in H. inversion H as [| ? ? ? r0 acc ? ? Hf Hk |]; subst.
    apply writes_ret in Hk. destruct Hk as (-> & ->). inversion Hf as [k Hk | | k Hk | e j Hx Hn]; subst; cbn [file_write_answer].
    - auto.
    - split; [lia | reflexivity].
    - auto.
    - destruct e; cbn [file_write_answer]; eauto. elim (Hn characters_written). reflexivity.
  Qed.

  Lemma output_next_ok : forall W s o r s' W', out_rel W s o -> writes X W (output_next what s) (r, s') W' ->
    exists o', ideal_onext (can_raise X) o r o' /\ out_rel W' s' o'.
  Proof.
    intros W s o r s' W' R H. unfold output_next in H.
    assert (Ended : os_status s <> None -> exists st, r = StErr st /\ s' = s /\ W' = W).
    { intros Hs. destruct (os_status s) as [st |]; [| contradiction]. apply writes_ret in H. destruct H as (H & ->).
      injection H as -> ->. eauto. }
    destruct o as [T start | T | T |].
    - destruct R as (R1 & R2 & R3 & R4 & R5 & R6 & R7). rewrite R1 in H.
      destruct (os_is_first_call s) eqn:Ef.
      + destruct (R7 eq_refl) as (-> & E0). apply writes_ret in H. destruct H as (H & ->).
        pose proof (f_equal fst H) as H1. pose proof (f_equal snd H) as H2. cbn in H1, H2. subst r s'.
        rewrite E0 in *. cbn in R4. subst T. exists (OOpen ([] ++ os_buffer s) 0). split; [apply (ON_space _ [] start (os_buffer s)) |].
        cbn. rewrite firstn_all. repeat split; auto; try lia; discriminate.
      + destruct (Nat.ltb_spec (os_count_in_buffer s) (length (os_buffer s))) as [Hlt | Hge].
        * apply writes_ret in H. destruct H as (H & ->).
          pose proof (f_equal fst H) as H1. pose proof (f_equal snd H) as H2. cbn in H1, H2. subst r s'.
          exists (OOpen (T ++ skipn (os_count_in_buffer s) (os_buffer s)) (length T)). split.
          { rewrite <- skipn_length. apply ON_space. }
          assert (LT : length T = (length W + os_count_in_buffer s)%nat) by (rewrite <- R4, app_length, firstn_length; lia).
          cbn. rewrite firstn_all, <- R4, <- app_assoc, firstn_skipn. rewrite R4.
          repeat split; auto; try lia; try discriminate. rewrite R6, app_length. lia.
        * assert (Ec : os_count_in_buffer s = length (os_buffer s)) by lia. rewrite Ec, firstn_all in *.
          apply writes_bind in H. destruct H as (x & W2 & H1 & H2). apply writes_ret in H2. destruct H2 as (H2 & ->).
          pose proof (adapter_write_ok _ _ _ _ H1) as K. destruct x as [w | e].
          -- destruct K as (Kw & ->). cbn [trampoline] in H2. unfold output_next_written in H2.
             destruct (Z.ltb_spec w 0) as [? | _]; [lia |]. destruct (Z.ltb_spec (Z.of_nat (length (os_buffer s))) w) as [? | _]; [lia |].
             cbn [orb] in H2. pose proof (f_equal fst H2) as E1. pose proof (f_equal snd H2) as E2. cbn in E1, E2. subst r s'.
             set (n := Z.to_nat w) in *. assert (Hn : (n <= length (os_buffer s))%nat) by lia.
             set (junk := skipn (length (os_buffer s) - n) (os_buffer s)).
             assert (Lj : length junk = n) by (unfold junk; rewrite skipn_length; lia).
             exists (OOpen (T ++ junk) (length T)). split; [rewrite <- Lj at 1; apply ON_space |].
             assert (LT : length T = (length W + length (os_buffer s))%nat) by (rewrite <- R4, app_length; lia).
             unfold out_rel. cbn [os_status os_buffer os_count_in_buffer os_buffer_offset os_position os_is_first_call].
             assert (Lb : length (skipn n (os_buffer s) ++ junk) = length (os_buffer s)) by (rewrite app_length, Lj, skipn_length; lia).
             split; [reflexivity |]. split; [lia |]. split; [lia |].
             split. { etransitivity; [apply f_equal; apply (@firstn_all2 _ (length (os_buffer s)) (skipn n (os_buffer s) ++ junk)); lia |]. rewrite <- R4, <- !app_assoc. f_equal. rewrite app_assoc, firstn_skipn. reflexivity. }
             split. { rewrite app_length, firstn_length, LT. lia. }
             split; [rewrite R6, app_length, Lj; lia | discriminate].
          -- destruct K as (Kx & j & ->). cbn [trampoline output_next_written] in H2. injection H2 as -> ->.
             exists (OFailed T). split; [apply ON_error; exists e; exact Kx |]. cbn. split; [discriminate |].
             exists (skipn j (os_buffer s)). rewrite <- app_assoc, firstn_skipn. exact R4.
    - cbn in R. destruct (Ended (proj1 R)) as (st & -> & -> & ->). exists (OClosed T). split; [constructor | exact R].
    - cbn in R. destruct (Ended (proj1 R)) as (st & -> & -> & ->). exists (OFailed T). split; [constructor | exact R].
    - exists OUnspecified. split; [constructor | exact I].
  Qed.

  Lemma output_store_ok : forall W s o i d, out_rel W s o -> out_rel W (output_store s i d) (ideal_store o i d).
  Proof.
    intros W s o i d R. unfold output_store. destruct o as [T start | T | T |]; cbn [ideal_store].
    - destruct R as (R1 & R2 & R3 & R4 & R5 & R6 & R7).
      assert (LT : length T = (length W + os_count_in_buffer s)%nat) by (rewrite <- R4, app_length, firstn_length; lia).
      destruct (Nat.leb_spec (os_buffer_offset s + i + length d) (os_count_in_buffer s)) as [Hle | Hgt];
        destruct (Nat.leb_spec (start + i + length d) (length T)) as [Hle' | Hgt']; try lia.
      + set (at_ := (os_buffer_offset s + i)%nat) in *. replace (start + i)%nat with (length W + at_)%nat by (unfold at_; lia).
        assert (Lb : length (firstn at_ (os_buffer s) ++ d ++ skipn (at_ + length d) (os_buffer s)) = length (os_buffer s)).
        { rewrite !app_length, firstn_length, skipn_length. lia. }
        assert (E : W ++ firstn (os_count_in_buffer s) (firstn at_ (os_buffer s) ++ d ++ skipn (at_ + length d) (os_buffer s)) =
                    firstn (length W + at_) T ++ d ++ skipn (length W + at_ + length d) T).
        { rewrite <- R4. rewrite firstn_app_2. rewrite firstn_firstn, Nat.min_l by lia.
          rewrite (skipn_app (length W + at_ + length d) W), (skipn_all2 W) by lia.
          replace (length W + at_ + length d - length W)%nat with (at_ + length d)%nat by lia.
          rewrite <- app_assoc. f_equal.
          assert (La : length (firstn at_ (os_buffer s)) = at_) by (rewrite firstn_length; lia).
          rewrite firstn_app, La, (firstn_all2 (firstn at_ (os_buffer s))) by lia. f_equal.
          rewrite firstn_app, (firstn_all2 d) by lia. f_equal. cbn [app].
          rewrite skipn_firstn_comm. f_equal. lia. }
        assert (LE : length (firstn (length W + at_) T ++ d ++ skipn (length W + at_ + length d) T) = length T).
        { rewrite !app_length, firstn_length, skipn_length. lia. }
        unfold out_rel. cbn [os_status os_buffer os_count_in_buffer os_buffer_offset os_position os_is_first_call].
        rewrite Lb, E, LE. repeat split; auto.
        * apply R7. assumption.
        * apply R7. assumption.
      + exact I.
    - cbn in R |- *. destruct (Nat.leb (os_buffer_offset s + i + length d) (os_count_in_buffer s)); cbn; [exact R | split; [discriminate | tauto]].
    - cbn in R |- *. destruct (Nat.leb (os_buffer_offset s + i + length d) (os_count_in_buffer s)); cbn; [exact R | split; [discriminate | tauto]].
    - exact I.
  Qed.

  Lemma output_back_up_ok : forall W s o c, out_rel W s o -> out_rel W (output_back_up s c) (ideal_oback_up o c).
  Proof.
    intros W s o c R. unfold output_back_up. destruct o as [T start | T | T |]; cbn [ideal_oback_up].
    - pose proof R as R0. destruct R as (R1 & R2 & R3 & R4 & R5 & R6 & R7). rewrite R1. cbn [orb].
      assert (LT : length T = (length W + os_count_in_buffer s)%nat) by (rewrite <- R4, app_length, firstn_length; lia).
      replace (length T - start)%nat with (os_count_in_buffer s - os_buffer_offset s)%nat by lia.
      destruct (Z.ltb_spec c 1) as [Hc | Hc]; cbn [orb].
      + replace (Z.to_nat c) with 0%nat by lia. cbn [Nat.min]. rewrite Nat.sub_0_r, firstn_all. exact R0.
      + destruct (Nat.eqb_spec (os_count_in_buffer s) 0) as [E | E].
        * replace (os_count_in_buffer s - os_buffer_offset s)%nat with 0%nat by lia. rewrite Nat.min_0_r, Nat.sub_0_r, firstn_all. exact R0.
        * set (n := Nat.min (Z.to_nat c) (os_count_in_buffer s - os_buffer_offset s)).
          assert (Hn : (n <= os_count_in_buffer s - os_buffer_offset s)%nat) by (unfold n; lia).
          cbn. repeat split; auto; try lia.
          -- rewrite LT, <- R4. replace (length W + os_count_in_buffer s - n)%nat with (length W + (os_count_in_buffer s - n))%nat by lia.
             rewrite firstn_app_2, firstn_firstn. do 2 f_equal. lia.
          -- rewrite firstn_length. lia.
          -- apply R7. assumption.
          -- destruct (R7 H) as (_ & K). lia.
    - cbn in R |- *. destruct R as (R1 & R2). destruct (os_status s) eqn:E; [| contradiction]. cbn. rewrite E. auto.
    - cbn in R |- *. destruct R as (R1 & R2). destruct (os_status s) eqn:E; [| contradiction]. cbn. rewrite E. auto.
    - exact I.
  Qed.

  Lemma output_flush_ok : forall n rest W x W', writes X W (output_flush what n rest) x W' ->
    match x with
    | StOk _ => W' = W ++ rest
    | StErr _ => can_raise X /\ exists j, W' = W ++ firstn j rest
    end.
  Proof.
    induction n as [| n IH]; intros rest W x W' H; cbn [output_flush] in H.
    - destruct rest; [| inversion H]. apply writes_ret in H. destruct H as (-> & ->). rewrite app_nil_r. reflexivity.
    - destruct rest as [| b rest]; [apply writes_ret in H; destruct H as (-> & ->); rewrite app_nil_r; reflexivity |].
      apply writes_bind in H. destruct H as (y & W2 & H1 & H2). pose proof (adapter_write_ok _ _ _ _ H1) as K.
      destruct y as [w | e]; cbn [trampoline] in H2.
      + destruct K as (Kw & ->). destruct (Z.ltb_spec w 0) as [? | _]; [lia |].
        specialize (IH _ _ _ _ H2). destruct x as [[] | st].
        * rewrite IH, <- app_assoc, firstn_skipn. reflexivity.
        * destruct IH as (F & j & ->). split; [exact F |]. exists (Z.to_nat w + j)%nat. rewrite <- app_assoc. f_equal.
          rewrite <- firstn_plus. reflexivity.
      + apply writes_ret in H2. destruct H2 as (-> & ->). destruct K as (Kx & j & ->). split; [exists e; exact Kx | eauto].
  Qed.

  Lemma output_close_ok : forall n W s o r s' W', out_rel W s o -> writes X W (output_close what n s) (r, s') W' ->
    exists o', ideal_close (can_raise X) o r o' /\ out_rel W' s' o'.
  Proof.
    intros n W s o r s' W' R H. unfold output_close in H.
    assert (Ended : os_status s <> None -> exists st, r = StErr st /\ s' = s /\ W' = W).
    { intros Hs. destruct (os_status s) as [st |]; [| contradiction]. apply writes_ret in H. destruct H as (H & ->).
      injection H as -> ->. eauto. }
    destruct o as [T start | T | T |].
    - destruct R as (R1 & R2 & R3 & R4 & R5 & R6 & R7). rewrite R1 in H.
      apply writes_bind in H. destruct H as (x & W2 & H1 & H2). pose proof (output_flush_ok _ _ _ _ _ H1) as K.
      destruct x as [[] | st].
      + inversion H2 as [| | ? ? c ? ? Hc Hk]; subst. destruct c as [[] | e]; cbn [trampoline] in Hk; apply writes_ret in Hk;
          destruct Hk as (Hk & EW); subst W'; injection Hk as -> ->.
        * exists (OClosed (W ++ firstn (os_count_in_buffer s) (os_buffer s))). split; [constructor |]. cbn. split; [discriminate | reflexivity].
        * exists (OFailed (W ++ firstn (os_count_in_buffer s) (os_buffer s))). split; [apply OC_error; [exists e; apply Hc; reflexivity | right; reflexivity] |].
          cbn. split; [discriminate |]. exists []. apply app_nil_r.
      + apply writes_ret in H2. destruct H2 as (H2 & ->). injection H2 as -> ->. exists OUnspecified.
        split; [apply OC_error; [apply K | left; reflexivity] | exact I].
    - cbn in R. destruct (Ended (proj1 R)) as (st & -> & -> & ->). exists (OClosed T). split; [constructor | exact R].
    - cbn in R. destruct (Ended (proj1 R)) as (st & -> & -> & ->). exists (OFailed T). split; [constructor | exact R].
    - exists OUnspecified. split; [constructor | exact I].
  Qed.

  (** A C++ program that writes the Python file object through PythonOutputStream sees an
      OutputStream. *)
  Lemma run_oio_ok : forall A n (m : oio A) W s o a s' W', out_rel W s o ->
    writes X W (run_oio what n m s) (a, s') W' ->
    exists o', owrites (can_raise X) o m a o' /\ out_rel W' s' o'.
  Proof.
    intros A n m. induction m as [a0 | k IH | i d k IH | c k IH | k IH |]; intros W s o a s' W' R H; cbn [run_oio] in H; [| | | | | inversion H].
    - apply writes_ret in H. destruct H as (H & ->). injection H as -> ->. exists o. split; [constructor | exact R].
    - apply writes_bind in H. destruct H as ((r & s1) & q1 & H1 & H2). cbn [fst snd] in H2.
      destruct (output_next_ok _ _ _ _ _ _ R H1) as (i1 & N1 & R1).
      destruct (IH _ _ _ _ _ _ _ R1 H2) as (i2 & N2 & R2). exists i2. split; [econstructor; eauto | exact R2].
    - destruct (IH _ _ _ _ _ _ (output_store_ok _ _ _ i d R) H) as (i2 & N2 & R2). exists i2. split; [constructor; exact N2 | exact R2].
    - destruct (IH _ _ _ _ _ _ (output_back_up_ok _ _ _ c R) H) as (i2 & N2 & R2). exists i2. split; [constructor; exact N2 | exact R2].
    - apply writes_bind in H. destruct H as ((r & s1) & q1 & H1 & H2). cbn [fst snd] in H2.
      destruct (output_close_ok _ _ _ _ _ _ _ R H1) as (i1 & N1 & R1).
      destruct (IH _ _ _ _ _ _ _ R1 H2) as (i2 & N2 & R2). exists i2. split; [econstructor; eauto | exact R2].
  Qed.
End Output.

Theorem output_stream_ok : forall A what X n buffer (m : oio A) a s W,
  writes X [] (run_oio what n m (new_output_stream buffer)) (a, s) W ->
  exists o, owrites (can_raise X) (OOpen [] 0) m a o /\ received W o /\
    match o with OOpen T _ => os_position s = Z.of_nat (length T) | _ => True end.
Proof.
  intros A what X n buffer m a s W H.
  destruct (run_oio_ok what X A n m _ _ _ _ _ _ (out_rel_new buffer) H) as (o & H1 & H2).
  exists o. split; [exact H1 |]. split; [eapply out_rel_received; exact H2 |]. destruct o; auto. apply H2.
Qed.
