(** Raw encrypting streams. *)
From Coq Require Import Strings.String List NArith ZArith Bool Lia.
From Verif Require Import M_Base L_Base M_StreamTypes M_CcStream M_Stream S_Stream S_CcStream L_Stream L_Stream2 L_CcStream3.
Import ListNotations.
Open Scope list_scope.
Open Scope Z_scope.

Lemma ideal_onext_mono : forall (F G : Prop) p r p', (F -> G) -> ideal_onext F p r p' -> ideal_onext G p r p'.
Proof. intros F G p r p' H K. inversion K; subst; constructor; auto. Qed.
Lemma ideal_close_mono : forall (F G : Prop) p r p', (F -> G) -> ideal_close F p r p' -> ideal_close G p r p'.
Proof. intros F G p r p' H K. inversion K; subst; constructor; auto. Qed.

Section Enc.
  Context (what : exn -> string) (X : exn -> Prop) (n cap : nat) (e : cc_enc_stream).
  Context (J : ce_state e -> ostate -> ostate -> Prop).
  Hypothesis Jnext : forall st o p r st' o', J st o p -> owrites (can_raise X) o (ce_next e st) (r, st') o' ->
       exists p', ideal_onext (can_raise X \/ (cap < size_of p)%nat) p r p' /\ J st' o' p'.
  Hypothesis Jstore : forall st o p i d st' o', J st o p -> owrites (can_raise X) o (ce_store e st i d) st' o' ->
       J st' o' (ideal_store p i d).
  Hypothesis Jback : forall st o p c st' o', J st o p -> owrites (can_raise X) o (ce_back_up e st c) st' o' ->
       J st' o' (ideal_oback_up p c).
  Hypothesis Jclose : forall st o p r st' o', J st o p -> owrites (can_raise X) o (ce_close e st) (r, st') o' ->
       exists p', ideal_close (can_raise X \/ (cap < size_of p)%nat) p r p' /\ J st' o' p'.

  Lemma adapter_write_all : forall k st o rest written T start x o', J st o (OOpen T start) ->
    owrites (can_raise X) o (output_adapter_write e k st rest written) x o' ->
    match fst x with
    | StOk w => w = written + Z.of_nat (length rest) /\ exists start', J (snd x) o' (OOpen (T ++ rest) start')
    | StErr _ => can_fail X cap (T ++ rest) /\ exists j, J (snd x) o' (OFailed (T ++ firstn j rest))
    end.
  Proof.
    induction k as [| k IH]; intros st o rest written T start x o' Hj H; cbn [output_adapter_write] in H.
    - destruct rest; [| inversion H]. apply owrites_ret in H. destruct H as (-> & ->).
      cbn. split; [lia |]. exists start. rewrite app_nil_r. exact Hj.
    - destruct rest as [| b rest]; [apply owrites_ret in H; destruct H as (-> & ->); cbn; split; [lia |]; exists start; rewrite app_nil_r; exact Hj |].
      set (all := b :: rest) in *. apply owrites_bind in H. destruct H as ((r & st1) & o1 & H1 & H2). cbn [fst snd] in H2.
      destruct (Jnext _ _ _ _ _ _ Hj H1) as (p1 & D1 & J1).
      inversion D1 as [T0 s0 junk | T0 s0 st0 Hf | | |]; subst.
      + apply owrites_bind in H2. destruct H2 as (st2 & o2 & H2 & H3).
        pose proof (Jstore _ _ _ _ _ _ _ J1 H2) as J2.
        set (wc := Nat.min (length junk) (length all)) in *.
        assert (Lf : length (firstn wc all) = wc) by (rewrite firstn_length; unfold wc; lia).
        cbn [ideal_store] in J2. rewrite Nat.add_0_r, Lf in J2.
        destruct (Nat.leb_spec (length T + wc) (length (T ++ junk))) as [_ | K]; [| rewrite app_length in K; unfold wc in K; lia].
        rewrite firstn_app, firstn_all, Nat.sub_diag, firstn_O, app_nil_r in J2.
        rewrite skipn_app, skipn_all2 in J2 by lia. cbn [app] in J2.
        replace (length T + wc - length T)%nat with wc in J2 by lia.
        apply owrites_bind in H3. destruct H3 as (st3 & o3 & H3 & H4).
        assert (J3 : exists s3, J st3 o3 (OOpen (T ++ firstn wc all) s3)).
        { destruct (Nat.ltb_spec wc (length junk)) as [Hlt | Hge].
          - pose proof (Jback _ _ _ _ _ _ J2 H3) as J3. cbn [ideal_oback_up] in J3. exists (length T).
            rewrite !app_length, Lf, skipn_length, Nat2Z.id in J3.
            replace (length T + (wc + (length junk - wc)) - Nat.min (length junk - wc) (length T + (wc + (length junk - wc)) - length T))%nat
              with (length (T ++ firstn wc all)) in J3 by (rewrite app_length, Lf; lia).
            rewrite app_assoc, firstn_app, firstn_all, Nat.sub_diag, firstn_O, app_nil_r in J3. exact J3.
          - apply owrites_ret in H3. destruct H3 as (-> & ->). exists (length T).
            rewrite (skipn_all2 junk), app_nil_r in J2 by lia. exact J2. }
        destruct J3 as (s3 & J3). specialize (IH _ _ _ _ _ _ _ _ J3 H4). destruct x as [[w | st'] stx]; cbn [fst snd] in *.
        * destruct IH as (-> & s4 & J4). split; [rewrite skipn_length; unfold wc; lia |]. exists s4.
          rewrite <- app_assoc, firstn_skipn in J4. exact J4.
        * destruct IH as (F & j & J4). split; [rewrite <- app_assoc, firstn_skipn in F; exact F |]. exists (wc + j)%nat. rewrite <- firstn_plus, app_assoc. exact J4.
      + apply owrites_ret in H2. destruct H2 as (-> & ->). split; [cbn [size_of] in Hf; destruct Hf as [Hf | Hf]; [left; exact Hf | right; rewrite app_length; lia] |]. exists 0%nat. cbn. rewrite app_nil_r. exact J1.
  Qed.

  Definition enc_rel (W : bytes) (s : enc_state e) (p : ostate) : Prop :=
    exists o, out_rel W (snd s) o /\ J (fst s) o p.

  Lemma raw_enc_write_ok : forall W s b T start r s' W', enc_rel W s (OOpen T start) ->
    writes X W (raw_enc_write what n e s b) (r, s') W' ->
    match r with
    | Ok k => k = Z.of_nat (length b) /\ exists start', enc_rel W' s' (OOpen (T ++ b) start')
    | Err x => can_fail X cap (T ++ b) /\ is_tink_error x = true /\ exists j, enc_rel W' s' (OFailed (T ++ firstn j b))
    end.
  Proof.
    intros W s b T start r s' W' (o & R & Hj) H. unfold raw_enc_write in H. apply writes_bind in H.
    destruct H as (((y & st) & os) & W2 & H1 & H2). cbn [fst snd] in H2.
    apply writes_ret in H2. destruct H2 as (H2 & ->). injection H2 as -> ->.
    destruct (run_oio_ok what X _ n _ _ _ _ _ _ _ R H1) as (o' & K1 & K2).
    pose proof (adapter_write_all _ _ _ _ _ _ _ _ _ Hj K1) as K. cbn [fst snd] in K. destruct y as [w | z].
    - destruct K as (-> & s4 & J4). cbn [py_output_answer use_tink_errors].
      destruct (Z.ltb_spec (0 + Z.of_nat (length b)) 0) as [? | _]; [lia |].
      destruct (Z.ltb_spec (Z.of_nat (length b)) (0 + Z.of_nat (length b))) as [? | _]; [lia |]. cbn [orb].
      split; [lia |]. exists s4, o'. auto.
    - destruct K as (F & j & J4). destruct z; cbn [py_output_answer use_tink_errors];
        (split; [exact F |]; split; [reflexivity |]; exists j, o'; auto).
  Qed.

  Lemma raw_enc_close_ok : forall W s T start r c s' W', enc_rel W s (OOpen T start) ->
    writes X W (raw_enc_close what n e (false, s)) (r, (c, s')) W' ->
    match r with
    | Ok _ => c = true /\ enc_rel W' s' (OClosed T)
    | Err x => can_fail X cap T /\ is_tink_error x = true /\ c = false
    end.
  Proof.
    intros W s T start r c s' W' (o & R & Hj) H. unfold raw_enc_close in H. cbn [fst snd] in H. apply writes_bind in H.
    destruct H as (((y & st) & os) & W2 & H1 & H2).
    destruct (run_oio_ok what X _ n _ _ _ _ _ _ _ R H1) as (o' & K1 & K2).
    destruct (Jclose _ _ _ _ _ _ Hj K1) as (p' & D & J').
    apply writes_ret in H2. destruct H2 as (H2 & ->). cbn [fst snd] in H2.
    inversion D as [T0 s0 | T0 s0 z o0 F Ho | | |]; subst.
    - cbn in H2. injection H2 as -> -> ->. split; [reflexivity |]. exists o'. auto.
    - destruct z; cbn in H2; injection H2 as -> -> ->; auto.
  Qed.
End Enc.


(** The whole run: if every write and close succeed, the file has received an encryption
    of the bytes written. *)
Lemma run_encrypts : forall what X n cap e (J : ce_state e -> ostate -> ostate -> Prop) (enc : bytes -> bytes -> Prop),
  (forall st o p r st' o', J st o p -> owrites (can_raise X) o (ce_next e st) (r, st') o' ->
       exists p', ideal_onext (can_raise X \/ (cap < size_of p)%nat) p r p' /\ J st' o' p') ->
  (forall st o p i d st' o', J st o p -> owrites (can_raise X) o (ce_store e st i d) st' o' ->
       J st' o' (ideal_store p i d)) ->
  (forall st o p c st' o', J st o p -> owrites (can_raise X) o (ce_back_up e st c) st' o' ->
       J st' o' (ideal_oback_up p c)) ->
  (forall st o p r st' o', J st o p -> owrites (can_raise X) o (ce_close e st) (r, st') o' ->
       exists p', ideal_close (can_raise X \/ (cap < size_of p)%nat) p r p' /\ J st' o' p') ->
  (forall st o P, J st o (OClosed P) -> exists C, o = OClosed C /\ enc P C) ->
  forall os0 bs s W W' T start, enc_rel e J W s (OOpen T start) ->
  encrypting_run X (raw_encrypting_stream what n e os0) (false, s) W bs W' ->
  enc (T ++ concat bs) W'.
Proof.
  intros what X n cap e J enc J1 J2 J3 J4 J5 os0 bs. induction bs as [| b bs IH]; intros s W W' T start R H.
  - inversion H as [s0 W0 (c & s2) W1 Hc |]; subst. cbn [res_close raw_encrypting_stream] in Hc.
    destruct (raw_enc_close_ok what X n cap e J J4 _ _ _ _ _ _ _ _ R Hc) as (-> & o & Ro & Ho).
    destruct (J5 _ _ _ Ho) as (C & -> & K). cbn in Ro. destruct Ro as (_ & ->). cbn. rewrite app_nil_r. exact K.
  - inversion H as [| s0 W0 b0 k s1 W1 bs0 W2 Hw Hr]; subst. cbn [res_write raw_encrypting_stream fst snd] in Hw.
    apply writes_bind in Hw. destruct Hw as ((r & s2) & W3 & H1 & H2). apply writes_ret in H2. destruct H2 as (H2 & ->).
    cbn [fst snd] in H2. injection H2 as <- ->. destruct (raw_enc_write_ok what X n cap e J J1 J2 J3 _ _ _ _ _ _ _ _ R H1) as (-> & s' & R').
    cbn [concat]. rewrite app_assoc. eapply IH; eauto.
Qed.

Theorem raw_encrypting_stream_ok : forall what X n in_buffer out_buffer cc ad cap enc e W bs C,
  cc_encrypts (can_raise X) cap enc cc ad ->
  writes X [] (rsa_new_raw_encrypting_stream (streaming_aead_cc_to_py what in_buffer out_buffer n cc) ad) (Ok e) W ->
  encrypting_run X e (res_init e) W bs C ->
  enc (concat bs) C.
Proof.
  intros what X n ib ob cc ad cap enc e W bs C Hcc H Hr. cbn [rsa_new_raw_encrypting_stream streaming_aead_cc_to_py] in H.
  unfold new_raw_encrypting_stream in H. apply writes_bind in H. destruct H as ((r & os) & W2 & H1 & H2).
  apply writes_ret in H2. destruct H2 as (H2 & ->). cbn [fst snd] in H2.
  destruct (run_oio_ok what X _ n _ _ _ _ _ _ _ (out_rel_new ob) H1) as (o & K1 & K2).
  pose proof (Hcc _ _ K1) as K. destruct r as [ce | st]; [| destruct st; discriminate].
  cbn in H2. injection H2 as ->. destruct K as (J & J0 & J1 & J2 & J3 & J4 & J5).
  change (concat bs) with ([] ++ concat bs).
  refine (run_encrypts what X n cap ce J enc J1 J2 J3 J4 J5 os bs (ce_init ce, os) _ C [] 0%nat _ Hr). exists o. auto.
Qed.

(** Every write up to the first that fails takes all its bytes; it fails with a TinkError,
    and only if the file object raises exceptions. *)
Theorem raw_write_all : forall what X n in_buffer out_buffer cc ad cap enc e W h s W' b r s' W'',
  cc_encrypts (can_raise X) cap enc cc ad ->
  writes X [] (rsa_new_raw_encrypting_stream (streaming_aead_cc_to_py what in_buffer out_buffer n cc) ad) (Ok e) W ->
  enc_history X e (res_init e) W h s W' -> (forall b x, ~ In (b, Err x) h) ->
  writes X W' (res_write e s b) (r, s') W'' ->
  match r with
  | Ok k => k = Z.of_nat (length b)
  | Err x => can_fail X cap (concat (map fst h) ++ b) /\ is_tink_error x = true
  end.
Proof.
  intros what X n ib ob cc ad cap enc e W h s W' b r s' W'' Hcc H Hh Hok Hw.
  cbn [rsa_new_raw_encrypting_stream streaming_aead_cc_to_py] in H.
  unfold new_raw_encrypting_stream in H. apply writes_bind in H. destruct H as ((r0 & os) & W2 & H1 & H2).
  apply writes_ret in H2. destruct H2 as (H2 & ->). cbn [fst snd] in H2.
  destruct (run_oio_ok what X _ n _ _ _ _ _ _ _ (out_rel_new ob) H1) as (o & K1 & K2).
  pose proof (Hcc _ _ K1) as K. destruct r0 as [ce | st]; [| destruct st; discriminate].
  cbn in H2. injection H2 as ->. destruct K as (J & J0 & J1 & J2 & J3 & J4 & J5).
  assert (One : forall s0 W0 T start b r s' W', enc_rel ce J W0 s0 (OOpen T start) ->
    writes X W0 (res_write (raw_encrypting_stream what n ce os) (false, s0) b) (r, s') W' ->
    match r with
    | Ok k => k = Z.of_nat (length b) /\ exists s1 start', s' = (false, s1) /\ enc_rel ce J W' s1 (OOpen (T ++ b) start')
    | Err x => can_fail X cap (T ++ b) /\ is_tink_error x = true
    end).
  { intros s0 W0 T start b0 r0 s1 W1 R Hq. cbn [res_write raw_encrypting_stream] in Hq.
    cbn [fst snd] in Hq. apply writes_bind in Hq. destruct Hq as ((r1 & s2) & W3 & G1 & G2). apply writes_ret in G2. destruct G2 as (G2 & ->).
    cbn [fst snd] in G2. injection G2 as -> ->. pose proof (raw_enc_write_ok what X n cap ce J J1 J2 J3 _ _ _ _ _ _ _ _ R G1) as K. destruct r1 as [k | x].
    - destruct K as (-> & start' & R'). split; [reflexivity |]. exists s2, start'. auto.
    - tauto. }
  assert (Gen : forall h s0 W0 T start s W', enc_rel ce J W0 s0 (OOpen T start) ->
    enc_history X (raw_encrypting_stream what n ce os) (false, s0) W0 h s W' -> (forall b x, ~ In (b, Err x) h) ->
    exists s1 start', s = (false, s1) /\ enc_rel ce J W' s1 (OOpen (T ++ concat (map fst h)) start')).
  { clear - One. induction h as [| (b0 & r0) h IH]; intros s0 W0 T start s W' R Hh Hok.
    - inversion Hh; subst. cbn [map concat]. rewrite app_nil_r. eauto 6.
    - inversion Hh as [| ? ? ? ? s1 W1 ? ? ? Hw Hr]; subst. pose proof (One _ _ _ _ _ _ _ _ R Hw) as K. destruct r0 as [k | x].
      + destruct K as (_ & s2 & start' & -> & R'). cbn [map concat fst]. rewrite app_assoc. eapply IH; [exact R' | exact Hr |]. intros b x Hin. eapply Hok. right. exact Hin.
      + elim (Hok b0 x). left. reflexivity. }
  cbn [res_init raw_encrypting_stream] in Hh.
  assert (R0 : enc_rel ce J W2 (ce_init ce, os) (OOpen [] 0)) by (exists o; split; assumption).
  destruct (Gen _ _ _ _ _ _ _ R0 Hh Hok) as (s1 & start' & -> & R').
  pose proof (One _ _ _ _ _ _ _ _ R' Hw) as K. destruct r; tauto.
Qed.

(** The pass-through stream: the bytes written reach the file as they are. *)
Lemma pass_through_encrypts : forall F cap, stream_encrypts F cap eq pass_through (OOpen [] 0).
Proof.
  intros F cap. exists (fun _ o p => o = p). split; [reflexivity |]. repeat split.
  - intros st o p r st' o' -> H. inversion H as [| ? ? x s1 ? ? Hn Hk | | |]; subst. apply owrites_ret in Hk. destruct Hk as (Hk & ->).
    injection Hk as -> _. exists s1. split; [exact (ideal_onext_mono _ _ _ _ _ (or_introl (B := _)) Hn) | reflexivity].
  - intros st o p i d st' o' -> H. inversion H as [| | ? ? ? ? ? ? Hk | |]; subst. apply owrites_ret in Hk. tauto.
  - intros st o p c st' o' -> H. inversion H as [| | | ? ? ? ? ? Hk |]; subst. apply owrites_ret in Hk. tauto.
  - intros st o p r st' o' -> H. inversion H as [| | | | ? ? x s1 ? ? Hn Hk]; subst. apply owrites_ret in Hk. destruct Hk as (Hk & ->).
    injection Hk as -> _. exists s1. split; [exact (ideal_close_mono _ _ _ _ _ (or_introl (B := _)) Hn) | reflexivity].
  - intros st o P ->. eauto.
Qed.
Theorem written_bytes_reach_file : forall what X n buffer bs C,
  encrypting_run X (raw_encrypting_stream what n pass_through (new_output_stream buffer))
    (res_init (raw_encrypting_stream what n pass_through (new_output_stream buffer))) [] bs C ->
  C = concat bs.
Proof.
  intros what X n buffer bs C H. destruct (pass_through_encrypts (can_raise X) 0) as (J & J0 & J1 & J2 & J3 & J4 & J5).
  symmetry. change (concat bs) with ([] ++ concat bs).
  refine (run_encrypts what X n 0 pass_through J eq J1 J2 J3 J4 J5 (new_output_stream buffer) bs (tt, new_output_stream buffer) [] C [] 0%nat _ H).
  exists (OOpen [] 0). split; [apply out_rel_new | exact J0].
Qed.

(** After a close that succeeded, write raises and the file is not touched; close does
    nothing. *)
Theorem raw_closed : forall what X n e os s W b x s' W',
  (writes X W (res_write (raw_encrypting_stream what n e os) (true, s) b) (x, s') W' ->
     (exists m, x = Err (ValueError m)) /\ s' = (true, s) /\ W' = W) /\
  (forall r s' W', writes X W (res_close (raw_encrypting_stream what n e os) (true, s)) (r, s') W' ->
     r = Ok tt /\ s' = (true, s) /\ W' = W).
Proof.
  intros what X n e os s W b x s' W'. split.
  - intros H. cbn in H. apply writes_ret in H. destruct H as (H & ->). injection H as -> ->. eauto.
  - intros r s1 W1 H. cbn in H. apply writes_ret in H. destruct H as (H & ->). injection H as -> ->. auto.
Qed.
