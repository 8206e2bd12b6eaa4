(** Closing the decrypting stream of a keyset. *)
From Coq Require Import List NArith ZArith Bool Lia.
From Verif Require Import M_Base L_Base M_StreamTypes M_Stream S_Stream.
Import ListNotations.
Open Scope list_scope.
Open Scope Z_scope.

Section Close.
  Context {S : Type} (src : py_source S) (fuel : nat).

  Lemma read_some_closed : forall r n x r', rewindable_read_some src r n = (x, r') -> rw_closed r' = rw_closed r.
  Proof.
    intros r n x r' H. unfold rewindable_read_some in H. destruct (Nat.ltb _ _).
    - injection H as _ <-. reflexivity.
    - destruct (src_read src (rw_input_stream r) n) as [[[d |] | e] s'].
      + destruct (rw_rewindable r); injection H as _ <-; reflexivity.
      + injection H as _ <-. reflexivity.
      + destruct e; injection H as _ <-; reflexivity.
  Qed.
  Lemma read_closed : forall f r n x r', rewindable_read src f r n = Some (x, r') -> rw_closed r' = rw_closed r.
  Proof.
    intros f r n x r' H. unfold rewindable_read in H. destruct (n <? 0).
    - revert H. generalize (@nil Coq.Init.Byte.byte) as acc. revert r. induction f as [| f IH]; intros r acc H; cbn in H; [discriminate |].
      destruct (rewindable_read_some src r 8192) as [y r1] eqn:E. apply read_some_closed in E.
      destruct y as [[[| b d] |] | e]; try (injection H as _ <-; exact E).
      rewrite <- E. exact (IH _ _ H).
    - injection H as H. exact (read_some_closed _ _ _ _ H).
  Qed.
  Lemma run_rio_closed : forall A (m : rio A) r a r', run_rio (rewindable_read src fuel) m r = Some (a, r') ->
    rw_closed r' = rw_closed r.
  Proof.
    induction m as [a | n k IH |]; cbn; intros r a0 r' H; [injection H as _ <-; reflexivity | | discriminate].
    destruct (rewindable_read src fuel r n) as [[x r1] |] eqn:E; [| discriminate].
    rewrite <- (read_closed _ _ _ _ _ E). exact (IH _ _ _ _ H).
  Qed.
  Definition agree (w : dec_wrapper S) : Prop := rw_closed (dw_ciphertext_source w) = dw_closed w.
  Lemma attempt_loop_agree : forall ad closed size prims a source x w,
    attempt_loop src fuel ad closed size prims a source = Some (x, w) -> rw_closed source = closed ->
    agree w /\ dw_closed w = closed.
  Proof.
    intros ad closed size. induction prims as [| p prims IH]; intros a source x w H Hc; cbn [attempt_loop] in H;
      destruct (run_rio (rewindable_read src fuel) (live_read a size) source) as [[[y a'] s'] |] eqn:E; try discriminate H;
      apply run_rio_closed in E; destruct y as [[d |] | e];
      try (injection H as _ <-; unfold agree; cbn; split; congruence);
      (destruct (is_tink_error e); [| injection H as _ <-; unfold agree; cbn; split; congruence]).
    - injection H as _ <-; unfold agree; cbn; split; congruence.
    - unfold rewindable_rewind in H. destruct (rw_rewindable s'); [| injection H as _ <-; unfold agree; cbn; split; congruence].
      match type of H with context[run_rio _ _ ?s2] => remember s2 as source2 eqn:E2 end.
      assert (H2 : rw_closed source2 = closed) by (subst source2; cbn; congruence). clear E2.
      destruct (run_rio (rewindable_read src fuel) (rsa_new_raw_decrypting_stream p ad) source2) as [[[o | e'] s3] |] eqn:E3;
        [| | discriminate H]; apply run_rio_closed in E3.
      + apply (IH _ _ _ _ H). congruence.
      + injection H as _ <-; unfold agree; cbn; split; congruence.
  Qed.
  Lemma read_agree : forall w n x w', dec_wrapper_read src fuel w n = Some (x, w') -> agree w ->
    agree w' /\ dw_closed w' = dw_closed w.
  Proof.
    intros w n x w' H Ha. unfold dec_wrapper_read in H.
    destruct (dw_closed w) eqn:Ec; [injection H as _ <-; split; [exact Ha | exact Ec] |].
    destruct (n =? 0); [injection H as _ <-; split; [exact Ha | exact Ec] |].
    destruct (dw_matching_stream w) as [m |].
    - destruct (run_rio _ _ _) as [[[y m'] s'] |] eqn:E; [| discriminate]. apply run_rio_closed in E.
      injection H as _ <-. unfold agree in *. cbn. split; congruence.
    - destruct (dw_attempting_stream w) as [a |]; [| injection H as _ <-; split; [exact Ha | exact Ec]].
      apply (attempt_loop_agree _ _ _ _ _ _ _ _ H). unfold agree in Ha. congruence.
  Qed.
  Lemma close_agree : forall w x w', dec_wrapper_close src w = (x, w') -> agree w ->
    agree w' /\ (dw_closed w' = true <-> x = Ok tt) /\
    (dw_closed w = false -> src_close src (source_of w) = (x, source_of w')) /\
    (dw_closed w = true -> w' = w /\ x = Ok tt).
  Proof.
    intros w x w' H Ha. unfold dec_wrapper_close in H. destruct (dw_closed w) eqn:Ec.
    - injection H as <- <-. split; [exact Ha |]. split; [tauto |]. split; [discriminate | auto].
    - unfold rewindable_close in H. unfold agree in Ha. rewrite Ha, Ec in H. unfold source_of.
      destruct (src_close src (rw_input_stream (dw_ciphertext_source w))) as [y s'].
      injection H as <- <-. cbn. destruct y as [[] | e]; unfold agree; cbn;
        (split; [reflexivity |]; split; [split; congruence |]; split; [reflexivity | discriminate]).
  Qed.
  Lemma history_agree : forall w h w', call_history src fuel w h w' -> agree w -> agree w' /\
    (dw_closed w' = true -> dw_closed w = true \/ In (CallClose, Ok None) h).
  Proof.
    induction 1 as [w | w n x w' h w'' H Hh IH | w x w' h w'' H Hh IH]; intros Ha; [auto | |].
    - destruct (read_agree _ _ _ _ H Ha) as [Ha' Ec]. destruct (IH Ha') as [H1 H2]. split; [exact H1 |].
      intros Hc. destruct (H2 Hc) as [H3 | H3]; [left; congruence | right; right; exact H3].
    - destruct (close_agree _ _ _ H Ha) as (Ha' & Hx & _). destruct (IH Ha') as [H1 H2]. split; [exact H1 |].
      intros Hc. destruct (H2 Hc) as [H3 | H3]; [| right; right; exact H3].
      apply Hx in H3. subst x. right. left. reflexivity.
  Qed.
  Lemma closed_history : forall w h w', call_history src fuel w h w' -> dw_closed w = true ->
    w' = w /\ Forall (fun cx => closed_answer (fst cx) (snd cx)) h.
  Proof.
    induction 1 as [w | w n x w' h w'' H Hh IH | w x w' h w'' H Hh IH]; intros Hc; [auto | |].
    - unfold dec_wrapper_read in H. rewrite Hc in H. injection H as <- <-. destruct (IH Hc) as [-> HF].
      split; [reflexivity |]. constructor; [eexists; reflexivity | exact HF].
    - unfold dec_wrapper_close in H. rewrite Hc in H. injection H as <- <-. destruct (IH Hc) as [-> HF].
      split; [reflexivity |]. constructor; [reflexivity | exact HF].
  Qed.
  Lemma init_agree : forall prims s ad w, dec_wrapper_init src fuel prims s ad = Some (Ok w) -> agree w /\ dw_closed w = false.
  Proof.
    intros prims s ad w H. unfold dec_wrapper_init in H. destruct (src_readable src s) eqn:Er; [| discriminate].
    unfold rewindable_init in H. rewrite Er in H. unfold next_decrypting_stream in H.
    destruct prims as [| p rest]; [discriminate |].
    destruct (run_rio _ _ _) as [[[o | e] s'] |] eqn:E; try discriminate. apply run_rio_closed in E.
    injection H as <-. unfold agree. cbn in *. split; congruence.
  Qed.
End Close.

Theorem decrypting_stream_close : forall S (src : py_source S) fuel prims s ad w h1 w1 x w2,
  dec_wrapper_init src fuel prims s ad = Some (Ok w) ->
  call_history src fuel w h1 w1 -> ~ In (CallClose, Ok None) h1 ->
  dec_wrapper_close src w1 = (x, w2) ->
  src_close src (source_of w1) = (x, source_of w2) /\
  (x = Ok tt -> forall h2 w3, call_history src fuel w2 h2 w3 ->
     source_of w3 = source_of w2 /\ Forall (fun cx => closed_answer (fst cx) (snd cx)) h2).
Proof.
  intros S src fuel prims s ad w h1 w1 x w2 Hi Hh Hn Hc.
  destruct (init_agree _ _ _ _ _ _ Hi) as [Ha Ho].
  destruct (history_agree _ _ _ _ _ Hh Ha) as [Ha1 Ho1].
  assert (Hf : dw_closed w1 = false).
  { destruct (dw_closed w1) eqn:E; [| reflexivity]. destruct (Ho1 eq_refl); [congruence | contradiction]. }
  destruct (close_agree _ _ _ _ Hc Ha1) as (_ & Hx & Hs & _). split; [exact (Hs Hf) |].
  intros E h2 w3 Hh2. destruct (closed_history _ _ _ _ _ Hh2 (proj2 Hx E)) as [-> HF]. split; [reflexivity | exact HF].
Qed.
