(** What a destination holds when writes or close fail. *)
From Coq Require Import Strings.String List NArith ZArith Bool Lia.
From Verif Require Import M_Base L_Base M_StreamTypes M_CcStream M_Stream S_Stream S_CcStream L_Stream L_Stream2 L_CcStream3 L_CcStream4.
Import ListNotations.
Open Scope list_scope.
Open Scope Z_scope.

Lemma output_close_prefix : forall what X n W s T start r s' W', out_rel W s (OOpen T start) ->
  writes X W (output_close what n s) (r, s') W' ->
  match r with StOk _ => W' = T | StErr _ => can_raise X /\ exists rest, W' ++ rest = T end.
Proof.
  intros what X n W s T start r s' W' R H. destruct R as (R1 & R2 & R3 & R4 & R5 & R6 & R7).
  unfold output_close in H. rewrite R1 in H.
  apply writes_bind in H. destruct H as (x & W2 & H1 & H2). pose proof (output_flush_ok _ _ _ _ _ _ _ H1) as K.
  destruct x as [[] | st].
  - inversion H2 as [| | ? ? c ? ? Hc Hk]; subst. destruct c as [[] | e]; cbn [trampoline] in Hk; apply writes_ret in Hk;
      destruct Hk as (Hk & EW); subst W'; injection Hk as -> ->; [reflexivity |].
    split; [exists e; apply Hc; reflexivity |]. exists []. apply app_nil_r.
  - apply writes_ret in H2. destruct H2 as (H2 & ->). injection H2 as -> ->. destruct K as (F & j & ->). split; [exact F |].
    exists (skipn j (firstn (os_count_in_buffer s) (os_buffer s))). rewrite <- app_assoc, firstn_skipn. exact R4.
Qed.

(** Close, after any use of the stream that did not close it. *)
Theorem failed_close_prefix : forall A what X n buffer (m : oio A) a s W r s' W',
  writes X [] (run_oio what n m (new_output_stream buffer)) (a, s) W ->
  writes X W (output_close what n s) (r, s') W' ->
  exists o, owrites (can_raise X) (OOpen [] 0) m a o /\
  match o with
  | OOpen T _ => match r with StOk _ => W' = T | StErr _ => can_raise X /\ exists rest, W' ++ rest = T end
  | OFailed T => (exists e, r = StErr e) /\ W' = W /\ exists rest, W' ++ rest = T
  | OClosed T => (exists e, r = StErr e) /\ W' = W
  | OUnspecified => True
  end.
Proof.
  intros A what X n buffer m a s W r s' W' H Hc.
  destruct (run_oio_ok what X A n m _ _ _ _ _ _ (out_rel_new buffer) H) as (o & H1 & H2). exists o. split; [exact H1 |].
  assert (Ended : os_status s <> None -> (exists st, r = StErr st) /\ W' = W).
  { intros Hs. unfold output_close in Hc. destruct (os_status s) as [st |]; [| contradiction]. apply writes_ret in Hc.
    destruct Hc as (Hc & ->). injection Hc as -> ->. eauto. }
  destruct o as [T st | T | T |]; [eapply output_close_prefix; eassumption | | | exact I]; destruct H2 as (Hs & Hw); destruct (Ended Hs) as (He & ->); auto.
Qed.

(** The same for the bytes a Python program writes: through any writes, failed or not, and
    a close, the file holds a prefix of them. *)
Section Pass.
  Context (what : exn -> string) (X : exn -> Prop) (n : nat) (buffer : bytes).
  Let stream := raw_encrypting_stream what n pass_through (new_output_stream buffer).

  (** [P] are the bytes written. *)
  Definition holds (W P : bytes) (s : output_stream) : Prop :=
    (exists start, out_rel W s (OOpen P start)) \/ (exists T rest, out_rel W s (OFailed T) /\ T ++ rest = P).
  Lemma holds_prefix : forall W P s, holds W P s -> exists rest, W ++ rest = P.
  Proof.
    intros W P s [(start & R) | (T & rest & R & E)].
    - apply out_rel_received in R. exact R.
    - apply out_rel_received in R. destruct R as (r & <-). exists (r ++ rest). rewrite app_assoc. exact E.
  Qed.

  Lemma holds_write : forall W P s u b r s' W', holds W P s ->
    writes X W (res_write stream (false, (u, s)) b) (r, s') W' ->
    exists u' s1, s' = (false, (u', s1)) /\ holds W' (P ++ b) s1.
  Proof.
    intros W P s u b r s' W' Hh H. cbn [res_write stream raw_encrypting_stream fst snd] in H.
    apply writes_bind in H. destruct H as ((r1 & (u1 & s1)) & W3 & G1 & G2). apply writes_ret in G2. destruct G2 as (G2 & ->).
    cbn [fst snd] in G2. injection G2 as -> ->. exists u1, s1. split; [reflexivity |].
    destruct Hh as [(start & R) | (T & rest & R & E)].
    - set (J := fun (_ : ce_state pass_through) (o p : ostate) => o = p).
      assert (J1 : forall st o p r st' o', J st o p -> owrites (can_raise X) o (ce_next pass_through st) (r, st') o' ->
                     exists p', ideal_onext (can_raise X \/ (0 < size_of p)%nat) p r p' /\ J st' o' p').
      { intros st o p r st' o' -> K. inversion K as [| ? ? x s2 ? ? Hn Hk | | |]; subst. apply owrites_ret in Hk. destruct Hk as (Hk & ->).
        injection Hk as -> _. exists s2. split; [exact (ideal_onext_mono _ _ _ _ _ (or_introl (B := _)) Hn) | reflexivity]. }
      assert (J2 : forall st o p i d st' o', J st o p -> owrites (can_raise X) o (ce_store pass_through st i d) st' o' -> J st' o' (ideal_store p i d)).
      { intros st o p i d st' o' -> K. inversion K as [| | ? ? ? ? ? ? Hk | |]; subst. apply owrites_ret in Hk. unfold J. tauto. }
      assert (J3 : forall st o p c st' o', J st o p -> owrites (can_raise X) o (ce_back_up pass_through st c) st' o' -> J st' o' (ideal_oback_up p c)).
      { intros st o p c st' o' -> K. inversion K as [| | | ? ? ? ? ? Hk |]; subst. apply owrites_ret in Hk. unfold J. tauto. }
      assert (Rel : enc_rel pass_through J W (u, s) (OOpen P start)) by (exists (OOpen P start); split; [exact R | reflexivity]).
      pose proof (raw_enc_write_ok what X n 0 pass_through J J1 J2 J3 _ _ _ _ _ _ _ _ Rel G1) as K. destruct r1 as [k | x].
      + destruct K as (_ & start' & o & Ro & Eo). unfold J in Eo. subst o. left. exists start'. exact Ro.
      + destruct K as (_ & _ & j & o & Ro & Eo). unfold J in Eo. subst o. right. exists (P ++ firstn j b), (skipn j b).
        split; [exact Ro |]. rewrite <- app_assoc, firstn_skipn. reflexivity.
    - right. unfold raw_enc_write in G1. apply writes_bind in G1. destruct G1 as (((y & u2) & s2) & W2 & H1 & H2).
      apply writes_ret in H2. destruct H2 as (H2 & ->). cbn [fst snd] in H2.
      assert (s1 = s2) as -> by (pose proof (f_equal (fun z => snd (snd z)) H2) as Q; cbn in Q; exact Q).
      destruct (run_oio_ok what X _ n _ _ _ _ _ _ _ R H1) as (o' & K1 & K2). cbn [fst] in K1.
      exists T, (rest ++ b). split; [| rewrite app_assoc, E; reflexivity].
      enough (o' = OFailed T) by (subst o'; exact K2). clear - K1.
      destruct b as [| c b].
      + destruct n; cbn [output_adapter_write] in K1; apply owrites_ret in K1; tauto.
      + destruct n; [cbn in K1; inversion K1 |]. cbn [output_adapter_write ce_next pass_through oio_bind] in K1.
        inversion K1 as [| ? ? x s3 ? ? Hn Hk | | |]; subst. inversion Hn; subst. cbn in Hk. apply owrites_ret in Hk. tauto.
  Qed.

  Lemma holds_history : forall h W P s u s' W', holds W P s ->
    enc_history X stream (false, (u, s)) W h s' W' ->
    exists u' s1, s' = (false, (u', s1)) /\ holds W' (P ++ concat (map fst h)) s1.
  Proof.
    induction h as [| (b & r) h IH]; intros W P s u s' W' Hh H.
    - inversion H; subst. exists u, s. cbn. rewrite app_nil_r. auto.
    - inversion H as [| ? ? ? ? s1 W1 ? ? ? Hw Hr]; subst. destruct (holds_write _ _ _ _ _ _ _ _ Hh Hw) as (u' & s2 & -> & H2).
      destruct (IH _ _ _ _ _ _ H2 Hr) as (u3 & s3 & -> & H3). exists u3, s3. split; [reflexivity |].
      cbn [map fst concat]. rewrite app_assoc. exact H3.
  Qed.
End Pass.

Theorem destination_prefix : forall what X n buffer h s W,
  enc_history X (raw_encrypting_stream what n pass_through (new_output_stream buffer))
    (res_init (raw_encrypting_stream what n pass_through (new_output_stream buffer))) [] h s W ->
  (exists rest, W ++ rest = concat (map fst h)) /\
  forall r s' W', writes X W (res_close (raw_encrypting_stream what n pass_through (new_output_stream buffer)) s) (r, s') W' ->
  exists rest, W' ++ rest = concat (map fst h).
Proof.
  intros what X n buffer h s W H. cbn [res_init raw_encrypting_stream] in H.
  assert (H0 : holds [] [] (new_output_stream buffer)) by (left; exists 0%nat; apply out_rel_new).
  destruct (holds_history what X n buffer _ _ _ _ _ _ _ H0 H) as (u & s1 & -> & H1). cbn [app] in H1.
  split; [eapply holds_prefix; exact H1 |]. intros r s' W' Hc. cbn [res_close raw_encrypting_stream] in Hc.
  unfold raw_enc_close in Hc. cbn [fst snd] in Hc. apply writes_bind in Hc. destruct Hc as (x & W2 & K1 & K2).
  assert (W' = W2) as -> by (destruct x as ((y & u2) & s2); cbn [fst snd] in K2; destruct (py_output_answer y); apply writes_ret in K2; tauto).
  clear K2. cbn [ce_close pass_through] in K1. cbn [run_oio] in K1. apply writes_bind in K1. destruct K1 as ((q & s2) & W3 & K1 & K2).
  cbn [fst snd] in K2. apply writes_ret in K2. destruct K2 as (-> & ->).
  destruct H1 as [(start & R) | (T & rest & R & E)].
  - pose proof (output_close_prefix _ _ _ _ _ _ _ _ _ _ R K1) as K. destruct q; [subst W3; exists []; apply app_nil_r | apply K].
  - pose proof R as R0. destruct R as (Hs & Hw). unfold output_close in K1. destruct (os_status s1) as [st |]; [| contradiction].
    apply writes_ret in K1. destruct K1 as (_ & ->). apply out_rel_received in R0. destruct R0 as (r0 & <-). exists (r0 ++ rest). rewrite app_assoc. exact E.
Qed.
