(** Helper lemmas for the examples over X_Buffered. *)
From Coq Require Import Strings.Byte Strings.String List NArith ZArith Bool Lia.
From Verif Require Import M_Base L_Base M_Proto M_StreamTypes M_Prims M_Registry M_KeysetHandle M_Stream M_CcStream M_Buffered S_Keyset
  S_Stream S_CcStream S_Buffered L_CcStream L_CcStream2 L_CcStream3 L_CcStream4 X_Toy L_Toy X_Stream L_XStream X_Buffered L_Buffered4.
Import ListNotations.
Open Scope list_scope.
Open Scope Z_scope.

Lemma writer_run_ok : forall X size n e calls w t W l r C, writer_run size n e w t W calls = Some (l, r, C) ->
  exists w1 W1 w2, writer_history X size n e w W (combine calls l) w1 W1 /\ length l = length calls /\
    writes X W1 (bw_close n e w1) (r, w2) C.
Proof.
  intros X size n e calls. induction calls as [| [b |] calls IH]; intros w t W l r C H; cbn [writer_run] in H.
  - destruct (toy_run (bw_close n e w) t W) as [(((r1 & w2) & t2) & W2) |] eqn:E; [| discriminate].
    injection H as <- <- <-. exists w, W, w2. split; [constructor | split; [reflexivity | eapply toy_run_ok; exact E]].
  - destruct (toy_run (bw_write size n e w b) t W) as [(((r1 & w1) & t1) & W1) |] eqn:E; [| discriminate].
    destruct (writer_run size n e w1 t1 W1 calls) as [((l1 & r2) & C2) |] eqn:E1; [| discriminate]. injection H as <- <- <-.
    destruct (IH _ _ _ _ _ _ E1) as (w3 & W3 & w4 & H1 & H2 & H3). exists w3, W3, w4. cbn [combine length].
    split; [econstructor; [eapply toy_run_ok; exact E | exact H1] | auto].
  - destruct (toy_run (bw_flush n e w) t W) as [(((r1 & w1) & t1) & W1) |] eqn:E; [| discriminate].
    destruct (writer_run size n e w1 t1 W1 calls) as [((l1 & r2) & C2) |] eqn:E1; [| discriminate]. injection H as <- <- <-.
    destruct (IH _ _ _ _ _ _ E1) as (w3 & W3 & w4 & H1 & H2 & H3). exists w3, W3, w4. cbn [combine length].
    split; [| auto]. replace (match r1 with Ok _ => Ok None | Err x => Err x end)
      with (match r1 with Ok _ => @Ok (option Z) None | Err x => Err x end) by (destruct r1; reflexivity).
    econstructor; [eapply toy_run_ok; exact E | exact H1].
Qed.
Lemma write_run_ok : forall X size n m calls l r C, write_run size n m calls = Some (l, r, C) ->
  exists e W0 w W w', writes X [] m (Ok e) W0 /\ writer_history X size n e (bw_new e) W0 (combine calls l) w W /\
    writes X W (bw_close n e w) (r, w') C.
Proof.
  intros X size n m calls l r C H. unfold write_run in H. destruct (toy_run m 0 []) as [(([e | x] & t) & W0) |] eqn:E; try discriminate.
  destruct (writer_run_ok X _ _ _ _ _ _ _ _ _ _ H) as (w & W & w' & H1 & _ & H2). exists e, W0, w, W, w'.
  split; [eapply toy_run_ok; exact E | auto].
Qed.

Lemma reader_run_ok : forall W (call : reader_call -> W -> option (read_result * W)) calls b l, reader_run call b calls = Some l ->
  exists b', reader_history call b (combine calls l) b'.
Proof.
  intros W call calls. induction calls as [| c calls IH]; intros b l H; cbn [reader_run] in H.
  - injection H as <-. exists b. constructor.
  - destruct (call c b) as [(r & b1) |] eqn:E; [| discriminate]. destruct (reader_run call b1 calls) as [l1 |] eqn:E1; [| discriminate].
    injection H as <-. destruct (IH _ _ E1) as (b' & H'). exists b'. cbn [combine]. econstructor; eauto.
Qed.
Lemma read_run_ok : forall S (src : py_source S) fuel m calls l, read_run src fuel m calls = Some l ->
  exists b b', m = Some (Ok b) /\ reader_history (decrypting_call src fuel) b (combine calls l) b'.
Proof.
  intros S src fuel m calls l H. unfold read_run in H. destruct m as [[b | x] |]; try discriminate.
  destruct (reader_run_ok _ _ _ _ _ H) as (b' & H'). eauto.
Qed.

Lemma toy_turns_down : forall h ad C, (forall P, C <> h :: P) -> turns_down only_blocking (toy_raw h) ad C.
Proof.
  intros h ad C Hc. apply raw_turns_down; [apply toy_clear | discriminate |]. apply toy_refuses. exact Hc.
Qed.

Lemma fixed_gives : forall F len ad C, (length C <= len)%nat ->
  cc_gives F (F \/ (length C < len)%nat) (length C = len) (fixed_cc len) ad C C.
Proof.
  intros F len ad C Hl r i H. cbn [cc_new_decrypting_stream fixed_cc] in H. apply ireads_ret in H. destruct H as (-> & ->).
  eexists. split; [reflexivity |].
  exists (fun (s : nat * nat + cc_status) i p => match s with
                | inl (a, w) => i = Open a w /\ p = Open a w
                | inr e => p = Ended e
                end).
  split; [cbn; auto |]. split.
  - intros st i p r st' i' Hj Hn. destruct st as [(a & w) | e]; cbn in Hn.
    + destruct Hj as (-> & ->). inversion Hn as [| ? ? x s1 ? ? Hx Hk |]; subst.
      inversion Hx as [? ? d Hd | ? ? He | ? ? m Hf |]; subst.
      * apply ireads_ret in Hk. destruct Hk as (Hk & ->). injection Hk as -> ->. eexists. split; [constructor; exact Hd | cbn; auto].
      * destruct (Nat.leb_spec len (length C)); apply ireads_ret in Hk; destruct Hk as (Hk & ->); injection Hk as -> ->.
        -- eexists. split; [apply PN_end; [lia | reflexivity] | reflexivity].
        -- eexists. split; [apply PN_error; auto | reflexivity].
      * apply ireads_ret in Hk. destruct Hk as (Hk & ->). injection Hk as -> ->. eexists. split; [apply PN_error; auto | reflexivity].
    + subst p. apply ireads_ret in Hn. destruct Hn as (Hn & ->). injection Hn as -> ->. eexists. split; [constructor | reflexivity].
  - intros st i p c st' i' Hj Hn. destruct st as [(a & w) | e]; cbn in Hn.
    + destruct Hj as (-> & ->). inversion Hn as [| | ? ? ? ? ? Hk]; subst. apply ireads_ret in Hk. destruct Hk as (-> & ->). cbn. auto.
    + subst p. apply ireads_ret in Hn. destruct Hn as (-> & ->). reflexivity.
Qed.
