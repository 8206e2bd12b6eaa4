(** RawDecryptingStream as a file object. *)
From Coq Require Import Strings.String List NArith ZArith Bool Lia.
From Verif Require Import M_Base M_StreamTypes M_Stream M_CcStream M_RawFile S_Stream S_CcStream S_RawFile L_Stream2 L_CcStream2.
Import ListNotations.
Open Scope list_scope.
Open Scope Z_scope.

Section Plays.
  Context {S : Type} (X : exn -> Prop) (src : py_source S) (C : bytes) (at_ : S -> nat -> Prop).
  Hypothesis at_ok : forall s p size, at_ s p -> (p <= length C)%nat /\
      exists p', file_read X C p size (fst (src_read src s size)) p' /\ at_ (snd (src_read src s size)) p'.

  Lemma run_rio_reads : forall A (m : rio A) s p a s', at_ s p ->
    run_rio (fun s n => Some (src_read src s n)) m s = Some (a, s') -> exists q, reads X C p m a q /\ at_ s' q.
  Proof.
    intros A m. induction m as [x | n k IH |]; intros s p a s' Ha H; cbn [run_rio] in H.
    - injection H as -> ->. exists p. split; [constructor | exact Ha].
    - destruct (src_read src s n) as (r & s1) eqn:E. destruct (at_ok s p n Ha) as (_ & p1 & Hr & H1). rewrite E in Hr, H1.
      cbn [fst snd] in Hr, H1. destruct (IH r _ _ _ _ H1 H) as (q & Hq & Hs). exists q. split; [| exact Hs].
      econstructor; [exact Hr | exact Hq].
    - discriminate.
  Qed.

  (** A history without close is one of the stream on its own. *)
  Lemma file_history : forall f h f', rf_history src f h f' -> rf_closed f = false -> never_closed h ->
    forall p, at_ (rf_source f) p ->
    exists sh p', stream_history X C p (rf_stream f) sh p' (rf_stream f') /\ at_ (rf_source f') p' /\ rf_closed f' = false /\
      map snd sh = map snd h /\ map (fun x => Some (fst x)) sh = map (fun x => asked (fst x)) h.
  Proof.
    intros f h f' H. induction H as [f | f op r f1 h f2 Hs Hh IH]; intros Hc Hn p Ha.
    - exists [], p. repeat split; auto. constructor.
    - assert (Hstep : exists n, asked op = Some n /\ raw_file_read src f n = Some (r, f1)).
      { inversion Hs as [? ? ? ? E | ? ? ? ? E | ? ? E | ? ? ? E]; subst;
          [eexists; split; [reflexivity | exact E] | eexists; split; [reflexivity | exact E] | |];
          exfalso; eapply Hn; left; reflexivity. }
      destruct Hstep as (n & Ho & Hread). unfold raw_file_read in Hread. rewrite Hc in Hread.
      destruct (run_rio _ _ _) as [((r0, l), s') |] eqn:E; [| discriminate]. injection Hread as -> <-.
      destruct (run_rio_reads _ _ _ _ _ _ Ha E) as (q & Hq & Hs').
      destruct (IH eq_refl (fun r' K => Hn r' (or_intror K)) q Hs') as (sh & p' & H1 & H2 & H3 & H4 & H5).
      exists ((n, r) :: sh), p'. split; [econstructor; [exact Hq | exact H1] |].
      repeat split; auto; cbn; [f_equal; exact H4 | rewrite Ho; f_equal; exact H5].
  Qed.
End Plays.

Lemma data_of_snd : forall sh h, map snd sh = map snd h -> data sh = file_data h.
Proof.
  unfold data, file_data. intros sh. induction sh as [| x sh IH]; intros [| y h] H; try discriminate; [reflexivity |].
  cbn in H. injection H as H1 H2. cbn [map concat]. rewrite (IH h H2), H1. reflexivity.
Qed.

Theorem raw_file_plaintext : forall S X (src : py_source S) what in_buffer out_buffer n cc ad C P s close f h op size r f',
  eof_is_clear what X -> in_buffer <> [] -> cc_decrypts (raises X) cc ad C P -> plays X src C s 0 ->
  new_raw_file src (streaming_aead_cc_to_py what in_buffer out_buffer n cc) s ad close = Some (Ok f) ->
  rf_history src f (h ++ [(op, r)]) f' -> never_closed h -> asked op = Some size ->
  match r with
  | Ok (Some b) => (b = [] -> file_data h = P) /\ exists rest, P = file_data h ++ b ++ rest /\
        (0 <= size -> Z.of_nat (length b) <= size) /\ (size < 0 -> rest = [])
  | Ok None => False
  | Err e => raises X /\ is_tink_error e = true
  end.
Proof.
  intros S X src what ib ob n cc ad C P s close f h op size r f' He Hb Hd (at_ & Ha & Hat) Hf Hh Hn Ho.
  unfold new_raw_file in Hf. destruct (src_readable src s); [| discriminate].
  destruct (run_rio _ _ _) as [([o | e] & s1) |] eqn:E; try discriminate. injection Hf as <-.
  destruct (run_rio_reads X src C at_ Hat _ _ _ _ _ _ Ha E) as (p & Hp & Hs1).
  assert (Hn' : never_closed (h ++ [(op, r)])).
  { intros r' K. apply in_app_or in K. destruct K as [K | [K | []]]; [eapply Hn; exact K |]. injection K as -> _. discriminate. }
  destruct (file_history X src C at_ Hat _ _ _ Hh eq_refl Hn' p Hs1) as (sh & p' & H1 & _ & _ & H4 & H5).
  cbn [rf_stream] in H1. rewrite map_app in H4, H5. cbn [map fst snd] in H4, H5. rewrite Ho in H5.
  destruct (exists_last (l := sh)) as (sh0 & (z & r0) & ->).
  { intros ->. cbn in H4. destruct (map snd h); discriminate. }
  rewrite map_app in H4, H5. cbn [map fst snd] in H4, H5. apply app_inj_tail in H4. apply app_inj_tail in H5.
  destruct H4 as (H4 & ->), H5 as (_ & Hz). injection Hz as ->.
  rewrite <- (data_of_snd _ _ H4).
  apply (raw_decrypting_stream_ok what X ib ob n cc ad C P sh0 size r He Hb Hd).
  exists o, p, p', (rf_stream f'). split; [exact Hp | exact H1].
Qed.

Lemma closed_stays : forall S (src : py_source S) f h f', rf_history src f h f' -> rf_closed f = true ->
  f' = f /\ forall op r, In (op, r) h ->
    match op with FClose => r = Ok None | _ => exists m, r = Err (ValueError m) end.
Proof.
  intros S src f h f' H. induction H as [f | f op r f1 h f2 Hs Hh IH]; intros Hc; [split; [reflexivity | intros op r []] |].
  assert (K : f1 = f /\ match op with FClose => r = Ok None | _ => exists m, r = Err (ValueError m) end).
  { inversion Hs as [? ? ? ? E | ? ? ? ? E | ? ? E | ? ? ? E]; subst; unfold raw_file_readinto, raw_file_read, raw_file_close in E;
      rewrite Hc in E; first [discriminate | injection E; intros; subst; split; [reflexivity | eauto]]. }
  destruct K as (-> & K). destruct (IH Hc) as (-> & K2). split; [reflexivity |].
  intros op' r' [E | E]; [injection E as <- <-; exact K | apply K2; exact E].
Qed.

(** After close: reads raise ValueError, close does nothing, the source is not used. *)
Theorem raw_file_closed : forall S (src : py_source S) f h1 h2 f', rf_history src f (h1 ++ (FClose, Ok None) :: h2) f' ->
  exists f1, rf_history src f (h1 ++ [(FClose, Ok None)]) f1 /\ rf_source f' = rf_source f1 /\
  forall op r, In (op, r) h2 ->
    match op with FClose => r = Ok None | _ => exists m, r = Err (ValueError m) end.
Proof.
  intros S src f h1. revert f. induction h1 as [| (op & r) h1 IH]; intros f h2 f' H; cbn [app] in *.
  - inversion H as [| ? ? ? f1 ? ? Hs Hh]; subst. exists f1.
    assert (Hc : rf_closed f1 = true).
    { inversion Hs as [| | ? ? E |]; subst. unfold raw_file_close in E. destruct (rf_closed f) eqn:Ec; [injection E as <-; exact Ec |].
      destruct (rf_close_source f); [| injection E as <-; reflexivity].
      destruct (src_close src (rf_source f)) as ([u | e] & s'); [injection E as _ <-; reflexivity | discriminate]. }
    split; [econstructor; [exact Hs | constructor] |]. destruct (closed_stays _ _ _ _ _ Hh Hc) as (-> & K). auto.
  - inversion H as [| ? ? ? f1 ? ? Hs Hh]; subst. destruct (IH _ _ _ Hh) as (f2 & H1 & H2). exists f2.
    split; [econstructor; [exact Hs | exact H1] | exact H2].
Qed.
