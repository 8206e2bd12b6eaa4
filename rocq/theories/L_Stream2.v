(** The decrypting stream of a keyset. *)
From Coq Require Import List NArith ZArith Bool Lia.
From Verif Require Import M_Base L_Base M_StreamTypes M_Stream S_Stream L_Stream.
Import ListNotations.
Open Scope list_scope.
Open Scope Z_scope.

Lemma skipn_skipn : forall {A} (l : list A) a b, skipn a (skipn b l) = skipn (a + b) l.
Proof.
  intros A l a b. revert l. induction b as [| b IH]; intros l; [rewrite Nat.add_0_r; reflexivity |].
  rewrite <- plus_n_Sm. destruct l as [| x l]; [destruct a; reflexivity | cbn; apply IH].
Qed.

(** ** The rewindable stream over a file *)
Section Over.
  Context {S : Type} (X : exn -> Prop) (src : py_source S) (C : bytes) (at_ : S -> nat -> Prop).
  Hypothesis step : forall s p size, at_ s p -> (p <= length C)%nat /\
      exists p', file_read X C p size (fst (src_read src s size)) p' /\ at_ (snd (src_read src s size)) p'.

  Definition rw_at (r : rewindable S) (p : nat) : Prop :=
    exists g, at_ (rw_input_stream r) (g + length (rw_buffer r)) /\ (rw_pos r <= length (rw_buffer r))%nat /\
      rw_buffer r = firstn (length (rw_buffer r)) (skipn g C) /\ p = (g + rw_pos r)%nat /\
      (rw_rewindable r = true -> g = 0%nat).

  Lemma rw_at_le : forall r p, rw_at r p -> (p <= length C)%nat.
  Proof. intros r p (g & Ha & Hp & Hb & -> & _). destruct (step _ _ 0 Ha) as (H & _). lia. Qed.

  Lemma file_read_data_inv : forall p size d p', file_read X C p size (Ok (Some d)) p' ->
    p' = (p + length d)%nat /\ firstn (length d) (skipn p C) = d.
  Proof.
    intros p size d p' H. inversion H; subst; [auto |]. cbn. split; [lia | reflexivity].
  Qed.

  Lemma rw_read_some : forall r p size, 0 <= size -> rw_at r p ->
    exists p', file_read X C p size (fst (rewindable_read_some src r size)) p' /\
      rw_at (snd (rewindable_read_some src r size)) p' /\
      rw_rewindable (snd (rewindable_read_some src r size)) = rw_rewindable r.
  Proof.
    intros [s buffer pos re cl] p size Hz (g & Ha & Hp & Hb & -> & Hg).
    cbn [rw_pos rw_buffer rw_input_stream rw_rewindable] in *. unfold rewindable_read_some.
    cbn [rw_pos rw_buffer rw_input_stream rw_rewindable rw_closed].
    destruct (Nat.ltb_spec pos (length buffer)) as [Hlt | Hge].
    - set (np := Nat.min (length buffer) (pos + Z.to_nat size)). cbn [fst snd].
      exists (g + np)%nat. split; [| split; [| reflexivity]].
      + assert (L : length (firstn (np - pos) (skipn pos buffer)) = (np - pos)%nat).
        { rewrite firstn_length, skipn_length. unfold np. lia. }
        destruct (Z.eq_dec size 0) as [-> | Hn].
        * replace (np - pos)%nat with 0%nat by (unfold np; cbn; lia). replace (g + np)%nat with (g + pos)%nat by (unfold np; cbn; lia).
          apply FR_empty. auto.
        * replace (g + np)%nat with (g + pos + length (firstn (np - pos) (skipn pos buffer)))%nat by (rewrite L; unfold np; lia).
          apply FR_data.
          -- intros E. rewrite E in L. cbn in L. unfold np in L. lia.
          -- right. rewrite L. unfold np. lia.
          -- rewrite L. replace (skipn pos buffer) with (firstn (length buffer - pos) (skipn pos (skipn g C))).
             2:{ rewrite Hb at 2. rewrite skipn_firstn_comm. reflexivity. }
             rewrite firstn_firstn. replace (Nat.min (np - pos) (length buffer - pos)) with (np - pos)%nat by (unfold np; lia).
             rewrite skipn_skipn. do 2 f_equal. lia.
      + exists g. cbn. repeat split; auto. unfold np. lia.
    - assert (pos = length buffer) by lia. subst pos.
      destruct (step _ _ size Ha) as (_ & p' & Hr & Ha').
      destruct (src_read src s size) as (x & s') eqn:Er. cbn [fst snd] in Hr, Ha'.
      set (drop := negb re && negb (match buffer with [] => true | _ => false end)).
      set (b' := if drop then [] else buffer). set (q' := if drop then 0%nat else length buffer).
      assert (D : re = true -> b' = buffer /\ q' = length buffer) by (subst b' q' drop; intros ->; split; reflexivity).
      assert (B : re = false -> b' = [] /\ q' = 0%nat).
      { subst b' q' drop. intros ->. destruct buffer; split; reflexivity. }
      clearbody b' q'. clear drop.
      assert (N : forall q, (q = g + length buffer)%nat -> at_ s' q -> rw_at (mk_rewindable s' b' q' re cl) (g + length buffer)).
      { intros q -> Hq. destruct re.
        - destruct (D eq_refl) as (-> & ->). exists g. cbn. auto.
        - destruct (B eq_refl) as (-> & ->). exists (g + length buffer)%nat. cbn. rewrite !Nat.add_0_r. repeat split; auto; discriminate. }
      destruct x as [[d |] | e].
      + exists p'. split; [exact Hr |]. apply file_read_data_inv in Hr. destruct Hr as (-> & Hd).
        destruct re; (split; [| reflexivity]).
        * destruct (D eq_refl) as (-> & ->). exists g. cbn. rewrite app_length.
          split; [rewrite Nat.add_assoc; exact Ha' |]. split; [lia |]. split; [| split; [lia | exact Hg]].
          rewrite <- firstn_plus, <- Hb, skipn_skipn. rewrite (Nat.add_comm (length buffer) g), Hd. reflexivity.
        * destruct (B eq_refl) as (-> & ->). exists (g + length buffer + length d)%nat. cbn. rewrite !Nat.add_0_r.
          repeat split; auto; discriminate.
      + exists p'. split; [exact Hr |]. split; [| reflexivity]. inversion Hr; subst. apply (N (g + length buffer)%nat); auto.
      + assert (E : p' = (g + length buffer)%nat).
        { inversion Hr; subst; auto. }
        assert (G : X e) by (inversion Hr; subst; auto).
        subst p'. exists (g + length buffer)%nat.
        assert (Q : file_read X C (g + length buffer) size (Err e) (g + length buffer)) by exact Hr.
        destruct e; (split; [first [exact Q | apply FR_none] |]; split; [eapply N; eauto | reflexivity]).
  Qed.

  Lemma rw_readall : forall fuel r p acc x r', rw_at r (p + length acc) -> firstn (length acc) (skipn p C) = acc ->
    readall (fun r n => Some (rewindable_read_some src r n)) fuel acc r = Some (x, r') ->
    exists p', file_read X C p (-1) x p' /\ rw_at r' p' /\ rw_rewindable r' = rw_rewindable r.
  Proof.
    induction fuel as [| fuel IH]; intros r p acc x r' Ha Hc H; [discriminate |]. cbn [readall] in H.
    destruct (rw_read_some r _ 8192 ltac:(lia) Ha) as (p' & Hr & Ha' & Hre).
    pose proof (rw_at_le _ _ Ha') as Hle.
    destruct (rewindable_read_some src r 8192) as (y & r1). cbn [fst snd] in *.
    destruct y as [[d |] | e].
    - destruct d as [| b d].
      + apply some_inj in H. pose proof (f_equal fst H) as H1. pose proof (f_equal snd H) as H2. cbn in H1, H2. subst x r'.
        inversion Hr as [d Hd _ _ | He | |]; [contradiction |]. subst p'. exists (p + length acc)%nat. split; [| auto].
        destruct acc as [| a acc].
        * cbn in He |- *. rewrite Nat.add_0_r in *. apply FR_empty. destruct He as [He | He]; [auto | lia].
        * apply FR_data; [discriminate | left; lia | exact Hc].
      + apply file_read_data_inv in Hr. destruct Hr as (-> & Hd). rewrite <- Hre.
        eapply (IH r1 p (acc ++ b :: d)).
        * rewrite app_length, Nat.add_assoc. exact Ha'.
        * rewrite app_length, <- firstn_plus, Hc, skipn_skipn, (Nat.add_comm (length acc) p), Hd. reflexivity.
        * exact H.
    - apply some_inj in H. pose proof (f_equal fst H) as H1. pose proof (f_equal snd H) as H2. cbn in H1, H2. subst x r'.
      inversion Hr; subst. exists (p + length acc)%nat. split; [| auto]. destruct acc as [| a acc].
      + cbn. rewrite Nat.add_0_r. apply FR_none.
      + apply FR_data; [discriminate | left; lia | exact Hc].
    - apply some_inj in H. pose proof (f_equal fst H) as H1. pose proof (f_equal snd H) as H2. cbn in H1, H2. subst x r'.
      exists p'. split; [| auto]. inversion Hr as [| | | e0 p0 Hx Hb Hs]; subst. apply FR_error; [exact Hx | lia | lia].
  Qed.

  Lemma file_read_neg : forall p size r p', size < 0 -> file_read X C p (-1) r p' -> file_read X C p size r p'.
  Proof.
    intros p size r p' Hn H. inversion H; subst; constructor; auto; try lia; match goal with K : _ \/ _ |- _ => destruct K; [auto | lia] end.
  Qed.

  Lemma rw_read : forall fuel r p size x r', rw_at r p -> rewindable_read src fuel r size = Some (x, r') ->
    exists p', file_read X C p size x p' /\ rw_at r' p' /\ rw_rewindable r' = rw_rewindable r.
  Proof.
    intros fuel r p size x r' Ha H. unfold rewindable_read in H. destruct (Z.ltb_spec size 0) as [Hn | Hp].
    - destruct (rw_readall fuel r p [] x r') as (p' & H1 & H2); [cbn; rewrite Nat.add_0_r; exact Ha | reflexivity | exact H |].
      exists p'. split; [apply file_read_neg; assumption | exact H2].
    - apply some_inj in H. destruct (rw_read_some r p size Hp Ha) as (p' & H1 & H2).
      rewrite H in H1, H2. exists p'. auto.
  Qed.

  Lemma run_reads : forall A fuel (m : rio A) r p a r', rw_at r p ->
    run_rio (rewindable_read src fuel) m r = Some (a, r') ->
    exists p', reads X C p m a p' /\ rw_at r' p' /\ rw_rewindable r' = rw_rewindable r.
  Proof.
    intros A fuel m. induction m as [a0 | n k IH |]; intros r p a r' Ha H; [| | discriminate].
    - cbn in H. apply some_inj in H. pose proof (f_equal fst H) as H1. pose proof (f_equal snd H) as H2. cbn in H1, H2. subst a r'.
      exists p. split; [constructor | auto].
    - cbn in H. destruct (rewindable_read src fuel r n) as [[x r1] |] eqn:E; [| discriminate].
      destruct (rw_read fuel r p n x r1 Ha E) as (p1 & F1 & F2 & F3).
      destruct (IH x r1 p1 a r' F2 H) as (p2 & G1 & G2 & G3). exists p2. split; [econstructor; eauto | split; congruence].
  Qed.

  (** ** The wrapper *)
  Inductive related (ad : bytes) : dec_wrapper S -> dstate -> Prop :=
  | Rel_trying : forall source ks l p, rw_at source p -> rw_rewindable source = true ->
      related ad (mk_dec_wrapper source ad None ks (Some l) false) (Trying ks l p)
  | Rel_reading : forall source ks a l p, rw_at source p ->
      related ad (mk_dec_wrapper source ad (Some l) ks a false) (Reading l p).

  Lemma attempt_refines : forall fuel ad size ks l source p r w', size <> 0 -> rw_at source p ->
    rw_rewindable source = true ->
    attempt_loop src fuel ad false size ks l source = Some (r, w') ->
    exists st, dread X C ad (Trying ks l p) size r st /\ related ad w' st.
  Proof.
    intros fuel ad size ks. induction ks as [| k ks IH]; intros l source p r w' Hz Ha Hre H; cbn [attempt_loop] in H;
      destruct (run_rio (rewindable_read src fuel) (live_read l size) source) as [[[x a'] source'] |] eqn:E; try discriminate;
      destruct (run_reads _ fuel _ _ _ _ _ Ha E) as (p1 & R1 & R2 & R3); rewrite Hre in R3;
      destruct x as [[d |] | e].
    - apply some_inj in H. pose proof (f_equal fst H) as H1. pose proof (f_equal snd H) as H2. cbn in H1, H2. subst r w'.
      exists (Reading a' p1). split; [econstructor; eauto |]. constructor. destruct R2 as (g & ? & ? & ? & ? & _). exists g. repeat split; auto. discriminate.
    - apply some_inj in H. pose proof (f_equal fst H) as H1. pose proof (f_equal snd H) as H2. cbn in H1, H2. subst r w'.
      exists (Trying [] a' p1). split; [| constructor; auto]. eapply D_same; eauto; [discriminate |]. intros (e & E' & _). discriminate.
    - destruct (is_tink_error e) eqn:Et.
      + apply some_inj in H. pose proof (f_equal fst H) as H1. pose proof (f_equal snd H) as H2. cbn in H1, H2. subst r w'.
        exists (Trying [] a' p1). split; [| constructor; auto]. eapply D_last; eauto. exists e. auto.
      + apply some_inj in H. pose proof (f_equal fst H) as H1. pose proof (f_equal snd H) as H2. cbn in H1, H2. subst r w'.
        exists (Trying [] a' p1). split; [| constructor; auto]. eapply D_same; eauto; [discriminate |]. intros (e' & E' & Et'). congruence.
    - apply some_inj in H. pose proof (f_equal fst H) as H1. pose proof (f_equal snd H) as H2. cbn in H1, H2. subst r w'.
      exists (Reading a' p1). split; [econstructor; eauto |]. constructor. destruct R2 as (g & ? & ? & ? & ? & _). exists g. repeat split; auto. discriminate.
    - apply some_inj in H. pose proof (f_equal fst H) as H1. pose proof (f_equal snd H) as H2. cbn in H1, H2. subst r w'.
      exists (Trying (k :: ks) a' p1). split; [| constructor; auto]. eapply D_same; eauto; [discriminate |]. intros (e & E' & _). discriminate.
    - destruct (is_tink_error e) eqn:Et.
      + unfold rewindable_rewind in H. rewrite R3 in H.
        match type of H with context [run_rio _ _ ?s2] => set (source2 := s2) in * end.
        assert (A2 : rw_at source2 0).
        { destruct R2 as (g & Q1 & Q2 & Q3 & Q4 & Q5). specialize (Q5 R3). subst g. exists 0%nat. unfold source2. cbn. repeat split; auto. lia. }
        destruct (run_rio (rewindable_read src fuel) (rsa_new_raw_decrypting_stream k ad) source2) as [[[o | e'] source3] |] eqn:E2; [| | discriminate];
          destruct (run_reads _ fuel _ _ _ _ _ A2 E2) as (p2 & T1 & T2 & T3); change (rw_rewindable source2) with true in T3.
        * destruct (IH _ _ _ _ _ Hz T2 T3 H) as (st & U1 & U2). exists st. split; [| exact U2].
          eapply D_next; eauto. exists e. auto.
        * apply some_inj in H. pose proof (f_equal fst H) as H1. pose proof (f_equal snd H) as H2. cbn in H1, H2. subst r w'.
          exists (Trying ks a' p2). split; [| constructor; auto]. eapply D_broken; eauto. exists e. auto.
      + apply some_inj in H. pose proof (f_equal fst H) as H1. pose proof (f_equal snd H) as H2. cbn in H1, H2. subst r w'.
        exists (Trying (k :: ks) a' p1). split; [| constructor; auto]. eapply D_same; eauto; [discriminate |]. intros (e' & E' & Et'). congruence.
  Qed.

  Lemma read_refines : forall fuel ad w st size r w', related ad w st ->
    dec_wrapper_read src fuel w size = Some (r, w') -> exists st', dread X C ad st size r st' /\ related ad w' st'.
  Proof.
    intros fuel ad w st size r w' R H. unfold dec_wrapper_read in H.
    destruct R as [source ks l p Ha Hre | source ks a l p Ha]; cbn [dw_closed dw_matching_stream dw_attempting_stream dw_ciphertext_source dw_associated_data dw_remaining_primitives] in H;
      destruct (Z.eqb_spec size 0) as [-> | Hz].
    - apply some_inj in H. pose proof (f_equal fst H) as H1. pose proof (f_equal snd H) as H2. cbn in H1, H2. subst r w'.
      eexists. split; [apply D_zero | constructor; auto].
    - eapply attempt_refines; eauto.
    - apply some_inj in H. pose proof (f_equal fst H) as H1. pose proof (f_equal snd H) as H2. cbn in H1, H2. subst r w'.
      eexists. split; [apply D_zero | constructor; auto].
    - destruct (run_rio (rewindable_read src fuel) (live_read l size) source) as [[[x a'] source'] |] eqn:E; [| discriminate].
      destruct (run_reads _ fuel _ _ _ _ _ Ha E) as (p1 & R1 & R2 & R3).
      apply some_inj in H. pose proof (f_equal fst H) as H1. pose proof (f_equal snd H) as H2. cbn in H1, H2. subst r w'.
      exists (Reading a' p1). split; [econstructor; eauto | constructor; auto].
  Qed.

  Lemma history_refines : forall fuel ad w h w', wrapper_history src fuel w h w' ->
    forall st, related ad w st -> exists st', dhistory X C ad st h st' /\ related ad w' st'.
  Proof.
    intros fuel ad w h w' H. induction H as [w | w size r w1 h w2 Hr H IH]; intros st R.
    - exists st. split; [constructor | exact R].
    - destruct (read_refines _ _ _ _ _ _ _ R Hr) as (st1 & D1 & R1). destruct (IH _ R1) as (st2 & D2 & R2).
      exists st2. split; [econstructor; eauto | exact R2].
  Qed.

  Lemma init_refines : forall fuel prims s ad w, at_ s 0%nat ->
    dec_wrapper_init src fuel prims s ad = Some (Ok w) ->
    exists k ks o p, prims = k :: ks /\ reads X C 0 (rsa_new_raw_decrypting_stream k ad) (Ok o) p /\
      related ad w (Trying ks (new_live o) p).
  Proof.
    intros fuel prims s ad w Ha H. unfold dec_wrapper_init in H. destruct (src_readable src s) eqn:Er; [| discriminate].
    unfold rewindable_init in H. rewrite Er in H. destruct prims as [| k ks]; [discriminate |]. cbn [next_decrypting_stream] in H.
    match type of H with context [run_rio _ _ ?s2] => set (source := s2) in * end.
    assert (A : rw_at source 0). { exists 0%nat. unfold source. cbn. repeat split; auto. }
    destruct (run_rio (rewindable_read src fuel) (rsa_new_raw_decrypting_stream k ad) source) as [[[o | e'] source3] |] eqn:E2; [| discriminate | discriminate].
    destruct (run_reads _ fuel _ _ _ _ _ A E2) as (p2 & T1 & T2 & T3). change (rw_rewindable source) with true in T3.
    apply some_inj, ok_inj in H. subst w. exists k, ks, o, p2. split; [reflexivity |]. split; [exact T1 |]. constructor; auto.
  Qed.
End Over.

(** ** What the abstract stream does *)

Lemma dhistory_snoc : forall X C ad st h size r st', dhistory X C ad st (h ++ [(size, r)]) st' ->
  exists st1, dhistory X C ad st h st1 /\ dread X C ad st1 size r st'.
Proof.
  intros X C ad st h. revert st. induction h as [| (s0 & r0) h IH]; intros st size r st' H; cbn in H.
  - inversion H; subst. match goal with K : dhistory _ _ _ _ [] _ |- _ => inversion K; subst end. eexists. split; [constructor | eassumption].
  - inversion H; subst. match goal with K : dhistory _ _ _ _ (_ ++ _) _ |- _ => apply IH in K; destruct K as (st1 & K1 & K2) end.
    exists st1. split; [econstructor; eauto | exact K2].
Qed.
Lemma stream_history_snoc : forall X C p l h p1 l1 size r p2 l2, stream_history X C p l h p1 l1 ->
  reads X C p1 (live_read l1 size) (r, l2) p2 -> stream_history X C p l (h ++ [(size, r)]) p2 l2.
Proof.
  intros X C p l h p1 l1 size r p2 l2 H. induction H; intros Hr; cbn.
  - econstructor; [exact Hr | constructor].
  - econstructor; eauto.
Qed.
Lemma no_data_snoc : forall h size r, no_data h -> (forall d, r <> Ok (Some d)) -> no_data (h ++ [(size, r)]).
Proof.
  intros h size r Hn Hr n d Hin. apply in_app_or in Hin. destruct Hin as [Hin | [E | []]]; [eapply Hn; eauto |].
  pose proof (f_equal snd E) as E'. cbn in E'. exact (Hr d E').
Qed.
Lemma nonzero_snoc : forall h size r, nonzero h -> size <> 0 -> nonzero (h ++ [(size, r)]).
Proof.
  intros h size r Hn Hr n d Hin. apply in_app_or in Hin. destruct Hin as [Hin | [E | []]]; [eapply Hn; eauto |].
  pose proof (f_equal fst E) as E'. cbn in E'. congruence.
Qed.
Lemma proper_app : forall a b, proper (a ++ b) = proper a ++ proper b.
Proof. intros. apply filter_app. Qed.
Lemma proper_one : forall size r, size <> 0 -> proper [(size, r)] = [(size, r)].
Proof. intros size r H. cbn. destruct (Z.eqb_spec size 0); [contradiction | reflexivity]. Qed.
Lemma tink_no_data : forall r, tink_failure r -> forall d, r <> Ok (Some d).
Proof. intros r (e & -> & _). discriminate. Qed.

Definition tracks (X : exn -> Prop) (C ad : bytes) (prims : list raw_streaming_aead) (h : list (Z * read_result)) (st : dstate) : Prop :=
  match st with
  | Trying ks l p => exists before k hk o p0, prims = before ++ k :: ks /\ (forall k', In k' before -> rejected X C ad k') /\
      no_data (proper h) /\ no_data hk /\ nonzero hk /\
      reads X C 0 (rsa_new_raw_decrypting_stream k ad) (Ok o) p0 /\ stream_history X C p0 (new_live o) hk p l
  | Reading l p => exists before k after h0 hk h1 o p0, prims = before ++ k :: after /\ (forall k', In k' before -> rejected X C ad k') /\
      proper h = h0 ++ h1 /\ no_data h0 /\ no_data hk /\ starts_with_data h1 /\ nonzero (hk ++ h1) /\
      reads X C 0 (rsa_new_raw_decrypting_stream k ad) (Ok o) p0 /\ stream_history X C p0 (new_live o) (hk ++ h1) p l
  end.

Lemma tracks_step : forall X C ad prims st size r st', (forall k, In k prims -> creation_works X C ad k) ->
  dread X C ad st size r st' -> forall h, tracks X C ad prims h st ->
  tracks X C ad prims (h ++ [(size, r)]) st' /\ (size <> 0 -> answered X C ad prims h size r).
Proof.
  intros X C ad prims st size r st' Hc H.
  induction H as [st | l p size r l' p' Hz Hr | ks l p size d l' p' Hz Hr | ks l p size r l' p' Hz Hr Hd Ht
                 | l p size r l' p' e Hz Hr Ht He | k ks l p size r l' p' o p2 r2 st Hz Hr Ht Ho H IH
                 | k ks l p size r l' p' e p2 Hz Hr Ht Ho]; intros h T.
  - split; [| intros Hz; elim Hz; reflexivity]. destruct st as [ks l p | l p]; cbn [tracks] in *; rewrite proper_app; cbn [proper filter fst Z.eqb negb];
      rewrite app_nil_r; exact T.
  - destruct T as (before & k & after & h0 & hk & h1 & o & p0 & E1 & E2 & E3 & E4 & E5 & E6 & E7 & E8 & E9). split.
    + exists before, k, after, h0, hk, (h1 ++ [(size, r)]), o, p0. rewrite proper_app, proper_one, E3, <- app_assoc by exact Hz.
      split; [exact E1 |]. split; [exact E2 |]. split; [reflexivity |]. split; [exact E4 |]. split; [exact E5 |].
      split; [destruct E6 as (n & d & t & ->); cbn; do 3 eexists; reflexivity |].
      rewrite app_assoc. split; [apply nonzero_snoc; assumption |]. split; [exact E8 |]. eapply stream_history_snoc; eauto.
    + intros _. exists before, k, after, h0, hk, h1, r. do 5 (split; [assumption |]). split; [right; exact E6 |].
      rewrite app_assoc. split; [exists o, p0, p', l'; split; [exact E8 | eapply stream_history_snoc; eauto] |].
      split; [apply nonzero_snoc; assumption |]. left. split; [reflexivity |]. intros ->. destruct E6 as (? & ? & ? & E6). discriminate.
  - destruct T as (before & k & hk & o & p0 & E1 & E2 & E3 & E4 & E5 & E6 & E7).
    assert (Hk : stream_history X C p0 (new_live o) (hk ++ [(size, Ok (Some d))]) p' l') by (eapply stream_history_snoc; eauto).
    assert (Hn : nonzero (hk ++ [(size, Ok (Some d))])) by (apply nonzero_snoc; assumption). split.
    + exists before, k, ks, (proper h), hk, [(size, Ok (Some d))], o, p0. rewrite proper_app, proper_one by exact Hz.
      repeat (split; [solve [assumption | reflexivity | do 3 eexists; reflexivity] |]). assumption.
    + intros _. exists before, k, ks, (proper h), hk, [], (Ok (Some d)). rewrite app_nil_r. cbn [app].
      do 5 (split; [solve [assumption | reflexivity] |]). split; [left; reflexivity |].
      split; [exists o, p0, p', l'; auto |]. split; [exact Hn |]. left. split; [reflexivity |]. intros _ (e & E & _). discriminate.
  - destruct T as (before & k & hk & o & p0 & E1 & E2 & E3 & E4 & E5 & E6 & E7).
    assert (Hk : stream_history X C p0 (new_live o) (hk ++ [(size, r)]) p' l') by (eapply stream_history_snoc; eauto).
    assert (Hn : nonzero (hk ++ [(size, r)])) by (apply nonzero_snoc; assumption). split.
    + exists before, k, (hk ++ [(size, r)]), o, p0. rewrite proper_app, proper_one by exact Hz.
      split; [exact E1 |]. split; [exact E2 |]. split; [apply no_data_snoc; assumption |]. split; [apply no_data_snoc; assumption |]. auto.
    + intros _. exists before, k, ks, (proper h), hk, [], r. rewrite app_nil_r. cbn [app].
      do 5 (split; [solve [assumption | reflexivity] |]). split; [left; reflexivity |].
      split; [exists o, p0, p', l'; auto |]. split; [exact Hn |]. left. split; [reflexivity |]. intros _. exact Ht.
  - destruct T as (before & k & hk & o & p0 & E1 & E2 & E3 & E4 & E5 & E6 & E7).
    assert (Hk : stream_history X C p0 (new_live o) (hk ++ [(size, r)]) p' l') by (eapply stream_history_snoc; eauto).
    assert (Hn : nonzero (hk ++ [(size, r)])) by (apply nonzero_snoc; assumption).
    assert (He' : tink_failure (Err e)) by (exists e; auto). split.
    + exists before, k, (hk ++ [(size, r)]), o, p0. rewrite proper_app, proper_one by exact Hz.
      split; [exact E1 |]. split; [exact E2 |]. split; [apply no_data_snoc; [assumption | discriminate] |].
      split; [apply no_data_snoc; [assumption | apply tink_no_data; exact Ht] |]. auto.
    + intros _. exists before, k, [], (proper h), hk, [], r. rewrite app_nil_r. cbn [app].
      do 5 (split; [solve [assumption | reflexivity] |]). split; [left; reflexivity |].
      split; [exists o, p0, p', l'; auto |]. split; [exact Hn |]. right. auto.
  - destruct T as (before & k0 & hk & o0 & p0 & E1 & E2 & E3 & E4 & E5 & E6 & E7).
    assert (Hk : stream_history X C p0 (new_live o0) (hk ++ [(size, r)]) p' l') by (eapply stream_history_snoc; eauto).
    apply (IH h). exists (before ++ [k0]), k, [], o, p2. rewrite <- app_assoc. cbn [app].
    split; [exact E1 |]. split.
    { intros k' Hin. apply in_app_or in Hin. destruct Hin as [Hin | [<- | []]]; [auto |].
      exists hk, size, r. split; [exists o0, p0, p', l'; auto |]. split; [apply nonzero_snoc; assumption |]. auto. }
    split; [exact E3 |]. split; [intros n d [] |]. split; [intros n d [] |]. split; [exact Ho | constructor].
  - destruct T as (before & k0 & hk & o0 & p0 & E1 & E2 & E3 & E4 & E5 & E6 & E7).
    assert (Hin : In k prims) by (rewrite E1; apply in_or_app; right; right; left; reflexivity).
    destruct (Hc k Hin _ _ Ho) as (o & Eo). discriminate.
Qed.

Lemma tracks_history : forall X C ad prims st h st', (forall k, In k prims -> creation_works X C ad k) ->
  dhistory X C ad st h st' -> forall h0, tracks X C ad prims h0 st -> tracks X C ad prims (h0 ++ h) st'.
Proof.
  intros X C ad prims st h st' Hc H. induction H as [st | st size r st1 h st2 Hr H IH]; intros h0 T.
  - rewrite app_nil_r. exact T.
  - apply (tracks_step _ _ _ _ _ _ _ _ Hc Hr) in T. destruct T as (T & _). apply IH in T. rewrite <- app_assoc in T. exact T.
Qed.

(** Any read of a decrypting stream of a keyset is answered by the stream of one key,
    used on its own on a copy of the file; all keys before it were rejected; after the
    first data it is this key for ever. *)
Theorem decrypting_stream_one_key : forall S X (src : py_source S) fuel C ad prims s w h size r w',
  plays X src C s 0 -> (forall k, In k prims -> creation_works X C ad k) ->
  dec_wrapper_init src fuel prims s ad = Some (Ok w) ->
  wrapper_history src fuel w (h ++ [(size, r)]) w' -> size <> 0 ->
  answered X C ad prims h size r.
Proof.
  intros S X src fuel C ad prims s w h size r w' (at_ & Ha & Hs) Hc Hi Hh Hz.
  destruct (init_refines X src C at_ Hs fuel prims s ad w Ha Hi) as (k & ks & o & p & -> & R0 & Rel).
  destruct (history_refines X src C at_ Hs _ _ _ _ _ Hh _ Rel) as (st' & D & _).
  apply dhistory_snoc in D. destruct D as (st1 & D1 & D2).
  assert (T : tracks X C ad (k :: ks) [] (Trying ks (new_live o) p)).
  { exists [], k, [], o, p. split; [reflexivity |]. split; [intros ? [] |]. split; [intros ? ? [] |]. split; [intros ? ? [] |].
    split; [intros ? ? [] |]. split; [exact R0 | constructor]. }
  apply (tracks_history _ _ _ _ _ _ _ Hc D1) in T. cbn [app] in T.
  apply (tracks_step _ _ _ _ _ _ _ _ Hc D2) in T. destruct T as (_ & T). exact (T Hz).
Qed.

Lemma no_data_data : forall h, no_data h -> data h = [].
Proof.
  induction h as [| (n & r) h IH]; intros H; [reflexivity |]. unfold data. cbn [map concat snd].
  change (concat (map (fun x => data_of (snd x)) h)) with (data h). rewrite IH by (intros m d K; apply (H m d); right; exact K).
  destruct r as [[d |] | e]; [| reflexivity | reflexivity]. elim (H n d). left. reflexivity.
Qed.
Lemma data_app : forall a b, data (a ++ b) = data a ++ data b.
Proof. intros. unfold data. rewrite map_app, concat_app. reflexivity. Qed.
Lemma app_split : forall {A} (a : list A) x b c y d, a ++ x :: b = c ++ y :: d ->
  (a = c /\ x = y /\ b = d) \/ In x c \/ (In y a /\ d <> []).
Proof.
  intros A a. induction a as [| u a IH]; intros x b [| v c] y d E; cbn in *.
  - injection E as -> ->. auto.
  - injection E as -> _. auto.
  - injection E as -> <-. right. right. split; [auto |]. destruct a; discriminate.
  - injection E as -> E. destruct (IH _ _ _ _ _ E) as [(-> & -> & ->) | [H | (H & H')]]; auto.
Qed.

Lemma alone_prefix : forall X C ad k h h', alone X C ad k (h ++ h') -> alone X C ad k h.
Proof.
  intros X C ad k h h' (o & p & p' & l & H1 & H2).
  assert (K : exists p'' l', stream_history X C p (new_live o) h p'' l').
  { clear H1. revert H2. generalize (new_live o). revert p. induction h as [| (n & r) h IH]; intros p l0 H.
    - do 2 eexists. constructor.
    - cbn in H. inversion H; subst. match goal with K : stream_history _ _ _ _ (_ ++ _) _ _ |- _ => apply IH in K; destruct K as (p2 & l2 & K) end.
      exists p2, l2. econstructor; eauto. }
  destruct K as (p2 & l2 & K). exists o, p, p2, l2. auto.
Qed.

(** The keys before [k] refuse the ciphertext and [k] decrypts it to [P]: every schedule
    of reads returns the bytes of [P] in order, b'' only at the end, and no errors. *)
Theorem decrypting_stream_plaintext : forall S X (src : py_source S) fuel C ad before k after P s w h size r w',
  plays X src C s 0 -> (forall k', In k' before -> refuses X k' ad C) -> decrypts_to X k ad C P ->
  (forall k', In k' after -> creation_works X C ad k') ->
  dec_wrapper_init src fuel (before ++ k :: after) s ad = Some (Ok w) ->
  wrapper_history src fuel w (h ++ [(size, r)]) w' -> size <> 0 ->
  match r with
  | Ok (Some []) => data (proper h) = P
  | Ok (Some d) => exists rest, P = data (proper h) ++ d ++ rest
  | Ok None => True
  | Err _ => False
  end.
Proof.
  intros S X src fuel C ad before k after P s w h size r w' Hp Hb Hk Ha Hi Hh Hz.
  assert (Hc : forall k', In k' (before ++ k :: after) -> creation_works X C ad k').
  { intros k' Hin. apply in_app_or in Hin. destruct Hin as [Hin | [<- | Hin]]; [apply (Hb k' Hin) | apply Hk | apply Ha; exact Hin]. }
  destruct (decrypting_stream_one_key S X src fuel C ad _ s w h size r w' Hp Hc Hi Hh Hz)
    as (b2 & k2 & a2 & h0 & hk & h1 & r0 & E & Hrej & Hpr & N0 & Nk & Hst & Hal & Hnz & Hr).
  assert (Hnr : ~ rejected X C ad k).
  { intros (h' & n & r' & A1 & A2 & A3 & (e & -> & _)). apply (proj2 Hk) in A1; auto. }
  destruct (app_split _ _ _ _ _ _ E) as [(-> & -> & ->) | [Hin | Hin]].
  - rewrite app_assoc in Hal, Hnz. pose proof (proj2 Hk _ _ _ Hal Hnz) as K.
    rewrite Hpr. rewrite data_app in K |- *. rewrite (no_data_data h0 N0), (no_data_data hk Nk) in *.
    destruct Hr as [(-> & _) | (_ & _ & (e & -> & _) & _)]; [exact K | contradiction].
  - elim Hnr. apply Hrej. exact Hin.
  - destruct Hin as (Hin & Hne). destruct (Hb k2 Hin) as (_ & Hf). destruct Hst as [-> | (n & d & t & ->)].
    + cbn [app] in Hal, Hnz. destruct (Hf _ _ _ Hal Hnz Nk) as [-> | F].
      * destruct Hr as [(-> & _) | (_ & _ & (e & E' & _) & _)]; [exact I | discriminate].
      * destruct Hr as [(-> & Hnt) | (_ & -> & _)]; [elim (Hnt eq_refl); exact F | elim Hne; reflexivity].
    + exfalso. assert (Hal' : alone X C ad k2 ((hk ++ [(n, Ok (Some d))]) ++ t ++ [(size, r0)])) by (rewrite <- app_assoc; exact Hal).
      assert (Hnz' : nonzero ((hk ++ [(n, Ok (Some d))]) ++ t ++ [(size, r0)])) by (rewrite <- app_assoc; exact Hnz).
      apply alone_prefix in Hal'. destruct (Hf _ _ _ Hal') as [E' | (e & E' & _)]; try discriminate; [| exact Nk].
      intros m q Hq. apply (Hnz' m q). apply in_or_app. left. exact Hq.
Qed.


(** All keys refuse the ciphertext: a read raises TinkError, unless the stream waits for
    more data. *)
Theorem decrypting_stream_refuses : forall S X (src : py_source S) fuel C ad prims s w h size r w',
  plays X src C s 0 -> (forall k, In k prims -> refuses X k ad C) ->
  dec_wrapper_init src fuel prims s ad = Some (Ok w) ->
  wrapper_history src fuel w (h ++ [(size, r)]) w' -> size <> 0 ->
  r = Ok None \/ tink_failure r.
Proof.
  intros S X src fuel C ad prims s w h size r w' Hp Hb Hi Hh Hz.
  assert (Hc : forall k', In k' prims -> creation_works X C ad k') by (intros k' Hin; apply (Hb k' Hin)).
  destruct (decrypting_stream_one_key S X src fuel C ad _ s w h size r w' Hp Hc Hi Hh Hz)
    as (b2 & k2 & a2 & h0 & hk & h1 & r0 & E & Hrej & Hpr & N0 & Nk & Hst & Hal & Hnz & Hr).
  assert (Hin : In k2 prims) by (rewrite E; apply in_or_app; right; left; reflexivity).
  destruct (Hb k2 Hin) as (_ & Hf). destruct Hst as [-> | (n & d & t & ->)].
  - cbn [app] in Hal, Hnz. destruct (Hf _ _ _ Hal Hnz Nk) as [-> | F].
    + destruct Hr as [(-> & _) | (_ & _ & (e & E' & _) & _)]; [auto | discriminate].
    + destruct Hr as [(-> & Hnt) | (_ & _ & _ & Ht)]; [elim (Hnt eq_refl); exact F | auto].
  - exfalso. assert (Hal' : alone X C ad k2 ((hk ++ [(n, Ok (Some d))]) ++ t ++ [(size, r0)])) by (rewrite <- app_assoc; exact Hal).
    assert (Hnz' : nonzero ((hk ++ [(n, Ok (Some d))]) ++ t ++ [(size, r0)])) by (rewrite <- app_assoc; exact Hnz).
    apply alone_prefix in Hal'. destruct (Hf _ _ _ Hal') as [E' | (e & E' & _)]; try discriminate; [| exact Nk].
    intros m q Hq. apply (Hnz' m q). apply in_or_app. left. exact Hq.
Qed.
