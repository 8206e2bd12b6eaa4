(** Raw decrypting streams. *)
From Coq Require Import Strings.String List NArith ZArith Bool Lia.
From Verif Require Import M_Base L_Base M_StreamTypes M_CcStream M_Stream S_Stream S_CcStream L_Stream L_Stream2 L_CcStream.
Import ListNotations.
Open Scope list_scope.
Open Scope Z_scope.

(** What a read of [size] bytes may answer at position [a] of the plaintext. *)
Definition read_ok (P : bytes) (a : nat) (size : Z) (b : bytes) : Prop :=
  firstn (length b) (skipn a P) = b /\ (0 <= size -> Z.of_nat (length b) <= size).

Section Dec.
  Context (what : exn -> string) (X : exn -> Prop) (C P : bytes) (d : cc_dec_stream).
  Hypothesis clear : eof_is_clear what X.
  Context (J : cd_state d -> istate -> istate -> Prop).
  Hypothesis Jnext : forall st i p r st' i', J st i p -> ireads (raises X) C i (cd_next d st) (r, st') i' ->
       exists p', ideal_next (raises X) P p r p' /\ J st' i' p'.
  Hypothesis Jback : forall st i p c st' i', J st i p -> ireads (raises X) C i (cd_back_up d st c) st' i' ->
       J st' i' (ideal_back_up p c).

  Definition dec_rel (s : dec_state d) (q : nat) (p : istate) : Prop :=
    exists i, in_rel C (snd s) q i /\ J (fst s) i p.

  Lemma adapter_read_ok : forall s q p size r st' is' q', dec_rel s q p ->
    reads X C q (run_iio what (input_adapter_read d (fst s) size) (snd s)) (r, st', is') q' ->
    exists p', dec_rel (st', is') q' p' /\
    match p with
    | Open a w =>
        (exists b w', r = StOk b /\ read_ok P a size b /\ p' = Open (a + length b) w') \/
        (r = StErr OutOfRange /\ a = length P /\ p' = Ended OutOfRange) \/
        (exists m, raises X /\ r = StErr (NotOk m) /\ p' = Ended (NotOk m))
    | Ended e => r = StErr e /\ p' = Ended e
    end.
  Proof.
    intros s q p size r st' is' q' (i & R & Hj) H.
    destruct (run_iio_ok what X C clear _ _ _ _ _ _ _ _ R H) as (i1 & H1 & R1).
    unfold input_adapter_read in H1. apply ireads_bind in H1. destruct H1 as ((x & st1) & i2 & N1 & N2). cbn [fst snd] in N2.
    destruct (Jnext _ _ _ _ _ _ Hj N1) as (p1 & D1 & J1).
    inversion D1 as [a w b Hb | a w He | a w m Hf | e]; subst.
    - set (av := Z.of_nat (length b)) in *. set (rc := if size <? 0 then av else Z.min av size) in *.
      assert (Hrc : 0 <= rc <= av). { unfold rc, av. destruct (Z.ltb_spec size 0); lia. }
      assert (Ok1 : read_ok P a size (firstn (Z.to_nat rc) b)).
      { split.
        - rewrite firstn_length. rewrite <- Hb at 2. rewrite firstn_firstn. reflexivity.
        - intros Hz. rewrite firstn_length. unfold rc, av in *. destruct (Z.ltb_spec size 0); lia. }
      assert (Lrc : length (firstn (Z.to_nat rc) b) = Z.to_nat rc) by (rewrite firstn_length; unfold av in *; lia).
      destruct (Z.ltb_spec rc av) as [Hlt | Hge].
      + apply ireads_bind in N2. destruct N2 as (st2 & i3 & N2 & N3). apply ireads_ret in N3. destruct N3 as (N3 & ->).
        injection N3 as -> ->. pose proof (Jback _ _ _ _ _ _ J1 N2) as J2. cbn [ideal_back_up] in J2.
        eexists. split; [exists i3; split; [exact R1 | exact J2] |]. left.
        eexists _, _. split; [reflexivity |]. split; [exact Ok1 |]. rewrite Lrc. f_equal; unfold av in *; lia.
      + apply ireads_ret in N2. destruct N2 as (N2 & ->). injection N2 as -> ->.
        eexists. split; [exists i2; split; [exact R1 | exact J1] |]. left.
        eexists _, _. split; [reflexivity |]. split; [exact Ok1 |]. rewrite Lrc. f_equal; unfold av in *; lia.
    - apply ireads_ret in N2. destruct N2 as (N2 & ->). injection N2 as -> ->.
      exists (Ended OutOfRange). split; [exists i2; auto |]. right. left. auto.
    - apply ireads_ret in N2. destruct N2 as (N2 & ->). injection N2 as -> ->.
      exists (Ended (NotOk m)). split; [exists i2; auto |]. right. right. eauto.
    - apply ireads_ret in N2. destruct N2 as (N2 & ->). injection N2 as -> ->.
      exists (Ended e). split; [exists i2; auto |]. auto.
  Qed.

  (** The position: [acc] is what has been returned. *)
  Definition pos_ok (acc : bytes) (p : istate) : Prop :=
    match p with
    | Open a _ => acc = firstn a P /\ (a <= length P)%nat
    | Ended e => (e = OutOfRange /\ acc = P) \/ (raises X /\ exists m, e = NotOk m)
    end.

  Definition read_case (acc : bytes) (size : Z) (x : read_result * dec_state d) (q' : nat) : Prop :=
    (exists b s' p', x = (Ok (Some b), s') /\ dec_rel s' q' p' /\ pos_ok (acc ++ b) p' /\
       (b = [] -> acc = P) /\ (exists rest, P = acc ++ b ++ rest) /\ Z.of_nat (length b) <= size) \/
    (exists e s' p', x = (Err e, s') /\ dec_rel s' q' p' /\ raises X /\ is_tink_error e = true /\ forall a, pos_ok a p').

  Lemma raw_read_ok : forall patience size s q p acc x q', 0 <= size -> dec_rel s q p -> pos_ok acc p ->
    reads X C q (raw_read what d patience size s) x q' -> read_case acc size x q'.
  Proof.
    induction patience as [| n IH]; intros size s q p acc x q' Hz R Hp H; cbn [raw_read] in H.
    - inversion H.
    - unfold py_input_adapter_read in H.
      apply reads_bind in H. destruct H as ((y & s2) & q2 & H1 & H2). cbn [fst snd] in H2.
      apply reads_bind in H1. destruct H1 as (((r & st') & is') & q3 & H1 & H3). cbn [fst snd] in H3.
      apply reads_ret in H3. destruct H3 as (H3 & ->). injection H3 as -> ->.
      destruct (adapter_read_ok _ _ _ _ _ _ _ _ R H1) as (p' & R' & K).
      assert (Fin : r = StErr OutOfRange -> p' = Ended OutOfRange -> acc = P -> read_case acc size x q').
      { intros -> -> E. cbn [py_input_adapter_answer use_tink_errors] in H2. apply reads_ret in H2. destruct H2 as (-> & ->).
        left. exists [], (st', is'), (Ended OutOfRange). rewrite app_nil_r. split; [reflexivity |]. split; [exact R' |].
        split; [left; auto |]. split; [intros _; exact E |]. split; [exists []; rewrite app_nil_r; congruence | cbn; lia]. }
      assert (Bad : forall m, r = StErr (NotOk m) -> p' = Ended (NotOk m) -> raises X -> read_case acc size x q').
      { intros m -> -> F. cbn [py_input_adapter_answer use_tink_errors] in H2. apply reads_ret in H2. destruct H2 as (-> & ->).
        right. eexists _, (st', is'), (Ended (NotOk m)). split; [reflexivity |]. split; [exact R' |].
        split; [exact F |]. split; [reflexivity |]. intros a. right. eauto. }
      destruct p as [a w | e].
      + destruct Hp as (Hacc & Ha). destruct K as [(b & w' & -> & (Hb & Hs) & ->) | [(-> & Ea & ->) | (m & F & -> & ->)]].
        * assert (Hle : (length b <= length P - a)%nat) by (rewrite <- Hb, firstn_length, skipn_length; lia).
          cbn [py_input_adapter_answer use_tink_errors] in H2. destruct b as [| b0 b].
          -- eapply IH; [exact Hz | exact R' | | exact H2]. cbn [length]. rewrite Nat.add_0_r. split; assumption.
          -- apply reads_ret in H2. destruct H2 as (-> & ->). left. exists (b0 :: b), (st', is'), (Open (a + length (b0 :: b)) w').
             assert (E : acc ++ (b0 :: b) = firstn (a + length (b0 :: b)) P) by (rewrite Hacc, <- firstn_plus, Hb; reflexivity).
             split; [reflexivity |]. split; [exact R' |]. split; [split; [exact E | lia] |].
             split; [discriminate |]. split; [| apply Hs; exact Hz].
             exists (skipn (a + length (b0 :: b)) P). rewrite app_assoc, E, firstn_skipn. reflexivity.
        * apply Fin; auto. rewrite Hacc, Ea, firstn_all. reflexivity.
        * eapply Bad; eauto.
      + destruct K as (-> & ->). destruct Hp as [(-> & Hacc) | (F & m & ->)]; [apply Fin; auto | eapply Bad; eauto].
  Qed.

  Lemma raw_readall_ok : forall patience n acc0 s q p acc x q', dec_rel s q p -> pos_ok (acc0 ++ acc) p ->
    reads X C q (raw_readall what d patience n acc s) x q' ->
    (exists b s' p', x = (Ok (Some b), s') /\ dec_rel s' q' p' /\ pos_ok (acc0 ++ b) p' /\ acc0 ++ b = P) \/
    (exists e s' p', x = (Err e, s') /\ dec_rel s' q' p' /\ raises X /\ is_tink_error e = true /\ forall a, pos_ok a p').
  Proof.
    intros patience. induction n as [| n IH]; intros acc0 s q p acc x q' R Hp H; cbn [raw_readall] in H.
    - inversion H.
    - apply reads_bind in H. destruct H as (y & q2 & H1 & H2).
      destruct (raw_read_ok patience 8192 s q p _ y q2 ltac:(lia) R Hp H1)
        as [(b & s' & p' & -> & R' & Hp' & Hb & _ & _) | (e & s' & p' & -> & R' & F & Ht & Hp')]; cbn [fst snd] in H2.
      + destruct b as [| b0 b].
        * apply reads_ret in H2. destruct H2 as (-> & ->). left. exists acc, s', p'. rewrite app_nil_r in Hp'. auto.
        * rewrite <- app_assoc in Hp'. eapply IH; [exact R' | exact Hp' | exact H2].
      + apply reads_ret in H2. destruct H2 as (-> & ->). right. exists e, s', p'. auto.
  Qed.

  Definition raw_inv (acc : bytes) (s : dec_state d) (q : nat) : Prop := exists p, dec_rel s q p /\ pos_ok acc p.

  (** One read. *)
  Definition raw_answer (acc : bytes) (size : Z) (r : read_result) : Prop :=
    match r with
    | Ok (Some b) => (b = [] -> acc = P) /\ exists rest, P = acc ++ b ++ rest /\
        (0 <= size -> Z.of_nat (length b) <= size) /\ (size < 0 -> rest = [])
    | Ok None => False
    | Err e => raises X /\ is_tink_error e = true
    end.
  Lemma raw_dec_read_ok : forall patience s q acc size r s' q', raw_inv acc s q ->
    reads X C q (raw_dec_read what d patience s size) (r, s') q' ->
    raw_answer acc size r /\ raw_inv (acc ++ data_of r) s' q'.
  Proof.
    intros patience s q acc size r s' q' (p & R & Hp) H. unfold raw_dec_read in H.
    destruct (Z.ltb_spec size 0) as [Hz | Hz].
    - destruct (raw_readall_ok patience patience acc s q p [] (r, s') q')
        as [(b & s1 & p' & E1 & R' & Hp' & E) | (e & s1 & p' & E1 & R' & F & Ht & Hp')]; auto.
      + rewrite app_nil_r. exact Hp.
      + injection E1 as -> ->. split; [| exists p'; auto].
        split; [intros ->; rewrite app_nil_r in E; exact E |]. exists []. rewrite app_nil_r. split; [congruence |].
        split; [lia | reflexivity].
      + injection E1 as -> ->. split; [split; assumption | exists p'; auto].
    - destruct (raw_read_ok patience size s q p acc (r, s') q' Hz R Hp H)
        as [(b & s1 & p' & E1 & R' & Hp' & Hb & (rest & E) & Hl) | (e & s1 & p' & E1 & R' & F & Ht & Hp')].
      + injection E1 as -> ->. split; [| exists p'; auto].
        split; [exact Hb |]. exists rest. split; [exact E |]. split; [intros _; exact Hl | lia].
      + injection E1 as -> ->. split; [split; assumption | exists p'; auto].
  Qed.

  Definition the_obj (patience : nat) (s0 : dec_state d) : raw_dec_stream :=
    mk_raw_dec_stream (dec_state d) s0 (fun s size => raw_dec_read what d patience s size).

  Lemma history_ok : forall patience s0 h q s q' l acc, raw_inv acc s q ->
    stream_history X C q (mk_live (the_obj patience s0) s) h q' l ->
    (forall h1 size r h2, h = h1 ++ (size, r) :: h2 -> raw_answer (acc ++ data h1) size r).
  Proof.
    intros patience s0 h. induction h as [| (size & r) h IH]; intros q s q' l acc I H.
    - intros h1 size r h2 E. destruct h1; discriminate.
    - inversion H as [| ? ? ? ? l1 q1 ? ? ? Hr Hh]; subst. unfold live_read in Hr. apply reads_bind in Hr.
      destruct Hr as ((x & s1) & q2 & H1 & H2). apply reads_ret in H2. cbn [fst snd lv_obj lv_state] in *. destruct H2 as (H2 & ->).
      injection H2 as -> ->. cbn [rds_read the_obj] in H1.
      destruct (raw_dec_read_ok _ _ _ _ _ _ _ _ I H1) as (A1 & A2).
      intros h1 n y h2 Eh. destruct h1 as [| z h1]; cbn in Eh.
      + injection Eh as -> -> ->. cbn. rewrite app_nil_r. exact A1.
      + injection Eh as <- Eh. unfold data. cbn [map concat snd]. rewrite app_assoc. eapply IH; eauto.
  Qed.
End Dec.

(** Every read, in every history of reads of a raw decrypting stream, and whatever parts
    the file object answers with. *)
Theorem raw_decrypting_stream_ok : forall what X in_buffer out_buffer n cc ad C P h size r,
  eof_is_clear what X -> in_buffer <> [] -> cc_decrypts (raises X) cc ad C P ->
  alone X C ad (streaming_aead_cc_to_py what in_buffer out_buffer n cc) (h ++ [(size, r)]) ->
  match r with
  | Ok (Some b) => (b = [] -> data h = P) /\ exists rest, P = data h ++ b ++ rest /\
        (0 <= size -> Z.of_nat (length b) <= size) /\ (size < 0 -> rest = [])
  | Ok None => False
  | Err e => raises X /\ is_tink_error e = true
  end.
Proof.
  intros what X ib ob n cc ad C P h size r Hc Hb Hcc (o & p & p' & l & H1 & H2).
  cbn [rsa_new_raw_decrypting_stream streaming_aead_cc_to_py] in H1. unfold new_raw_decrypting_stream in H1.
  apply reads_bind in H1. destruct H1 as ((x & is) & q & H1 & H3). apply reads_ret in H3. destruct H3 as (H3 & ->).
  destruct (run_iio_ok what X C Hc _ _ _ _ _ _ _ _ (in_rel_new C ib Hb) H1) as (i & K1 & K2).
  destruct (Hcc _ _ K1) as (d & -> & J & J0 & J1 & J2). cbn [fst snd] in H3. injection H3 as ->.
  refine (history_ok what X C P d Hc J J1 J2 n _ (h ++ [(size, r)]) q _ p' l [] _ H2 h size r [] eq_refl).
  exists (Open 0 0). split; [exists i; auto |]. split; [reflexivity | lia].
Qed.

(** What is needed for the streams of a keyset. *)
Theorem raw_decrypts_to : forall what X in_buffer out_buffer n cc ad C P,
  eof_is_clear what X -> ~ raises X -> in_buffer <> [] -> cc_decrypts (raises X) cc ad C P ->
  decrypts_to X (streaming_aead_cc_to_py what in_buffer out_buffer n cc) ad C P.
Proof.
  intros what X ib ob n cc ad C P Hc Hq Hb Hcc. split.
  - intros r p H. cbn [rsa_new_raw_decrypting_stream streaming_aead_cc_to_py] in H. unfold new_raw_decrypting_stream in H.
    apply reads_bind in H. destruct H as ((x & is) & q & H1 & H3). apply reads_ret in H3. destruct H3 as (H3 & ->).
    destruct (run_iio_ok what X C Hc _ _ _ _ _ _ _ _ (in_rel_new C ib Hb) H1) as (i & K1 & K2).
    destruct (Hcc _ _ K1) as (d & -> & _). cbn [fst] in H3. subst r. eauto.
  - intros h size r Ha _. pose proof (raw_decrypting_stream_ok _ _ _ _ _ _ _ _ _ _ _ _ Hc Hb Hcc Ha) as K.
    destruct r as [[[| b0 b] |] | e]; [apply K; reflexivity | | exact I | apply Hq, K].
    destruct K as (_ & rest & K & _). exists rest. exact K.
Qed.

(** read(0) does not return before the end of the plaintext. *)
Theorem raw_read_zero : forall what X in_buffer out_buffer n cc ad C P h r,
  eof_is_clear what X -> ~ raises X -> in_buffer <> [] -> cc_decrypts (raises X) cc ad C P ->
  alone X C ad (streaming_aead_cc_to_py what in_buffer out_buffer n cc) (h ++ [(0, r)]) ->
  data h = P.
Proof.
  intros what X ib ob n cc ad C P h r Hc Hq Hb Hcc Ha.
  pose proof (raw_decrypting_stream_ok _ _ _ _ _ _ _ _ _ _ _ _ Hc Hb Hcc Ha) as K.
  destruct r as [[b |] | e]; [| contradiction | elim Hq; apply K]. destruct K as (K1 & rest & _ & K2 & _).
  specialize (K2 ltac:(lia)). destruct b; [auto | cbn in K2; lia].
Qed.

(** A key for which the C++ stream ends in an error before any byte. *)
Section Refuse.
  Context (what : exn -> string) (X : exn -> Prop) (C : bytes) (d : cc_dec_stream).
  Hypothesis clear : eof_is_clear what X.
  Context (J : cd_state d -> istate -> Prop).
  Hypothesis Jnext : forall st i r st' i', J st i -> ireads (raises X) C i (cd_next d st) (r, st') i' ->
       (r = StOk [] \/ exists m, r = StErr (NotOk m)) /\ J st' i'.
  Definition ref_rel (s : dec_state d) (q : nat) : Prop := exists i, in_rel C (snd s) q i /\ J (fst s) i.

  Lemma raw_read_refuse : forall patience size s q x q', 0 <= size -> ref_rel s q ->
    reads X C q (raw_read what d patience size s) x q' ->
    exists e s', x = (Err e, s') /\ is_tink_error e = true /\ ref_rel s' q'.
  Proof.
    induction patience as [| n IH]; intros size s q x q' Hz (i & R & Hj) H; cbn [raw_read] in H.
    - inversion H.
    - unfold py_input_adapter_read in H.
      apply reads_bind in H. destruct H as ((y & s2) & q2 & H1 & H2). cbn [fst snd] in H2.
      apply reads_bind in H1. destruct H1 as (((r & st') & is') & q3 & H1 & H3). cbn [fst snd] in H3.
      apply reads_ret in H3. destruct H3 as (H3 & ->). injection H3 as -> ->.
      destruct (run_iio_ok what X C clear _ _ _ _ _ _ _ _ R H1) as (i1 & K1 & R1).
      unfold input_adapter_read in K1. apply ireads_bind in K1. destruct K1 as ((x1 & st1) & i2 & N1 & N2). cbn [fst snd] in N2.
      destruct (Jnext _ _ _ _ _ Hj N1) as ([-> | (m & ->)] & J1).
      + cbn [length Z.of_nat] in N2. destruct (Z.ltb_spec size 0) as [K | _]; [lia |].
        rewrite Z.min_l in N2 by exact Hz. cbn [Z.ltb Z.compare] in N2. apply ireads_ret in N2. destruct N2 as (N2 & ->).
        injection N2 as -> ->. cbn [py_input_adapter_answer use_tink_errors Z.to_nat firstn] in H2.
        eapply IH; [exact Hz | | exact H2]. exists i2. auto.
      + apply ireads_ret in N2. destruct N2 as (N2 & ->). injection N2 as -> ->.
        cbn [py_input_adapter_answer use_tink_errors] in H2. apply reads_ret in H2. destruct H2 as (-> & ->).
        eexists _, _. split; [reflexivity |]. split; [reflexivity |]. exists i2. auto.
  Qed.

  Lemma raw_dec_read_refuse : forall patience s q size r s' q', ref_rel s q ->
    reads X C q (raw_dec_read what d patience s size) (r, s') q' -> tink_failure r /\ ref_rel s' q'.
  Proof.
    intros patience s q size r s' q' I H. unfold raw_dec_read in H.
    assert (K : exists e s1, (r, s') = (Err e, s1) /\ is_tink_error e = true /\ ref_rel s1 q').
    { destruct (Z.ltb_spec size 0) as [Hz | Hz]; [| eapply raw_read_refuse; eauto].
      destruct patience as [| n]; cbn [raw_readall] in H; [inversion H |].
      apply reads_bind in H. destruct H as (y & q3 & H1 & H3).
      destruct (raw_read_refuse _ 8192 _ _ _ _ ltac:(lia) I H1) as (e & s1 & -> & He & R).
      apply reads_ret in H3. destruct H3 as (-> & ->). cbn. eauto. }
    destruct K as (e & s1 & E & He & R). injection E as -> ->. split; [exists e; auto | exact R].
  Qed.

  Lemma history_refuse : forall patience s0 h q s q' l, ref_rel s q ->
    stream_history X C q (mk_live (the_obj what d patience s0) s) h q' l ->
    forall size r, In (size, r) h -> tink_failure r.
  Proof.
    intros patience s0 h. induction h as [| (size & r) h IH]; intros q s q' l I H n y K; [destruct K |].
    inversion H as [| ? ? ? ? l1 q1 ? ? ? Hr Hh]; subst. unfold live_read in Hr. apply reads_bind in Hr.
    destruct Hr as ((x & s1) & q2 & H1 & H2). apply reads_ret in H2. cbn [fst snd lv_obj lv_state] in *. destruct H2 as (H2 & ->).
    injection H2 as -> ->. cbn [rds_read the_obj] in H1.
    destruct (raw_dec_read_refuse _ _ _ _ _ _ _ I H1) as (A1 & A2).
    destruct K as [K | K]; [injection K as -> ->; exact A1 | eapply IH; eauto].
  Qed.
End Refuse.

Theorem raw_refuses : forall what X in_buffer out_buffer n cc ad C,
  eof_is_clear what X -> in_buffer <> [] -> cc_refuses (raises X) cc ad C ->
  refuses X (streaming_aead_cc_to_py what in_buffer out_buffer n cc) ad C.
Proof.
  intros what X ib ob n cc ad C Hc Hb Hcc.
  assert (New : forall r p, reads X C 0 (rsa_new_raw_decrypting_stream (streaming_aead_cc_to_py what ib ob n cc) ad) r p ->
    exists d s i, r = Ok (the_obj what d n (cd_init d, s)) /\ in_rel C s p i /\ stream_refuses (raises X) C d i).
  { intros r p H. cbn [rsa_new_raw_decrypting_stream streaming_aead_cc_to_py] in H. unfold new_raw_decrypting_stream in H.
    apply reads_bind in H. destruct H as ((x & is) & q & H1 & H3). apply reads_ret in H3. destruct H3 as (H3 & ->).
    destruct (run_iio_ok what X C Hc _ _ _ _ _ _ _ _ (in_rel_new C ib Hb) H1) as (i & K1 & K2).
    destruct (Hcc _ _ K1) as (d & -> & K). cbn [fst snd] in H3. subst r. exists d, is, i. auto. }
  split.
  - intros r p H. destruct (New r p H) as (d & s & i & -> & _). eauto.
  - intros h size r (o & p & p' & l & H1 & H2) _ _. destruct (New _ _ H1) as (d & s & i & E & R & J & J0 & J1).
    injection E as ->. right. eapply (history_refuse what X C d Hc J J1); [| exact H2 | apply in_or_app; right; left; reflexivity].
    exists i. auto.
Qed.
