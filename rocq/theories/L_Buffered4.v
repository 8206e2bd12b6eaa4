(** Raw decrypting streams of ciphertexts that may be damaged. *)
From Coq Require Import Strings.String List NArith ZArith Bool Lia.
From Verif Require Import M_Base L_Base M_StreamTypes M_CcStream M_Stream M_Buffered S_Stream S_CcStream S_Buffered
  L_Stream L_Stream2 L_CcStream L_CcStream2.
Import ListNotations.
Open Scope list_scope.
Open Scope Z_scope.

Section Dec.
  Context (what : exn -> string) (X : exn -> Prop) (Er Fin : Prop) (C P : bytes) (d : cc_dec_stream).
  Hypothesis clear : eof_is_clear what X.
  Context (J : cd_state d -> istate -> istate -> Prop).
  Hypothesis Jnext : forall st i p r st' i', J st i p -> ireads (raises X) C i (cd_next d st) (r, st') i' ->
       exists p', part_next Er Fin P p r p' /\ J st' i' p'.
  Hypothesis Jback : forall st i p c st' i', J st i p -> ireads (raises X) C i (cd_back_up d st c) st' i' ->
       J st' i' (ideal_back_up p c).

  Definition dec_rel (s : dec_state d) (q : nat) (p : istate) : Prop :=
    exists i, in_rel C (snd s) q i /\ J (fst s) i p.

  Lemma adapter_read_ok : forall s q p size r st' is' q', dec_rel s q p ->
    reads X C q (run_iio what (input_adapter_read d (fst s) size) (snd s)) (r, st', is') q' ->
    exists p', dec_rel (st', is') q' p' /\
    match p with
    | Open a w =>
        (exists b w', r = StOk b /\ read_ok P a size b /\ p' = Open (a + length b) w') \/
        (r = StErr OutOfRange /\ (a = length P /\ Fin) /\ p' = Ended OutOfRange) \/
        (exists m, Er /\ r = StErr (NotOk m) /\ p' = Ended (NotOk m))
    | Ended e => r = StErr e /\ p' = Ended e
    end.
  Proof.
    intros s q p size r st' is' q' (i & R & Hj) H.
    destruct (run_iio_ok what X C clear _ _ _ _ _ _ _ _ R H) as (i1 & H1 & R1).
    unfold input_adapter_read in H1. apply ireads_bind in H1. destruct H1 as ((x & st1) & i2 & N1 & N2). cbn [fst snd] in N2.
    destruct (Jnext _ _ _ _ _ _ Hj N1) as (p1 & D1 & J1).
    inversion D1 as [a w b Hb | a w Hfin He | a w m Hf | e]; subst.
    - set (av := Z.of_nat (length b)) in *. set (rc := if size <? 0 then av else Z.min av size) in *.
      assert (Hrc : 0 <= rc <= av). { unfold rc, av. destruct (Z.ltb_spec size 0); lia. }
      assert (Ok1 : read_ok P a size (firstn (Z.to_nat rc) b)).
      { split.
        - rewrite firstn_length. rewrite <- Hb at 2. rewrite firstn_firstn. reflexivity.
        - intros Hz. rewrite firstn_length. unfold rc, av in *. destruct (Z.ltb_spec size 0); lia. }
      assert (Lrc : length (firstn (Z.to_nat rc) b) = Z.to_nat rc) by (rewrite firstn_length; unfold av in *; lia).
      destruct (Z.ltb_spec rc av) as [Hlt | Hge].
      + apply ireads_bind in N2. destruct N2 as (st2 & i3 & N2 & N3). apply ireads_ret in N3. destruct N3 as (N3 & ->).
        injection N3 as -> ->. pose proof (Jback _ _ _ _ _ _ J1 N2) as J2. cbn [ideal_back_up] in J2.
        eexists. split; [exists i3; split; [exact R1 | exact J2] |]. left.
        eexists _, _. split; [reflexivity |]. split; [exact Ok1 |]. rewrite Lrc. f_equal; unfold av in *; lia.
      + apply ireads_ret in N2. destruct N2 as (N2 & ->). injection N2 as -> ->.
        eexists. split; [exists i2; split; [exact R1 | exact J1] |]. left.
        eexists _, _. split; [reflexivity |]. split; [exact Ok1 |]. rewrite Lrc. f_equal; unfold av in *; lia.
    - apply ireads_ret in N2. destruct N2 as (N2 & ->). injection N2 as -> ->.
      exists (Ended OutOfRange). split; [exists i2; auto |]. right. left. auto.
    - apply ireads_ret in N2. destruct N2 as (N2 & ->). injection N2 as -> ->.
      exists (Ended (NotOk m)). split; [exists i2; auto |]. right. right. eauto.
    - apply ireads_ret in N2. destruct N2 as (N2 & ->). injection N2 as -> ->.
      exists (Ended e). split; [exists i2; auto |]. auto.
  Qed.


  (** The position: [acc] is what has been returned, [bad]: an error has been raised. *)
  Definition pos_ok (acc : bytes) (bad : bool) (p : istate) : Prop :=
    match p with
    | Open a _ => bad = false /\ acc = firstn a P /\ (a <= length P)%nat
    | Ended e => (bad = false /\ Fin /\ e = OutOfRange /\ acc = P) \/ (Er /\ exists m, e = NotOk m)
    end.
  Definition raw_inv (acc : bytes) (bad : bool) (s : dec_state d) (q : nat) : Prop := exists p, dec_rel s q p /\ pos_ok acc bad p.

  Definition raw_case (acc : bytes) (bad : bool) (size : Z) (x : read_result * dec_state d) (q' : nat) : Prop :=
    match fst x with
    | Ok (Some b) => bad = false /\ (b = [] -> acc = P /\ Fin) /\ (exists rest, P = acc ++ b ++ rest) /\
        (0 <= size -> Z.of_nat (length b) <= size) /\ raw_inv (acc ++ b) false (snd x) q'
    | Ok None => False
    | Err e => Er /\ is_tink_error e = true /\ forall a, raw_inv a true (snd x) q'
    end.

  Lemma raw_read_ok : forall patience size s q acc bad x q', 0 <= size -> raw_inv acc bad s q ->
    reads X C q (raw_read what d patience size s) x q' -> raw_case acc bad size x q'.
  Proof.
    induction patience as [| n IH]; intros size s q acc bad x q' Hz (p & R & Hp) H; cbn [raw_read] in H.
    - inversion H.
    - unfold py_input_adapter_read in H.
      apply reads_bind in H. destruct H as ((y & s2) & q2 & H1 & H2). cbn [fst snd] in H2.
      apply reads_bind in H1. destruct H1 as (((r & st') & is') & q3 & H1 & H3). cbn [fst snd] in H3.
      apply reads_ret in H3. destruct H3 as (H3 & ->). injection H3 as -> ->.
      destruct (adapter_read_ok _ _ _ _ _ _ _ _ R H1) as (p' & R' & K).
      assert (Done : r = StErr OutOfRange -> p' = Ended OutOfRange -> bad = false -> acc = P -> Fin -> raw_case acc bad size x q').
      { intros -> -> -> E Hfin. cbn [py_input_adapter_answer use_tink_errors] in H2. apply reads_ret in H2. destruct H2 as (-> & ->).
        unfold raw_case. cbn [fst snd]. rewrite app_nil_r. split; [reflexivity |]. split; [auto |].
        split; [exists []; cbn; rewrite app_nil_r; auto |]. split; [cbn; lia |]. exists (Ended OutOfRange). split; [exact R' |]. left. auto. }
      assert (Bad : forall m, r = StErr (NotOk m) -> p' = Ended (NotOk m) -> Er -> raw_case acc bad size x q').
      { intros m -> -> HE. cbn [py_input_adapter_answer use_tink_errors] in H2. apply reads_ret in H2. destruct H2 as (-> & ->).
        unfold raw_case. cbn [fst snd]. split; [exact HE |]. split; [reflexivity |]. intros a. exists (Ended (NotOk m)). split; [exact R' |]. right. eauto. }
      destruct p as [a w | e].
      + destruct Hp as (-> & Hacc & Ha). destruct K as [(b & w' & -> & (Hb & Hs) & ->) | [(-> & (Ea & Hfin) & ->) | (m & HE & -> & ->)]].
        * assert (Hle : (length b <= length P - a)%nat) by (rewrite <- Hb, firstn_length, skipn_length; lia).
          cbn [py_input_adapter_answer use_tink_errors] in H2. destruct b as [| b0 b].
          -- eapply IH; [exact Hz | | exact H2]. eexists. split; [exact R' |]. cbn [length]. rewrite Nat.add_0_r. split; auto.
          -- apply reads_ret in H2. destruct H2 as (-> & ->). unfold raw_case. cbn [fst snd].
             assert (E : acc ++ (b0 :: b) = firstn (a + length (b0 :: b)) P) by (rewrite Hacc, <- firstn_plus, Hb; reflexivity).
             split; [reflexivity |]. split; [discriminate |].
             split; [exists (skipn (a + length (b0 :: b)) P); rewrite app_assoc, E, firstn_skipn; reflexivity |]. split; [exact Hs |].
             exists (Open (a + length (b0 :: b)) w'). split; [exact R' |]. split; [reflexivity |]. split; [exact E | lia].
        * apply Done; auto. rewrite Hacc, Ea, firstn_all. reflexivity.
        * eapply Bad; eauto.
      + destruct K as (-> & ->). destruct Hp as [(Hb & Hfin & -> & Hacc) | (HE & m & ->)]; [apply Done; auto | eapply Bad; eauto].
  Qed.

  Lemma raw_readall_ok : forall patience n acc0 s q bad acc x q', raw_inv (acc0 ++ acc) bad s q -> acc = [] \/ bad = false ->
    reads X C q (raw_readall what d patience n acc s) x q' ->
    match fst x with
    | Ok (Some b) => bad = false /\ acc0 ++ b = P /\ Fin /\ raw_inv P false (snd x) q'
    | Ok None => False
    | Err e => Er /\ is_tink_error e = true /\ forall a, raw_inv a true (snd x) q'
    end.
  Proof.
    intros patience. induction n as [| n IH]; intros acc0 s q bad acc x q' R Hn H; cbn [raw_readall] in H.
    - inversion H.
    - apply reads_bind in H. destruct H as ((y & s') & q2 & H1 & H2).
      assert (H8 : 0 <= 8192) by lia. pose proof (raw_read_ok patience 8192 s q _ _ _ q2 H8 R H1) as K. unfold raw_case in K. cbn [fst snd] in *.
      destruct y as [[b |] | e]; [| contradiction |].
      + destruct K as (-> & K1 & K2 & _ & K). destruct b as [| b0 b].
        * apply reads_ret in H2. destruct H2 as (-> & ->). cbn [fst snd]. destruct (K1 eq_refl) as (E1 & E2). rewrite app_nil_r in K. rewrite E1 in K. auto.
        * rewrite <- app_assoc in K. eapply IH in H2; [| exact K | auto]. exact H2.
      + apply reads_ret in H2. destruct H2 as (-> & ->). exact K.
  Qed.

  Lemma raw_dec_read_ok : forall patience s q acc bad size r s' q', raw_inv acc bad s q ->
    reads X C q (raw_dec_read what d patience s size) (r, s') q' -> raw_case acc bad size (r, s') q'.
  Proof.
    intros patience s q acc bad size r s' q' R H. unfold raw_dec_read in H.
    destruct (Z.ltb_spec size 0) as [Hz | Hz]; [| eapply raw_read_ok; eauto].
    assert (R' : raw_inv (acc ++ []) bad s q) by (rewrite app_nil_r; exact R).
    pose proof (raw_readall_ok patience patience acc s q bad [] _ q' R' (or_introl eq_refl) H) as K. unfold raw_case. cbn [fst snd] in *.
    destruct r as [[b |] | e]; [| exact K | exact K]. destruct K as (-> & K1 & K2 & K3). split; [reflexivity |].
    split; [intros ->; rewrite app_nil_r in K1; auto |]. split; [exists []; rewrite app_nil_r; auto |]. split; [lia |]. rewrite K1. exact K3.
  Qed.

  Lemma history_gives : forall patience s0 h q s q' l acc bad, raw_inv acc bad s q ->
    stream_history X C q (mk_live (the_obj what d patience s0) s) h q' l ->
    forall h1 size r h2, h = h1 ++ (size, r) :: h2 ->
    match r with
    | Ok (Some b) => bad = false /\ (forall n e, ~ In (n, Err e) h1) /\ (b = [] -> acc ++ data h1 = P /\ Fin) /\
        (exists rest, P = (acc ++ data h1) ++ b ++ rest) /\ (0 <= size -> Z.of_nat (length b) <= size)
    | Ok None => False
    | Err e => Er /\ is_tink_error e = true
    end.
  Proof.
    intros patience s0 h. induction h as [| (size & r) h IH]; intros q s q' l acc bad R H.
    - intros h1 size r h2 E. destruct h1; discriminate.
    - inversion H as [| ? ? ? ? l1 q1 ? ? ? Hr Hh]; subst. unfold live_read in Hr. apply reads_bind in Hr.
      destruct Hr as ((x & s1) & q2 & H1 & H2). apply reads_ret in H2. cbn [fst snd lv_obj lv_state] in *. destruct H2 as (H2 & ->).
      injection H2 as -> ->. cbn [rds_read the_obj] in H1.
      pose proof (raw_dec_read_ok _ _ _ _ _ _ _ _ _ R H1) as K. unfold raw_case in K. cbn [fst snd] in K.
      intros h1 n y h2 Eh. destruct h1 as [| z h1]; cbn in Eh.
      + injection Eh as -> -> ->. unfold data. cbn [map concat]. rewrite app_nil_r. destruct y as [[b |] | e]; [| exact K | tauto].
        destruct K as (K1 & K2 & K3 & K4 & _). split; [exact K1 |]. split; [intros ? ? [] |]. auto.
      + injection Eh as <- Eh. destruct x as [[b |] | e]; [| contradiction |].
        * destruct K as (-> & _ & _ & _ & K). specialize (IH _ _ _ _ _ _ K Hh _ _ _ _ Eh). destruct y as [[b2 |] | e2]; [| exact IH | exact IH].
          destruct IH as (I1 & I2 & I3 & I4 & I5). unfold data in *. cbn [map concat snd data_of]. rewrite app_assoc. split; [reflexivity |].
          split; [intros n0 e0 [Hi | Hi]; [discriminate | exact (I2 _ _ Hi)] |]. auto.
        * destruct K as (K1 & K2 & K). specialize (IH _ _ _ _ _ _ (K []) Hh _ _ _ _ Eh). destruct y as [[b2 |] | e2]; [| exact IH | exact IH].
          destruct IH as (I1 & _). discriminate.
  Qed.
End Dec.

Theorem raw_gives : forall what X in_buffer out_buffer n cc ad E Fin C P,
  eof_is_clear what X -> in_buffer <> [] -> cc_gives (raises X) E Fin cc ad C P ->
  gives X E Fin (streaming_aead_cc_to_py what in_buffer out_buffer n cc) ad C P.
Proof.
  intros what X ib ob n cc ad Er Fin C P Hc Hb Hcc.
  assert (New : forall r p, reads X C 0 (rsa_new_raw_decrypting_stream (streaming_aead_cc_to_py what ib ob n cc) ad) r p ->
    exists d s i, r = Ok (the_obj what d n (cd_init d, s)) /\ in_rel C s p i /\ stream_gives (raises X) Er Fin C P d i).
  { intros r p H. cbn [rsa_new_raw_decrypting_stream streaming_aead_cc_to_py] in H. unfold new_raw_decrypting_stream in H.
    apply reads_bind in H. destruct H as ((x & is) & q & H1 & H3). apply reads_ret in H3. destruct H3 as (H3 & ->).
    destruct (run_iio_ok what X C Hc _ _ _ _ _ _ _ _ (in_rel_new C ib Hb) H1) as (i & K1 & K2).
    destruct (Hcc _ _ K1) as (d & -> & K). cbn [fst snd] in H3. subst r. exists d, is, i. auto. }
  split.
  - intros r p H. destruct (New r p H) as (d & s & i & -> & _). eauto.
  - intros h size r (o & p & p' & l & H1 & H2) Nz. destruct (New _ _ H1) as (d & s & i & E & R & J & J0 & J1 & J2).
    injection E as ->.
    assert (I0 : raw_inv Er Fin C P d J [] false (cd_init d, s) p).
    { exists (Open 0 0). split; [exists i; auto |]. split; [reflexivity |]. split; [reflexivity | lia]. }
    pose proof (history_gives what X Er Fin C P d Hc J J1 J2 n _ _ _ _ _ _ _ _ I0 H2 h size r [] eq_refl) as K.
    destruct r as [[b |] | e]; [| exact K | exact K]. destruct K as (_ & K1 & K2 & K3 & K4). cbn [app] in *. auto.
Qed.

(** An intact ciphertext. *)
Lemma cc_decrypts_gives : forall F cc ad C P, cc_decrypts F cc ad C P -> cc_gives F F True cc ad C P.
Proof.
  intros F cc ad C P H r i Hr. destruct (H _ _ Hr) as (d & -> & J & J0 & J1 & J2). exists d. split; [reflexivity |].
  exists J. split; [exact J0 |]. split; [| exact J2]. intros st i0 p r0 st' i' Hj Hn. destruct (J1 _ _ _ _ _ _ Hj Hn) as (p' & D & Hj').
  exists p'. split; [| exact Hj']. inversion D; subst; constructor; auto.
Qed.

Theorem raw_turns_down : forall what X in_buffer out_buffer n cc ad C,
  eof_is_clear what X -> in_buffer <> [] -> cc_refuses (raises X) cc ad C ->
  turns_down X (streaming_aead_cc_to_py what in_buffer out_buffer n cc) ad C.
Proof.
  intros what X ib ob n cc ad C Hc Hb Hcc. split; [apply (raw_refuses what X ib ob n cc ad C Hc Hb Hcc) |].
  intros h size r (o & p & p' & l & H1 & H2) _. cbn [rsa_new_raw_decrypting_stream streaming_aead_cc_to_py] in H1. unfold new_raw_decrypting_stream in H1.
  apply reads_bind in H1. destruct H1 as ((x & is) & q & H1 & H3). apply reads_ret in H3. destruct H3 as (H3 & ->).
  destruct (run_iio_ok what X C Hc _ _ _ _ _ _ _ _ (in_rel_new C ib Hb) H1) as (i & K1 & K2).
  destruct (Hcc _ _ K1) as (d & -> & J & J0 & J1). cbn [fst snd] in H3. injection H3 as ->.
  eapply (history_refuse what X C d Hc J J1); [| exact H2 | apply in_or_app; right; left; reflexivity]. exists i. auto.
Qed.
