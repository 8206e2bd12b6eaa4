(** Buffered writers. *)
From Coq Require Import Strings.String List NArith ZArith Bool Lia.
From Verif Require Import M_Base L_Base M_StreamTypes M_CcStream M_Stream M_Buffered S_Stream S_CcStream S_Buffered
  L_Stream L_Stream2 L_CcStream3 L_CcStream4.
Import ListNotations.
Open Scope list_scope.
Open Scope Z_scope.

Lemma zdrop_all : forall b, zdrop (zlen b) b = [].
Proof. intros b. unfold zdrop. rewrite Z.leb_refl. reflexivity. Qed.
Lemma zlen_nonneg : forall b, 0 <= zlen b.
Proof. intros b. unfold zlen. lia. Qed.
Lemma zlen_app : forall a b, zlen (a ++ b) = zlen a + zlen b.
Proof. intros a b. unfold zlen. rewrite app_length. lia. Qed.
Lemma ztake_zdrop : forall n b, 0 <= n -> ztake n b ++ zdrop n b = b.
Proof. intros n b H. unfold ztake, zdrop. destruct (zlen b <=? n); [apply app_nil_r | apply firstn_skipn]. Qed.
Lemma zlen_ztake : forall n b, 0 <= n -> zlen (ztake n b) = Z.min n (zlen b).
Proof.
  intros n b H. unfold ztake. destruct (Z.leb_spec (zlen b) n); [lia |]. unfold zlen in *. rewrite firstn_length. lia.
Qed.

(** A raw stream that has taken [T]. *)
Inductive rstate := ROpen (T : bytes) | RFailed (T : bytes).

Section Writer.
  Context (X : exn -> Prop) (size : Z) (n cap : nat) (e : raw_enc_stream) (enc : bytes -> bytes -> Prop).
  Context (I : bytes -> res_state e -> rstate -> Prop).
  Hypothesis Iwrite : forall W s T b r s' W', I W s (ROpen T) -> writes X W (res_write e s b) (r, s') W' ->
    match r with
    | Ok k => k = zlen b /\ I W' s' (ROpen (T ++ b))
    | Err x => is_tink_error x = true /\ I W' s' (RFailed (T ++ b))
    end.
  Hypothesis Ifailed : forall W s T b r s' W', I W s (RFailed T) -> b <> [] -> writes X W (res_write e s b) (r, s') W' ->
    exists x, r = Err x /\ is_tink_error x = true /\ I W' s' (RFailed T).
  Hypothesis Iclose : forall W s T r s' W', I W s (ROpen T) -> writes X W (res_close e s) (r, s') W' ->
    match r with Ok _ => enc T W' | Err x => can_fail X cap T /\ is_tink_error x = true end.
  Hypothesis Ifailed_close : forall W s T r s' W', I W s (RFailed T) -> writes X W (res_close e s) (r, s') W' ->
    exists x, r = Err x /\ is_tink_error x = true.
  Hypothesis Iraised : forall W s T, I W s (RFailed T) -> can_fail X cap T.
  Hypothesis Imono : forall W s T b, I W s (RFailed T) -> I W s (RFailed (T ++ b)).

  (** [T] has been given to the writer, [pending] is still in the buffer. *)
  Inductive winv (W : bytes) : buffered_writer e -> rstate -> Prop :=
  | WI_open : forall s start pending T, I W s (ROpen T) -> 0 <= start -> start + zlen pending <= size \/ pending = [] ->
      winv W (mk_buffered_writer s start pending false false) (ROpen (T ++ pending))
  | WI_failed : forall s start pending T, I W s (RFailed T) -> winv W (mk_buffered_writer s start pending false false) (RFailed T).

  Lemma raw_write_ok : forall W s T b r s' W', I W s (ROpen T) -> writes X W (bw_raw_write e s b) (r, s') W' ->
    match r with
    | Ok k => k = zlen b /\ I W' s' (ROpen (T ++ b))
    | Err x => is_tink_error x = true /\ I W' s' (RFailed (T ++ b))
    end.
  Proof.
    intros W s T b r s' W' H Hw. unfold bw_raw_write in Hw. apply writes_bind in Hw. destruct Hw as ((r1 & s1) & W1 & H1 & H2).
    apply writes_ret in H2. destruct H2 as (H2 & ->). cbn [fst snd] in H2. injection H2 as -> ->.
    pose proof (Iwrite _ _ _ _ _ _ _ H H1) as K. destruct r1 as [k | x]; [| exact K].
    destruct K as (-> & K). destruct (Z.ltb_spec (zlen b) 0) as [? | _]; [pose proof (zlen_nonneg b); lia |].
    rewrite Z.ltb_irrefl. cbn [orb]. auto.
  Qed.
  Lemma raw_write_failed : forall W s T b r s' W', I W s (RFailed T) -> b <> [] -> writes X W (bw_raw_write e s b) (r, s') W' ->
    exists x, r = Err x /\ is_tink_error x = true /\ I W' s' (RFailed T).
  Proof.
    intros W s T b r s' W' H Hb Hw. unfold bw_raw_write in Hw. apply writes_bind in Hw. destruct Hw as ((r1 & s1) & W1 & H1 & H2).
    apply writes_ret in H2. destruct H2 as (H2 & ->). cbn [fst snd] in H2. injection H2 as -> ->.
    destruct (Ifailed _ _ _ _ _ _ _ H Hb H1) as (x & -> & ? & ?). eauto.
  Qed.

  Lemma flush_loop_ok : forall k W s start T pending r s' start' p' W', I W s (ROpen T) -> 0 <= start ->
    writes X W (bw_flush_loop e k s start pending) (r, (s', start', p')) W' ->
    match r with
    | Ok _ => p' = [] /\ start' = 0 /\ I W' s' (ROpen (T ++ pending))
    | Err x => is_tink_error x = true /\ I W' s' (RFailed (T ++ pending))
    end.
  Proof.
    intros k W s start T pending r s' start' p' W' H Hs Hw. destruct pending as [| c rest].
    - destruct k; cbn [bw_flush_loop] in Hw; apply writes_ret in Hw; destruct Hw as (Hw & ->); injection Hw as -> -> -> ->;
        rewrite app_nil_r; auto.
    - destruct k; cbn [bw_flush_loop] in Hw; [inversion Hw |]. apply writes_bind in Hw. destruct Hw as ((r1 & s1) & W1 & H1 & H2).
      cbn [fst snd] in H2. pose proof (raw_write_ok _ _ _ _ _ _ _ H H1) as K. destruct r1 as [k1 | x].
      + destruct K as (-> & K). rewrite zdrop_all in H2. destruct k; cbn [bw_flush_loop] in H2; apply writes_ret in H2;
          destruct H2 as (H2 & ->); injection H2 as -> -> -> ->; auto.
      + apply writes_ret in H2. destruct H2 as (H2 & ->). injection H2 as -> -> -> ->. exact K.
  Qed.
  Lemma flush_loop_failed : forall k W s T start pending r s' start' p' W', I W s (RFailed T) -> pending <> [] ->
    writes X W (bw_flush_loop e k s start pending) (r, (s', start', p')) W' ->
    exists x, r = Err x /\ is_tink_error x = true /\ I W' s' (RFailed T).
  Proof.
    intros k W s T start pending r s' start' p' W' H Hp Hw. destruct pending as [| c rest]; [congruence |].
    destruct k; cbn [bw_flush_loop] in Hw; [inversion Hw |]. apply writes_bind in Hw. destruct Hw as ((r1 & s1) & W1 & H1 & H2).
    cbn [fst snd] in H2. destruct (raw_write_failed _ _ _ _ _ _ _ H Hp H1) as (x & -> & Tx & K).
    apply writes_ret in H2. destruct H2 as (H2 & ->). injection H2 as -> -> -> ->. eauto.
  Qed.

  Lemma write_loop_ok : forall k W s T rest r s' W', I W s (ROpen T) ->
    writes X W (bw_write_loop size e k s rest) (r, s') W' -> 0 < size ->
    match r with
    | Ok tl => exists T', T' ++ tl = T ++ rest /\ zlen tl <= size /\ I W' s' (ROpen T')
    | Err x => is_tink_error x = true /\ I W' s' (RFailed (T ++ rest))
    end.
  Proof.
    intros k W s T rest r s' W' H Hw Hsz. destruct k; cbn [bw_write_loop] in Hw;
      (destruct (Z.leb_spec (zlen rest) size) as [Hle | Hgt]; [apply writes_ret in Hw; destruct Hw as (Hw & ->); injection Hw as -> ->; eauto |]).
    - inversion Hw.
    - apply writes_bind in Hw. destruct Hw as ((r1 & s1) & W1 & H1 & H2).
      cbn [fst snd] in H2. pose proof (raw_write_ok _ _ _ _ _ _ _ H H1) as K. destruct r1 as [k1 | x].
      + destruct K as (-> & K). rewrite zdrop_all in H2.
        assert (E : zlen [] <=? size = true) by (apply Z.leb_le; cbn; lia).
        destruct k; cbn [bw_write_loop] in H2; rewrite E in H2; apply writes_ret in H2;
          destruct H2 as (H2 & ->); injection H2 as -> ->; exists (T ++ rest); (split; [apply app_nil_r |]; split; [cbn; lia | exact K]).
      + apply writes_ret in H2. destruct H2 as (H2 & ->). injection H2 as -> ->. exact K.
  Qed.
  Lemma write_loop_failed : forall k W s T rest r s' W', I W s (RFailed T) ->
    writes X W (bw_write_loop size e k s rest) (r, s') W' -> 0 < size ->
    I W' s' (RFailed T) /\ match r with Ok tl => tl = rest | Err x => is_tink_error x = true end.
  Proof.
    intros k W s T rest r s' W' H Hw Hsz. destruct k; cbn [bw_write_loop] in Hw;
      (destruct (Z.leb_spec (zlen rest) size) as [Hle | Hgt]; [apply writes_ret in Hw; destruct Hw as (Hw & ->); injection Hw as -> ->; auto |]).
    - inversion Hw.
    - apply writes_bind in Hw. destruct Hw as ((r1 & s1) & W1 & H1 & H2). cbn [fst snd] in H2.
      assert (Hne : rest <> []) by (intros ->; cbn in Hgt; lia).
      destruct (raw_write_failed _ _ _ _ _ _ _ H Hne H1) as (x & -> & Tx & K).
      apply writes_ret in H2. destruct H2 as (H2 & ->). injection H2 as -> ->. auto.
  Qed.

  Lemma flush_unlocked_ok : forall W w st r w' W', winv W w st -> writes X W (bw_flush_unlocked n e w) (r, w') W' ->
    match st with
    | ROpen T => match r with
                 | Ok _ => winv W' w' (ROpen T) /\ bw_pending w' = [] /\ bw_start w' = 0
                 | Err x => is_tink_error x = true /\ winv W' w' (RFailed T)
                 end
    | RFailed T => winv W' w' (RFailed T) /\ match r with Ok _ => True | Err x => is_tink_error x = true end
    end.
  Proof.
    intros W w st r w' W' H Hw. unfold bw_flush_unlocked in Hw. apply writes_bind in Hw.
    destruct Hw as ((r1 & ((s1 & start1) & p1)) & W1 & H1 & H2). cbn [fst snd] in H2. apply writes_ret in H2. destruct H2 as (H2 & ->).
    injection H2 as -> ->. inversion H as [s start pending T HI Hs Hp | s start pending T HI]; subst; cbn [bw_raw bw_start bw_pending bw_raw_closed bw_freed] in *.
    - pose proof (flush_loop_ok _ _ _ _ _ _ _ _ _ _ _ HI Hs H1) as K. destruct r1 as [u | x].
      + destruct K as (-> & -> & K). split; [| auto]. rewrite <- (app_nil_r (T ++ pending)). constructor; auto; lia.
      + destruct K as (K2 & K3). split; [exact K2 |]. constructor. exact K3.
    - destruct pending as [| c rest].
      + destruct n; cbn [bw_flush_loop] in H1; apply writes_ret in H1; destruct H1 as (H1 & ->); injection H1 as -> -> -> ->;
          (split; [constructor; exact HI | exact Logic.I]).
      + assert (Hne : c :: rest <> []) by discriminate. destruct (flush_loop_failed _ _ _ _ _ _ _ _ _ _ _ HI Hne H1) as (x & -> & Tx & K). split; [constructor; exact K | exact Tx].
  Qed.

  Lemma winv_raw : forall W w st, winv W w st -> bw_closed w = false /\ bw_raw_closed w = false /\ bw_freed w = false.
  Proof. intros W w st H. inversion H; subst; auto. Qed.
  Lemma winv_start : forall W w st, winv W w st -> bw_pending w = [] -> I W (bw_raw w) st.
  Proof. intros W w st H E. inversion H; subst; cbn in *; [subst; rewrite app_nil_r |]; assumption. Qed.

  Lemma winv_mono : forall W w T b, winv W w (RFailed T) -> winv W w (RFailed (T ++ b)).
  Proof. intros W w T b H. inversion H; subst. constructor. apply Imono. assumption. Qed.
  Lemma winv_raised : forall W w T, winv W w (RFailed T) -> can_fail X cap T.
  Proof. intros W w T H. inversion H; subst. eauto. Qed.

  Lemma write_ok : forall W w st b r w' W', 0 < size -> winv W w st -> writes X W (bw_write size n e w b) (r, w') W' ->
    match st with
    | ROpen T => match r with
                 | Ok k => k = zlen b /\ winv W' w' (ROpen (T ++ b))
                 | Err x => is_tink_error x = true /\ winv W' w' (RFailed (T ++ b))
                 end
    | RFailed T => winv W' w' (RFailed T) /\ match r with Ok k => k = zlen b | Err x => is_tink_error x = true end
    end.
  Proof.
    intros W w st b r w' W' Hsz H Hw. unfold bw_write in Hw. destruct (winv_raw _ _ _ H) as (C1 & C2 & C3). rewrite C1, C2, C3 in Hw.
    destruct (Z.leb_spec (zlen b) (size - (bw_start w + zlen (bw_pending w)))) as [Hfit | Hno].
    - apply writes_ret in Hw. destruct Hw as (Hw & ->). injection Hw as -> ->.
      inversion H as [s start pending T HI Hs Hp | s start pending T HI]; subst; cbn [bw_raw bw_start bw_pending] in *.
      + split; [reflexivity |]. rewrite <- app_assoc. constructor; [exact HI | exact Hs |]. left. rewrite zlen_app. lia.
      + split; [constructor; exact HI | reflexivity].
    - apply writes_bind in Hw. destruct Hw as ((r1 & w1) & W1 & H1 & H2). cbn [fst snd] in H2.
      pose proof (flush_unlocked_ok _ _ _ _ _ _ H H1) as K. destruct r1 as [u | x].
      2:{ apply writes_ret in H2. destruct H2 as (H2 & ->). injection H2 as -> ->. destruct st; [| exact K]. destruct K as (K1 & K). split; [exact K1 | apply winv_mono; exact K]. }
      apply writes_bind in H2. destruct H2 as ((r2 & s2) & W2 & H2 & H3). cbn [fst snd] in H3. destruct st as [T | T].
      + destruct K as (K & K1 & K2). pose proof (winv_start _ _ _ K K1) as KI.
        pose proof (write_loop_ok _ _ _ _ _ _ _ _ KI H2 Hsz) as L. destruct r2 as [tl | x]; apply writes_ret in H3; destruct H3 as (H3 & ->);
          injection H3 as -> ->.
        * destruct L as (T' & E & Hl & L). split; [reflexivity |]. rewrite <- E. constructor; [exact L | lia | left; lia].
        * destruct L as (L2 & L3). split; [exact L2 |]. constructor. exact L3.
      + destruct K as (K & _). assert (KI : I W1 (bw_raw w1) (RFailed T)) by (inversion K; assumption).
        destruct (write_loop_failed _ _ _ _ _ _ _ _ KI H2 Hsz) as (L1 & L2). destruct r2 as [tl | x]; apply writes_ret in H3; destruct H3 as (H3 & ->);
          injection H3 as -> ->; (split; [constructor; exact L1 |]); [reflexivity | exact L2].
  Qed.
  Lemma flush_ok : forall W w st r w' W', winv W w st -> writes X W (bw_flush n e w) (r, w') W' ->
    match st with
    | ROpen T => match r with
                 | Ok _ => winv W' w' (ROpen T) /\ bw_pending w' = []
                 | Err x => is_tink_error x = true /\ winv W' w' (RFailed T)
                 end
    | RFailed T => winv W' w' (RFailed T) /\ match r with Ok _ => True | Err x => is_tink_error x = true end
    end.
  Proof.
    intros W w st r w' W' H Hw. unfold bw_flush in Hw. destruct (winv_raw _ _ _ H) as (C1 & _). rewrite C1 in Hw.
    pose proof (flush_unlocked_ok _ _ _ _ _ _ H Hw) as K. destruct st, r; tauto.
  Qed.
  Definition given (st : rstate) : bytes := match st with ROpen T | RFailed T => T end.
  Lemma close_ok : forall W w st r w' W', winv W w st -> writes X W (bw_close n e w) (r, w') W' ->
    match r with
    | Ok _ => exists T, st = ROpen T /\ enc T W'
    | Err x => can_fail X cap (given st) /\ is_tink_error x = true
    end.
  Proof.
    intros W w st r w' W' H Hw. unfold bw_close in Hw. destruct (winv_raw _ _ _ H) as (_ & C2 & _). rewrite C2 in Hw.
    apply writes_bind in Hw. destruct Hw as ((r1 & w1) & W1 & H1 & H2). cbn [fst snd] in H2.
    apply writes_bind in H2. destruct H2 as ((r2 & s2) & W2 & H2 & H3). cbn [fst snd] in H3.
    apply writes_ret in H3. destruct H3 as (H3 & ->). injection H3 as -> ->.
    pose proof (flush_ok _ _ _ _ _ _ H H1) as K. destruct st as [T | T]; cbn [given].
    - destruct r1 as [u | x].
      + destruct K as (K & K1). pose proof (Iclose _ _ _ _ _ _ (winv_start _ _ _ K K1) H2) as L. destruct r2; [eauto | exact L].
      + destruct K as (K1 & K). pose proof (winv_raised _ _ _ K) as K0. inversion K as [| s3 start3 p3 T3 KI]; subst.
        destruct (Ifailed_close _ _ _ _ _ _ KI H2) as (x2 & -> & Tx). auto.
    - destruct K as (K & _). pose proof (winv_raised _ _ _ K) as K0. inversion K as [| s3 start3 p3 T3 KI]; subst. cbn in H2.
      destruct (Ifailed_close _ _ _ _ _ _ KI H2) as (x2 & -> & Tx). auto.
  Qed.

  (** Histories. *)
  Lemma can_fail_app : forall T b, can_fail X cap T -> can_fail X cap (T ++ b).
  Proof. intros T b [H | H]; [left; exact H | right; rewrite app_length; lia]. Qed.
  Lemma history_ok : forall h W w st w' W', 0 < size -> winv W w st -> writer_history X size n e w W h w' W' ->
    (forall c x, In (c, Err x) h -> can_fail X cap (given st ++ written h) /\ is_tink_error x = true) /\
    (forall b k, In (WcWrite b, Ok k) h -> k = Some (zlen b)) /\
    match st with
    | ROpen T => winv W' w' (ROpen (T ++ written h)) /\ Forall succeeded h \/ winv W' w' (RFailed (T ++ written h))
    | RFailed T => winv W' w' (RFailed (T ++ written h))
    end.
  Proof.
    intros h. induction h as [| (c & x) h IH]; intros W w st w' W' Hsz H Hh.
    - inversion Hh; subst. repeat split; try contradiction. unfold written. cbn. destruct st; rewrite app_nil_r; auto.
    - inversion Hh as [| ? ? b r w1 W1 ? ? ? Hw Hr | ? ? r w1 W1 ? ? ? Hw Hr]; subst.
      + pose proof (write_ok _ _ _ _ _ _ _ Hsz H Hw) as K.
        assert (Ew : forall T (z : writer_answer), T ++ written ((WcWrite b, z) :: h) = (T ++ b) ++ written h)
          by (intros; unfold written; cbn; apply app_assoc).
        destruct st as [T | T]; cbn [given]; rewrite !Ew.
        * destruct r as [k | y].
          -- destruct K as (-> & K). destruct (IH _ _ _ _ _ Hsz K Hr) as (A & B & D). cbn [given] in A. split; [| split].
             ++ intros c x [E | E]; [discriminate | eauto].
             ++ intros b0 k [E | E]; [injection E as <- <-; reflexivity | eauto].
             ++ destruct D as [(D1 & D2) | D]; [left | right; exact D]. split; [exact D1 | constructor; [reflexivity | exact D2]].
          -- destruct K as (K2 & K). destruct (IH _ _ _ _ _ Hsz K Hr) as (A & B & D). cbn [given] in A. split; [| split].
             ++ intros c x [E | E]; [injection E as _ <-; split; [eapply winv_raised; exact D | exact K2] | eauto].
             ++ intros b0 k [E | E]; [discriminate | eauto].
             ++ right. exact D.
        * destruct K as (K & K1). apply (winv_mono _ _ _ b) in K. destruct (IH _ _ _ _ _ Hsz K Hr) as (A & B & D). cbn [given] in A. split; [| split; [| exact D]].
          -- intros c x [E | E]; [| eauto]. destruct r; [discriminate |]. injection E as _ <-.
             split; [eapply winv_raised; exact D | exact K1].
          -- intros b0 k [E | E]; [| eauto]. destruct r; [| discriminate]. injection E as <- <-. subst. reflexivity.
      + pose proof (flush_ok _ _ _ _ _ _ H Hw) as K.
        assert (Ew : forall T (z : writer_answer), T ++ written ((WcFlush, z) :: h) = T ++ written h) by reflexivity.
        destruct st as [T | T]; cbn [given]; rewrite !Ew.
        * destruct r as [k | y].
          -- destruct K as (K & _). destruct (IH _ _ _ _ _ Hsz K Hr) as (A & B & D). cbn [given] in A. split; [| split].
             ++ intros c x [E | E]; [discriminate | eauto].
             ++ intros b0 k0 [E | E]; [discriminate | eauto].
             ++ destruct D as [(D1 & D2) | D]; [left | right; exact D]. split; [exact D1 | constructor; [reflexivity | exact D2]].
          -- destruct K as (K2 & K). destruct (IH _ _ _ _ _ Hsz K Hr) as (A & B & D). cbn [given] in A. split; [| split].
             ++ intros c x [E | E]; [injection E as _ <-; split; [eapply winv_raised; exact D | exact K2] | eauto].
             ++ intros b0 k [E | E]; [discriminate | eauto].
             ++ right. exact D.
        * destruct K as (K & K1). destruct (IH _ _ _ _ _ Hsz K Hr) as (A & B & D). cbn [given] in A. split; [| split; [| exact D]].
          -- intros c x [E | E]; [| eauto]. destruct r; [discriminate |]. injection E as _ <-.
             split; [eapply winv_raised; exact D | exact K1].
          -- intros b0 k [E | E]; [discriminate | eauto].
  Qed.
End Writer.
