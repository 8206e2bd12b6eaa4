(** Buffered readers. *)
From Coq Require Import Strings.Byte Strings.String List NArith ZArith Bool Lia.
From Verif Require Import M_Base L_Base M_StreamTypes M_Stream M_Buffered S_Stream S_Buffered L_Buffered.
Import ListNotations.
Open Scope list_scope.
Open Scope Z_scope.

(** Lines. *)
Lemma find_newline_some : forall d i, find_newline d = Some i ->
  exists a b, d = a ++ newline :: b /\ i = zlen a + 1 /\ ~ In newline a.
Proof.
  induction d as [| c d IH]; intros i H; cbn [find_newline] in H; [discriminate |].
  destruct (Byte.eqb c x0a) eqn:E.
  - injection H as <-. exists [], d. apply Byte.byte_dec_bl in E. subst c. split; [reflexivity |]. split; [reflexivity | intros []].
  - destruct (find_newline d) as [j |]; [| discriminate]. assert (Ei : i = 1 + j) by congruence. clear H. subst i. destruct (IH j eq_refl) as (a & b & -> & -> & Hn).
    exists (c :: a), b. split; [reflexivity |]. split; [unfold zlen; cbn [length]; lia |].
    intros [Hc | Hc]; [| auto]. subst c. vm_compute in E. discriminate.
Qed.
Lemma find_newline_none : forall d, find_newline d = None -> ~ In newline d.
Proof.
  induction d as [| c d IH]; intros H; [intros [] |]. cbn [find_newline] in H. destruct (Byte.eqb c x0a) eqn:E; [discriminate |].
  destruct (find_newline d) as [j |]; [discriminate |]. intros [Hc | Hc]; [| apply IH; auto].
  subst c. vm_compute in E. discriminate.
Qed.
Definition one_line (d : bytes) : Prop := forall a b, d = a ++ newline :: b -> b = [].
Lemma one_line_none : forall d, ~ In newline d -> one_line d.
Proof. intros d H a b ->. elim H. apply in_or_app. right. left. reflexivity. Qed.
Lemma one_line_app : forall out d, ~ In newline out -> one_line d -> one_line (out ++ d).
Proof.
  induction out as [| c out IH]; intros d H Hd; [exact Hd |]. intros a b E. destruct a as [| x a]; cbn in E.
  - injection E as -> _. elim H. left. reflexivity.
  - injection E as -> E. eapply (IH d); eauto. intros Hi. apply H. right. exact Hi.
Qed.
Lemma one_line_end : forall a, ~ In newline a -> one_line (a ++ [newline]).
Proof.
  intros a H. apply one_line_app; [exact H |]. intros x b E. destruct x as [| y x]; cbn in E; [injection E as <-; reflexivity |].
  injection E as _ E. destruct x; discriminate.
Qed.
Lemma ztake_app : forall a b, ztake (zlen a) (a ++ b) = a.
Proof.
  intros a b. unfold ztake. rewrite zlen_app. destruct (Z.leb_spec (zlen a + zlen b) (zlen a)) as [H | H].
  - assert (b = []) by (unfold zlen in H; destruct b; [reflexivity | cbn [length] in H; lia]). subst b. apply app_nil_r.
  - unfold zlen. rewrite Nat2Z.id, firstn_app, firstn_all, Nat.sub_diag. cbn. apply app_nil_r.
Qed.
Lemma ztake_prefix : forall k d, 0 <= k -> exists more, d = ztake k d ++ more.
Proof. intros k d H. exists (zdrop k d). symmetry. apply ztake_zdrop. exact H. Qed.

Lemma line_end_some : forall limit d i, line_end limit d = Some i ->
  0 <= i <= zlen d /\ (0 <= limit -> i <= limit) /\ one_line (ztake i d) /\
  ((exists a, ztake i d = a ++ [newline]) \/ i = limit).
Proof.
  intros limit d i H. unfold line_end in H.
  set (m := if (0 <=? limit) && (limit <? zlen d) then limit else zlen d) in *.
  assert (Hm : 0 <= m <= zlen d /\ (0 <= limit -> m <= limit)).
  { pose proof (zlen_nonneg d). unfold m. destruct (Z.leb_spec 0 limit), (Z.ltb_spec limit (zlen d)); cbn [andb]; lia. }
  destruct (find_newline (ztake m d)) as [j |] eqn:E.
  - injection H as <-. destruct (find_newline_some _ _ E) as (a & b & E1 & -> & Hn).
    destruct (ztake_prefix m d ltac:(lia)) as (more & E2). rewrite E1 in E2.
    assert (L : zlen (ztake m d) = m) by (rewrite zlen_ztake; lia). rewrite E1, zlen_app in L.
    assert (L2 : zlen (newline :: b) = 1 + zlen b) by (unfold zlen; cbn [length]; lia). pose proof (zlen_nonneg a). pose proof (zlen_nonneg b).
    assert (E3 : ztake (zlen a + 1) d = a ++ [newline]).
    { replace (zlen a + 1) with (zlen (a ++ [newline])) by (rewrite zlen_app; reflexivity).
      rewrite E2. replace ((a ++ newline :: b) ++ more) with ((a ++ [newline]) ++ b ++ more) by (rewrite <- !app_assoc; reflexivity). apply ztake_app. }
    rewrite E3. split; [lia |]. split; [lia |]. split; [apply one_line_end; exact Hn | left; eauto].
  - destruct (Z.eqb_spec m limit) as [Hl |]; [| discriminate]. injection H as <-. split; [lia |]. split; [lia |].
    split; [apply one_line_none; rewrite <- Hl; apply find_newline_none; exact E | right; reflexivity].
Qed.
Lemma line_end_none : forall limit d, line_end limit d = None -> ~ In newline d /\ (0 <= limit -> zlen d < limit).
Proof.
  intros limit d H. unfold line_end in H. pose proof (zlen_nonneg d).
  destruct (Z.leb_spec 0 limit) as [H1 | H1], (Z.ltb_spec limit (zlen d)) as [H2 | H2]; cbn [andb] in H;
    match type of H with context [ztake ?m d] => destruct (find_newline (ztake m d)) as [j |] eqn:E; [discriminate |];
      destruct (Z.eqb_spec m limit); [discriminate |] end; try lia;
    (split; [| lia]; apply find_newline_none in E; unfold ztake in E; rewrite Z.leb_refl in E; exact E).
Qed.

Section Reader.
  Context (size : Z) (n : nat) (W : Type) (rd : W -> Z -> option (read_result * W)) (rd_closed : W -> bool).
  Context (F Fin : Prop) (P : bytes).
  (** [R acc bad w]: [acc] has been read, [bad]: an error has been raised. *)
  Context (R : bytes -> bool -> W -> Prop).
  Hypothesis size_pos : 0 < size.
  Hypothesis Rread : forall acc bad w k r w', R acc bad w -> 0 < k -> rd w k = Some (r, w') ->
    match r with
    | Ok (Some d) => bad = false /\ zlen d <= k /\ (d = [] -> acc = P /\ Fin) /\ (exists rest, P = acc ++ d ++ rest) /\ R (acc ++ d) false w'
    | Ok None => False
    | Err e => F /\ is_tink_error e = true /\ R acc true w'
    end.
  Hypothesis Ropen : forall acc bad w, R acc bad w -> rd_closed w = false.
  Hypothesis Rprefix : forall acc w, R acc false w -> exists rest, P = acc ++ rest.

  Lemma raw_read : forall acc bad w k r w', R acc bad w -> br_raw_read rd w k = Some (r, w') -> 0 < k ->
    match r with
    | Ok (Some d) => bad = false /\ zlen d <= k /\ (d = [] -> acc = P /\ Fin) /\ (exists rest, P = acc ++ d ++ rest) /\ R (acc ++ d) false w'
    | Ok None => False
    | Err e => F /\ is_tink_error e = true /\ R acc true w'
    end.
  Proof.
    intros acc bad w k r w' H E Hk. unfold br_raw_read in E. destruct (rd w k) as [(r1 & w1) |] eqn:D; [| discriminate].
    pose proof (Rread _ _ _ _ _ _ H Hk D) as K. destruct r1 as [[d |] | e]; [| contradiction | injection E as <- <-; exact K].
    destruct (Z.ltb_spec k (zlen d)); [lia |]. injection E as <- <-. exact K.
  Qed.

  (** The state of the reader: [acc] is what the user has got. *)
  Definition rinv (acc : bytes) (bad : bool) (b : buffered_reader W) : Prop :=
    if bad then br_buffer b = [] /\ exists a, R a true (br_raw b) else R (acc ++ br_buffer b) false (br_raw b).

  Definition fail_case (r : read_result) (b' : buffered_reader W) : Prop :=
    exists e, r = Err e /\ F /\ is_tink_error e = true /\ forall a, rinv a true b'.
  Lemma fail_intro : forall acc e w', F -> is_tink_error e = true -> R acc true w' -> fail_case (Err e) (mk_buffered_reader w' []).
  Proof. intros acc e w' H1 H2 H3. exists e. split; [reflexivity |]. split; [exact H1 |]. split; [exact H2 |]. intros a. split; [reflexivity | exists acc; exact H3]. Qed.

  (** Reading [k] bytes: [out] has been read, [rem] remain. *)
  Definition some_case (acc out : bytes) (rem : Z) (r : read_result) (b' : buffered_reader W) : Prop :=
    fail_case r b' \/
    exists d, r = Ok (Some (out ++ d)) /\ rinv (acc ++ out ++ d) false b' /\ zlen d <= rem /\
      (zlen d < rem -> acc ++ out ++ d = P /\ Fin).

  Lemma last_block_ok : forall fuel acc bad w out rem filled r b', R (acc ++ out) bad w -> 0 <= rem -> filled + rem <= size -> 0 <= filled ->
    br_last_block size rd fuel w out rem filled = Some (r, b') -> (bad = true -> 0 < rem) -> some_case acc out rem r b'.
  Proof.
    induction fuel as [| fuel IH]; intros acc bad w out rem filled r b' H Hr Hf H0 E Hbad; cbn [br_last_block] in E;
      (destruct (Z.leb_spec rem 0) as [Hz | Hz]; cbn [orb] in E;
       [injection E as <- <-; right; exists []; rewrite !app_nil_r; split; [reflexivity |];
        destruct bad; [specialize (Hbad eq_refl); lia |]; split; [unfold rinv; cbn; rewrite app_nil_r; exact H |]; split; [cbn; lia | cbn; lia] |]);
      (destruct (Z.leb_spec size filled); [lia |]).
    - discriminate.
    - destruct (br_raw_read rd w (size - filled)) as [(r1 & w1) |] eqn:D; [| discriminate].
      pose proof (raw_read _ _ _ _ _ _ H D ltac:(lia)) as K. destruct r1 as [[d |] | e]; [| contradiction |].
      + destruct K as (-> & Hl & Hemp & (rest & HP) & K). destruct d as [| c d].
        * injection E as <- <-. right. exists []. rewrite !app_nil_r. split; [reflexivity |]. rewrite app_nil_r in K.
          split; [unfold rinv; cbn; rewrite app_nil_r; exact K |]. split; [cbn; lia |]. intros _. apply Hemp. reflexivity.
        * destruct (Z.ltb_spec (zlen (c :: d)) rem) as [Hlt | Hge].
          -- rewrite <- app_assoc in K. apply (IH acc false) in E; [| exact K | lia | lia | pose proof (zlen_nonneg (c :: d)); lia | discriminate].
             destruct E as [E | (d2 & -> & E2 & E3 & E4)]; [left; exact E | right]. exists ((c :: d) ++ d2). rewrite zlen_app.
             rewrite <- app_assoc in E2, E4 |- *. split; [reflexivity |]. split; [exact E2 |]. split; [lia |]. intros Hd. apply E4. lia.
          -- injection E as <- <-. right. exists (ztake rem (c :: d)). split; [reflexivity |]. unfold rinv. cbn [br_buffer br_raw].
             rewrite <- !app_assoc, ztake_zdrop by lia. rewrite <- app_assoc in K. split; [exact K |].
             rewrite zlen_ztake by lia. split; lia.
      + injection E as <- <-. left. destruct K as (K1 & K2 & K3). eapply fail_intro; eauto.
  Qed.

  Lemma blocks_ok : forall fuel acc bad w out rem x w', R (acc ++ out) bad w ->
    br_blocks size rd fuel w out rem = Some (x, w') -> 0 <= rem ->
    match x with
    | inl r => some_case acc out rem r (mk_buffered_reader w' [])
    | inr (out', rem') => exists d, out' = out ++ d /\ rem' = rem - zlen d /\ 0 <= rem' < size /\
        (if bad then d = [] /\ R (acc ++ out) true w' else R (acc ++ out ++ d) false w')
    end.
  Proof.
    induction fuel as [| fuel IH]; intros acc bad w out rem x w' H E Hr; cbn [br_blocks] in E; [discriminate |].
    pose proof (Z.div_mod rem size ltac:(lia)) as Hdm. pose proof (Z.mod_pos_bound rem size size_pos) as Hmb.
    pose proof (Z.div_pos rem size Hr size_pos) as Hdp.
    destruct (Z.eqb_spec (size * (rem / size)) 0) as [Hz | Hz].
    - injection E as <- <-. exists []. rewrite !app_nil_r. cbn [zlen length Z.of_nat]. split; [reflexivity |]. split; [cbn; lia |]. split; [lia |].
      destruct bad; auto.
    - destruct (br_raw_read rd w (size * (rem / size))) as [(r1 & w1) |] eqn:D; [| discriminate].
      assert (Hpos : 0 < size * (rem / size)) by nia.
      pose proof (raw_read _ _ _ _ _ _ H D Hpos) as K. destruct r1 as [[d |] | e]; [| contradiction |].
      + destruct K as (-> & Hl & Hemp & (rest & HP) & K). destruct d as [| c d].
        * injection E as <- <-. right. exists []. rewrite !app_nil_r. split; [reflexivity |]. rewrite app_nil_r in K.
          split; [unfold rinv; cbn; rewrite app_nil_r; exact K |]. split; [cbn; lia |]. intros _. apply Hemp. reflexivity.
        * rewrite <- app_assoc in K. apply (IH acc false) in E; [| exact K | lia]. destruct x as [r | (out' & rem')].
          -- destruct E as [E | (d2 & -> & E2 & E3 & E4)]; [left; exact E | right]. exists ((c :: d) ++ d2). rewrite zlen_app.
             rewrite <- app_assoc in E2, E4 |- *. split; [reflexivity |]. split; [exact E2 |]. split; [lia |]. intros Hd. apply E4. lia.
          -- destruct E as (d2 & -> & -> & E3 & E4). exists ((c :: d) ++ d2). rewrite zlen_app. rewrite <- app_assoc in E4 |- *.
             split; [reflexivity |]. split; [lia |]. split; [lia |]. exact E4.
      + injection E as <- <-. left. destruct K as (K1 & K2 & K3). eapply fail_intro; eauto.
  Qed.

  (** The part that comes from the buffer. *)
  Lemma buffer_ok : forall acc b k, rinv acc false b -> 0 <= k ->
    rinv (acc ++ ztake k (br_buffer b)) false (mk_buffered_reader (br_raw b) (zdrop k (br_buffer b))).
  Proof. intros acc b k H Hk. unfold rinv in *. cbn [br_buffer br_raw]. rewrite <- app_assoc, ztake_zdrop by exact Hk. exact H. Qed.

  Lemma read_some_ok : forall acc b k r b', rinv acc false b -> br_read_some size n rd b k = Some (r, b') -> 0 <= k ->
    some_case acc [] k r b'.
  Proof.
    intros acc b k r b' H E Hk. unfold br_read_some in E. destruct (Z.leb_spec k (zlen (br_buffer b))) as [Hle | Hgt].
    - injection E as <- <-. right. exists (ztake k (br_buffer b)). split; [reflexivity |]. split; [apply buffer_ok; auto |].
      rewrite zlen_ztake by lia. lia.
    - destruct (br_blocks size rd n (br_raw b) (br_buffer b) (k - zlen (br_buffer b))) as [(x & w1) |] eqn:D; [| discriminate].
      pose proof (blocks_ok _ acc false _ _ _ _ _ H D ltac:(lia)) as K. destruct x as [r1 | (out & rem)].
      + injection E as <- <-. destruct K as [K | (d & -> & K2 & K3 & K4)]; [left; exact K | right]. exists (br_buffer b ++ d). rewrite zlen_app.
        split; [reflexivity |]. split; [exact K2 |]. split; [lia |]. intros Hd. apply K4. lia.
      + destruct K as (d & -> & -> & K3 & K4). apply (last_block_ok _ acc false) in E; [| exact K4 | lia | lia | lia | discriminate].
        destruct E as [E | (d2 & -> & E2 & E3 & E4)]; [left; exact E | right]. exists ((br_buffer b ++ d) ++ d2). rewrite !zlen_app.
        split; [reflexivity |]. split; [exact E2 |]. split; [lia |]. intros Hd. apply E4. lia.
  Qed.
  Lemma read_some_bad : forall acc b k r b', rinv acc true b -> br_read_some size n rd b k = Some (r, b') -> 0 <= k ->
    fail_case r b' \/ k = 0 /\ r = Ok (Some []) /\ rinv acc true b'.
  Proof.
    intros acc [w buf] k r b' (Hb & a & H) E Hk. cbn in Hb. subst buf. unfold br_read_some in E. cbn [br_buffer br_raw zlen length Z.of_nat] in *. destruct (Z.leb_spec k 0) as [Hle | Hgt].
    - assert (k = 0) by lia. subst k. injection E as <- <-. right. split; [reflexivity |]. split; [reflexivity |]. split; [reflexivity | exists a; exact H].
    - rewrite Z.sub_0_r in E. destruct (br_blocks size rd n w [] k) as [(x & w1) |] eqn:D; [| discriminate].
      assert (H' : R (a ++ []) true w) by (rewrite app_nil_r; exact H).
      pose proof (blocks_ok _ a true _ _ _ _ _ H' D ltac:(lia)) as K.
      assert (NoData : forall r0 w0, some_case a [] k r0 (mk_buffered_reader w0 []) -> True) by auto.
      clear NoData. destruct n as [| m]; [discriminate |]. cbn [br_blocks] in D.
      destruct (Z.eqb_spec (size * (k / size)) 0) as [Hz | Hz].
      + injection D as <- <-. cbn [br_last_block] in E. destruct (Z.leb_spec k 0); [lia |]. destruct (Z.leb_spec size 0); [lia |]. cbn [orb] in E.
        destruct (br_raw_read rd w (size - 0)) as [(r1 & w1) |] eqn:D1; [| discriminate].
        pose proof (raw_read _ _ _ _ _ _ H D1 ltac:(lia)) as K1. destruct r1 as [[d |] | e]; [destruct K1; discriminate | contradiction |].
        injection E as <- <-. left. destruct K1 as (K1 & K2 & K3). eapply fail_intro; eauto.
      + pose proof (Z.div_pos k size Hk size_pos) as Hdp. destruct (br_raw_read rd w (size * (k / size))) as [(r1 & w2) |] eqn:D1; [| discriminate].
        pose proof (raw_read _ _ _ _ _ _ H D1 ltac:(nia)) as K1. destruct r1 as [[d |] | e]; [destruct K1; discriminate | contradiction |].
        injection D as <- <-. injection E as <- <-. left. destruct K1 as (K1 & K2 & K3). eapply fail_intro; eauto.
  Qed.

  Lemma readall_ok : forall fuel acc bad w out r w', R (acc ++ out) bad w -> readall rd fuel out w = Some (r, w') ->
    (exists e, r = Err e /\ F /\ is_tink_error e = true /\ exists a, R a true w') \/
    (bad = false /\ exists d, r = Ok (Some (out ++ d)) /\ acc ++ out ++ d = P /\ Fin /\ R P false w').
  Proof.
    induction fuel as [| fuel IH]; intros acc bad w out r w' H E; cbn [readall] in E; [discriminate |].
    destruct (rd w 8192) as [(r1 & w1) |] eqn:D; [| discriminate]. assert (H8 : 0 < 8192) by lia. pose proof (Rread _ _ _ _ _ _ H H8 D) as K.
    destruct r1 as [[d |] | e]; [| contradiction |].
    - destruct K as (-> & _ & Hemp & _ & K). destruct d as [| c d].
      + injection E as <- <-. right. split; [reflexivity |]. exists []. rewrite app_nil_r in *. destruct (Hemp eq_refl) as (E1 & E2). rewrite <- E1. auto.
      + rewrite <- app_assoc in K. apply (IH acc false) in E; [| exact K]. destruct E as [E | (_ & d2 & -> & E2 & E3 & E4)]; [left; exact E |].
        right. split; [reflexivity |]. exists ((c :: d) ++ d2). rewrite <- app_assoc in E2 |- *. auto.
    - injection E as <- <-. left. destruct K as (K1 & K2 & K3). eauto 6.
  Qed.

  Lemma read_all_ok : forall acc bad b r b', rinv acc bad b -> br_read_all n rd b = Some (r, b') ->
    fail_case r b' \/
    (bad = false /\ exists d, r = Ok (Some d) /\ acc ++ d = P /\ Fin /\ rinv P false b').
  Proof.
    intros acc bad b r b' H E. unfold br_read_all in E. destruct (readall rd n [] (br_raw b)) as [(r1 & w1) |] eqn:D; [| discriminate].
    assert (H' : exists a, R (a ++ []) bad (br_raw b) /\ (bad = false -> a = acc ++ br_buffer b)).
    { destruct bad; [destruct H as (_ & a & H); exists a; rewrite app_nil_r; split; [exact H | discriminate] |].
      exists (acc ++ br_buffer b). rewrite app_nil_r. auto. }
    destruct H' as (a & Ha & Hb). destruct (readall_ok _ _ _ _ _ _ _ Ha D) as [(e & -> & K1 & K2 & a' & K3) | (Hbad & d & -> & K1 & K2 & K3)].
    - injection E as <- <-. left. eapply fail_intro; eauto.
    - rewrite (Hb Hbad) in K1. cbn [app] in *. injection E as <- <-. right. split; [exact Hbad |]. exists (br_buffer b ++ d).
      split; [destruct (br_buffer b); reflexivity |]. rewrite <- app_assoc in K1. split; [exact K1 |]. split; [exact K2 |].
      unfold rinv. cbn. rewrite app_nil_r. exact K3.
  Qed.

  Lemma raw_one : forall acc bad b k r w', rinv acc bad b -> br_buffer b = [] -> br_raw_read rd (br_raw b) k = Some (r, w') -> 0 < k ->
    fail_case r (mk_buffered_reader w' []) \/
    (bad = false /\ exists d, r = Ok (Some d) /\ zlen d <= k /\ (d = [] -> acc = P /\ Fin) /\ R (acc ++ d) false w').
  Proof.
    intros acc bad b k r w' H Hb E Hk. assert (H' : exists a, R a bad (br_raw b) /\ (bad = false -> a = acc)).
    { destruct bad; [destruct H as (_ & a & H); exists a; split; [exact H | discriminate] |]. unfold rinv in H. rewrite Hb, app_nil_r in H. eauto. }
    destruct H' as (a & Ha & Hab). pose proof (raw_read _ _ _ _ _ _ Ha E Hk) as K. destruct r as [[d |] | e]; [| contradiction |].
    - destruct K as (-> & K1 & K2 & _ & K). rewrite (Hab eq_refl) in *. right. split; [reflexivity |]. exists d. auto.
    - left. destruct K as (K1 & K2 & K3). eapply fail_intro; eauto.
  Qed.

  Lemma line_ok : forall fuel acc bad w out limit r b', R (acc ++ out) bad w -> (0 <= limit -> 0 < limit) ->
    br_line size rd fuel w out limit = Some (r, b') ->
    fail_case r b' \/
    (bad = false /\ exists d, r = Ok (Some (out ++ d)) /\ rinv (acc ++ out ++ d) false b' /\ (0 <= limit -> zlen d <= limit) /\ one_line d /\
       ((exists a, d = a ++ [newline]) \/ zlen d = limit \/ acc ++ out ++ d = P /\ Fin)).
  Proof.
    induction fuel as [| fuel IH]; intros acc bad w out limit r b' H Hl E; cbn [br_line] in E; [discriminate |].
    destruct (br_raw_read rd w size) as [(r1 & w1) |] eqn:D; [| discriminate].
    pose proof (raw_read _ _ _ _ _ _ H D size_pos) as K. destruct r1 as [[d |] | e]; [| contradiction |].
    - destruct K as (-> & K1 & K2 & _ & K). destruct d as [| c d].
      + injection E as <- <-. right. split; [reflexivity |]. exists []. rewrite !app_nil_r in *. split; [reflexivity |].
        split; [unfold rinv; cbn; rewrite app_nil_r; exact K |]. split; [intros; cbn; lia |]. split; [intros [|] ?; discriminate |].
        right. right. apply K2. reflexivity.
      + rewrite <- app_assoc in K. destruct (line_end limit (c :: d)) as [i |] eqn:L.
        * injection E as <- <-. right. split; [reflexivity |]. destruct (line_end_some _ _ _ L) as (L1 & L2 & L3 & L4).
          exists (ztake i (c :: d)). split; [reflexivity |]. split.
          { unfold rinv. cbn [br_buffer br_raw]. rewrite <- !app_assoc, ztake_zdrop by lia. exact K. }
          rewrite zlen_ztake by lia. split; [lia |]. split; [exact L3 |]. destruct L4 as [L4 | L4]; [left; exact L4 | right; left; lia].
        * destruct (line_end_none _ _ L) as (L1 & L2). apply (IH acc false) in E; [| exact K |].
          2:{ destruct (Z.leb_spec 0 limit) as [Hz | Hz]; [specialize (L2 Hz); lia | lia]. }
          destruct E as [E | (_ & d2 & -> & E2 & E3 & E4 & E5)]; [left; exact E | right]. split; [reflexivity |]. exists ((c :: d) ++ d2).
          rewrite zlen_app. rewrite <- app_assoc in E2, E5 |- *. split; [reflexivity |]. split; [exact E2 |].
          split; [destruct (Z.leb_spec 0 limit); lia |]. split; [apply one_line_app; auto |].
          destruct E5 as [(a & ->) | [E5 | E5]]; [left; exists ((c :: d) ++ a); rewrite <- app_assoc; reflexivity | right; left | right; right; exact E5].
          destruct (Z.leb_spec 0 limit); [lia |]. pose proof (zlen_nonneg d2). lia.
    - injection E as <- <-. left. destruct K as (K1 & K2 & K3). eapply fail_intro; eauto.
  Qed.

  Lemma into_ok : forall fuel acc bad w out rem filled r b', R (acc ++ out) bad w -> 0 <= filled -> (rem <= size -> filled + rem <= size) -> (size < rem -> filled = 0) ->
    br_into size rd fuel w out rem filled = Some (r, b') -> 0 <= rem ->
    fail_case r b' \/ rem = 0 /\ r = Ok (Some out) /\ b' = mk_buffered_reader w [] \/
    (bad = false /\ exists d, r = Ok (Some (out ++ d)) /\ rinv (acc ++ out ++ d) false b' /\ zlen d <= rem /\
      (zlen d < rem -> acc ++ out ++ d = P /\ Fin)).
  Proof.
    induction fuel as [| fuel IH]; intros acc bad w out rem filled r b' H H0 Hf Hf0 E Hr; cbn [br_into] in E;
      (destruct (Z.leb_spec rem 0) as [Hz | Hz];
       [injection E as <- <-; right; left; split; [lia | auto] |]).
    - discriminate.
    - destruct (br_raw_read rd w (if size <? rem then rem else size - filled)) as [(r1 & w1) |] eqn:D; [| discriminate].
      assert (Hpos : 0 < (if size <? rem then rem else size - filled)) by (destruct (Z.ltb_spec size rem); lia).
      pose proof (raw_read _ _ _ _ _ _ H D Hpos) as K. destruct r1 as [[d |] | e]; [| contradiction |].
      + destruct K as (-> & Hl & Hemp & _ & K). destruct d as [| c d].
        * injection E as <- <-. right. right. split; [reflexivity |]. exists []. rewrite !app_nil_r. split; [reflexivity |]. rewrite app_nil_r in K.
          split; [unfold rinv; cbn; rewrite app_nil_r; exact K |]. split; [cbn; lia |]. intros _. apply Hemp. reflexivity.
        * rewrite <- app_assoc in K. pose proof (zlen_nonneg (c :: d)) as Hn.
          assert (Next : forall filled' r0, br_into size rd fuel w1 (out ++ c :: d) (rem - zlen (c :: d)) filled' = Some (r0, b') ->
            0 <= filled' -> (rem - zlen (c :: d) <= size -> filled' + (rem - zlen (c :: d)) <= size) -> (size < rem - zlen (c :: d) -> filled' = 0) ->
            0 <= rem - zlen (c :: d) ->
            fail_case r0 b' \/ rem = 0 /\ r0 = Ok (Some out) /\ b' = mk_buffered_reader w [] \/
            (false = false /\ exists d0, r0 = Ok (Some (out ++ d0)) /\ rinv (acc ++ out ++ d0) false b' /\ zlen d0 <= rem /\ (zlen d0 < rem -> acc ++ out ++ d0 = P /\ Fin))).
          { intros filled' r0 E' A1 A2 A3 A4. apply (IH acc false) in E'; [| exact K | exact A1 | exact A2 | exact A3 | exact A4].
            destruct E' as [E' | [(E1 & -> & ->) | (_ & d2 & -> & E2 & E3 & E4)]]; [left; exact E' | right; right; split; [reflexivity |].. ].
            - exists (c :: d). split; [reflexivity |]. split; [unfold rinv; cbn [br_buffer br_raw]; rewrite app_nil_r; exact K | lia].
            - exists ((c :: d) ++ d2). rewrite zlen_app.
              rewrite <- app_assoc in E2, E4 |- *. split; [reflexivity |]. split; [exact E2 |]. split; [lia |]. intros Hd. apply E4. lia. }
          destruct (Z.ltb_spec size rem) as [Hbig | Hsmall].
          -- apply Next in E; [exact E | lia | lia | lia | lia].
          -- destruct (Z.ltb_spec (zlen (c :: d)) rem) as [Hlt | Hge].
             ++ apply Next in E; [exact E | lia | lia | lia | lia].
             ++ injection E as <- <-. right. right. split; [reflexivity |]. exists (ztake rem (c :: d)). split; [reflexivity |]. unfold rinv. cbn [br_buffer br_raw].
                rewrite <- !app_assoc, ztake_zdrop by lia. split; [exact K |]. rewrite zlen_ztake by lia. split; lia.
      + injection E as <- <-. left. destruct K as (K1 & K2 & K3). eapply fail_intro; eauto.
  Qed.

  (** One call. *)
  Definition taken (c : reader_call) (d : bytes) : bytes := match c with RcPeek => [] | _ => d end.

  Lemma rinv_prefix : forall acc b, rinv acc false b -> exists more, P = acc ++ br_buffer b ++ more.
  Proof. intros acc b H. destruct (Rprefix _ _ H) as (more & E). exists more. rewrite E, <- app_assoc. reflexivity. Qed.
  Lemma rinv_open : forall acc bad b, rinv acc bad b -> rd_closed (br_raw b) = false.
  Proof. intros acc bad b H. destruct bad; [destruct H as (_ & a & H) |]; eapply Ropen; eauto. Qed.

  (** [d] has been taken: the rest of the content. *)
  Lemma rest_of : forall acc d b', rinv (acc ++ d) false b' -> exists more, P = acc ++ d ++ more.
  Proof. intros acc d b' H. destruct (rinv_prefix _ _ H) as (more & E). exists (br_buffer b' ++ more). rewrite E, <- app_assoc. reflexivity. Qed.
  Lemma at_end : forall (acc d more : bytes), acc ++ d ++ more = acc ++ d -> more = [].
  Proof. intros acc d more E. apply app_inv_head in E. rewrite <- (app_nil_r d) in E at 2. apply app_inv_head in E. exact E. Qed.

  Lemma call_ok : forall acc c b r b', rinv acc false b -> ~ bad_argument c -> br_call size n rd rd_closed c b = Some (r, b') ->
    fail_case r b' \/
    exists d, r = Ok (Some d) /\ (exists rest, P = acc ++ rest /\ answers Fin c rest d) /\ rinv (acc ++ taken c d) false b'.
  Proof.
    intros acc c b r b' H Hc E. pose proof (rinv_open _ _ _ H) as Ho. destruct (rinv_prefix _ _ H) as (more & HP).
    destruct c as [k | k | | limit | k]; cbn [br_call taken] in *.
    - (* read *)
      cbn in Hc. unfold br_read in E. destruct (Z.ltb_spec k (-1)); [lia |]. rewrite Ho in E. destruct (Z.eqb_spec k (-1)) as [-> | Hk].
      + destruct (read_all_ok _ _ _ _ _ H E) as [K | (_ & d & -> & K1 & K2 & K3)]; [left; exact K | right]. exists d. split; [reflexivity |].
        split; [| rewrite K1; exact K3]. exists d. split; [congruence |]. split; [exists []; rewrite app_nil_r; reflexivity |]. cbn. auto.
      + destruct (read_some_ok _ _ _ _ _ H E ltac:(lia)) as [K | (d & -> & K1 & K2 & K3)]; [left; exact K | right]. cbn [app] in *. exists d.
        split; [reflexivity |]. split; [| exact K1]. destruct (rest_of _ _ _ K1) as (m2 & E2). exists (d ++ m2). split; [exact E2 |].
        split; [eauto |]. destruct (Z.ltb_spec k 0); [lia |]. split; [exact K2 |]. intros Hd. destruct (K3 Hd) as (E3 & Fn).
        rewrite <- E3 in E2. symmetry in E2. rewrite (at_end _ _ _ E2), app_nil_r. auto.
    - (* read1 *)
      unfold br_read1 in E. rewrite Ho in E. set (k' := if k <? 0 then size else k) in *.
      assert (Hk' : 0 <= k' /\ (0 <= k -> k' = k) /\ (k' = 0 -> k = 0)) by (unfold k'; destruct (Z.ltb_spec k 0); lia).
      destruct (Z.eqb_spec k' 0) as [Hz | Hz].
      + injection E as <- <-. right. exists []. split; [reflexivity |]. rewrite app_nil_r. split; [| exact H]. exists (br_buffer b ++ more). split; [exact HP |].
        split; [exists (br_buffer b ++ more); reflexivity |]. split; [cbn; lia |]. intros _. left. lia.
      + destruct (br_buffer b) as [| c0 buf] eqn:B.
        * destruct (br_raw_read rd (br_raw b) k') as [(r1 & w1) |] eqn:D; [| discriminate].
          destruct (raw_one _ _ _ _ _ _ H B D ltac:(lia)) as [(e & -> & K) | (_ & d & -> & K1 & K2 & K3)].
          -- injection E as <- <-. left. exists e. auto.
          -- injection E as <- <-. right. exists d. split; [reflexivity |].
             assert (H' : rinv (acc ++ d) false (mk_buffered_reader w1 [])) by (unfold rinv; cbn; rewrite app_nil_r; exact K3). split; [| exact H'].
             destruct (rest_of _ _ _ H') as (m2 & E2). exists (d ++ m2). split; [exact E2 |]. split; [eauto |].
             split; [intros Hk0; unfold zlen in K1; lia |]. intros Hd. right. destruct (K2 Hd) as (E3 & Fn). rewrite <- E3 in E2. split; [| exact Fn].
             apply app_inv_head with (l := acc). rewrite app_nil_r. symmetry. exact E2.
        * injection E as <- <-. right. exists (ztake k' (c0 :: buf)). split; [reflexivity |].
          assert (H' : rinv (acc ++ ztake k' (c0 :: buf)) false (mk_buffered_reader (br_raw b) (zdrop k' (c0 :: buf)))).
          { rewrite <- B. apply buffer_ok; [exact H | lia]. }
          split; [| exact H']. destruct (rest_of _ _ _ H') as (m2 & E2). eexists. split; [exact E2 |]. split; [eauto |].
          pose proof (zlen_ztake k' (c0 :: buf) ltac:(lia)) as L. split; [intros Hk0; unfold zlen in L; lia |]. intros Hd. rewrite Hd in L.
          exfalso. unfold zlen in L. cbn [length] in L. lia.
    - (* peek *)
      unfold br_peek in E. rewrite Ho in E. rewrite app_nil_r. destruct (br_buffer b) as [| c0 buf] eqn:B.
      + destruct (br_raw_read rd (br_raw b) size) as [(r1 & w1) |] eqn:D; [| discriminate].
        destruct (raw_one _ _ _ _ _ _ H B D ltac:(lia)) as [(e & -> & K) | (_ & d & -> & K1 & K2 & K3)].
        * injection E as <- <-. left. exists e. auto.
        * injection E as <- <-. right. exists d. split; [reflexivity |]. split; [| exact K3].
          destruct (Rprefix _ _ K3) as (m2 & E2). rewrite <- app_assoc in E2. exists (d ++ m2). split; [exact E2 |]. split; [eauto |].
          intros Hd. destruct (K2 Hd) as (E3 & Fn). rewrite <- E3 in E2. split; [| exact Fn].
          apply app_inv_head with (l := acc). rewrite app_nil_r. symmetry. exact E2.
      + injection E as <- <-. right. exists (c0 :: buf). split; [reflexivity |]. split; [| exact H].
        eexists. split; [exact HP |]. split; [eauto | discriminate].
    - (* readline *)
      unfold br_readline in E. rewrite Ho in E. destruct (line_end limit (br_buffer b)) as [i |] eqn:L.
      + injection E as <- <-. destruct (line_end_some _ _ _ L) as (L1 & L2 & L3 & L4). right. exists (ztake i (br_buffer b)). split; [reflexivity |].
        pose proof (buffer_ok _ _ i H ltac:(lia)) as H'. split; [| exact H']. destruct (rest_of _ _ _ H') as (m2 & E2). eexists. split; [exact E2 |].
        split; [eauto |]. pose proof (zlen_ztake i (br_buffer b) ltac:(lia)) as LL. unfold zlen in LL at 1.
        split; [lia |]. split; [exact L3 |]. destruct L4 as [L4 | L4]; [left; exact L4 | right; left; lia].
      + destruct (line_end_none _ _ L) as (L1 & L2).
        assert (Hl : 0 <= (if 0 <=? limit then limit - zlen (br_buffer b) else limit) -> 0 < (if 0 <=? limit then limit - zlen (br_buffer b) else limit)).
        { destruct (Z.leb_spec 0 limit) as [Hz | Hz]; [specialize (L2 Hz); lia | lia]. }
        destruct (line_ok _ acc false _ _ _ _ _ H Hl E) as [K | (_ & d & -> & K1 & K2 & K3 & K4)]; [left; exact K | right].
        exists (br_buffer b ++ d). split; [reflexivity |]. split; [| exact K1]. destruct (rest_of _ _ _ K1) as (m2 & E2). eexists. split; [exact E2 |].
        split; [eauto |]. pose proof (zlen_app (br_buffer b) d) as LL. unfold zlen in LL at 1.
        split; [intros Hz; destruct (Z.leb_spec 0 limit); lia |]. split; [apply one_line_app; auto |].
        destruct K4 as [(a & ->) | [K4 | (K4 & Fn)]].
        * left. exists (br_buffer b ++ a). rewrite app_assoc. reflexivity.
        * right. left. destruct (Z.leb_spec 0 limit); [lia |]. pose proof (zlen_nonneg d). lia.
        * right. right. rewrite <- K4 in E2. symmetry in E2. rewrite (at_end _ _ _ E2), app_nil_r. auto.
    - (* readinto *)
      unfold br_readinto in E. rewrite Ho in E.
      destruct ((0 <? zlen (br_buffer b)) && (Z.of_nat k <=? zlen (br_buffer b))) eqn:B.
      + apply andb_prop in B. destruct B as (B1 & B2). apply Z.ltb_lt in B1. apply Z.leb_le in B2. injection E as <- <-.
        right. exists (ztake (Z.of_nat k) (br_buffer b)). split; [reflexivity |].
        pose proof (buffer_ok _ _ (Z.of_nat k) H ltac:(lia)) as H'. split; [| exact H']. destruct (rest_of _ _ _ H') as (m2 & E2). eexists. split; [exact E2 |].
        split; [eauto |]. pose proof (zlen_ztake (Z.of_nat k) (br_buffer b) ltac:(lia)) as LL. unfold zlen in LL at 1. lia.
      + assert (Hk : zlen (br_buffer b) <= Z.of_nat k).
        { apply andb_false_iff in B. destruct B as [B | B]; [apply Z.ltb_ge in B; lia | apply Z.leb_gt in B; lia]. }
        destruct (into_ok _ acc false _ _ _ 0 _ _ H ltac:(lia) ltac:(lia) ltac:(lia) E ltac:(lia)) as [K | K]; [left; exact K | right].
        assert (K' : exists d, r = Ok (Some (br_buffer b ++ d)) /\ rinv (acc ++ br_buffer b ++ d) false b' /\ zlen d <= Z.of_nat k - zlen (br_buffer b) /\
          (zlen d < Z.of_nat k - zlen (br_buffer b) -> acc ++ br_buffer b ++ d = P /\ Fin)).
        { destruct K as [(K1 & -> & ->) | (_ & K)]; [| exact K]. exists []. rewrite app_nil_r. split; [reflexivity |].
          split; [unfold rinv; cbn; rewrite app_nil_r; exact H | cbn; lia]. }
        destruct K' as (d & -> & K1 & K2 & K3). exists (br_buffer b ++ d). split; [reflexivity |]. split; [| exact K1].
        destruct (rest_of _ _ _ K1) as (m2 & E2). eexists. split; [exact E2 |]. split; [eauto |].
        pose proof (zlen_app (br_buffer b) d) as LL. unfold zlen in LL at 1. split; [lia |]. intros Hd. destruct (K3 ltac:(lia)) as (E3 & Fn).
        rewrite <- E3 in E2. symmetry in E2. rewrite (at_end _ _ _ E2), app_nil_r. auto.
  Qed.

  Lemma call_bad : forall acc c b r b', rinv acc true b -> ~ bad_argument c -> br_call size n rd rd_closed c b = Some (r, b') ->
    fail_case r b' \/ (r = Ok (Some []) /\ rinv acc true b' /\ answers False c [] []).
  Proof.
    intros acc c b r b' H Hc E. pose proof (rinv_open _ _ _ H) as Ho. destruct (H) as (B & a & HR).
    destruct c as [k | k | | limit | k]; cbn [br_call] in *.
    - cbn in Hc. unfold br_read in E. destruct (Z.ltb_spec k (-1)); [lia |]. rewrite Ho in E. destruct (Z.eqb_spec k (-1)) as [-> | Hk].
      + destruct (read_all_ok _ _ _ _ _ H E) as [K | (K & _)]; [left; exact K | discriminate].
      + destruct (read_some_bad _ _ _ _ _ H E ltac:(lia)) as [K | (-> & K1 & K2)]; auto.
        right. split; [exact K1 |]. split; [exact K2 |]. split; [exists []; reflexivity |]. cbn. lia.
    - unfold br_read1 in E. rewrite Ho, B in E. set (k' := if k <? 0 then size else k) in *.
      assert (Hk' : 0 <= k') by (unfold k'; destruct (Z.ltb_spec k 0); lia).
      destruct (Z.eqb_spec k' 0) as [Hz | Hz]; [injection E as <- <-; right; split; [reflexivity |]; split; [exact H |] |].
      { split; [exists []; reflexivity |]. unfold k' in Hz. cbn. destruct (Z.ltb_spec k 0); [lia |]. split; [lia | auto]. }
      destruct (br_raw_read rd (br_raw b) k') as [(r1 & w1) |] eqn:D; [| discriminate].
      destruct (raw_one _ _ _ _ _ _ H B D ltac:(lia)) as [(e & -> & K) | (K & _)]; [| discriminate]. injection E as <- <-. left. exists e. auto.
    - unfold br_peek in E. rewrite Ho, B in E. destruct (br_raw_read rd (br_raw b) size) as [(r1 & w1) |] eqn:D; [| discriminate].
      destruct (raw_one _ _ _ _ _ _ H B D ltac:(lia)) as [(e & -> & K) | (K & _)]; [| discriminate]. injection E as <- <-. left. exists e. auto.
    - unfold br_readline in E. rewrite Ho, B in E. destruct (line_end limit []) as [i |] eqn:L.
      + injection E as <- <-. right. destruct (line_end_some _ _ _ L) as (L1 & _). cbn in L1. assert (i = 0) by lia. subst i.
        split; [reflexivity |]. split; [split; [reflexivity | exists a; exact HR] |].
        destruct (line_end_some _ _ _ L) as (_ & L2 & L3 & L4). split; [exists []; reflexivity |]. split; [intros Hz; exact (L2 Hz) |].
        split; [intros x y Hxy; destruct x; discriminate |]. destruct L4 as [(x & Hx) | <-]; [destruct x; discriminate | right; left; reflexivity].
      + destruct (line_end_none _ _ L) as (L1 & L2).
        assert (Hl : 0 <= (if 0 <=? limit then limit - zlen [] else limit) -> 0 < (if 0 <=? limit then limit - zlen [] else limit)).
        { cbn [zlen length Z.of_nat] in *. destruct (Z.leb_spec 0 limit) as [Hz | Hz]; [specialize (L2 Hz); cbn in *; lia | lia]. }
        assert (HR' : R (a ++ []) true (br_raw b)) by (rewrite app_nil_r; exact HR).
        destruct (line_ok _ _ true _ _ _ _ _ HR' Hl E) as [K | (K & _)]; [left; exact K | discriminate].
    - unfold br_readinto in E. rewrite Ho, B in E. cbn [zlen length Z.of_nat Z.ltb Z.compare andb] in E.
      assert (HR' : R (a ++ []) true (br_raw b)) by (rewrite app_nil_r; exact HR).
      assert (E' : br_into size rd n (br_raw b) [] (Z.of_nat k) 0 = Some (r, b')) by (rewrite <- E; f_equal; cbn; lia).
      destruct (into_ok _ _ true _ _ _ 0 _ _ HR' ltac:(lia) ltac:(lia) ltac:(lia) E' ltac:(lia)) as [K | [(K & -> & ->) | (K & _)]]; [left; exact K | right | discriminate].
      split; [reflexivity |]. split; [split; [reflexivity | exists a; exact HR] |]. split; [exists []; reflexivity |]. cbn [length]. lia.
  Qed.
  Lemma call_bad_argument : forall acc bad c b r b', rinv acc bad b -> bad_argument c -> br_call size n rd rd_closed c b = Some (r, b') ->
    (exists m, r = Err (ValueError m)) /\ b' = b.
  Proof.
    intros acc bad c b r b' H Hc E. destruct c as [k | | | |]; try contradiction. cbn in Hc, E. unfold br_read in E.
    destruct (Z.ltb_spec k (-1)); [| lia]. injection E as <- <-. eauto.
  Qed.
  Lemma bad_argument_dec : forall c, bad_argument c \/ ~ bad_argument c.
  Proof. intros [k | | | |]; cbn; auto. destruct (Z.lt_ge_cases k (-1)); [auto | right; lia]. Qed.

  (** All calls. *)
  Lemma history_reads : forall h acc bad b b', rinv acc bad b -> reader_history (br_call size n rd rd_closed) b h b' ->
    forall before c r after, h = before ++ (c, r) :: after ->
    match r with
    | Ok (Some d) =>
        (bad = false -> ~ failed before -> exists rest, P = (acc ++ got before) ++ rest /\ answers Fin c rest d) /\
        (bad = true \/ failed before -> answers False c [] d)
    | Ok None => False
    | Err e => (F /\ is_tink_error e = true) \/ (bad_argument c /\ exists m, e = ValueError m)
    end.
  Proof.
    intros h. induction h as [| (c0 & r0) h IH]; intros acc bad b b' H Hh before c r after E; [destruct before; discriminate |].
    inversion Hh as [| ? ? ? b1 ? ? Hc Hr]; subst. destruct before as [| x before]; cbn in E.
    - injection E as -> -> ->. assert (Nf : ~ failed []) by (intros (? & ? & [] & _)).
      destruct (bad_argument_dec c) as [Hb | Hb].
      + destruct (call_bad_argument _ _ _ _ _ _ H Hb Hc) as ((m & ->) & _). right. eauto.
      + destruct bad.
        * destruct (call_bad _ _ _ _ _ H Hb Hc) as [(e & -> & K1 & K2 & _) | (-> & _ & K)]; [auto |]. split; [discriminate | auto].
        * destruct (call_ok _ _ _ _ _ H Hb Hc) as [(e & -> & K1 & K2 & _) | (d & -> & K & _)]; [auto |].
          split; [intros _ _; cbn; rewrite app_nil_r; exact K |]. intros [? | Hf]; [discriminate | contradiction].
    - injection E as <- ->. assert (Cons : forall e, r0 = Err e -> is_tink_error e = true -> failed ((c0, r0) :: before)).
      { intros e -> He. exists c0, e. split; [left; reflexivity | exact He]. }
      assert (Step : forall acc' bad', rinv acc' bad' b1 -> (bad' = true <-> bad = true \/ failed [(c0, r0)]) ->
        (bad' = false -> acc' = acc ++ got [(c0, r0)]) ->
        match r with
        | Ok (Some d) =>
            (bad = false -> ~ failed ((c0, r0) :: before) -> exists rest, P = (acc ++ got ((c0, r0) :: before)) ++ rest /\ answers Fin c rest d) /\
            (bad = true \/ failed ((c0, r0) :: before) -> answers False c [] d)
        | Ok None => False
        | Err e => (F /\ is_tink_error e = true) \/ (bad_argument c /\ exists m, e = ValueError m)
        end).
      { intros acc' bad' H' Hb Ha. specialize (IH _ _ _ _ H' Hr before c r after eq_refl). destruct r as [[d |] | e]; [| exact IH | exact IH].
        destruct IH as (I1 & I2). split.
        - intros -> Hn. assert (bad' = false).
          { destruct bad'; [| reflexivity]. destruct (proj1 Hb eq_refl) as [? | (? & e & [X | []] & He)]; [discriminate |]. injection X as -> ->. elim Hn. eapply Cons; eauto. }
          destruct (I1 H0) as (rest & E1 & E2).
          { intros (c1 & e & Hin & He). apply Hn. exists c1, e. split; [right; exact Hin | exact He]. }
          exists rest. split; [| exact E2]. rewrite E1, (Ha H0). unfold got. cbn [map concat]. rewrite app_nil_r, <- !app_assoc. reflexivity.
        - intros Hf. apply I2. destruct Hf as [Hf | (c1 & e & [X | Hin] & He)].
          + left. apply Hb. left. exact Hf.
          + left. apply Hb. right. exists c1, e. split; [left; exact X | exact He].
          + right. exists c1, e. auto. }
      destruct (bad_argument_dec c0) as [Hb | Hb].
      + destruct (call_bad_argument _ _ _ _ _ _ H Hb Hc) as ((m & ->) & ->). apply (Step _ _ H).
        * split; [auto |]. intros [? | (? & e & [X | []] & He)]; [auto |]. injection X as _ <-. discriminate.
        * intros _. unfold got. cbn. destruct c0; cbn; rewrite app_nil_r; reflexivity.
      + destruct bad.
        * destruct (call_bad _ _ _ _ _ H Hb Hc) as [(e & -> & K1 & K2 & K3) | (-> & K & _)].
          -- apply (Step acc true (K3 acc)); [split; auto | discriminate].
          -- apply (Step acc true K); [split; auto | discriminate].
        * destruct (call_ok _ _ _ _ _ H Hb Hc) as [(e & -> & K1 & K2 & K3) | (d & -> & K & K')].
          -- apply (Step acc true (K3 acc)); [| discriminate]. split; [| auto]. intros _. right. exists c0, e. split; [left; reflexivity | exact K2].
          -- apply (Step _ _ K').
             ++ split; [discriminate |]. intros [? | (? & e & [X | []] & He)]; [discriminate |]. discriminate.
             ++ intros _. unfold got. destruct c0; cbn; rewrite ?app_nil_r; reflexivity.
  Qed.
End Reader.
