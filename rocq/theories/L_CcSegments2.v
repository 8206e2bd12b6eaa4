(** Decrypting in segments. *)
From Coq Require Import Strings.Byte Strings.String List NArith ZArith Bool Lia.
From Verif Require Import M_Base L_Base M_StreamTypes M_CcStream M_CcSegments S_CcStream S_Buffered S_CcSegments L_CcStream.
Import ListNotations.
Open Scope list_scope.
Open Scope nat_scope.

(** ReadFromStream *)
Definition read_ok (F : Prop) (C : bytes) (p count : nat) (r : st_or unit) (out : bytes) (i' : istate) : Prop :=
  match r with
  | StOk _ => p + count <= length C /\ out = firstn count (skipn p C) /\ exists w, i' = Open (p + count) w
  | StErr OutOfRange => length C < p + count /\ out = skipn p C
  | StErr (NotOk _) => F
  | StErr Undefined => False
  end.
Lemma read_loop_done : forall n output extra, read_loop n 0 output extra =
  if Nat.ltb 0 extra then IBackUp (Z.of_nat extra) (IRet (StOk tt, output)) else IRet (StOk tt, output).
Proof. destruct n; reflexivity. Qed.
Lemma firstn_more : forall (C : bytes) a b, firstn a C ++ firstn b (skipn a C) = firstn (a + b) C.
Proof.
  intros C a. revert C. induction a as [| a IH]; intros C b; [reflexivity |]. destruct C as [| x C]; cbn [skipn firstn app Nat.add].
  - destruct b; reflexivity.
  - rewrite IH. reflexivity.
Qed.
Lemma skipn_add : forall (C : bytes) a b, skipn b (skipn a C) = skipn (a + b) C.
Proof.
  intros C a. revert C. induction a as [| a IH]; intros C b; [reflexivity |]. destruct C as [| x C]; cbn [skipn Nat.add]; [| apply IH].
  destruct b; reflexivity.
Qed.
Lemma read_loop_ok : forall F C n btr output extra p w r out i', p <= length C ->
  output = firstn (length output) (skipn p C) -> p + length output + extra <= length C -> extra <= w ->
  btr = 0 \/ extra = 0 ->
  ireads F C (Open (p + length output + extra) w) (read_loop n btr output extra) (r, out) i' ->
  read_ok F C p (length output + btr) r out i'.
Proof.
  intros F C n. induction n as [| n IH]; intros btr output extra p w r out i' Hp Ho Hl Hw Hc H.
  all: destruct btr as [| b].
  1, 3: rewrite read_loop_done in H; destruct (Nat.ltb_spec 0 extra) as [L | L];
    [ inversion H as [| | ? ? ? ? ? Hk]; subst; apply ireads_ret in Hk; destruct Hk as (E1 & E2); injection E1; intros -> ->;
      cbn [read_ok]; rewrite Nat.add_0_r; split; [lia |]; split; [exact Ho |]; subst i'; cbn [ideal_back_up]; rewrite Nat2Z.id;
      eexists; f_equal; lia
    | assert (extra = 0) by lia; subst extra; apply ireads_ret in H; destruct H as (E1 & E2); injection E1; intros -> ->;
      cbn [read_ok]; rewrite Nat.add_0_r; split; [lia |]; split; [exact Ho |]; subst i'; eexists; f_equal; lia ].
  - inversion H.
  - destruct Hc as [Hc | ->]; [discriminate |]. rewrite Nat.add_0_r in *. remember (S b) as btr eqn:Eb.
    assert (E : read_loop (S n) btr output 0 = INext (fun next_result =>
            match next_result with
            | StErr s => IRet (StErr s, output)
            | StOk buffer =>
                read_loop n (btr - Nat.min (length buffer) btr) (output ++ firstn (Nat.min (length buffer) btr) buffer)
                  (length buffer - Nat.min (length buffer) btr)
            end)) by (subst btr; reflexivity).
    rewrite E in H. clear E. inversion H as [| ? ? x o1 ? ? Hn Hk |]; subst. clear H.
    inversion Hn as [p0 w0 d Hd | p0 w0 Hend | p0 w0 m Hf |]; subst.
    + set (nd := Nat.min (length d) (S b)) in *. assert (Lnd : length (firstn nd d) = nd) by (rewrite firstn_length; lia).
      assert (Ld : length d <= length C - (p + length output)).
      { rewrite <- Hd at 1. rewrite firstn_length, skipn_length. lia. }
      assert (Eo : length (output ++ firstn nd d) = length output + nd) by (rewrite app_length, Lnd; reflexivity).
      replace (length output + S b) with (length (output ++ firstn nd d) + (S b - nd)) by (rewrite Eo; lia).
      replace (p + length output + length d) with (p + length (output ++ firstn nd d) + (length d - nd)) in Hk by (rewrite Eo; lia).
      apply IH in Hk; [exact Hk | exact Hp | | rewrite Eo; lia | lia | lia].
      rewrite Eo, <- firstn_more, <- Ho. f_equal. rewrite skipn_add. rewrite <- Hd at 1. rewrite firstn_firstn. f_equal. lia.
    + apply ireads_ret in Hk. destruct Hk as (E1 & E2). injection E1; intros -> ->. cbn [read_ok]. split; [lia |].
      rewrite Ho. apply firstn_all2. rewrite skipn_length. lia.
    + apply ireads_ret in Hk. destruct Hk as (E1 & E2). injection E1; intros -> ->. exact Hf.
Qed.
Lemma read_from_stream_ok : forall F C n count p w r out i', p <= length C -> 0 < count ->
  ireads F C (Open p w) (read_from_stream n count) (r, out) i' -> read_ok F C p count r out i'.
Proof.
  intros F C n count p w r out i' Hp Hc H. unfold read_from_stream in H. destruct (Nat.eqb_spec count 0) as [E | _]; [lia |].
  pose proof (read_loop_ok F C n count [] 0 p w r out i' Hp eq_refl) as K. cbn [length] in K. rewrite !Nat.add_0_r in K.
  apply K; auto; lia.
Qed.

(** ** The decrypting stream *)
Lemma unsealed_stream_cases : forall sd C P whole, unsealed_stream sd C P whole ->
  length C < sd_header_size sd /\ whole = false \/
  sd_header_size sd <= length C /\ (exists e, sd_init sd (firstn (sd_header_size sd) C) = StErr e) /\ whole = false \/
  sd_header_size sd <= length C /\ exists decrypt, sd_init sd (firstn (sd_header_size sd) C) = StOk decrypt /\
    unsealed decrypt (sd_ciphertext_segment_size sd) (first_ciphertext_size sd) 0 (skipn (sd_header_size sd) C) P whole.
Proof. intros sd C P whole H. destruct H; [left | right; left | right; right]; eauto. Qed.
Section Decrypting.
  Variables (F : Prop) (n : nat) (sd : segment_decrypter) (C P : bytes) (whole : bool).
  Hypothesis (Header : 0 < sd_header_size sd).
  Hypothesis (Size : sd_ciphertext_offset sd + sd_header_size sd < sd_ciphertext_segment_size sd).
  Hypothesis (Errors : errors_are_errors sd).
  Hypothesis (Unsealed : unsealed_stream sd C P whole).
  Local Notation cs := (sd_ciphertext_segment_size sd).
  Local Notation E := (F \/ whole = false).
  Local Notation Fin := (whole = true).

  Definition good_errors (decrypt : N -> bool -> bytes -> st_or bytes) : Prop :=
    forall i is_last c e, decrypt i is_last c = StErr e -> exists m, e = NotOk m.

  Inductive dec_inv : dec_segments -> istate -> istate -> Prop :=
  | Dec_start : dec_inv (cd_init (segment_decrypting_stream n sd)) (Open 0 0) (Open 0 0)
  | Dec_live : forall ct_size buf bk off num decrypt (read_last : bool) i Pre Rest,
      bk <= length buf -> off <= length buf - bk -> P = Pre ++ buf ++ Rest -> good_errors decrypt ->
      (if read_last then Rest = [] /\ whole = true
       else exists q w, i = Open q w /\ q <= length C /\ unsealed decrypt cs cs (num + 1) (skipn q C) Rest whole) ->
      dec_inv (mk_dec_segments ct_size buf bk off num (Some decrypt) read_last None) i
        (Open (length Pre + (length buf - bk)) (length buf - bk - off))
  | Dec_ended : forall st i s, dg_status st = Some s -> dec_inv st i (Ended s).

  Lemma dec_inv_back_up : forall st i p c, dec_inv st i p -> dec_inv (dg_back_up st c) i (ideal_back_up p c).
  Proof.
    intros st i p c H. inversion H as [| ct buf bk off num dec rl i0 Pre Rest H1 H2 H3 H4 H5 | st0 i0 s Hs]; subst.
    - cbn [ideal_back_up]. rewrite Nat.min_0_r. exact H.
    - unfold dg_back_up. cbn [dg_decrypt dg_status orb dg_pt_buffer dg_offset dg_count_backedup dg_ct_size dg_number dg_read_last ideal_back_up].
      destruct (Z.ltb_spec c 1) as [L | L].
      + replace (Nat.min (Z.to_nat c) (length buf - bk - off)) with 0 by lia. rewrite !Nat.sub_0_r. exact H.
      + replace (length buf - off - bk) with (length buf - bk - off) by lia.
        set (k := Nat.min (Z.to_nat c) (length buf - bk - off)).
        pose proof (Dec_live ct buf (bk + k) off num dec rl i Pre Rest) as K.
        replace (length Pre + (length buf - bk) - k) with (length Pre + (length buf - (bk + k))) by lia.
        replace (length buf - bk - off - k) with (length buf - (bk + k) - off) by lia. apply K; auto; lia.
    - cbn [ideal_back_up]. apply Dec_ended. unfold dg_back_up. destruct (_ || _)%bool; exact Hs.
  Qed.

  (** A segment that was read. *)
  Lemma dg_segment_ok : forall size ct buf0 off0 num decrypt Pre Rest q x out i' w0 r st' wh,
    P = Pre ++ Rest -> good_errors decrypt -> unsealed decrypt cs size num (skipn q C) Rest wh ->
    (wh = true -> whole = true) -> (wh = false -> whole = false) -> q <= length C ->
    read_ok F C q size x out i' ->
    dg_segment (mk_dec_segments ct buf0 0 off0 num (Some decrypt) false None) decrypt (x, out) = (r, st') ->
    exists p', part_next E Fin P (Open (length Pre) w0) r p' /\ dec_inv st' i' p'.
  Proof.
    intros size ct buf0 off0 num decrypt Pre Rest q x out i' w0 r st' wh HP Hg Hu Hw1 Hw2 Hq Hr H.
    assert (Data : forall s Rest' (rl : bool), Rest = s ++ Rest' ->
      (if rl then Rest' = [] /\ whole = true
       else exists q w, i' = Open q w /\ q <= length C /\ unsealed decrypt cs cs (num + 1) (skipn q C) Rest' whole) ->
      exists p', part_next E Fin P (Open (length Pre) w0) (StOk s) p' /\
        dec_inv (mk_dec_segments ct s 0 0 num (Some decrypt) rl None) i' p').
    { intros s Rest' rl ER Hrl. exists (Open (length Pre + length s) (length s)). split.
      - apply PN_data. rewrite HP, ER, skipn_app, skipn_all, Nat.sub_diag. cbn [app skipn].
        rewrite firstn_app, firstn_all, Nat.sub_diag, firstn_O, app_nil_r. reflexivity.
      - pose proof (Dec_live ct s 0 0 num decrypt rl i' Pre Rest') as K. rewrite !Nat.sub_0_r in K. apply K; auto; try lia.
        rewrite HP, ER. reflexivity. }
    assert (Bad : forall e st1, F \/ whole = false -> (exists m, e = NotOk m) -> dg_status st1 = Some e ->
      exists p', part_next E Fin P (Open (length Pre) w0) (StErr e) p' /\ dec_inv st1 i' p').
    { intros e st1 HE (m & ->) Hst. exists (Ended (NotOk m)). split; [apply PN_error; exact HE | apply Dec_ended; exact Hst]. }
    unfold dg_segment in H.
    cbn [dg_decrypt dg_status dg_pt_buffer dg_offset dg_count_backedup dg_ct_size dg_number dg_read_last fst snd] in H.
    destruct x as [u | [| msg |]]; cbn [read_ok] in Hr; try contradiction.
    - destruct Hr as (L & -> & w & ->).
      inversion Hu as [sz j D Q L1 E1 | sz j D e L1 E1 | sz j D s Q wh1 L1 E1 Hu1 | sz j D e Q L1 E1 E2 | sz j D e e' L1 E1 E2]; subst;
        rewrite ?skipn_length in L1; try lia; rewrite E1 in H.
      + injection H; intros <- <-. apply (Data s Q false eq_refl). exists (q + size), w. split; [reflexivity |]. split; [lia |].
        rewrite skipn_add in Hu1. destruct wh; [rewrite (Hw1 eq_refl) | rewrite (Hw2 eq_refl)]; exact Hu1.
      + rewrite E2 in H. injection H; intros <- <-. apply (Data Rest [] true); [symmetry; apply app_nil_r |]. auto.
      + rewrite E2 in H. injection H; intros <- <-. apply Bad; [right; apply Hw2; reflexivity | apply (Hg _ _ _ _ E2) | reflexivity].
    - destruct Hr as (L & ->).
      inversion Hu as [sz j D Q L1 E1 | sz j D e L1 E1 | sz j D s Q wh1 L1 E1 Hu1 | sz j D e Q L1 E1 E2 | sz j D e e' L1 E1 E2]; subst;
        rewrite ?skipn_length in L1; try lia; rewrite E1 in H.
      + injection H; intros <- <-. apply (Data Rest [] true); [symmetry; apply app_nil_r |]. auto.
      + injection H; intros <- <-. apply Bad; [right; apply Hw2; reflexivity | apply (Hg _ _ _ _ E1) | reflexivity].
    - injection H; intros <- <-. apply Bad; [left; exact Hr | eauto | reflexivity].
  Qed.

  Lemma dg_next_ok : forall st i p r st' i', dec_inv st i p -> ireads F C i (dg_next n sd st) (r, st') i' ->
    exists p', part_next E Fin P p r p' /\ dec_inv st' i' p'.
  Proof.
    intros st i p r st' i' H W. inversion H as [| ct buf bk off num dec rl i0 Pre Rest H1 H2 H3 H4 H5 | st0 i0 s Hs]; subst; unfold dg_next in W.
    - cbn [cd_init segment_decrypting_stream dg_status dg_decrypt dg_ct_size dg_pt_buffer dg_offset dg_number dg_read_last] in W.
      apply ireads_bind in W. destruct W as ((x & out) & i1 & Hr & Hk).
      apply read_from_stream_ok in Hr; [| lia | exact Header]. cbn [fst snd] in Hk.
      destruct x as [u | [| msg |]]; cbn [read_ok] in Hr; try contradiction; rewrite ?Nat.add_0_l in Hr.
      + destruct Hr as (L & -> & w & ->). cbn [skipn] in Hk.
        destruct (unsealed_stream_cases _ _ _ _ Unsealed) as [(L1 & _) | [(_ & (e & E1) & Hw) | (_ & decrypt & E1 & Hu)]];
          [lia | |]; rewrite E1 in Hk.
        * apply ireads_ret in Hk. destruct Hk as (K1 & K2). injection K1; intros -> ->.
          destruct (proj1 Errors _ _ E1) as (msg & ->). exists (Ended (NotOk msg)).
          split; [apply PN_error; right; exact Hw | apply Dec_ended; reflexivity].
        * apply ireads_bind in Hk. destruct Hk as ((x & out) & i2 & Hr & Hk). apply ireads_ret in Hk. destruct Hk as (K1 & K2).
          subst i2. apply read_from_stream_ok in Hr; [| lia | unfold first_ciphertext_size; lia].
          eapply (dg_segment_ok (first_ciphertext_size sd) _ _ _ 0%N decrypt [] P (sd_header_size sd) x out i' 0 r st' whole);
            [reflexivity | intros ? ? ? ?; apply (proj2 Errors _ _ _ _ _ _ E1) | exact Hu | auto | auto | exact L | exact Hr | symmetry; exact K1].
      + apply ireads_ret in Hk. destruct Hk as (K1 & K2). injection K1; intros -> ->. destruct Hr as (L & _).
        eexists. split; [apply PN_error; right | apply Dec_ended; reflexivity].
        destruct (unsealed_stream_cases _ _ _ _ Unsealed) as [(_ & Hw) | [(L1 & _ & Hw) | (L1 & _)]]; [exact Hw | exact Hw | lia].
      + apply ireads_ret in Hk. destruct Hk as (K1 & K2). injection K1; intros -> ->.
        eexists. split; [apply PN_error; left; exact Hr | apply Dec_ended; reflexivity].
    - cbn [dg_status dg_decrypt dg_ct_size dg_pt_buffer dg_offset dg_number dg_read_last dg_count_backedup] in W.
      destruct (Nat.ltb_spec 0 bk) as [L | L].
      + apply ireads_ret in W. destruct W as (K1 & K2). injection K1; intros -> ->. subst i'. clear K1.
        exists (Open (length Pre + (length buf - bk) + length (skipn (length buf - bk) buf)) (length (skipn (length buf - bk) buf))). split.
        * apply PN_data. rewrite H3, skipn_app, (skipn_all2 Pre) by lia.
          replace (length Pre + (length buf - bk) - length Pre) with (length buf - bk) by lia. cbn [app].
          rewrite skipn_app. replace (length buf - bk - length buf) with 0 by lia. cbn [skipn].
          rewrite firstn_app, firstn_all, Nat.sub_diag, firstn_O, app_nil_r. reflexivity.
        * rewrite skipn_length. pose proof (Dec_live ct buf 0 (length buf - bk) num dec rl i Pre Rest) as K.
          replace (length Pre + (length buf - bk) + (length buf - (length buf - bk))) with (length Pre + (length buf - 0)) by lia.
          replace (length buf - (length buf - bk)) with (length buf - 0 - (length buf - bk)) by lia.
          apply K; auto; lia.
      + assert (bk = 0) by lia. subst bk. rewrite Nat.sub_0_r in *. destruct rl.
        * apply ireads_ret in W. destruct W as (K1 & K2). injection K1; intros -> ->. destruct H5 as (-> & Hw).
          exists (Ended OutOfRange). split; [| apply Dec_ended; reflexivity]. apply PN_end; [exact Hw |].
          rewrite H3, app_nil_r, app_length. reflexivity.
        * destruct H5 as (q & w & -> & Lq & Hu). apply ireads_bind in W. destruct W as ((x & out) & i2 & Hr & Hk).
          apply ireads_ret in Hk. destruct Hk as (K1 & K2). subst i2.
          apply read_from_stream_ok in Hr; [| lia | lia]. rewrite <- app_length.
          eapply (dg_segment_ok cs _ _ _ _ dec (Pre ++ buf) Rest q x out i' (length buf - off) r st' whole);
            [rewrite H3; apply app_assoc | exact H4 | exact Hu | auto | auto | exact Lq | exact Hr | symmetry; exact K1].
    - rewrite Hs in W. apply ireads_ret in W. destruct W as (K1 & K2). injection K1; intros -> ->.
      exists (Ended s). split; [apply PN_ended | apply Dec_ended; exact Hs].
  Qed.

  Lemma segment_stream_gives : stream_gives F E Fin C P (segment_decrypting_stream n sd) (Open 0 0).
  Proof.
    exists dec_inv. split; [apply Dec_start |]. split; [apply dg_next_ok |].
    intros st i p c st' i' H W. cbn in W. apply ireads_ret in W. destruct W as (-> & ->). apply dec_inv_back_up. exact H.
  Qed.
End Decrypting.
