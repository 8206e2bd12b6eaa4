(** The rewindable stream. *)
From Coq Require Import List NArith ZArith Bool Lia.
From Verif Require Import M_Base L_Base M_StreamTypes M_Stream S_Stream.
Import ListNotations.
Open Scope list_scope.
Open Scope Z_scope.

Lemma firstn_plus : forall {A} (l : list A) a b, firstn a l ++ firstn b (skipn a l) = firstn (a + b) l.
Proof.
  intros A l. induction l as [| x l IH]; intros [| a] b; cbn; try reflexivity.
  - destruct b; reflexivity.
  - rewrite IH. reflexivity.
Qed.

(** All bytes the source has given, [log], are the bytes given up, [gone], and the
    buffer. *)
Definition rw_inv {S} (r : rewindable (S * bytes)) (since : bytes) : Prop :=
  (rw_pos r <= length (rw_buffer r))%nat /\
  exists gone, snd (rw_input_stream r) = gone ++ rw_buffer r /\ since = gone ++ firstn (rw_pos r) (rw_buffer r) /\
    (rw_rewindable r = true -> gone = []).

Lemma read_some_spec : forall S (src : py_source S) r since size, rw_inv r since ->
  let (x, r') := rewindable_read_some (logged src) r size in
  rw_inv r' (since ++ data_of x) /\ rw_rewindable r' = rw_rewindable r /\
  exists rest, since ++ rest = snd (rw_input_stream r) /\
  match rest with
  | [] => x = unblocked (fst (src_read src (fst (rw_input_stream r)) size)) /\
          fst (rw_input_stream r') = snd (src_read src (fst (rw_input_stream r)) size) /\
          snd (rw_input_stream r') = since ++ data_of x
  | _ => x = Ok (Some (firstn (Z.to_nat size) rest)) /\ rw_input_stream r' = rw_input_stream r
  end.
Proof.
  intros S src [[s log] buffer pos re cl] since size (Hp & gone & Hl & Hs & Hg).
  cbn [rw_pos rw_buffer rw_input_stream rw_rewindable snd fst] in *. unfold rewindable_read_some.
  cbn [rw_pos rw_buffer rw_input_stream rw_rewindable rw_closed snd fst].
  destruct (Nat.ltb_spec pos (length buffer)) as [Hlt | Hge].
  - set (np := Nat.min (length buffer) (pos + Z.to_nat size)).
    assert (F : firstn (np - pos) (skipn pos buffer) = firstn (Z.to_nat size) (skipn pos buffer)).
    { unfold np. destruct (Nat.le_gt_cases (length buffer) (pos + Z.to_nat size)) as [H | H].
      - rewrite Nat.min_l by exact H. rewrite !firstn_all2; [reflexivity | rewrite skipn_length; lia ..].
      - rewrite Nat.min_r by lia. f_equal. lia. }
    split; [| split].
    + split; [cbn; unfold np; lia |]. exists gone. cbn [rw_pos rw_buffer rw_input_stream rw_rewindable data_of snd].
      split; [exact Hl |]. split; [| exact Hg]. rewrite Hs, <- app_assoc, firstn_plus. f_equal. f_equal. unfold np. lia.
    + reflexivity.
    + exists (skipn pos buffer). split; [rewrite Hs, Hl, <- app_assoc, firstn_skipn; reflexivity |].
      destruct (skipn pos buffer) as [| b t] eqn:E.
      * apply (f_equal (@length _)) in E. rewrite skipn_length in E. cbn in E. lia.
      * split; [rewrite F; reflexivity | reflexivity].
  - assert (pos = length buffer) by lia. subst pos. rewrite firstn_all in Hs.
    assert (Es : since = log) by congruence. clear Hs. subst since.
    cbn [src_read logged fst snd]. destruct (src_read src s size) as (data & s') eqn:Er.
    set (drop := negb re && negb (match buffer with [] => true | _ => false end)).
    set (b' := if drop then [] else buffer). set (p' := if drop then 0%nat else length buffer).
    assert (D : re = true -> b' = buffer /\ p' = length buffer) by (subst b' p' drop; intros ->; split; reflexivity).
    assert (B : re = false -> b' = [] /\ p' = 0%nat).
    { subst b' p' drop. intros ->. destruct buffer; split; reflexivity. }
    clearbody b' p'. clear drop.
    assert (K : forall d, rw_inv
        (if re then mk_rewindable (s', log ++ d) (b' ++ d) (p' + length d) true cl
         else mk_rewindable (s', log ++ d) b' p' re cl) (log ++ d)).
    { intros d. destruct re.
      - destruct (D eq_refl) as (-> & ->). split; cbn; [rewrite app_length; lia |]. exists []. rewrite (Hg eq_refl) in Hl. cbn in Hl.
        split; [cbn; congruence |]. split; [| reflexivity].
        rewrite firstn_all2 by (rewrite app_length; lia). cbn. congruence.
      - destruct (B eq_refl) as (-> & ->). split; cbn; [lia |].
        exists (log ++ d). rewrite !app_nil_r. split; [reflexivity |]. split; [reflexivity | discriminate]. }
    assert (N : rw_inv (mk_rewindable (s', log ++ []) b' p' re cl) (log ++ [])).
    { specialize (K []). destruct re; [| exact K]. rewrite (app_nil_r b') in K. cbn [length] in K. rewrite Nat.add_0_r in K. exact K. }
    destruct data as [[d |] | e].
    + split; [specialize (K d); destruct re; exact K |]. split; [destruct re; reflexivity |].
      exists []. split; [apply app_nil_r |]. split; [reflexivity |]. destruct re; split; reflexivity.
    + split; [exact N |]. split; [reflexivity |]. exists []. split; [apply app_nil_r |]. repeat split.
    + destruct e; (split; [exact N |]; split; [reflexivity |]; exists []; split; [apply app_nil_r |]; repeat split).
Qed.

Lemma readall_spec : forall S (src : py_source S) fuel r acc since x r', rw_inv r (since ++ acc) ->
  readall (fun r n => Some (rewindable_read_some (logged src) r n)) fuel acc r = Some (x, r') ->
  (forall e, x <> Err e) -> rw_inv r' (since ++ data_of x) /\ rw_rewindable r' = rw_rewindable r.
Proof.
  intros S src fuel. induction fuel as [| fuel IH]; intros r acc since x r' Hi H Hx; [discriminate |].
  cbn [readall] in H. pose proof (read_some_spec S src r (since ++ acc) 8192 Hi) as K.
  destruct (rewindable_read_some (logged src) r 8192) as (y & r1). destruct K as (K & Kr & _).
  destruct y as [[d |] | e].
  - destruct d as [| b d].
    + apply some_inj in H. pose proof (f_equal fst H) as H1. pose proof (f_equal snd H) as H2. cbn in H1, H2. subst x r'.
      cbn [data_of] in *. rewrite app_nil_r in K. auto.
    + rewrite <- Kr. eapply IH; [| exact H | exact Hx]. cbn [data_of] in K. rewrite <- app_assoc in K. exact K.
  - apply some_inj in H. pose proof (f_equal fst H) as H1. pose proof (f_equal snd H) as H2. cbn in H1, H2. subst x r'.
    cbn [data_of] in K. rewrite app_nil_r in K. split; [| exact Kr]. destruct acc; exact K.
  - apply some_inj in H. pose proof (f_equal fst H) as H1. cbn in H1. subst x. elim (Hx e). reflexivity.
Qed.

Lemma rewindable_read_inv : forall S (src : py_source S) fuel r since size x r', rw_inv r since ->
  rewindable_read (logged src) fuel r size = Some (x, r') -> (forall e, x = Err e -> 0 <= size) ->
  rw_inv r' (since ++ data_of x) /\ rw_rewindable r' = rw_rewindable r.
Proof.
  intros S src fuel r since size x r' Hi H Hx. unfold rewindable_read in H. destruct (Z.ltb_spec size 0) as [Hn | Hp].
  - apply (readall_spec S src fuel r [] since); [rewrite app_nil_r; exact Hi | exact H |].
    intros e E. apply Hx in E. lia.
  - apply some_inj in H. pose proof (read_some_spec S src r since size Hi) as K.
    destruct (rewindable_read_some (logged src) r size) as (y & r1).
    pose proof (f_equal fst H) as H1. pose proof (f_equal snd H) as H2. cbn in H1, H2. subst x r'.
    destruct K as (K1 & K2 & _). auto.
Qed.

Lemma history_inv : forall S (src : py_source S) fuel r h r', rw_history (logged src) fuel r h r' ->
  forall since, rw_inv r since -> readalls_return h ->
  rw_inv r' (since_rewind since h) /\
  (rw_rewindable r' = true <-> rw_rewindable r = true /\ ~ In DisableRewind (map fst h)).
Proof.
  intros S src fuel r h r' H. induction H as [r | r size x r1 h r'' Hr H IH | r r1 h r'' Hr H IH | r e h r'' Hr H IH | r h r'' H IH];
    intros since Hi Ha.
  - cbn. tauto.
  - assert (Ha' : readalls_return h) by (intros n e K; apply (Ha n e); right; exact K).
    destruct (rewindable_read_inv S src fuel r since size x r1 Hi Hr) as (I1 & I2).
    { intros e ->. apply (Ha size e). left. reflexivity. }
    destruct (IH _ I1 Ha') as (J1 & J2). cbn [since_rewind map fst In]. split; [exact J1 |]. rewrite J2, I2.
    split; [intros (Q & W); split; [auto | intros [U | U]; [discriminate | auto]] | intros (Q & W); split; [auto | intros U; apply W; right; exact U]].
  - assert (Ha' : readalls_return h) by (intros n e K; apply (Ha n e); right; exact K).
    unfold rewindable_rewind in Hr. destruct (rw_rewindable r) eqn:E; [| discriminate]. apply ok_inj in Hr.
    assert (I1 : rw_inv r1 []).
    { subst r1. destruct Hi as (_ & gone & Hl & _ & Hg). split; cbn; [lia |]. exists gone. rewrite (Hg E) in *. auto. }
    destruct (IH _ I1 Ha') as (J1 & J2). cbn [since_rewind map fst In]. split; [exact J1 |]. rewrite J2. subst r1. cbn.
    split; [intros (Q & W); split; [auto | intros [U | U]; [discriminate | auto]] | intros (Q & W); split; [auto | intros U; apply W; right; exact U]].
  - assert (Ha' : readalls_return h) by (intros n e' K; apply (Ha n e'); right; exact K).
    destruct (IH _ Hi Ha') as (J1 & J2). cbn [since_rewind map fst In]. split; [exact J1 |]. rewrite J2.
    split; [intros (Q & W); split; [auto | intros [U | U]; [discriminate | auto]] | intros (Q & W); split; [auto | intros U; apply W; right; exact U]].
  - assert (Ha' : readalls_return h) by (intros n e' K; apply (Ha n e'); right; exact K).
    assert (I1 : rw_inv (rewindable_disable_rewind r) since).
    { destruct Hi as (Hp & gone & Hl & Hs & Hg). split; [exact Hp |]. exists gone. split; [exact Hl |]. split; [exact Hs |]. discriminate. }
    destruct (IH _ I1 Ha') as (J1 & J2). cbn [since_rewind map fst In]. split; [exact J1 |]. rewrite J2. cbn.
    split; [intros (Q & _); discriminate | intros (_ & W); elim W; left; reflexivity].
Qed.

Lemma init_inv : forall S (src : py_source S) s r, rewindable_init (logged src) (s, []) = Ok r ->
  rw_inv r [] /\ rw_rewindable r = true.
Proof.
  intros S src s r H. unfold rewindable_init in H. destruct (src_readable _ _); [| discriminate]. apply ok_inj in H. subst r.
  split; [| reflexivity]. split; cbn; [lia |]. exists []. auto.
Qed.

(** Whatever the source and the schedule of reads, rewinds and disable_rewind: the
    bytes returned since the last rewind are a prefix of the bytes the source has
    given; the next read returns the bytes that follow if there are any, without asking
    the source, and what the source answers if there are none. *)
Theorem rewindable_replay : forall S (src : py_source S) fuel s r h r',
  rewindable_init (logged src) (s, []) = Ok r -> rw_history (logged src) fuel r h r' -> readalls_return h ->
  exists rest, since_rewind [] h ++ rest = snd (rw_input_stream r') /\
  forall size, 0 <= size -> exists x r'', rewindable_read (logged src) fuel r' size = Some (x, r'') /\
  match rest with
  | [] => x = unblocked (fst (src_read src (fst (rw_input_stream r')) size)) /\
          fst (rw_input_stream r'') = snd (src_read src (fst (rw_input_stream r')) size)
  | _ => x = Ok (Some (firstn (Z.to_nat size) rest)) /\ rw_input_stream r'' = rw_input_stream r'
  end.
Proof.
  intros S src fuel s r h r' Hi Hh Ha. apply init_inv in Hi. destruct Hi as (Hi & _).
  destruct (history_inv _ _ _ _ _ _ Hh _ Hi Ha) as (I & _).
  pose proof I as (Hp & gone & Hl & Hs & _). exists (skipn (rw_pos r') (rw_buffer r')). split.
  { rewrite Hs, Hl, <- app_assoc, firstn_skipn. reflexivity. }
  intros size Hz. pose proof (read_some_spec S src r' _ size I) as K. unfold rewindable_read.
  destruct (Z.ltb_spec size 0) as [H | _]; [lia |].
  destruct (rewindable_read_some (logged src) r' size) as (x & r''). exists x, r''. split; [reflexivity |].
  destruct K as (_ & _ & rest & E & K).
  assert (Er : rest = skipn (rw_pos r') (rw_buffer r')).
  { apply (app_inv_head (since_rewind [] h)). rewrite E, Hs, Hl, <- app_assoc, firstn_skipn. reflexivity. }
  rewrite <- Er. destruct rest; [destruct K as (K1 & K2 & _); auto | exact K].
Qed.

(** Rewinding works until disable_rewind is called; then it raises ValueError. *)
Theorem rewind_allowed : forall S (src : py_source S) fuel s r h r',
  rewindable_init (logged src) (s, []) = Ok r -> rw_history (logged src) fuel r h r' -> readalls_return h ->
  if existsb (fun o => match o with DisableRewind => true | _ => false end) (map fst h)
  then exists m, rewindable_rewind r' = Err (ValueError m)
  else exists r'', rewindable_rewind r' = Ok r''.
Proof.
  intros S src fuel s r h r' Hi Hh Ha. apply init_inv in Hi. destruct Hi as (Hi & Ht).
  destruct (history_inv _ _ _ _ _ _ Hh _ Hi Ha) as (_ & J). unfold rewindable_rewind.
  destruct (existsb _ _) eqn:E; destruct (rw_rewindable r') eqn:Er; eauto.
  - destruct (proj1 J eq_refl) as (_ & K). exfalso. apply K. apply existsb_exists in E. destruct E as ([] & Hin & Eo); try discriminate. exact Hin.
  - assert (K : false = true); [| discriminate]. apply J. split; [exact Ht |]. intros K.
    assert (E' : true = false); [| discriminate]. rewrite <- E. symmetry. apply existsb_exists. exists DisableRewind. auto.
Qed.
