(** Runs: tokens never change. *)
From Coq Require Import Strings.Byte Strings.String List NArith ZArith Bool Arith Lia.
From Verif Require Import M_Base M_Proto M_Prims M_PrimitiveSet M_Registry M_KeysetHandle M_JwtTypes M_Json M_RawJwt M_Objects
  S_Objects L_Base L_Json2 L_Objects L_Objects2 L_Objects3.
Import ListNotations.
Open Scope nat_scope.
Open Scope string_scope.
Open Scope list_scope.

Lemma knows_in : forall s a, knows s a = true -> In a (o_known s).
Proof. intros s a H. apply existsb_exists in H. destruct H as (x & Hi & E). apply Nat.eqb_eq in E. subst. exact Hi. Qed.
Lemma knows_all_in : forall s l a, knows_all s l = true -> In a l -> In a (o_known s).
Proof. intros s l a H Hi. unfold knows_all in H. rewrite forallb_forall in H. apply knows_in, H, Hi. Qed.
Lemma existsb_in : forall a l, existsb (Nat.eqb a) l = true -> In a l.
Proof. intros a l H. apply existsb_exists in H. destruct H as (x & Hi & E). apply Nat.eqb_eq in E. subst. exact Hi. Qed.

Lemma update_length : forall h a o, length (update h a o) = length h.
Proof. induction h as [| x h IH]; intros [| a] o; cbn [update length]; auto. Qed.
Lemma update_same : forall h a o, a < length h -> nth_error (update h a o) a = Some o.
Proof. induction h as [| x h IH]; intros [| a] o H; cbn [update length nth_error] in *; try lia; [reflexivity | apply IH; lia]. Qed.
Lemma update_other : forall h a b o, a <> b -> nth_error (update h a o) b = nth_error h b.
Proof. induction h as [| x h IH]; intros [| a] [| b] o H; cbn [update nth_error]; auto; try congruence. Qed.

Definition closed (U : nat -> Prop) (h : heap) : Prop :=
  forall a o b, U a -> nth_error h a = Some o -> In b (refs o) -> U b.
Definition inside (U : nat -> Prop) (h : heap) : Prop := forall a, U a -> a < length h.
Definition handles_ok (s : objects) : Prop :=
  forall a, In a (o_handles s) -> exists ks, nth_error (o_heap s) a = Some (OKeyset ks).

Lemma grows_back : forall h h' a, grows h h' -> a < length h -> nth_error h' a = nth_error h a.
Proof. intros h h' a (x & ->) Ha. apply nth_error_app1, Ha. Qed.
Lemma closed_grows : forall U h h', inside U h -> closed U h -> grows h h' -> closed U h'.
Proof. intros U h h' I C G a o b Ha Ho Hb. rewrite (grows_back _ _ _ G (I a Ha)) in Ho. eapply C; eauto. Qed.
Lemma inside_grows : forall U h h', inside U h -> grows h h' -> inside U h'.
Proof. intros U h h' I G a Ha. apply grows_length in G. specialize (I a Ha). lia. Qed.
(** The heap grows, and the caller gets all of the new part. *)
Definition plus (U : nat -> Prop) (h h' : heap) (a : nat) : Prop := U a \/ fresh h h' a.
Lemma inside_plus : forall U h h', inside U h -> grows h h' -> inside (plus U h h') h'.
Proof. intros U h h' I G a [Ha | [_ Ha]]; [eapply inside_grows; eauto | exact Ha]. Qed.
Lemma closed_plus : forall U h h', inside U h -> closed U h -> grows h h' ->
  (forall a o b, length h <= a -> nth_error h' a = Some o -> In b (refs o) -> plus U h h' b) -> closed (plus U h h') h'.
Proof.
  intros U h h' I C G N a o b [Ha | [Ha _]] Ho Hb.
  - left. rewrite (grows_back _ _ _ G (I a Ha)) in Ho. eapply C; eauto.
  - eapply N; eauto.
Qed.
Lemma closed_update : forall U h a o, closed U h -> (forall b, In b (refs o) -> U b) -> closed U (update h a o).
Proof.
  intros U h a o C Ho x y b Hx Hy Hb. destruct (Nat.eq_dec a x) as [-> | Hne].
  - assert (L : x < length h) by (rewrite <- (update_length h x o); eapply nth_some_lt; eauto).
    rewrite update_same in Hy by exact L. injection Hy as <-. auto.
  - rewrite update_other in Hy by exact Hne. eapply C; eauto.
Qed.

(** The parts of a run that create or give out handles. *)
Lemma adopt_cases : forall s a check, adopt s a check = s \/
  (In a (o_known s) /\ (exists ks, nth_error (o_heap s) a = Some (OKeyset ks)) /\ adopt s a check = with_handle s a).
Proof.
  intros s a check. unfold adopt. destruct (knows s a) eqn:K; [| auto]. unfold keyset_at.
  destruct (nth_error (o_heap s) a) as [[l | l | ks] |] eqn:E; auto. destruct (check ks); auto.
  right. split; [apply knows_in, K |]. split; [eauto | reflexivity].
Qed.
Lemma give_cases : forall s i own check, give_to_writer s i own check = s \/
  (exists a ks, nth_error (o_handles s) i = Some a /\ nth_error (o_heap s) a = Some (OKeyset ks) /\ own = true /\
     give_to_writer s i own check = with_known s a).
Proof.
  intros s i own check. unfold give_to_writer, handle_at, keyset_at. destruct (nth_error (o_handles s) i) as [a |] eqn:E; [| auto].
  destruct (nth_error (o_heap s) a) as [[l | l | ks] |] eqn:Ea; auto. destruct (check ks); auto. destruct own; [| auto].
  right. exists a, ks. auto.
Qed.
Lemma new_handle_cases : forall s x, with_new_handle s x = s \/
  (exists ks, with_new_handle s x = mk_objects (o_heap s ++ [OKeyset ks]) (o_known s) (o_tokens s) (o_handles s ++ [length (o_heap s)])).
Proof. intros s [[ks] | e]; [right; exists ks; reflexivity | left; reflexivity]. Qed.

(** What a step can be, apart from the calls on tokens. *)
Inductive plain_step (s : objects) (op : operation) : objects -> Prop :=
| step_same : plain_step s op s
| step_make : forall o, op = MakeObject o -> (forall b, In b (refs o) -> In b (o_known s)) ->
    plain_step s op (mk_objects (o_heap s ++ [o]) (length (o_heap s) :: o_known s) (o_tokens s) (o_handles s))
| step_change : forall a x o, op = ChangeObject a o -> In a (o_known s) -> nth_error (o_heap s) a = Some x ->
    (forall b, In b (refs o) -> In b (o_known s)) -> same_type x o = true ->
    plain_step s op (mk_objects (update (o_heap s) a o) (o_known s) (o_tokens s) (o_handles s))
| step_take : forall a b o, In a (o_known s) -> nth_error (o_heap s) a = Some o -> In b (refs o) ->
    plain_step s op (with_known s b)
| step_adopt : forall a ks, takes_in op -> In a (o_known s) -> nth_error (o_heap s) a = Some (OKeyset ks) ->
    plain_step s op (with_handle s a)
| step_new : forall ks, ~ takes_in op ->
    plain_step s op (mk_objects (o_heap s ++ [OKeyset ks]) (o_known s) (o_tokens s) (o_handles s ++ [length (o_heap s)]))
| step_out : forall i a ks, hands_out i op -> nth_error (o_handles s) i = Some a -> nth_error (o_heap s) a = Some (OKeyset ks) ->
    plain_step s op (with_known s a).

Section Run.
  Variable rt : py_rt.
  Variable limit : nat.
  Definition token_call (op : operation) : bool :=
    match op with NewRawJwt _ | VerifyJwt _ _ | Audiences _ | CustomClaim _ _ => true | _ => false end.
  Lemma plain_steps : forall s op, token_call op = false -> plain_step s op (operate rt limit s op).
  Proof.
    intros s op T.
    assert (A : forall a check, takes_in op -> plain_step s op (adopt s a check)).
    { intros a check Ht. destruct (adopt_cases s a check) as [-> | (Ha & (ks & Hk) & ->)]; econstructor; eauto. }
    assert (N : forall x, ~ takes_in op -> plain_step s op (with_new_handle s x)).
    { intros x Hx. destruct (new_handle_cases s x) as [-> | (ks & ->)]; econstructor; eauto. }
    assert (G : forall i own check, (own = true -> hands_out i op) -> plain_step s op (give_to_writer s i own check)).
    { intros i own check Ho. destruct (give_cases s i own check) as [-> | (a & ks & Hi & Hk & Hw & ->)]; [constructor |].
      eapply step_out; eauto. }
    destruct op as [o | a o | a b | args | th pl | i | i name | a | src | i own | a tok | i tok | reg rnd draws t | r | src | i own | reg i];
      try discriminate T; cbn [operate].
    - destruct (knows_all s (refs o)) eqn:K; [| constructor]. cbn [put]. apply step_make with (o := o); [reflexivity |].
      intros b. apply (knows_all_in _ _ _ K).
    - destruct (nth_error (o_heap s) a) as [x |] eqn:E; [| constructor].
      destruct (knows s a && knows_all s (refs o) && same_type x o) eqn:K; [| constructor].
      apply andb_true_iff in K. destruct K as [K K3]. apply andb_true_iff in K. destruct K as [K1 K2].
      eapply step_change; eauto; [apply knows_in, K1 | intros b; apply (knows_all_in _ _ _ K2)].
    - destruct (nth_error (o_heap s) a) as [x |] eqn:E; [| constructor].
      destruct (knows s a && existsb (Nat.eqb b) (refs x)) eqn:K; [| constructor]. apply andb_true_iff in K. destruct K as [K1 K2].
      eapply step_take; eauto; [apply knows_in, K1 | apply existsb_in, K2].
    - apply A. exact I.
    - destruct src; cbn [open_source]; [apply N; intros [] | apply A; exact I].
    - apply G. cbn [hands_out]. auto.
    - apply A. exact I.
    - unfold handle_at, keyset_at. destruct (nth_error (o_handles s) i) as [a |] eqn:E; [| constructor].
      destruct (nth_error (o_heap s) a) as [[l | l | ks] |] eqn:Ea; try constructor.
      unfold to_proto_keyset. destruct (is_secret_key_access tok) eqn:Et; try constructor.
      eapply (step_out _ _ i); eauto. cbn [hands_out]. auto.
    - destruct (generate_new reg rnd draws t); [apply N; intros [] | constructor].
    - apply N. intros [].
    - destruct src; cbn [open_source]; [apply N; intros [] | apply A; exact I].
    - apply G. cbn [hands_out]. auto.
    - destruct (handle_at s i); [apply N; intros [] | constructor].
  Qed.

  (** *** Tokens *)
  Definition tokens_private (s : objects) (U : nat -> Prop) : Prop :=
    forall t, In t (o_tokens s) ->
      exists q, private U (o_heap s) (VRef (to_payload t)) (JDict q) /\ validate_audience_claim q = Ok tt.
  Definition apart (s : objects) (U : nat -> Prop) : Prop :=
    (forall a, In a (o_known s) -> U a) /\ inside U (o_heap s) /\ closed U (o_heap s) /\ handles_ok s /\ tokens_private s U.
  Definition kept (s s' : objects) : Prop :=
    (exists x, o_tokens s' = o_tokens s ++ x) /\
    forall t q, In t (o_tokens s) -> shows (o_heap s) (VRef (to_payload t)) (JDict q) -> shows (o_heap s') (VRef (to_payload t)) (JDict q).
  Lemma apart_step : forall s (U : nat -> Prop) s' (U' : nat -> Prop) x, apart s U ->
    (forall a o, ~ U a -> nth_error (o_heap s) a = Some o -> nth_error (o_heap s') a = Some o) ->
    (forall a o, nth_error (o_heap s) a = Some o -> match o with OKeyset _ => False | _ => True end -> U' a -> U a) ->
    (forall a, In a (o_known s') -> U' a) -> inside U' (o_heap s') -> closed U' (o_heap s') -> handles_ok s' ->
    o_tokens s' = o_tokens s ++ x ->
    (forall t, In t x -> exists q, private U' (o_heap s') (VRef (to_payload t)) (JDict q) /\ validate_audience_claim q = Ok tt) ->
    apart s' U' /\ kept s s'.
  Proof.
    intros s U s' U' x (_ & _ & _ & _ & HT) F1 F2 K I C HO E HX. repeat split; auto.
    - intros t Ht. rewrite E in Ht. apply in_app_or in Ht. destruct Ht as [Ht | Ht]; [| auto].
      destruct (HT t Ht) as (q & Hq & Hv). exists q. split; [| exact Hv]. eapply private_frame; eauto.
    - eauto.
    - intros t q Ht Hs. destruct (HT t Ht) as (q' & Hq & _). pose proof (shows_same _ _ _ _ Hs (private_shows _ _ _ _ Hq)) as Eq.
      injection Eq as <-. eapply private_shows, private_frame; eauto.
  Qed.
  Lemma handles_grows : forall s s', handles_ok s -> grows (o_heap s) (o_heap s') -> o_handles s' = o_handles s -> handles_ok s'.
  Proof. intros s s' H G E a Ha. rewrite E in Ha. destruct (H a Ha) as (ks & Hk). exists ks. eapply grows_old; eauto. Qed.

  Lemma plain_apart : forall s op U, apart s U -> token_call op = false ->
    exists U', apart (operate rt limit s op) U' /\ kept s (operate rt limit s op).
  Proof.
    intros s op U HA T. pose proof HA as (HK & HI & HC & HH & HT).
    destruct (plain_steps s op T) as [| o Eo Ho | a x o Eo Ha Hx Ho Hs | a b o Ha Hn Hb | a ks Ht Ha Hn | ks Ht | i a ks Ht Hi Hn].
    - exists U. split; [exact HA |]. split; [exists []; rewrite app_nil_r; reflexivity | auto].
    - exists (plus U (o_heap s) (o_heap s ++ [o])). apply (apart_step s U _ _ []); cbn [o_heap o_known o_tokens o_handles]; auto.
      + intros; apply nth_app_old; auto.
      + intros a x Hx _ [Hu | [Hu _]]; [exact Hu |]. apply nth_some_lt in Hx. lia.
      + intros a [<- | Hk]; [right; unfold fresh; rewrite app_length; cbn [length]; lia | left; auto].
      + apply inside_plus; [exact HI | apply grows_put, grows_refl].
      + apply closed_plus; [exact HI | exact HC | apply grows_put, grows_refl |].
        intros a y b Hl Hy Hb. assert (a = length (o_heap s)) by (apply nth_some_lt in Hy; rewrite app_length in Hy; cbn [length] in Hy; lia).
        subst a. rewrite nth_new in Hy. injection Hy as <-. left. auto.
      + eapply handles_grows; [exact HH | apply grows_put, grows_refl | reflexivity].
      + rewrite app_nil_r. reflexivity.
      + intros t [].
    - exists U. apply (apart_step s U _ _ []); cbn [o_heap o_known o_tokens o_handles]; auto.
      + intros b y Hb Hy. rewrite update_other; [exact Hy | intros <-; auto].
      + intros b Hb. rewrite update_length. auto.
      + apply closed_update; auto.
      + intros b Hb. destruct (HH b Hb) as (ks & Hk). destruct (Nat.eq_dec a b) as [<- | Hne].
        * rewrite Hk in Hx. injection Hx as <-. cbn [o_heap]. rewrite update_same by (eapply nth_some_lt; eauto).
          destruct o as [| | ks']; try discriminate. eauto.
        * cbn [o_heap]. rewrite update_other by exact Hne. eauto.
      + rewrite app_nil_r. reflexivity.
      + intros t [].
    - exists U. apply (apart_step s U _ _ []); cbn [with_known o_heap o_known o_tokens o_handles]; auto.
      + intros c [<- | Hc]; [eapply HC; eauto | auto].
      + rewrite app_nil_r. reflexivity.
      + intros t [].
    - exists U. apply (apart_step s U _ _ []); cbn [with_handle o_heap o_known o_tokens o_handles]; auto.
      + intros c Hc. cbn [with_handle o_handles o_heap] in *. apply in_app_or in Hc. destruct Hc as [Hc | [<- | []]]; eauto.
      + rewrite app_nil_r. reflexivity.
      + intros t [].
    - assert (G : grows (o_heap s) (o_heap s ++ [OKeyset ks])) by apply grows_put, grows_refl.
      exists U. apply (apart_step s U _ _ []); cbn [o_heap o_known o_tokens o_handles]; auto.
      + intros; apply nth_app_old; auto.
      + eapply inside_grows; eauto.
      + eapply closed_grows; eauto.
      + intros c Hc. cbn [o_handles o_heap] in *. apply in_app_or in Hc. destruct Hc as [Hc | [<- | []]].
        * destruct (HH c Hc) as (k & Hk). exists k. eapply grows_old; eauto.
        * exists ks. apply nth_new.
      + rewrite app_nil_r. reflexivity.
      + intros t [].
    - exists (fun c => U c \/ c = a). apply (apart_step s U _ _ []); cbn [with_known o_heap o_known o_tokens o_handles]; auto.
      + intros c o Hc Ho [Hu | ->]; [exact Hu |]. rewrite Hn in Hc. injection Hc as <-. destruct Ho.
      + intros c [<- | Hc]; [right; reflexivity | left; auto].
      + intros c [Hc | ->]; [auto | eapply nth_some_lt; eauto].
      + intros c o b [Hc | ->] Ho Hb; [left; eapply HC; eauto |]. rewrite Hn in Ho. injection Ho as <-. destruct Hb.
      + rewrite app_nil_r. reflexivity.
      + intros t [].
  Qed.

  Lemma operate_apart : forall s op U, apart s U -> audience_not_object op ->
    exists U', apart (operate rt limit s op) U' /\ kept s (operate rt limit s op).
  Proof.
    intros s op U HA Hop. destruct (token_call op) eqn:T; [| eapply plain_apart; eauto].
    pose proof HA as (HK & HI & HC & HH & HT).
    assert (Same : exists U', apart s U' /\ kept s s).
    { exists U. split; [exact HA |]. split; [exists []; rewrite app_nil_r; reflexivity | auto]. }
    (* a call that only makes new objects, and maybe a token *)
    assert (Grow : forall h' x, grows (o_heap s) h' ->
      (forall t, In t x -> exists q, private (fun a => a < length (o_heap s)) h' (VRef (to_payload t)) (JDict q) /\ validate_audience_claim q = Ok tt) ->
      exists U', apart (mk_objects h' (o_known s) (o_tokens s ++ x) (o_handles s)) U' /\ kept s (mk_objects h' (o_known s) (o_tokens s ++ x) (o_handles s))).
    { intros h' x G Hx. exists U. apply (apart_step s U _ _ x); cbn [o_heap o_known o_tokens o_handles]; auto.
      - intros; eapply grows_old; eauto.
      - eapply inside_grows; eauto.
      - eapply closed_grows; eauto.
      - eapply handles_grows; [exact HH | exact G | reflexivity].
      - intros t Ht. destruct (Hx t Ht) as (q & Hq & Hv). exists q. split; [| exact Hv].
        eapply private_frame; [| | exact Hq]; [auto |]. cbn beta. intros; apply HI; auto. }
    assert (Fail : forall h', grows (o_heap s) h' ->
      exists U', apart (mk_objects h' (o_known s) (o_tokens s) (o_handles s)) U' /\ kept s (mk_objects h' (o_known s) (o_tokens s) (o_handles s))).
    { intros h' G. destruct (Grow h' [] G) as (U' & H'); [intros t [] |]. rewrite app_nil_r in H'. eauto. }
    (* a getter: the caller gets the new objects *)
    assert (Answer : forall x, extends (o_heap s) (snd x) ->
      (forall v a, fst x = Ok v -> In a (val_refs v) -> fresh (o_heap s) (snd x) a) ->
      exists U', apart (with_answer s x) U' /\ kept s (with_answer s x)).
    { intros [[v | e] h'] X F; cbn [fst snd with_answer] in *; [| apply Fail, grows_extends, X].
      pose proof (grows_extends _ _ X) as G.
      exists (plus U (o_heap s) h'). apply (apart_step s U _ _ []); cbn [o_heap o_known o_tokens o_handles]; auto.
      - intros; eapply grows_old; eauto.
      - intros a o Ho _ [Hu | [Hu _]]; [exact Hu |]. apply nth_some_lt in Ho. lia.
      - intros a Ha. destruct v as [| | | | | b]; cbn [learn] in Ha; try (left; apply HK, Ha).
        destruct Ha as [<- | Ha]; [right; eapply F; [reflexivity | left; reflexivity] | left; auto].
      - apply inside_plus; auto.
      - apply closed_plus; auto. intros a o b Ha Ho Hb. right. destruct X as (y & _ & N). exact (N a o b Ha Ho Hb).
      - eapply handles_grows; [exact HH | exact G | reflexivity].
      - rewrite app_nil_r. reflexivity.
      - intros t []. }
    destruct op as [o | a o | a b | args | th pl | i | i name | a | src | i own | a tok | i tok | reg rnd draws t | r | src | i own | reg i];
      try discriminate T; cbn [operate].
    - destruct (knows_all s (args_refs args)); [| exact Same].
      pose proof (create_token_grows rt limit (o_heap s) args) as G.
      destruct (create_token rt limit (o_heap s) args) as [[t | e] h'] eqn:E; cbn [with_token snd] in *; [| apply Fail, G].
      apply Grow; [exact G |]. intros t' [<- | []].
      apply (create_token_private _ _ _ _ _ _ E). intros b Hb. cbn [audience_not_object] in Hop. rewrite Hb in Hop. exact Hop.
    - pose proof (token_from_json_extends rt (o_heap s) th pl) as X.
      destruct (token_from_json rt (o_heap s) th pl) as [[t | e] h'] eqn:E; cbn [with_token snd] in *; [| apply Fail, grows_extends, X].
      apply Grow; [apply grows_extends, X |]. intros t' [<- | []]. apply (token_from_json_private _ _ _ _ _ _ E).
    - destruct (nth_error (o_tokens s) i) as [t |] eqn:E; [| exact Same].
      destruct (HT t (nth_error_In _ _ E)) as (q & Hq & Hv).
      destruct (get_audiences_extends U (o_heap s) t q Hq Hv) as [X F]. apply Answer; assumption.
    - destruct (nth_error (o_tokens s) i) as [t |] eqn:E; [| exact Same].
      destruct (get_custom_claim_extends limit (o_heap s) t name) as [X F]. apply Answer; assumption.
  Qed.

  Lemma apart_start : apart no_objects (fun _ => False).
  Proof.
    split; [intros a [] |]. split; [intros a [] |]. split; [intros a o b [] |]. split; [intros a [] | intros t []].
  Qed.
  Lemma operate_all_apart : forall l s U, apart s U -> Forall audience_not_object l ->
    exists U', apart (operate_all rt limit l s) U' /\ kept s (operate_all rt limit l s).
  Proof.
    induction l as [| op l IH]; intros s U HA Hl; cbn [operate_all fold_left].
    - exists U. split; [exact HA |]. split; [exists []; rewrite app_nil_r; reflexivity | auto].
    - inversion Hl as [| x y H1 H2]; subst. destruct (operate_apart s op U HA H1) as (U1 & A1 & (x1 & E1) & K1).
      destruct (IH _ U1 A1 H2) as (U2 & A2 & (x2 & E2) & K2). unfold operate_all in *. exists U2. split; [exact A2 |]. split.
      + exists (x1 ++ x2). rewrite E2, E1, app_assoc. reflexivity.
      + intros t q Ht Hs. apply K2; [rewrite E1; apply in_or_app; left; exact Ht | apply K1; assumption].
  Qed.
  Lemma operate_all_app : forall l m s, operate_all rt limit (l ++ m) s = operate_all rt limit m (operate_all rt limit l s).
  Proof. intros. apply fold_left_app. Qed.

  (** Whatever the caller does with its objects and with what the library gave it, a
      token stays the token that it was. *)
  Theorem tokens_never_change : forall ops more i r, Forall audience_not_object (ops ++ more) ->
    token_shows (operate_all rt limit ops no_objects) i r ->
    token_shows (operate_all rt limit (ops ++ more) no_objects) i r.
  Proof.
    intros ops more i r HF (t & Ht & Hh & Hs). apply Forall_app in HF. destruct HF as [F1 F2].
    destruct (operate_all_apart ops no_objects _ apart_start F1) as (U1 & A1 & _).
    destruct (operate_all_apart more _ U1 A1 F2) as (U2 & _ & (x & E) & K). rewrite operate_all_app.
    exists t. split; [| split; [exact Hh |]].
    - rewrite E. rewrite nth_error_app1; [exact Ht | apply nth_error_Some; congruence].
    - apply K; [eapply nth_error_In; eauto | exact Hs].
  Qed.
  (** Every token can be read. *)
  Theorem tokens_readable : forall ops i, Forall audience_not_object ops ->
    (i < length (o_tokens (operate_all rt limit ops no_objects)))%nat ->
    exists r, token_shows (operate_all rt limit ops no_objects) i r.
  Proof.
    intros ops i HF Hi. destruct (operate_all_apart ops no_objects _ apart_start HF) as (U & (_ & _ & _ & _ & HT) & _).
    destruct (nth_error (o_tokens (operate_all rt limit ops no_objects)) i) as [t |] eqn:E; [| apply nth_error_None in E; lia].
    destruct (HT t (nth_error_In _ _ E)) as (q & Hq & _). exists (mk_raw_jwt (to_type_header t) q), t.
    split; [exact E |]. split; [reflexivity | exact (private_shows _ _ _ _ Hq)].
  Qed.
End Run.
