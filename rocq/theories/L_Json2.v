(** Values: the parser accepts exactly the JSON texts; the encoder writes them. *)
From Coq Require Import Strings.Byte Strings.String List NArith ZArith Bool Lia.
From Verif Require Import M_Base L_Base M_Utf8 L_Utf8 M_JwtTypes M_KmsIntegrations
  L_KmsIntegrations M_Json S_Json L_Json.
Import ListNotations.
Open Scope list_scope.
Open Scope N_scope.

(** ** Induction on values *)

Section JsonInd.
  Variable P : json -> Prop.
  Hypothesis Hnull : P JNull.
  Hypothesis Hbool : forall v, P (JBool v).
  Hypothesis Hint : forall v, P (JInt v).
  Hypothesis Hfloat : forall v, P (JFloat v).
  Hypothesis Hstr : forall v, P (JStr v).
  Hypothesis Hlist : forall l, Forall P l -> P (JList l).
  Hypothesis Hdict : forall l, Forall (fun kv => P (snd kv)) l -> P (JDict l).
  Fixpoint json_nested_ind (v : json) : P v :=
    match v with
    | JNull => Hnull
    | JBool b => Hbool b
    | JInt z => Hint z
    | JFloat f => Hfloat f
    | JStr x => Hstr x
    | JList l => Hlist l ((fix go l : Forall P l :=
        match l with [] => Forall_nil _ | i :: r => Forall_cons _ (json_nested_ind i) (go r) end) l)
    | JDict l => Hdict l ((fix go l : Forall (fun kv => P (snd kv)) l :=
        match l with
        | [] => Forall_nil _
        | kv :: r => Forall_cons _ (json_nested_ind (snd kv)) (go r)
        end) l)
    end.
End JsonInd.

Definition atom (v : json) : Prop :=
  match v with JList _ | JDict _ => False | _ => True end.

(** The effect of the pairs hook on the value denoted by a text. *)
Inductive resolves (hook : list (pystr * json) -> result json) : json -> json -> Prop :=
| R_atom : forall v, atom v -> resolves hook v v
| R_list : forall l l', Forall2 (resolves hook) l l' -> resolves hook (JList l) (JList l')
| R_dict : forall l l' v,
    Forall2 (fun p q => fst p = fst q /\ resolves hook (snd p) (snd q)) l l' ->
    hook l' = Ok v -> resolves hook (JDict l) v.

Scheme json_value_mind := Induction for json_value Sort Prop
  with json_items_mind := Induction for json_items Sort Prop
  with json_members_mind := Induction for json_members Sort Prop.
Combined Scheme json_text_mind from json_value_mind, json_items_mind, json_members_mind.

(** ** Soundness of the parser *)

Lemma scan_constant_sound : forall rt s v r, scan_constant s = Some (v, r) ->
  exists t, s = t ++ r /\ json_value rt v t /\ atom v.
Proof.
  intros rt s v r H. unfold scan_constant in H.
  repeat match type of H with
  | match strip_prefix ?p ?s with _ => _ end = _ =>
      let E := fresh "E" in
      destruct (strip_prefix p s) eqn:E;
        [apply strip_prefix_spec in E; apply some_inj in H;
         pose proof (f_equal fst H) as Ev; pose proof (f_equal snd H) as Er; cbn [fst snd] in Ev, Er;
         subst; eexists; split; [reflexivity | split; [constructor | exact I]] |]
  end.
  discriminate.
Qed.

Lemma scan_number_atom : forall rt s v r, scan_number rt s = Ok (v, r) -> atom v.
Proof.
  intros rt s v r H. unfold scan_number in H.
  destruct (match s with [] => _ | _ => _ end) as [sg s1].
  destruct (scan_int s1) as [[i s2] |]; [| discriminate].
  destruct (scan_frac s2) as [f s3]. destruct (scan_exp s3) as [e s4].
  assert (G : forall x : json * pystr, atom (fst x) -> Ok x = Ok (v, r) -> atom v).
  { intros x Hx E. apply ok_inj in E. rewrite E in Hx. exact Hx. }
  destruct f, e; try (eapply G; [| exact H]; exact I).
  destruct (over_limit rt i); [discriminate |]. eapply G; [| exact H]; exact I.
Qed.

Section Sound.
  Variable rt : py_rt.
  Variable hook : list (pystr * json) -> result json.
  Variable value : pystr -> result (json * pystr).
  Hypothesis Hvalue : forall s v r, value s = Ok (v, r) ->
    exists t v0, s = t ++ r /\ json_value rt v0 t /\ resolves hook v0 v.

  Lemma parse_items_sound : forall n s l r, parse_items value n s = Ok (l, r) ->
    forall w, white w ->
    exists t l0, w ++ s = t ++ 93 :: r /\ json_items rt l0 t /\ Forall2 (resolves hook) l0 l.
  Proof.
    induction n as [| n IH]; intros s l r H w Hw; [discriminate |]. cbn [parse_items] in H.
    apply bind_ok in H. destruct H as ([v r0] & Hv & H). apply Hvalue in Hv.
    destruct Hv as (t & v0 & -> & Hv & Hr).
    destruct (skip_ws_spec r0) as (w2 & E & Hw2 & _). destruct (skip_ws r0) as [| c r1]; [discriminate |].
    destruct (N.eqb_spec c 93) as [-> | _].
    { apply ok_inj in H. pose proof (f_equal fst H) as El. pose proof (f_equal snd H) as Er.
      cbn [fst snd] in El, Er. subst l r. exists (w ++ t ++ w2), [v0]. split; [| split].
      - rewrite E, <- !app_assoc. reflexivity.
      - constructor; assumption.
      - constructor; [exact Hr | constructor]. }
    destruct (N.eqb_spec c 44) as [-> | _]; [| discriminate].
    apply bind_ok in H. destruct H as ([l1 r2] & Hl & H).
    apply ok_inj in H. pose proof (f_equal fst H) as El. pose proof (f_equal snd H) as Er.
    cbn [fst snd] in El, Er. subst l r.
    destruct (skip_ws_spec r1) as (w3 & E3 & Hw3 & _).
    destruct (IH _ _ _ Hl w3 Hw3) as (t' & l0 & E' & Hi & Hf). rewrite <- E3 in E'.
    exists (w ++ t ++ w2 ++ 44 :: t'), (v0 :: l0). split; [| split].
    - rewrite E, E', <- !app_assoc. cbn [app]. rewrite <- ?app_assoc. reflexivity.
    - constructor; assumption.
    - constructor; assumption.
  Qed.

  Lemma parse_members_sound : forall n s l r, parse_members value n s = Ok (l, r) ->
    forall w, white w ->
    exists t l0, w ++ s = t ++ 125 :: r /\ json_members rt l0 t /\
      Forall2 (fun p q => fst p = fst q /\ resolves hook (snd p) (snd q)) l0 l.
  Proof.
    induction n as [| n IH]; intros s l r H w Hw; [discriminate |]. cbn [parse_members] in H.
    destruct s as [| q s1]; [discriminate |]. destruct (N.eqb_spec q 34) as [-> | _]; [| discriminate].
    destruct (scan_string s1) as [[k r0] |] eqn:Ek; [| discriminate].
    apply scan_string_sound with (n := length s1) in Ek; [| lia]. destruct Ek as (tk & -> & Hk).
    destruct (skip_ws_spec r0) as (w2 & E & Hw2 & _). destruct (skip_ws r0) as [| c r1]; [discriminate |].
    destruct (N.eqb_spec c 58) as [-> | _]; [| discriminate]. subst r0.
    destruct (skip_ws_spec r1) as (w3 & E3 & Hw3 & _).
    apply bind_ok in H. destruct H as ([v r2] & Hv & H). apply Hvalue in Hv.
    destruct Hv as (t & v0 & Et & Hv & Hr). rewrite Et in E3. subst r1.
    destruct (skip_ws_spec r2) as (w4 & E4 & Hw4 & _). destruct (skip_ws r2) as [| d r3]; [discriminate |].
    subst r2.
    destruct (N.eqb_spec d 125) as [-> | _].
    { apply ok_inj in H. pose proof (f_equal fst H) as El. pose proof (f_equal snd H) as Er.
      cbn [fst snd] in El, Er. subst l r.
      exists (w ++ 34 :: tk ++ 34 :: w2 ++ 58 :: w3 ++ t ++ w4), [(k, v0)]. split; [| split].
      - repeat (rewrite <- !app_assoc; cbn [app]). reflexivity.
      - constructor; assumption.
      - constructor; [split; [reflexivity | exact Hr] | constructor]. }
    destruct (N.eqb_spec d 44) as [-> | _]; [| discriminate].
    apply bind_ok in H. destruct H as ([l1 r4] & Hl & H).
    apply ok_inj in H. pose proof (f_equal fst H) as El. pose proof (f_equal snd H) as Er.
    cbn [fst snd] in El, Er. subst l r.
    destruct (skip_ws_spec r3) as (w5 & E5 & Hw5 & _).
    destruct (IH _ _ _ Hl w5 Hw5) as (t' & l0 & E' & Hi & Hf). rewrite <- E5 in E'.
    exists (w ++ 34 :: tk ++ 34 :: w2 ++ 58 :: w3 ++ t ++ w4 ++ 44 :: t'), ((k, v0) :: l0).
    split; [| split].
    - rewrite E'. repeat (rewrite <- !app_assoc; cbn [app]). reflexivity.
    - constructor; assumption.
    - constructor; [split; [reflexivity | exact Hr] | exact Hf].
  Qed.

  Lemma parse_step_sound : forall n s v r, parse_step rt hook value n s = Ok (v, r) ->
    exists t v0, s = t ++ r /\ json_value rt v0 t /\ resolves hook v0 v.
  Proof.
    intros n s v r H. destruct s as [| c s]; [discriminate |]. cbn [parse_step] in H.
    destruct (N.eqb_spec c 34) as [-> | _].
    { destruct (scan_string s) as [[x r1] |] eqn:E; [| discriminate].
      apply scan_string_sound with (n := length s) in E; [| lia]. destruct E as (t & -> & Hb).
      apply ok_inj in H. pose proof (f_equal fst H) as El. pose proof (f_equal snd H) as Er.
      cbn [fst snd] in El, Er. subst v r. exists (34 :: t ++ [34]), (JStr x). split; [| split].
      - cbn [app]. rewrite <- app_assoc. reflexivity.
      - constructor. exact Hb.
      - apply R_atom. exact I. }
    destruct (N.eqb_spec c 123) as [-> | _].
    { destruct (skip_ws_spec s) as (w & E & Hw & _). destruct (skip_ws s) as [| d r1]; [discriminate |].
      destruct (N.eqb_spec d 125) as [-> | _].
      - apply bind_ok in H. destruct H as (v1 & Hh & H).
        apply ok_inj in H. pose proof (f_equal fst H) as El. pose proof (f_equal snd H) as Er.
        cbn [fst snd] in El, Er. subst v r. exists (123 :: w ++ [125]), (JDict []). split; [| split].
        + rewrite E. cbn [app]. rewrite <- app_assoc. reflexivity.
        + constructor. exact Hw.
        + apply R_dict with (l' := []); [constructor | exact Hh].
      - apply bind_ok in H. destruct H as ([l r2] & Hl & H).
        apply bind_ok in H. destruct H as (v1 & Hh & H).
        apply ok_inj in H. pose proof (f_equal fst H) as El. pose proof (f_equal snd H) as Er.
        cbn [fst snd] in El, Er. subst v r.
        destruct (parse_members_sound _ _ _ _ Hl w Hw) as (t & l0 & E' & Hi & Hf).
        rewrite <- E in E'. exists (123 :: t ++ [125]), (JDict l0). split; [| split].
        + rewrite E'. cbn [app]. rewrite <- app_assoc. reflexivity.
        + constructor. exact Hi.
        + apply R_dict with (l' := l); [exact Hf | exact Hh]. }
    destruct (N.eqb_spec c 91) as [-> | _].
    { destruct (skip_ws_spec s) as (w & E & Hw & _). destruct (skip_ws s) as [| d r1]; [discriminate |].
      destruct (N.eqb_spec d 93) as [-> | _].
      - apply ok_inj in H. pose proof (f_equal fst H) as El. pose proof (f_equal snd H) as Er.
        cbn [fst snd] in El, Er. subst v r. exists (91 :: w ++ [93]), (JList []). split; [| split].
        + rewrite E. cbn [app]. rewrite <- app_assoc. reflexivity.
        + constructor. exact Hw.
        + apply R_list. constructor.
      - apply bind_ok in H. destruct H as ([l r2] & Hl & H).
        apply ok_inj in H. pose proof (f_equal fst H) as El. pose proof (f_equal snd H) as Er.
        cbn [fst snd] in El, Er. subst v r.
        destruct (parse_items_sound _ _ _ _ Hl w Hw) as (t & l0 & E' & Hi & Hf).
        rewrite <- E in E'. exists (91 :: t ++ [93]), (JList l0). split; [| split].
        + rewrite E'. cbn [app]. rewrite <- app_assoc. reflexivity.
        + constructor. exact Hi.
        + apply R_list. exact Hf. }
    destruct (scan_constant (c :: s)) as [[v1 r1] |] eqn:Ec.
    - apply ok_inj in H. pose proof (f_equal fst H) as El. pose proof (f_equal snd H) as Er.
      cbn [fst snd] in El, Er. subst v r.
      destruct (scan_constant_sound rt _ _ _ Ec) as (t & E & Hv & Ha). exists t, v1.
      split; [exact E | split; [exact Hv | constructor; exact Ha]].
    - pose proof (scan_number_atom _ _ _ _ H) as Ha. apply scan_number_sound in H.
      destruct H as (t & E & Hv). exists t, v. split; [exact E | split; [exact Hv | constructor; exact Ha]].
  Qed.
End Sound.

Lemma parse_value_sound : forall rt hook fuel s v r, parse_value rt hook fuel s = Ok (v, r) ->
  exists t v0, s = t ++ r /\ json_value rt v0 t /\ resolves hook v0 v.
Proof.
  induction fuel as [| f IH]; intros s v r H; [discriminate |]. cbn [parse_value] in H.
  eapply parse_step_sound; [exact IH | exact H].
Qed.

(** ** Completeness of the parser *)

(** What may come after a value. *)
Definition after_value (r : pystr) : Prop :=
  match r with [] => True | c :: _ => is_ws c = true \/ c = 44 \/ c = 93 \/ c = 125 end.

Lemma after_ends_number : forall r, after_value r -> ends_number r.
Proof.
  intros [| c r] H; [exact I |]. cbn in *. rewrite is_ws_spec in H.
  destruct H as [[-> | [-> | [-> | ->]]] | [-> | [-> | ->]]]; repeat split; discriminate.
Qed.

Lemma after_white : forall w r, white w -> after_value r -> after_value (w ++ r).
Proof.
  intros [| c w] r Hw Hr; [exact Hr |]. cbn. left. apply is_ws_spec. inversion Hw; assumption.
Qed.

(** First characters of values. *)
Lemma value_head : forall rt v t, json_value rt v t ->
  exists c t', t = c :: t' /\ is_ws c = false /\ c <> 93 /\ c <> 125.
Proof.
  intros rt v t H.
  assert (G : forall c t', is_ws c = false -> c <> 93 -> c <> 125 ->
    exists c' t'', c :: t' = c' :: t'' /\ is_ws c' = false /\ c' <> 93 /\ c' <> 125).
  { intros c t' ? ? ?. exists c, t'. auto. }
  assert (D : forall c, 48 <= c <= 57 -> is_ws c = false /\ c <> 93 /\ c <> 125).
  { intros c Hc. split; [| lia]. destruct (is_ws c) eqn:E; [| reflexivity]. apply is_ws_spec in E. lia. }
  destruct H; try (apply G; [reflexivity | discriminate | discriminate]).
  - apply int_part_head in H. destruct H as (c & d & -> & Hc). destruct (D c Hc) as (? & ? & ?). apply G; assumption.
  - destruct H as (sg & i & f & e & -> & [-> | ->] & Hi & _).
    + apply int_part_head in Hi. destruct Hi as (c & d & -> & Hc). destruct (D c Hc) as (? & ? & ?).
      cbn [app]. apply G; assumption.
    + cbn [app]. apply G; [reflexivity | discriminate | discriminate].
Qed.

Lemma skip_ws_value : forall rt v t r, json_value rt v t -> skip_ws (t ++ r) = t ++ r.
Proof.
  intros rt v t r H. destruct (value_head _ _ _ H) as (c & t' & -> & Hc & _).
  apply skip_ws_stop. exact Hc.
Qed.

(** Dispatch of [parse_step] on the first character. *)
Definition plain_head (c : N) : Prop := c <> 34 /\ c <> 123 /\ c <> 91.
Lemma parse_step_plain : forall rt hook value n c r, plain_head c ->
  parse_step rt hook value n (c :: r) =
  match scan_constant (c :: r) with Some vr => Ok vr | None => scan_number rt (c :: r) end.
Proof.
  intros rt hook value n c r (H1 & H2 & H3). cbn [parse_step].
  rewrite (proj2 (N.eqb_neq _ _) H1), (proj2 (N.eqb_neq _ _) H2), (proj2 (N.eqb_neq _ _) H3). reflexivity.
Qed.

Lemma strip_prefix_head : forall a p c s, a <> c -> strip_prefix (a :: p) (c :: s) = None.
Proof. intros a p c s H. cbn [strip_prefix]. rewrite (proj2 (N.eqb_neq _ _) H). reflexivity. Qed.

Lemma scan_constant_digit : forall c r, 48 <= c <= 57 -> scan_constant (c :: r) = None.
Proof.
  intros c r H. unfold scan_constant.
  repeat (match goal with |- context [strip_prefix (ulit ?x) (c :: r)] =>
    let y := eval vm_compute in (ulit x) in change (ulit x) with y end;
    rewrite strip_prefix_head by lia).
  reflexivity.
Qed.
Lemma scan_constant_minus_digit : forall c r, 48 <= c <= 57 -> scan_constant (45 :: c :: r) = None.
Proof.
  intros c r H. unfold scan_constant.
  change (strip_prefix (ulit "-Infinity") (45 :: c :: r)) with (strip_prefix (ulit "Infinity") (c :: r)).
  repeat (match goal with |- context [strip_prefix (ulit ?x) (?d :: ?s)] =>
    let y := eval vm_compute in (ulit x) in change (ulit x) with y end;
    rewrite strip_prefix_head by lia).
  rewrite ?strip_prefix_head by lia. reflexivity.
Qed.

Lemma parse_step_number : forall rt hook value n i r sg, (sg = [] \/ sg = [45]) ->
  (exists c d, i = c :: d /\ 48 <= c <= 57) ->
  parse_step rt hook value n (sg ++ i ++ r) = scan_number rt (sg ++ i ++ r).
Proof.
  intros rt hook value n i r sg Hsg (c & d & -> & Hc). destruct Hsg as [-> | ->]; cbn [app].
  - rewrite parse_step_plain by (repeat split; lia). rewrite scan_constant_digit by assumption. reflexivity.
  - rewrite parse_step_plain by (repeat split; discriminate).
    rewrite scan_constant_minus_digit by assumption. reflexivity.
Qed.

Lemma resolves_atom : forall hook v0 v, resolves hook v0 v -> atom v0 -> v = v0.
Proof. intros hook v0 v H Ha. destruct H; [reflexivity | destruct Ha | destruct Ha]. Qed.

Lemma resolves_list : forall hook l v, resolves hook (JList l) v ->
  exists l', v = JList l' /\ Forall2 (resolves hook) l l'.
Proof. intros hook l v H. remember (JList l) as v0 eqn:E. destruct H; subst; [destruct H | |]; try discriminate.
  injection E as ->. eauto. Qed.
Lemma resolves_dict : forall hook l v, resolves hook (JDict l) v ->
  exists l', Forall2 (fun p q => fst p = fst q /\ resolves hook (snd p) (snd q)) l l' /\ hook l' = Ok v.
Proof. intros hook l v H. remember (JDict l) as v0 eqn:E. destruct H; subst; [destruct H | |]; try discriminate.
  injection E as ->. eauto. Qed.

Section Complete.
  Variable rt : py_rt.
  Variable hook : list (pystr * json) -> result json.

  Let value_done (v0 : json) (t : pystr) : Prop := forall fuel v r,
    (length t < fuel)%nat -> resolves hook v0 v -> after_value r ->
    parse_value rt hook fuel (t ++ r) = Ok (v, r).
  Let items_done (l0 : list json) (t : pystr) : Prop := forall fuel n l r,
    (length t < fuel)%nat -> (length t < n)%nat -> Forall2 (resolves hook) l0 l ->
    exists c t', skip_ws (t ++ 93 :: r) = c :: t' /\ c <> 93 /\
    parse_items (parse_value rt hook fuel) n (c :: t') = Ok (l, r).
  Let members_done (l0 : list (pystr * json)) (t : pystr) : Prop := forall fuel n l r,
    (length t < fuel)%nat -> (length t < n)%nat ->
    Forall2 (fun p q => fst p = fst q /\ resolves hook (snd p) (snd q)) l0 l ->
    exists c t', skip_ws (t ++ 125 :: r) = c :: t' /\ c <> 125 /\
    parse_members (parse_value rt hook fuel) n (c :: t') = Ok (l, r).

  Lemma parse_complete :
    (forall v0 t, json_value rt v0 t -> value_done v0 t) /\
    (forall l0 t, json_items rt l0 t -> items_done l0 t) /\
    (forall l0 t, json_members rt l0 t -> members_done l0 t).
  Proof.
    apply json_text_mind; unfold value_done, items_done, members_done; clear value_done items_done members_done.
    1-6: intros [| f] v r Hf Hv Ha; [lia |]; apply resolves_atom in Hv; [subst v | exact I]; reflexivity.
    - intros i Hi Hc [| f] v r Hf Hv Ha; [lia |]; apply resolves_atom in Hv; [subst v | exact I].
      cbn [parse_value]. rewrite (parse_step_number rt hook _ _ i r []);
        [| left; reflexivity | apply int_part_head; exact Hi].
      rewrite (scan_int_text rt [] i r); auto using after_ends_number.
    - intros i Hi Hc [| f] v r Hf Hv Ha; [lia |]; apply resolves_atom in Hv; [subst v | exact I].
      cbn [parse_value].
      pose proof (parse_step_number rt hook (parse_value rt hook f) f i r [45] (or_intror eq_refl)
        (int_part_head _ Hi)) as E. cbn [app] in *. rewrite E.
      pose proof (scan_int_text rt [45] i r) as E'. cbn [app] in E'.
      rewrite E'; auto using after_ends_number.
    - intros t Ht [| f] v r Hf Hv Ha; [lia |]; apply resolves_atom in Hv; [subst v | exact I].
      cbn [parse_value]. rewrite <- (scan_float_text rt t r) by auto using after_ends_number.
      destruct Ht as (sg & i & fr & e & -> & Hsg & Hi & _).
      rewrite <- !app_assoc. apply parse_step_number; [exact Hsg |]. apply int_part_head. exact Hi.
    - intros x t Hb [| f] v r Hf Hv Ha; [lia |]; apply resolves_atom in Hv; [subst v | exact I].
      cbn [parse_value app parse_step]. change (34 =? 34) with true. cbv iota.
      rewrite <- app_assoc. cbn [app]. rewrite scan_string_complete with (x := x) by exact Hb. reflexivity.
    - intros w Hw [| f] v r Hf Hv Ha; [lia |]. apply resolves_list in Hv. destruct Hv as (l' & -> & Hl). inversion Hl; subst.
      cbn [parse_value app parse_step]. change (91 =? 34) with false. change (91 =? 123) with false.
      change (91 =? 91) with true. cbv iota. rewrite <- app_assoc. cbn [app].
      rewrite skip_ws_app by assumption. reflexivity.
    - intros l t Hi IH [| f] v r Hf Hv Ha; [lia |]. apply resolves_list in Hv. destruct Hv as (l' & -> & Hl).
      cbn [parse_value app parse_step]. change (91 =? 34) with false. change (91 =? 123) with false.
      change (91 =? 91) with true. cbv iota. rewrite <- app_assoc. cbn [app].
      cbn [length] in Hf. rewrite app_length in Hf. cbn [length] in Hf.
      destruct (IH f f l' r) as (c & t' & -> & Hc & E); [lia | lia | exact Hl |].
      rewrite (proj2 (N.eqb_neq _ _) Hc), E. reflexivity.
    - intros w Hw [| f] v r Hf Hv Ha; [lia |]. apply resolves_dict in Hv. destruct Hv as (l' & Hl & Hh). inversion Hl; subst.
      cbn [parse_value app parse_step]. change (123 =? 34) with false. change (123 =? 123) with true.
      cbv iota. rewrite <- app_assoc. cbn [app].
      rewrite skip_ws_app by assumption.
      rewrite skip_ws_stop by reflexivity. change (125 =? 125) with true. cbv iota. rewrite Hh. reflexivity.
    - intros l t Hi IH [| f] v r Hf Hv Ha; [lia |]. apply resolves_dict in Hv. destruct Hv as (l' & Hl & Hh).
      cbn [parse_value app parse_step]. change (123 =? 34) with false. change (123 =? 123) with true.
      cbv iota. rewrite <- app_assoc. cbn [app].
      cbn [length] in Hf. rewrite app_length in Hf. cbn [length] in Hf.
      destruct (IH f f l' r) as (c & t' & -> & Hc & E); [lia | lia | exact Hl |].
      rewrite (proj2 (N.eqb_neq _ _) Hc), E. cbn [bind]. rewrite Hh. reflexivity.
    - intros w1 v t w2 Hw1 Hv IH Hw2 fuel n l r Hf Hn Hl.
      inversion Hl as [| ? v' ? ? Hv' Hl']; subst. inversion Hl'; subst.
      rewrite !app_length in Hf, Hn.
      destruct (value_head _ _ _ Hv) as (c & t' & Et & Hc & Hc1 & _). exists c, (t' ++ w2 ++ 93 :: r).
      split; [| split; [exact Hc1 |]].
      + rewrite <- !app_assoc, skip_ws_app by assumption. rewrite (skip_ws_value _ _ _ _ Hv), Et. reflexivity.
      + change (c :: t' ++ w2 ++ 93 :: r) with ((c :: t') ++ w2 ++ 93 :: r). rewrite <- Et.
        destruct n as [| n]; [lia |]. cbn [parse_items].
        rewrite (IH fuel v' (w2 ++ 93 :: r)); [| lia | exact Hv' | apply after_white; [assumption |]; cbn; auto].
        cbn [bind]. rewrite skip_ws_app by assumption. reflexivity.
    - intros w1 v t w2 l0 t0 Hw1 Hv IH Hw2 Hi IHl fuel n l r Hf Hn Hl.
      inversion Hl as [| ? v' ? l' Hv' Hl']; subst.
      rewrite !app_length in Hf, Hn. cbn [length] in Hf, Hn.
      destruct (value_head _ _ _ Hv) as (c & t' & Et & Hc & Hc1 & _).
      exists c, (t' ++ w2 ++ 44 :: t0 ++ 93 :: r).
      split; [| split; [exact Hc1 |]].
      + rewrite <- !app_assoc, skip_ws_app by assumption. cbn [app].
        rewrite (skip_ws_value _ _ _ _ Hv), Et. reflexivity.
      + change (c :: t' ++ w2 ++ 44 :: t0 ++ 93 :: r) with ((c :: t') ++ w2 ++ 44 :: t0 ++ 93 :: r). rewrite <- Et.
        destruct n as [| n]; [lia |]. cbn [parse_items].
        rewrite (IH fuel v' (w2 ++ 44 :: t0 ++ 93 :: r)); [| lia | exact Hv' | apply after_white; [assumption |]; cbn; auto].
        cbn [bind]. rewrite skip_ws_app by assumption. rewrite skip_ws_stop by reflexivity.
        change (44 =? 93) with false. change (44 =? 44) with true. cbv iota.
        destruct (IHl fuel n l' r) as (c0 & t1 & -> & _ & E); [lia | lia | exact Hl' |].
        rewrite E. reflexivity.
    - intros w1 k tk w2 w3 v t w4 Hw1 Hk Hw2 Hw3 Hv IH Hw4 fuel n l r Hf Hn Hl.
      inversion Hl as [| ? q ? ? Hv' Hl']; subst. inversion Hl'; subst. destruct q as [k' v'].
      cbn [fst snd] in Hv'. destruct Hv' as [<- Hv'].
      repeat (rewrite !app_length in Hf, Hn; cbn [length] in Hf, Hn).
      exists 34, (tk ++ 34 :: w2 ++ 58 :: w3 ++ t ++ w4 ++ 125 :: r).
      split; [| split; [discriminate |]].
      + rewrite <- !app_assoc, skip_ws_app by assumption. cbn [app]. rewrite skip_ws_stop by reflexivity.
        repeat (rewrite <- !app_assoc; cbn [app]). reflexivity.
      + destruct n as [| n]; [lia |]. cbn [parse_members]. change (34 =? 34) with true. cbv iota.
        rewrite scan_string_complete with (x := k) by exact Hk.
        rewrite skip_ws_app by assumption. rewrite skip_ws_stop by reflexivity.
        change (58 =? 58) with true. cbv iota.
        rewrite skip_ws_app by assumption. rewrite (skip_ws_value _ _ _ _ Hv).
        rewrite (IH fuel v' (w4 ++ 125 :: r)); [| lia | exact Hv' | apply after_white; [assumption |]; cbn; auto].
        cbn [bind]. rewrite skip_ws_app by assumption. reflexivity.
    - intros w1 k tk w2 w3 v t w4 l0 t0 Hw1 Hk Hw2 Hw3 Hv IH Hw4 Hi IHl fuel n l r Hf Hn Hl.
      inversion Hl as [| ? q ? l' Hv' Hl']; subst. destruct q as [k' v'].
      cbn [fst snd] in Hv'. destruct Hv' as [<- Hv'].
      repeat (rewrite !app_length in Hf, Hn; cbn [length] in Hf, Hn).
      exists 34, (tk ++ 34 :: w2 ++ 58 :: w3 ++ t ++ w4 ++ 44 :: t0 ++ 125 :: r).
      split; [| split; [discriminate |]].
      + rewrite <- !app_assoc, skip_ws_app by assumption. cbn [app]. rewrite skip_ws_stop by reflexivity.
        repeat (rewrite <- !app_assoc; cbn [app]). reflexivity.
      + destruct n as [| n]; [lia |]. cbn [parse_members]. change (34 =? 34) with true. cbv iota.
        rewrite scan_string_complete with (x := k) by exact Hk.
        rewrite skip_ws_app by assumption. rewrite skip_ws_stop by reflexivity.
        change (58 =? 58) with true. cbv iota.
        rewrite skip_ws_app by assumption. rewrite (skip_ws_value _ _ _ _ Hv).
        rewrite (IH fuel v' (w4 ++ 44 :: t0 ++ 125 :: r)); [| lia | exact Hv' | apply after_white; [assumption |]; cbn; auto].
        cbn [bind]. rewrite skip_ws_app by assumption. rewrite skip_ws_stop by reflexivity.
        change (44 =? 125) with false. change (44 =? 44) with true. cbv iota.
        destruct (IHl fuel n l' r) as (c0 & t1 & -> & _ & E); [lia | lia | exact Hl' |].
        rewrite E. reflexivity.
  Qed.
End Complete.

(** The parser accepts exactly the texts of the grammar. *)
Theorem loads_text : forall rt hook s v,
  loads rt hook s = Ok v <-> exists v0, json_text rt v0 s /\ resolves hook v0 v.
Proof.
  intros rt hook s v. unfold loads, json_text. split.
  - intros H. destruct (startswith s [65279]); [discriminate |].
    apply bind_ok in H. destruct H as ([v1 r] & Hp & H).
    destruct (skip_ws_spec r) as (w2 & E2 & Hw2 & _).
    destruct (skip_ws r); [| discriminate]. apply ok_inj in H. subst v1.
    rewrite app_nil_r in E2. subst w2.
    destruct (skip_ws_spec s) as (w1 & E1 & Hw1 & _).
    apply parse_value_sound in Hp. destruct Hp as (t & v0 & E & Hv & Hr).
    exists v0. split; [| exact Hr]. exists w1, t, r. rewrite E in E1. auto.
  - intros (v0 & (w1 & t & w2 & Hw1 & Hv & Hw2 & ->) & Hr).
    destruct (startswith (w1 ++ t ++ w2) [65279]) eqn:Eb.
    { exfalso. apply startswith_spec in Eb. destruct Eb as (r & E). cbn [app] in E.
      destruct w1 as [| c w1].
      - destruct Hv; try discriminate E.
        + apply int_part_head in H. destruct H as (c & d & -> & Hc). cbn [app] in E. injection E as -> _. lia.
        + destruct H as (sg & i & f & e & -> & [-> | ->] & Hi & _); [| discriminate E].
          apply int_part_head in Hi. destruct Hi as (c & d & -> & Hc). cbn [app] in E. injection E as -> _. lia.
      - cbn [app] in E. injection E as -> _. inversion Hw1; subst. lia. }
    rewrite skip_ws_app by assumption. rewrite (skip_ws_value _ _ _ _ Hv).
    rewrite (proj1 (parse_complete rt hook) v0 t Hv _ v w2);
      [| rewrite !app_length; lia | exact Hr | rewrite <- (app_nil_r w2); apply after_white; [assumption | exact I]].
    cbn [bind]. rewrite skip_ws_white by assumption. reflexivity.
Qed.

(** Errors of the parser. *)
Lemma scan_number_err : forall rt s e, scan_number rt s = Err e ->
  e = JSONDecodeError \/ e = ValueError "integer string conversion" /\ int_max_str_digits rt <> 0.
Proof.
  intros rt s e H. unfold scan_number in H.
  destruct (match s with [] => _ | _ => _ end) as [sg s1].
  destruct (scan_int s1) as [[i s2] |]; [| left; congruence].
  destruct (scan_frac s2) as [f s3]. destruct (scan_exp s3) as [x s4].
  destruct f, x; try discriminate. destruct (over_limit rt i) eqn:E; [| discriminate].
  right. split; [congruence |]. unfold over_limit in E. apply andb_prop in E.
  destruct E as [E _]. apply N.ltb_lt in E. lia.
Qed.

Section Errors.
  Variable rt : py_rt.
  Variable hook : list (pystr * json) -> result json.
  Variable P : exn -> Prop.
  Hypothesis HJ : P JSONDecodeError.
  Hypothesis HV : int_max_str_digits rt <> 0 -> P (ValueError "integer string conversion").
  Hypothesis HH : forall l e, hook l = Err e -> P e.

  Lemma errd : forall A e, Err JSONDecodeError = @Err A e -> P e.
  Proof. intros A e H. injection H as <-. exact HJ. Qed.

  Lemma parse_value_err : forall fuel s e, parse_value rt hook fuel s = Err e -> P e.
  Proof.
    induction fuel as [| f IH]; intros s e H; [eapply errd; exact H |].
    cbn [parse_value] in H.
    assert (Hi : forall n s e, parse_items (parse_value rt hook f) n s = Err e -> P e).
    { induction n as [| n IHn]; intros s' e' H'; [eapply errd; exact H' |]. cbn [parse_items] in H'.
      apply bind_err in H'. destruct H' as [H' | ([v r] & _ & H')]; [eapply IH; exact H' |].
      destruct (skip_ws r) as [| c r1]; [eapply errd; exact H' |].
      destruct (c =? 93); [discriminate |]. destruct (c =? 44); [| eapply errd; exact H'].
      apply bind_err in H'. destruct H' as [H' | ([l r2] & _ & H')]; [eapply IHn; exact H' | discriminate]. }
    assert (Hm : forall n s e, parse_members (parse_value rt hook f) n s = Err e -> P e).
    { induction n as [| n IHn]; intros s' e' H'; [eapply errd; exact H' |]. cbn [parse_members] in H'.
      destruct s' as [| q s1]; [eapply errd; exact H' |].
      destruct (q =? 34); [| eapply errd; exact H'].
      destruct (scan_string s1) as [[k r] |]; [| eapply errd; exact H'].
      destruct (skip_ws r) as [| c r1]; [eapply errd; exact H' |].
      destruct (c =? 58); [| eapply errd; exact H'].
      apply bind_err in H'. destruct H' as [H' | ([v r2] & _ & H')]; [eapply IH; exact H' |].
      destruct (skip_ws r2) as [| d r3]; [eapply errd; exact H' |].
      destruct (d =? 125); [discriminate |]. destruct (d =? 44); [| eapply errd; exact H'].
      apply bind_err in H'. destruct H' as [H' | ([l r4] & _ & H')]; [eapply IHn; exact H' | discriminate]. }
    destruct s as [| c s]; [eapply errd; exact H |]. cbn [parse_step] in H.
    destruct (c =? 34).
    { destruct (scan_string s) as [[x r] |]; [discriminate | eapply errd; exact H]. }
    destruct (c =? 123).
    { destruct (skip_ws s) as [| d r1]; [eapply errd; exact H |]. destruct (d =? 125).
      - apply bind_err in H. destruct H as [H | (v & _ & H)]; [eapply HH; exact H | discriminate].
      - apply bind_err in H. destruct H as [H | ([l r2] & _ & H)]; [eapply Hm; exact H |].
        apply bind_err in H. destruct H as [H | (v & _ & H)]; [eapply HH; exact H | discriminate]. }
    destruct (c =? 91).
    { destruct (skip_ws s) as [| d r1]; [eapply errd; exact H |]. destruct (d =? 93); [discriminate |].
      apply bind_err in H. destruct H as [H | ([l r2] & _ & H)]; [eapply Hi; exact H | discriminate]. }
    destruct (scan_constant (c :: s)); [discriminate |].
    apply scan_number_err in H. destruct H as [-> | [-> H]]; [exact HJ | apply HV; exact H].
  Qed.

  Lemma loads_err : forall s e, loads rt hook s = Err e -> P e.
  Proof.
    intros s e H. unfold loads in H. destruct (startswith s [65279]); [eapply errd; exact H |].
    apply bind_err in H. destruct H as [H | ([v r] & _ & H)]; [eapply parse_value_err; exact H |].
    destruct (skip_ws r); [discriminate | eapply errd; exact H].
  Qed.
End Errors.
