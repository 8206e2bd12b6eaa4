(** A concrete Python runtime, to show that the assumptions on it can be met. Its
    float texts differ from Python's: z * 2^-1074 is written "z.0". *)
From Coq Require Import Strings.Byte Strings.String List NArith ZArith Bool Lia.
From Verif Require Import M_Base L_Base M_JwtTypes M_KmsIntegrations L_KmsIntegrations M_Json S_Json
  L_Json.
Import ListNotations.
Open Scope list_scope.
Open Scope N_scope.

Definition toy_float_repr (f : pyfloat) : pystr :=
  match f with
  | FFin z => dec_Z z ++ ulit ".0"
  | FNegZero => ulit "-0.0"
  | _ => ulit "nan"
  end.
Definition toy_float_parse (t : pystr) : pyfloat :=
  match t with
  | 45 :: r =>
      let n := digits_N (fst (span is_digit r)) in
      if n =? 0 then FNegZero else FFin (- Z.of_N n)
  | _ => FFin (Z.of_N (digits_N (fst (span is_digit t))))
  end.
Definition toy_rt : py_rt :=
  mk_py_rt toy_float_repr toy_float_parse 4300
    (fun f => match f with FFin z => z * 1000000 / 2 ^ 1074 | _ => 0 end%Z).

Lemma int_part_digits : forall i, int_part i -> Forall (fun c => is_digit c = true) i /\ i <> [] /\
  (exists c r, i = c :: r /\ c <> 45).
Proof.
  intros i [-> | (c & d & -> & Hc & Hd)].
  - repeat split; [repeat constructor | discriminate | exists 48, []; split; [reflexivity | lia]].
  - repeat split; [| discriminate | exists c, d; split; [reflexivity | lia]].
    constructor; [unfold is_digit; apply andb_true_iff; rewrite !N.leb_le; lia |].
    revert Hd. apply Forall_impl. intros x Hx. unfold is_digit. apply andb_true_iff. rewrite !N.leb_le. lia.
Qed.

Lemma span_int : forall i, int_part i -> span is_digit (i ++ ulit ".0") = (i, ulit ".0").
Proof.
  intros i Hi. destruct (int_part_digits i Hi) as (Hd & _). clear Hi.
  induction Hd as [| c i Hc Hd IH]; [reflexivity |].
  cbn [app span]. rewrite Hc, IH. reflexivity.
Qed.
Lemma digits_N_value : forall i, digits_N i = value_of_digits 0 i.
Proof.
  intros i. unfold digits_N. generalize 0. induction i as [| c i IH]; intros a; [reflexivity |].
  cbn [fold_left value_of_digits]. apply IH.
Qed.

Lemma toy_literal : forall sg n, sg = [] \/ sg = [45] -> float_literal (sg ++ dec_N n ++ ulit ".0").
Proof.
  intros sg n Hs. exists sg, (dec_N n), (ulit ".0"), []. rewrite app_nil_r.
  split; [reflexivity |]. split; [exact Hs |]. split; [apply dec_N_int_part |].
  split; [left; exists [48]; repeat split; [discriminate | repeat constructor; lia] |].
  split; [auto | discriminate].
Qed.
Lemma toy_parse_pos : forall n, toy_float_parse (dec_N n ++ ulit ".0") = FFin (Z.of_N n).
Proof.
  intros n. pose proof (dec_N_int_part n) as Hi. destruct (int_part_digits _ Hi) as (_ & _ & c & r & E & Hc).
  pose proof (span_int _ Hi) as Hs. pose proof (dec_N_value n) as Hv. rewrite E in *. cbn [app] in *.
  unfold toy_float_parse. rewrite Hs. cbn [fst]. rewrite digits_N_value, Hv.
  destruct c as [| c]; [reflexivity |].
  do 6 (try (destruct c as [c | c |]; try reflexivity)). congruence.
Qed.
Lemma toy_float_codec : float_codec toy_rt.
Proof.
  intros f _ Hinf Hnan. destruct f as [| b | | z]; [congruence | exfalso; eapply Hinf; reflexivity | |].
  - split; [| reflexivity]. exact (toy_literal [45] 0 (or_intror eq_refl)).
  - cbn [toy_rt float_repr float_parse toy_float_repr]. destruct z as [| p | p]; cbn [dec_Z].
    + split; [exact (toy_literal [] 0 (or_introl eq_refl)) | reflexivity].
    + split; [exact (toy_literal [] (Npos p) (or_introl eq_refl)) |].
      apply (toy_parse_pos (Npos p)).
    + split; [exact (toy_literal [45] (Npos p) (or_intror eq_refl)) |].
      cbn [app toy_float_parse]. rewrite span_int by apply dec_N_int_part. cbn [fst].
      rewrite digits_N_value, dec_N_value. reflexivity.
Qed.
