(** C33, C34, C54: reading and writing JSON in JWTs. *)
From Coq Require Import Strings.Byte Strings.String List NArith ZArith Bool Lia.
From Verif Require Import M_Base L_Base M_JwtTypes M_Json S_Json L_Json L_Json2 L_Json3 L_Json4 X_Rt.
Import ListNotations.
Open Scope list_scope.

(** Every value with valid strings survives writing and reading. *)
@thm C33_round_trip json_round_trip

(** Writing fails only for integers over Python's digit limit. *)
@thm C33_writing_total json_dumps_total

(** The values accepted are exactly the readings of the document that have no
    repeated names at any depth and no invalid strings in the places checked. *)
@thm C34_accepts_exactly json_loads_iff

(** What is raised: JwtInvalidError, or ValueError for an integer literal over the
    digit limit. *)
@thm C34_errors json_loads_total

(** A text has at most one reading, and a document with a repeated name (or a bad
    string) raises JwtInvalidError. *)
@thm C34_one_reading json_text_fun
@thm C34_duplicates_rejected json_loads_rejects

(** Member names, string members and strings in list members of accepted values
    are valid Unicode. *)
Theorem C54_member_strings : forall rt s v x,
  json_loads rt s = Ok v -> member_string x v -> valid_unicode x.
Proof. intros rt s v x H. apply json_loads_iff in H. intros Hx. apply H. exact Hx. Qed.
Print Assumptions C54_member_strings.

(** Finding: strings in nested lists are not checked. *)
Theorem C54_every_string_refuted :
  exists s v x, json_loads toy_rt s = Ok v /\ any_string x v /\ ~ valid_unicode x.
Proof.
  exists (ulit "{""a"":[[""\ud800""]]}"),
    (JDict [(ulit "a", JList [JList [JStr [55296%N]]])]), [55296%N].
  split; [vm_compute; reflexivity |]. split.
  - left. eapply W_dict; [left; reflexivity |]. eapply W_list; [left; reflexivity |].
    eapply W_list; [left; reflexivity |]. constructor.
  - intros H. inversion H as [| ? ? [_ H1] _]; subst. apply H1. lia.
Qed.
Print Assumptions C54_every_string_refuted.

(** ** The hypotheses can be met *)

Definition sample : json :=
  JDict [(ulit "iss", JStr (ulit "me")); (ulit "n", JInt (-12)); (ulit "f", JFloat (FFin 7));
         (ulit "l", JList [JNull; JBool true; JDict [(ulit "x", JStr [233%N; 128512%N; 34%N])]])].
Definition sample_text : pystr :=
  ulit "{""iss"":""me"",""n"":-12,""f"":7.0,""l"":[null,true,{""x"":""\u00e9\ud83d\ude00\""""}]}".
Example sample_dumps : json_dumps toy_rt sample = Ok sample_text.
Proof. vm_compute. reflexivity. Qed.
Example sample_loads : json_loads toy_rt sample_text = Ok sample.
Proof. vm_compute. reflexivity. Qed.
(** The hypotheses of the round trip, for this value. *)
Example sample_hypotheses : float_codec toy_rt /\ python_value sample /\
  (forall x, any_string x sample -> valid_unicode x) /\ ints_convertible toy_rt sample.
Proof.
  pose proof sample_loads as H. apply json_loads_iff in H. destruct H as (_ & Hn & Hm).
  pose proof (json_dumps_total toy_rt sample) as Hd. rewrite sample_dumps in Hd.
  assert (W : forall v w, within v w -> match w with
    | JList l => v = w \/ exists i, In i l /\ within v i
    | JDict l => v = w \/ exists k i, In (k, i) l /\ within v i
    | _ => v = w end).
  { intros v w Hw. destruct w; try (apply within_atom in Hw; [exact Hw | exact I]).
    - apply within_list. exact Hw. - apply within_dict. exact Hw. }
  split; [apply toy_float_codec |]. split; [split; [| exact Hn] |].
  - intros f Hf. unfold sample in Hf.
    repeat (apply W in Hf; cbn in Hf; repeat match goal with
      | H : _ \/ _ |- _ => destruct H as [H | H]
      | H : exists _, _ |- _ => destruct H as (? & H)
      | H : _ /\ _ |- _ => destruct H as (? & H)
      | H : False |- _ => destruct H
      | H : (_, _) = (_, _) |- _ => injection H as ? ?; subst
      | H : JNull = _ |- _ => subst
      | H : JBool _ = ?x |- _ => subst
      | H : JDict _ = ?x |- _ => subst
      end; try discriminate).
    injection Hf as ->. exists 7%Z, 0%Z. lia.
  - split; [| exact Hd]. intros x [Hx | (l & w & Hl & Hx)].
    + unfold sample in Hx.
      repeat (apply W in Hx; cbn in Hx; repeat match goal with
      | H : _ \/ _ |- _ => destruct H as [H | H]
      | H : exists _, _ |- _ => destruct H as (? & H)
      | H : _ /\ _ |- _ => destruct H as (? & H)
      | H : False |- _ => destruct H
      | H : (_, _) = (_, _) |- _ => injection H as ? ?; subst
      | H : JNull = _ |- _ => subst
      | H : JBool _ = ?x |- _ => subst
      | H : JDict _ = ?x |- _ => subst
      end; try discriminate);
      injection Hx as ->; repeat constructor; try lia.
    + apply Hm. exists l. split; [exact Hl |]. exists x, w. auto.
Qed.
Example duplicate_rejected :
  json_loads toy_rt (ulit "[{""a"":{""b"":1, ""b"":2}}]") = Err (JwtInvalidError "duplicated key").
Proof. vm_compute. reflexivity. Qed.
Example long_int_raises :
  json_loads toy_rt (49%N :: repeat 48%N (N.to_nat 4300)) = Err (ValueError "integer string conversion").
Proof. vm_compute. reflexivity. Qed.
