(** Strict UTF-8: decoding inverts encoding and conversely. *)
From Coq Require Import Strings.Byte List NArith ZArith Bool Lia ZifyBool ZifyN.
From Verif Require Import M_Base M_Utf8 L_Base.
Import ListNotations.
Open Scope N_scope.
Ltac Zify.zify_post_hook ::= Z.div_mod_to_equations.

Lemma to_N_of_small : forall n, n < 256 -> Byte.to_N (byte_of_N n) = n.
Proof. intros n H. rewrite byte_of_N_to_N. apply N.mod_small. assumption. Qed.

Lemma cont_of : forall d, d < 64 -> cont (byte_of_N (128 + d)) = Some d.
Proof.
  intros d H. unfold cont. rewrite to_N_of_small by lia.
  replace ((128 <=? 128 + d) && (128 + d <? 192)) with true by lia. f_equal. lia.
Qed.

Lemma cont_inv : forall b d, cont b = Some d -> d < 64 /\ b = byte_of_N (128 + d).
Proof.
  intros b d H. unfold cont in H.
  destruct ((128 <=? Byte.to_N b) && (Byte.to_N b <? 192)) eqn:E; [| discriminate].
  inversion H; subst. split; [lia |].
  replace (128 + (Byte.to_N b - 128)) with (Byte.to_N b) by lia.
  symmetry. apply byte_of_N_of_to_N.
Qed.

Lemma is_scalar_spec : forall c, is_scalar c = true <-> c < 55296 \/ (57344 <= c /\ c < 1114112).
Proof. intros c. unfold is_scalar. lia. Qed.

Lemma decode_char : forall c e rest, utf8_encode_char c = Some e ->
  utf8_decode (e ++ rest) = ocons c (utf8_decode rest).
Proof.
  intros c e rest H. unfold utf8_encode_char in H.
  destruct (is_scalar c) eqn:Hs; [| discriminate]. cbn [negb] in H.
  pose proof (proj1 (is_scalar_spec c) Hs) as Hc.
  destruct (c <? 128) eqn:H1.
  { apply some_inj in H; subst e. cbn [app utf8_decode]. rewrite to_N_of_small by lia. rewrite H1. reflexivity. }
  destruct (c <? 2048) eqn:H2.
  { apply some_inj in H; subst e. cbn [app utf8_decode]. rewrite to_N_of_small by lia.
    replace (192 + c / 64 <? 128) with false by lia.
    replace (192 + c / 64 <? 194) with false by lia.
    replace (192 + c / 64 <? 224) with true by lia.
    rewrite cont_of by lia. f_equal. lia. }
  destruct (c <? 65536) eqn:H3.
  { apply some_inj in H; subst e. cbn [app utf8_decode]. rewrite to_N_of_small by lia.
    replace (224 + c / 4096 <? 128) with false by lia.
    replace (224 + c / 4096 <? 194) with false by lia.
    replace (224 + c / 4096 <? 224) with false by lia.
    replace (224 + c / 4096 <? 240) with true by lia.
    rewrite !cont_of by lia.
    replace ((224 + c / 4096 - 224) * 4096 + (c / 64) mod 64 * 64 + c mod 64) with c by lia.
    rewrite Hs. replace (c <? 2048) with false by lia. reflexivity. }
  apply some_inj in H; subst e. cbn [app utf8_decode]. rewrite to_N_of_small by lia.
  replace (240 + c / 262144 <? 128) with false by lia.
  replace (240 + c / 262144 <? 194) with false by lia.
  replace (240 + c / 262144 <? 224) with false by lia.
  replace (240 + c / 262144 <? 240) with false by lia.
  replace (240 + c / 262144 <? 245) with true by lia.
  rewrite !cont_of by lia.
  replace ((240 + c / 262144 - 240) * 262144 + (c / 4096) mod 64 * 4096
           + (c / 64) mod 64 * 64 + c mod 64) with c by lia.
  rewrite Hs. replace (c <? 65536) with false by lia. reflexivity.
Qed.

Theorem utf8_decode_encode : forall x e, utf8_encode x = Some e -> utf8_decode e = Some x.
Proof.
  induction x as [| c x IH]; intros e H.
  - inversion H. reflexivity.
  - cbn [utf8_encode] in H. destruct (utf8_encode_char c) as [ec |] eqn:Ec; [| discriminate].
    destruct (utf8_encode x) as [ex |] eqn:Ex; [| discriminate]. inversion H; subst e.
    rewrite (decode_char _ _ _ Ec), (IH _ eq_refl). reflexivity.
Qed.

Lemma utf8_encode_some : forall x, (exists e, utf8_encode x = Some e) <->
  Forall (fun c => is_scalar c = true) x.
Proof.
  induction x as [| c x IH].
  - split; [constructor | eexists; reflexivity].
  - cbn [utf8_encode]. split.
    + intros [e H]. destruct (utf8_encode_char c) as [ec |] eqn:Ec; [| discriminate].
      destruct (utf8_encode x) as [ex |] eqn:Ex; [| discriminate]. constructor.
      * unfold utf8_encode_char in Ec. destruct (is_scalar c); [reflexivity | discriminate].
      * apply IH. eauto.
    + intros H. inversion H; subst. apply IH in H3. destruct H3 as [ex ->].
      unfold utf8_encode_char. rewrite H2. cbn [negb].
      destruct (c <? 128); [eauto |]. destruct (c <? 2048); [eauto |].
      destruct (c <? 65536); eauto.
Qed.

Lemma byte_split : forall b n, Byte.to_N b = n -> b = byte_of_N n.
Proof. intros b n <-. symmetry. apply byte_of_N_of_to_N. Qed.

Lemma ocons_inv : forall (A : Type) (a : A) o l, ocons a o = Some l ->
  exists l', o = Some l' /\ l = a :: l'.
Proof. intros A a [l' |] l H; [| discriminate]. inversion H. eauto. Qed.

Lemma encode_char_of : forall n d1 d2 d3,
  (n < 128 -> utf8_encode_char n = Some [byte_of_N n]) /\
  (194 <= n -> n < 224 -> d1 < 64 ->
   utf8_encode_char ((n - 192) * 64 + d1) = Some [byte_of_N n; byte_of_N (128 + d1)]) /\
  (let v := (n - 224) * 4096 + d1 * 64 + d2 in
   224 <= n -> n < 240 -> d1 < 64 -> d2 < 64 -> 2048 <= v -> is_scalar v = true ->
   utf8_encode_char v = Some [byte_of_N n; byte_of_N (128 + d1); byte_of_N (128 + d2)]) /\
  (let v := (n - 240) * 262144 + d1 * 4096 + d2 * 64 + d3 in
   240 <= n -> d1 < 64 -> d2 < 64 -> d3 < 64 -> 65536 <= v -> is_scalar v = true ->
   utf8_encode_char v =
   Some [byte_of_N n; byte_of_N (128 + d1); byte_of_N (128 + d2); byte_of_N (128 + d3)]).
Proof.
  intros n d1 d2 d3. split; [| split; [| split]].
  - intros H. unfold utf8_encode_char. replace (is_scalar n) with true by (unfold is_scalar; lia).
    cbn [negb]. replace (n <? 128) with true by lia. reflexivity.
  - intros Ha Hb Hd. unfold utf8_encode_char.
    replace (is_scalar ((n - 192) * 64 + d1)) with true by (unfold is_scalar; lia). cbn [negb].
    replace ((n - 192) * 64 + d1 <? 128) with false by lia.
    replace ((n - 192) * 64 + d1 <? 2048) with true by lia.
    replace (192 + ((n - 192) * 64 + d1) / 64) with n by lia.
    replace (((n - 192) * 64 + d1) mod 64) with d1 by lia. reflexivity.
  - intros v Ha Hb H1 H2 Hv Hs. unfold utf8_encode_char. rewrite Hs. cbn [negb].
    replace (v <? 128) with false by lia.
    replace (v <? 2048) with false by lia.
    replace (v <? 65536) with true by (unfold v; lia).
    replace (224 + v / 4096) with n by (unfold v; lia).
    replace ((v / 64) mod 64) with d1 by (unfold v; lia).
    replace (v mod 64) with d2 by (unfold v; lia). reflexivity.
  - intros v Ha H1 H2 H3 Hv Hs. unfold utf8_encode_char. rewrite Hs. cbn [negb].
    replace (v <? 128) with false by lia.
    replace (v <? 2048) with false by lia.
    replace (v <? 65536) with false by lia.
    replace (240 + v / 262144) with n by (unfold v; lia).
    replace ((v / 4096) mod 64) with d1 by (unfold v; lia).
    replace ((v / 64) mod 64) with d2 by (unfold v; lia).
    replace (v mod 64) with d3 by (unfold v; lia). reflexivity.
Qed.

Theorem utf8_encode_decode : forall e x, utf8_decode e = Some x -> utf8_encode x = Some e.
Proof.
  intros e. remember (length e) as m eqn:Hm.
  assert (Hle : (length e <= m)%nat) by lia. clear Hm. revert e Hle.
  induction m as [| m IH]; intros e Hle x H.
  { destruct e; [| simpl in Hle; lia]. inversion H. reflexivity. }
  destruct e as [| c0 r0]; [inversion H; reflexivity |].
  cbn [utf8_decode] in H. cbn [length] in Hle.
  set (n := Byte.to_N c0) in *.
  assert (Hc0 : c0 = byte_of_N n) by (apply byte_split; reflexivity).
  destruct (n <? 128) eqn:H1.
  { apply ocons_inv in H. destruct H as (l & Hl & ->).
    cbn [utf8_encode]. rewrite (proj1 (encode_char_of n 0 0 0)) by lia.
    apply IH in Hl; [| lia]. rewrite Hl. rewrite <- Hc0. reflexivity. }
  destruct (n <? 194) eqn:H2; [discriminate |].
  destruct (n <? 224) eqn:H3.
  { destruct r0 as [| c1 r1]; [discriminate |].
    destruct (cont c1) as [d1 |] eqn:E1; [| discriminate].
    apply cont_inv in E1. destruct E1 as [Hd1 ->].
    apply ocons_inv in H. destruct H as (l & Hl & ->). cbn [length] in Hle.
    cbn [utf8_encode]. rewrite (proj1 (proj2 (encode_char_of n d1 0 0))) by lia.
    apply IH in Hl; [| lia]. rewrite Hl. rewrite <- Hc0. reflexivity. }
  destruct (n <? 240) eqn:H4.
  { destruct r0 as [| c1 [| c2 r2]]; try discriminate.
    destruct (cont c1) as [d1 |] eqn:E1; [| discriminate].
    destruct (cont c2) as [d2 |] eqn:E2; [| discriminate].
    apply cont_inv in E1, E2. destruct E1 as [Hd1 ->], E2 as [Hd2 ->].
    match type of H with (if ?b then _ else _) = _ => destruct b eqn:Eb end; [discriminate |].
    apply orb_false_iff in Eb. destruct Eb as [Eb1 Eb2]. apply negb_false_iff in Eb2.
    apply ocons_inv in H. destruct H as (l & Hl & ->). cbn [length] in Hle.
    cbn [utf8_encode]. rewrite (proj1 (proj2 (proj2 (encode_char_of n d1 d2 0)))) by (auto; lia).
    apply IH in Hl; [| lia]. rewrite Hl. rewrite <- Hc0. reflexivity. }
  destruct (n <? 245) eqn:H5; [| discriminate].
  destruct r0 as [| c1 [| c2 [| c3 r3]]]; try discriminate.
  destruct (cont c1) as [d1 |] eqn:E1; [| discriminate].
  destruct (cont c2) as [d2 |] eqn:E2; [| discriminate].
  destruct (cont c3) as [d3 |] eqn:E3; [| discriminate].
  apply cont_inv in E1, E2, E3. destruct E1 as [Hd1 ->], E2 as [Hd2 ->], E3 as [Hd3 ->].
  match type of H with (if ?b then _ else _) = _ => destruct b eqn:Eb end; [discriminate |].
  apply orb_false_iff in Eb. destruct Eb as [Eb1 Eb2]. apply negb_false_iff in Eb2.
  apply ocons_inv in H. destruct H as (l & Hl & ->). cbn [length] in Hle.
  cbn [utf8_encode]. rewrite (proj2 (proj2 (proj2 (encode_char_of n d1 d2 d3)))) by (auto; lia).
  apply IH in Hl; [| lia]. rewrite Hl. rewrite <- Hc0. reflexivity.
Qed.
