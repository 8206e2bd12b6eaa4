(** Compact format, key ids and headers. *)
From Coq Require Import Strings.Byte Strings.String List NArith ZArith Bool Lia.
From Verif Require Import M_Base M_Utf8 M_Proto M_Base64 M_JwtTypes M_Json M_RawJwt M_JwtValidator
  M_JwtFormat L_Base L_Utf8 L_PrimitiveSet S_Base64 L_Base64 S_Json L_Json L_Json2 L_Json3 L_Json4 S_Keyset S_Jwt.
Import ListNotations.
Open Scope list_scope.
Open Scope N_scope.

(** ** ASCII texts *)

Definition ascii_bytes (x : bytes) : Prop := Forall (fun c => Byte.to_N c < 128) x.

Lemma encode_ascii_char : forall c, Byte.to_N c < 128 -> utf8_encode_char (Byte.to_N c) = Some [c].
Proof.
  intros c H. unfold utf8_encode_char, is_scalar.
  replace (Byte.to_N c <? 55296) with true by lia. cbn [orb negb].
  replace (Byte.to_N c <? 128) with true by lia. rewrite byte_of_N_of_to_N. reflexivity.
Qed.

Lemma utf8_encode_ascii : forall x, ascii_bytes x -> utf8_encode (map Byte.to_N x) = Some x.
Proof.
  induction 1 as [| c x Hc H IH]; [reflexivity |].
  cbn [map utf8_encode]. rewrite encode_ascii_char by exact Hc. rewrite IH. reflexivity.
Qed.

Lemma utf8_ascii_text : forall s x, utf8_encode s = Some x -> ascii_bytes x -> s = map Byte.to_N x.
Proof.
  intros s x H Ha. apply utf8_decode_encode in H. pose proof (utf8_encode_ascii x Ha) as E.
  apply utf8_decode_encode in E. congruence.
Qed.

Lemma url_alphabet_ascii : forall c, In c url_alphabet -> Byte.to_N c < 128 /\ c <> x2e.
Proof.
  assert (H : forallb (fun c => (Byte.to_N c <? 128) && negb (Byte.eqb c x2e)) url_alphabet = true)
    by (vm_compute; reflexivity).
  rewrite forallb_forall in H. intros c Hc. apply H in Hc. apply andb_prop in Hc. destruct Hc as [H1 H2].
  split; [apply N.ltb_lt; exact H1 |]. intros ->. discriminate.
Qed.

Lemma segment_chars : forall x s, segment x s -> Forall (fun c => Byte.to_N c < 128 /\ c <> x2e) s.
Proof.
  intros x s (d & f & Hd & -> & _). apply Forall_map. eapply Forall_impl; [| exact Hd].
  intros n Hn. cbn in Hn. apply url_alphabet_ascii. apply nth_In.
  replace (length url_alphabet) with (N.to_nat 64) by reflexivity. lia.
Qed.
Lemma segment_ascii : forall x s, segment x s -> ascii_bytes s.
Proof. intros x s H. eapply Forall_impl; [| eapply segment_chars; exact H]. intros c Hc. apply Hc. Qed.
Lemma segment_nodot : forall x s, segment x s -> ~ In x2e s.
Proof.
  intros x s H Hi. apply segment_chars in H. rewrite Forall_forall in H. apply H in Hi. destruct Hi. auto.
Qed.
Lemma segment_encode : forall x, segment x (base64_encode x).
Proof.
  intros x. destruct (base64_encode_text x) as (l & f & H1 & H2 & H3 & H4 & _). exists l, f. auto.
Qed.

(** ** Splitting at dots *)

Lemma rsplit_nodot : forall y, ~ In x2e y -> rsplit_dot y = None.
Proof.
  induction y as [| c y IH]; intros H; [reflexivity |]. cbn [rsplit_dot].
  rewrite IH by (intros Hi; apply H; right; exact Hi).
  destruct (Byte.eqb c dot) eqn:E; [| reflexivity]. exfalso. apply H. left.
  apply byte_eqb_spec in E. exact E.
Qed.
Lemma rsplit_app : forall x y, ~ In x2e y -> rsplit_dot (x ++ x2e :: y) = Some (x, y).
Proof.
  induction x as [| c x IH]; intros y H; cbn [app rsplit_dot].
  - rewrite rsplit_nodot by exact H. reflexivity.
  - rewrite IH by exact H. reflexivity.
Qed.
Lemma rsplit_some : forall b x y, rsplit_dot b = Some (x, y) -> b = x ++ x2e :: y /\ ~ In x2e y.
Proof.
  induction b as [| c b IH]; intros x y H; [discriminate |]. cbn [rsplit_dot] in H.
  destruct (rsplit_dot b) as [[x' y'] |] eqn:E.
  - apply some_inj in H. pose proof (f_equal fst H) as E1. pose proof (f_equal snd H) as E2. cbn in E1, E2.
    subst x y. destruct (IH x' y' eq_refl) as [-> Hn]. split; [reflexivity | exact Hn].
  - destruct (Byte.eqb c dot) eqn:Ed; [| discriminate]. apply byte_eqb_spec in Ed. subst c.
    apply some_inj in H. pose proof (f_equal fst H) as E1. pose proof (f_equal snd H) as E2. cbn in E1, E2.
    subst x y. split; [reflexivity |]. intros Hi. apply in_split in Hi. destruct Hi as (u & w & ->).
    clear IH H. induction u as [| c u IH]; cbn in E.
    + destruct (rsplit_dot w) as [[]|]; discriminate.
    + destruct (rsplit_dot (u ++ x2e :: w)) as [[]|]; [discriminate | apply IH; reflexivity].
Qed.

Lemma split_dot_nonempty : forall b, split_dot b <> [].
Proof.
  induction b as [| c b IH]; [discriminate |]. cbn. destruct (split_dot b); [contradiction |].
  destruct (Byte.eqb c dot); discriminate.
Qed.
Lemma split_dot_nodot : forall b, ~ In x2e b -> split_dot b = [b].
Proof.
  induction b as [| c b IH]; intros H; [reflexivity |]. cbn [split_dot].
  rewrite IH by (intros Hi; apply H; right; exact Hi).
  destruct (Byte.eqb c dot) eqn:E; [| reflexivity]. apply byte_eqb_spec in E. exfalso. apply H. left. exact E.
Qed.
Lemma split_dot_app : forall x y, ~ In x2e x -> split_dot (x ++ x2e :: y) = x :: split_dot y.
Proof.
  induction x as [| c x IH]; intros y H; cbn [app split_dot].
  - destruct (split_dot y) eqn:E; [exfalso; exact (split_dot_nonempty y E) | reflexivity].
  - rewrite IH by (intros Hi; apply H; right; exact Hi).
    destruct (Byte.eqb c dot) eqn:E; [| reflexivity]. apply byte_eqb_spec in E. exfalso. apply H. left. exact E.
Qed.
Lemma split_dot_two : forall b x y, split_dot b = [x; y] -> b = x ++ x2e :: y /\ ~ In x2e x /\ ~ In x2e y.
Proof.
  intros b x y H. destruct (in_dec Byte.byte_eq_dec x2e b) as [Hi | Hi].
  - destruct (rsplit_dot b) as [[u w]|] eqn:E.
    + apply rsplit_some in E. destruct E as [-> Hw].
      destruct (in_dec Byte.byte_eq_dec x2e u) as [Hu | Hu].
      * exfalso. destruct (rsplit_dot u) as [[u1 u2]|] eqn:Eu.
        -- assert (L : (3 <= length (split_dot (u ++ x2e :: w)))%nat).
           { clear - Hu. apply in_split in Hu. destruct Hu as (a & c & ->).
             assert (G : forall a r, (1 + length (split_dot r) <= length (split_dot (a ++ x2e :: r)))%nat).
             { clear. induction a as [| c a IH]; intros r; cbn [app split_dot].
               - destruct (split_dot r) eqn:E; [exfalso; exact (split_dot_nonempty r E) |]. cbn. lia.
               - specialize (IH r). destruct (split_dot (a ++ x2e :: r)) eqn:E.
                 + exfalso; exact (split_dot_nonempty _ E).
                 + destruct (Byte.eqb c dot); cbn in *; lia. }
             rewrite <- app_assoc. cbn [app]. pose proof (G a (c ++ x2e :: w)). pose proof (G c w).
             pose proof (split_dot_nonempty w). destruct (split_dot w); [contradiction |]. cbn in *. lia. }
           rewrite H in L. cbn in L. lia.
        -- apply in_split in Hu. destruct Hu as (a & c & ->). clear - Eu.
           induction a as [| d a IH]; cbn in Eu.
           ++ destruct (rsplit_dot c) as [[]|]; discriminate.
           ++ destruct (rsplit_dot (a ++ x2e :: c)) as [[]|]; [discriminate | auto].
      * rewrite split_dot_app in H by exact Hu. rewrite split_dot_nodot in H by exact Hw.
        pose proof (f_equal (fun l => nth 0 l []) H) as E1. pose proof (f_equal (fun l => nth 1 l []) H) as E2.
        cbn in E1, E2. subst. auto.
    + exfalso. apply in_split in Hi. destruct Hi as (a & c & ->). clear - E.
      induction a as [| d a IH]; cbn in E.
      * destruct (rsplit_dot c) as [[]|]; discriminate.
      * destruct (rsplit_dot (a ++ x2e :: c)) as [[]|]; [discriminate | auto].
  - rewrite split_dot_nodot in H by exact Hi. discriminate.
Qed.

Lemma decode_text_ok : forall b t, decode_text b = Ok t <->
  exists x, segment x b /\ utf8_encode t = Some x.
Proof.
  intros b t. unfold decode_text. split.
  - intros H. apply bind_ok in H. destruct H as (x & Hx & H). exists x. split; [apply base64_decode_iff; exact Hx |].
    destruct (utf8_decode x) as [t' |] eqn:E; [| discriminate]. apply ok_inj in H. subst t'.
    apply utf8_encode_decode. exact E.
  - intros (x & Hx & Ht). apply base64_decode_iff in Hx. rewrite Hx. cbn [bind].
    rewrite (utf8_decode_encode _ _ Ht). reflexivity.
Qed.
Lemma decode_text_err : forall b e, decode_text b = Err e -> is_jwt_invalid_error e = true.
Proof.
  intros b e H. unfold decode_text in H. apply bind_err in H. destruct H as [H | (x & _ & H)].
  - pose proof (base64_decode_total b) as K. rewrite H in K. apply K.
  - destruct (utf8_decode x); inversion H. reflexivity.
Qed.

Theorem split_iff : forall token signed h p tag,
  split_signed_compact token = Ok (signed, h, p, tag) <-> compact_parts token signed h p tag.
Proof.
  intros token signed h p tag. unfold split_signed_compact. split.
  - intros H. destruct (utf8_encode token) as [b |] eqn:Eb; [| discriminate].
    destruct (rsplit_dot b) as [[u es] |] eqn:Er; [| discriminate].
    apply rsplit_some in Er. destruct Er as [-> Hes].
    apply bind_ok in H. destruct H as (sg & Hsg & H). apply base64_decode_iff in Hsg.
    destruct (split_dot u) as [| eh [| ep [|]]] eqn:Es; try discriminate.
    apply split_dot_two in Es. destruct Es as (-> & Hh & Hp).
    apply bind_ok in H. destruct H as (h' & Eh & H). apply bind_ok in H. destruct H as (p' & Ep & H).
    apply ok_inj in H.
    assert (E1 : eh ++ x2e :: ep = signed) by exact (f_equal (fun q => fst (fst (fst q))) H).
    assert (E2 : h' = h) by exact (f_equal (fun q => snd (fst (fst q))) H).
    assert (E3 : p' = p) by exact (f_equal (fun q => snd (fst q)) H).
    assert (E4 : sg = tag) by exact (f_equal snd H). subst h' p' sg signed.
    apply decode_text_ok in Eh. destruct Eh as (xh & Sh & Uh).
    apply decode_text_ok in Ep. destruct Ep as (xp & Sp & Up).
    exists eh, ep, es, xh, xp. cbn [app]. split; [| auto 8].
    rewrite <- app_assoc in Eb. cbn [app] in Eb. apply utf8_ascii_text with (1 := Eb).
    apply Forall_app. split; [eapply segment_ascii; exact Sh |]. constructor; [cbn; lia |].
    apply Forall_app. split; [eapply segment_ascii; exact Sp |]. constructor; [cbn; lia |].
    eapply segment_ascii; exact Hsg.
  - intros (eh & ep & es & xh & xp & -> & -> & Sh & Sp & St & Uh & Up). cbn [app].
    rewrite utf8_encode_ascii.
    2: { apply Forall_app. split; [eapply segment_ascii; exact Sh |]. constructor; [cbn; lia |].
         apply Forall_app. split; [eapply segment_ascii; exact Sp |]. constructor; [cbn; lia |].
         eapply segment_ascii; exact St. }
    replace (eh ++ x2e :: ep ++ x2e :: es) with ((eh ++ x2e :: ep) ++ x2e :: es)
      by (rewrite <- app_assoc; reflexivity).
    rewrite rsplit_app by (eapply segment_nodot; exact St).
    apply base64_decode_iff in St. rewrite St. cbn [bind].
    rewrite split_dot_app by (eapply segment_nodot; exact Sh).
    rewrite split_dot_nodot by (eapply segment_nodot; exact Sp).
    rewrite (proj2 (decode_text_ok eh h)) by eauto. cbn [bind].
    rewrite (proj2 (decode_text_ok ep p)) by eauto. reflexivity.
Qed.

Theorem split_total : forall token, match split_signed_compact token with
  | Ok (signed, h, p, tag) => compact_parts token signed h p tag
  | Err e => is_jwt_invalid_error e = true /\ forall signed h p tag, ~ compact_parts token signed h p tag
  end.
Proof.
  intros token. destruct (split_signed_compact token) as [[[[u h] p] t] | e] eqn:E.
  - apply split_iff. exact E.
  - split; [| intros u h p t H; apply split_iff in H; congruence].
    unfold split_signed_compact in E. destruct (utf8_encode token); [| inversion E; reflexivity].
    destruct (rsplit_dot b) as [[u es]|]; [| inversion E; reflexivity].
    apply bind_err in E. destruct E as [E | (sg & _ & E)].
    { pose proof (base64_decode_total es) as K. rewrite E in K. apply K. }
    destruct (split_dot u) as [| eh [| ep [|]]]; try (inversion E; reflexivity).
    apply bind_err in E. destruct E as [E | (h & _ & E)]; [eapply decode_text_err; exact E |].
    apply bind_err in E. destruct E as [E | (p & _ & E)]; [eapply decode_text_err; exact E | discriminate].
Qed.

(** The parts are determined by the token. *)
Theorem compact_parts_fun : forall token s1 h1 p1 t1 s2 h2 p2 t2,
  compact_parts token s1 h1 p1 t1 -> compact_parts token s2 h2 p2 t2 ->
  s1 = s2 /\ h1 = h2 /\ p1 = p2 /\ t1 = t2.
Proof.
  intros token s1 h1 p1 t1 s2 h2 p2 t2 H1 H2. apply split_iff in H1, H2. rewrite H1 in H2.
  apply ok_inj in H2. repeat split; congruence.
Qed.

(** ** Key ids *)

Theorem get_kid_ok : forall k kid,
  get_kid (Z.of_N (k_key_id k)) (k_output_prefix_type k) = Ok kid <-> kid_of k kid.
Proof.
  intros k kid. unfold get_kid, kid_of. destruct (Z.eqb_spec (k_output_prefix_type k) RAW) as [Hr | Hr].
  - split.
    + intros H. apply ok_inj in H. auto.
    + intros [(_ & ->) | (Ht & _)]; [reflexivity |]. rewrite Hr in Ht. discriminate.
  - destruct (Z.eqb_spec (k_output_prefix_type k) TINK) as [Ht | Ht].
    2: { split; [discriminate |]. intros [(H & _) | (H & _)]; contradiction. }
    split.
    + intros H. right. split; [exact Ht |].
      destruct ((Z.of_N (k_key_id k) <? 0)%Z || (4294967296 <? Z.of_N (k_key_id k))%Z); [discriminate |].
      apply bind_ok in H. destruct H as (p & Hp & H). apply ok_inj in H. subst kid.
      rewrite N2Z.id in Hp. apply pack_be32_ok in Hp. destruct Hp as (b3 & b2 & b1 & b0 & -> & E).
      exists b3, b2, b1, b0, (base64_encode [b3; b2; b1; b0]). split; [exact E |].
      split; [apply base64_encode_text | reflexivity].
    + intros [(H & _) | (_ & b3 & b2 & b1 & b0 & s & E & Hs & ->)]; [contradiction |].
      assert (Hlt : k_key_id k < 4294967296).
      { rewrite <- E. pose proof (to_N_lt b3); pose proof (to_N_lt b2); pose proof (to_N_lt b1); pose proof (to_N_lt b0).
        change (2 ^ 24) with 16777216; change (2 ^ 16) with 65536; change (2 ^ 8) with 256. lia. }
      replace ((Z.of_N (k_key_id k) <? 0)%Z || (4294967296 <? Z.of_N (k_key_id k))%Z) with false by lia.
      rewrite N2Z.id. rewrite (proj2 (pack_be32_ok (k_key_id k) [b3; b2; b1; b0])) by eauto 8.
      cbn [bind]. do 2 f_equal. unfold ascii_text. f_equal. symmetry.
      eapply base64_text_fun; [exact Hs | apply base64_encode_text].
Qed.

Theorem kid_of_fun : forall k kid kid', kid_of k kid -> kid_of k kid' -> kid = kid'.
Proof. intros k kid kid' H H'. apply get_kid_ok in H, H'. rewrite H in H'. apply ok_inj in H'. exact H'. Qed.

Lemma map_to_N_inj : forall x y, map Byte.to_N x = map Byte.to_N y -> x = y.
Proof.
  induction x as [| a x IH]; intros [| b y] E; try discriminate; auto. cbn in E.
  injection E as E1 E2. f_equal; [apply to_N_inj; exact E1 | apply IH; exact E2].
Qed.
Lemma base64_text_loosen : forall al x s, base64_text al x s -> base64_text_loose al x s.
Proof. intros al x s (d & f & H1 & H2 & H3 & H4 & _). exists d, f. auto. Qed.
Lemma segment_fun : forall x y s, segment x s -> segment y s -> x = y.
Proof.
  intros x y s H1 H2. apply base64_decode_iff in H1, H2. rewrite H1 in H2. apply ok_inj in H2. exact H2.
Qed.

Theorem kid_of_inj : forall k k' kid, kid_of k (Some kid) -> kid_of k' (Some kid) ->
  k_key_id k = k_key_id k'.
Proof.
  intros k k' kid [(_ & H) | (_ & b3 & b2 & b1 & b0 & s & E & Hs & H)]; [discriminate |].
  intros [(_ & H') | (_ & c3 & c2 & c1 & c0 & s' & E' & Hs' & H')]; [discriminate |].
  apply some_inj in H, H'. rewrite H in H'. apply map_to_N_inj in H'. subst s'.
  pose proof (segment_fun _ _ _ (base64_text_loosen _ _ _ Hs) (base64_text_loosen _ _ _ Hs')) as E2.
  injection E2 as -> -> -> ->. congruence.
Qed.

Theorem get_kid_err : forall k e,
  get_kid (Z.of_N (k_key_id k)) (k_output_prefix_type k) = Err e ->
  k_output_prefix_type k <> RAW /\
  (is_jwt_invalid_error e = true \/ (e = StructError /\ (2 ^ 32 <= k_key_id k))).
Proof.
  intros k e H. unfold get_kid in H. destruct (Z.eqb_spec (k_output_prefix_type k) RAW) as [Hr | Hr]; [discriminate |].
  split; [exact Hr |]. destruct (k_output_prefix_type k =? TINK)%Z; [| inversion H; auto].
  destruct (_ || _); [inversion H; auto |]. rewrite N2Z.id in H. apply bind_err in H.
  destruct H as [H | (p & _ & H)]; [| discriminate]. right.
  unfold pack_be32 in H. destruct (N.ltb_spec (k_key_id k) 4294967296); [discriminate |]. inversion H. auto.
Qed.
