(** Proofs: the test doubles. *)
From Coq Require Import Strings.Byte Strings.String List NArith ZArith Bool Lia.
From Verif Require Import M_Base M_Utf8 M_Proto M_Prims M_TestFakes S_Keyset S_TestFakes L_Base L_Utf8.
Import ListNotations.
Open Scope string_scope.
Open Scope list_scope.
Open Scope nat_scope.

Lemma encode_name_ok : forall name n, encode_name name = Ok n <-> named name n.
Proof. intros. unfold encode_name, named. destruct (utf8_encode name); split; congruence. Qed.
Lemma encode_name_named : forall name n, named name n -> encode_name name = Ok n.
Proof. intros. apply encode_name_ok. assumption. Qed.
Lemma raise_with_refuses : forall A w x, refuses x (raise_with (A := A) w x).
Proof. intros. unfold refuses, raise_with. destruct (utf8_decode x); [eexists; split; reflexivity | reflexivity]. Qed.

(** ** Tags *)
Theorem fake_mac_spec : forall name n data tag, named name n ->
  mac_compute (FakeMac name) data = Ok (data ++ blit "|" ++ n) /\
  (tag = data ++ blit "|" ++ n -> mac_verify (FakeMac name) tag data = Ok tt) /\
  (tag <> data ++ blit "|" ++ n -> refuses tag (mac_verify (FakeMac name) tag data)).
Proof.
  intros name n data tag Hn. unfold FakeMac. cbn [mac_compute mac_verify]. rewrite (encode_name_named _ _ Hn). cbn [bind].
  change (blit "|") with [bar]. split; [reflexivity |].
  destruct (bytes_eqb tag (data ++ [bar] ++ n)) eqn:E; cbn [negb].
  - apply bytes_eqb_spec in E. split; [reflexivity | congruence].
  - split; [| intros; apply raise_with_refuses]. intros H. apply bytes_eqb_spec in H. congruence.
Qed.
Theorem fake_signature_spec : forall name n rnd data sig, named name n ->
  sign (FakePublicKeySign name) rnd data = Ok (data ++ blit "|" ++ n) /\
  (sig = data ++ blit "|" ++ n -> verify (FakePublicKeyVerify name) sig data = Ok tt) /\
  (sig <> data ++ blit "|" ++ n -> refuses sig (verify (FakePublicKeyVerify name) sig data)).
Proof.
  intros name n rnd data tag Hn. unfold FakePublicKeySign, FakePublicKeyVerify. cbn [sign verify].
  rewrite (encode_name_named _ _ Hn). cbn [bind].
  change (blit "|") with [bar]. split; [reflexivity |].
  destruct (bytes_eqb tag (data ++ [bar] ++ n)) eqn:E; cbn [negb].
  - apply bytes_eqb_spec in E. split; [reflexivity | congruence].
  - split; [| intros; apply raise_with_refuses]. intros H. apply bytes_eqb_spec in H. congruence.
Qed.

(** ** Encryption *)
Lemma split_bar_some : forall x, exists p ps, split_bar x = p :: ps.
Proof.
  destruct x as [| c x]; [do 2 eexists; reflexivity |]. cbn [split_bar].
  destruct (split_bar x); [do 2 eexists; reflexivity |]. destruct (Byte.eqb c bar); do 2 eexists; reflexivity.
Qed.
Lemma eqb_bar : forall c, Byte.eqb c bar = true <-> c = "|"%byte.
Proof. intros c. change "|"%byte with bar. split; [apply byte_dec_bl | intros ->; reflexivity]. Qed.
Lemma split_first : forall a x, no_bar a -> split_bar (a ++ bar :: x) = a :: split_bar x.
Proof.
  induction a as [| c a IH]; intros x Ha; cbn [app split_bar].
  - destruct (split_bar_some x) as (p & ps & ->). reflexivity.
  - rewrite IH by (intros H; apply Ha; right; exact H).
    destruct (Byte.eqb c bar) eqn:E; [| reflexivity]. apply eqb_bar in E. exfalso. apply Ha. left. exact E.
Qed.
Lemma split_none : forall a, no_bar a -> split_bar a = [a].
Proof.
  induction a as [| c a IH]; intros Ha; cbn [split_bar]; [reflexivity |].
  rewrite IH by (intros H; apply Ha; right; exact H).
  destruct (Byte.eqb c bar) eqn:E; [| reflexivity]. apply eqb_bar in E. exfalso. apply Ha. left. exact E.
Qed.
Lemma split_bar_inv : forall x p ps, split_bar x = p :: ps ->
  no_bar p /\ match ps with [] => x = p | _ => exists y, x = p ++ bar :: y /\ split_bar y = ps end.
Proof.
  induction x as [| c x IH]; intros p ps H; cbn [split_bar] in H.
  - injection H as <- <-. split; [intros [] | reflexivity].
  - destruct (split_bar_some x) as (q & qs & E). rewrite E in H. destruct (IH q qs E) as [Hq Hr].
    destruct (Byte.eqb c bar) eqn:Ec.
    + injection H as <- <-. split; [intros [] |]. exists x. split; [| exact E]. apply eqb_bar in Ec. subst c. reflexivity.
    + injection H as <- <-. split.
      * intros [H | H]; [| exact (Hq H)]. apply eqb_bar in H. congruence.
      * destruct qs; [subst x; reflexivity |]. destruct Hr as (y & -> & Hy). exists y. split; [reflexivity | exact Hy].
Qed.

Theorem fake_decrypt_spec : forall name n ct ad, named name n ->
  (forall pt, aead_decrypt (FakeAead name) ct ad = Ok pt <->
     no_bar pt /\ no_bar ad /\ no_bar n /\
     (ct = pt ++ blit "|" ++ ad ++ blit "|" ++ n \/
      exists more, ct = pt ++ blit "|" ++ ad ++ blit "|" ++ n ++ blit "|" ++ more)) /\
  ((forall pt, aead_decrypt (FakeAead name) ct ad <> Ok pt) -> refuses ct (aead_decrypt (FakeAead name) ct ad)).
Proof.
  intros name n ct ad Hn. cbn [FakeAead aead_decrypt]. change (blit "|") with [bar]. split.
  - intros pt. split.
    + intros H. unfold fake_decrypt in H. destruct (split_bar ct) as [| d0 [| d1 [| d2 ds]]] eqn:E;
        try (pose proof (raise_with_refuses bytes "failed to decrypt ciphertext " ct) as R; unfold refuses in R;
             rewrite H in R; destruct (utf8_decode ct); [destruct R as (e & X & _) |]; discriminate).
      destruct (bytes_eqb d1 ad) eqn:E1; cbn [negb] in H;
        [| pose proof (raise_with_refuses bytes "failed to decrypt ciphertext " ct) as R; unfold refuses in R;
             rewrite H in R; destruct (utf8_decode ct); [destruct R as (e & X & _) |]; discriminate].
      rewrite (encode_name_named _ _ Hn) in H. cbn [bind] in H.
      destruct (bytes_eqb d2 n) eqn:E2; cbn [negb] in H;
        [| pose proof (raise_with_refuses bytes "failed to decrypt ciphertext " ct) as R; unfold refuses in R;
             rewrite H in R; destruct (utf8_decode ct); [destruct R as (e & X & _) |]; discriminate].
      apply ok_inj in H. subst d0. apply bytes_eqb_spec in E1. apply bytes_eqb_spec in E2. subst d1 d2.
      apply split_bar_inv in E. destruct E as (B0 & y & -> & E). apply split_bar_inv in E. destruct E as (B1 & z & -> & E).
      apply split_bar_inv in E. destruct E as (B2 & E). split; [exact B0 |]. split; [exact B1 |]. split; [exact B2 |].
      destruct ds as [| d ds].
      * left. subst z. cbn [app]. reflexivity.
      * destruct E as (more & -> & _). right. exists more. cbn [app]. reflexivity.
    + intros (B0 & B1 & B2 & H). unfold fake_decrypt.
      assert (S : exists ds, split_bar ct = pt :: ad :: n :: ds).
      { destruct H as [-> | (more & ->)]; cbn [app].
        - rewrite split_first by exact B0. rewrite split_first by exact B1. rewrite split_none by exact B2. eauto.
        - rewrite split_first by exact B0. rewrite split_first by exact B1. rewrite split_first by exact B2. eauto. }
      destruct S as (ds & ->). replace (bytes_eqb ad ad) with true by (symmetry; apply bytes_eqb_spec; reflexivity).
      cbn [negb]. rewrite (encode_name_named _ _ Hn). cbn [bind].
      replace (bytes_eqb n n) with true by (symmetry; apply bytes_eqb_spec; reflexivity). reflexivity.
  - unfold fake_decrypt. intros H. destruct (split_bar ct) as [| d0 [| d1 [| d2 ds]]]; try apply raise_with_refuses.
    destruct (bytes_eqb d1 ad); cbn [negb] in *; [| apply raise_with_refuses].
    rewrite (encode_name_named _ _ Hn) in *. cbn [bind] in *.
    destruct (bytes_eqb d2 n); cbn [negb] in *; [| apply raise_with_refuses]. exfalso. exact (H d0 eq_refl).
Qed.
Theorem fake_same : forall name,
  daead_encrypt (FakeDeterministicAead name) = aead_encrypt (FakeAead name) 0%N /\
  daead_decrypt (FakeDeterministicAead name) = aead_decrypt (FakeAead name) /\
  (forall rnd rnd', he_encrypt (FakeHybridEncrypt name) rnd = aead_encrypt (FakeAead name) rnd') /\
  hd_decrypt (FakeHybridDecrypt name) = aead_decrypt (FakeAead name).
Proof. intros. repeat split. Qed.

Theorem fake_round_trip_iff : forall name n rnd pt ad, named name n ->
  exists ct, aead_encrypt (FakeAead name) rnd pt ad = Ok ct /\
    (aead_decrypt (FakeAead name) ct ad = Ok pt <-> no_bar pt /\ no_bar ad /\ no_bar n).
Proof.
  intros name n rnd pt ad Hn. cbn [FakeAead aead_encrypt]. unfold fake_encrypt.
  rewrite (encode_name_named _ _ Hn). cbn [bind]. eexists. split; [reflexivity |].
  destruct (fake_decrypt_spec name n (pt ++ [bar] ++ ad ++ [bar] ++ n) ad Hn) as [H _]. rewrite H.
  split; [tauto |]. intros (B0 & B1 & B2). split; [exact B0 |]. split; [exact B1 |]. split; [exact B2 |]. left. reflexivity.
Qed.

(** ** PRF *)
Theorem fake_prf_spec : forall name n input, named name n ->
  (forall k, (0 <= k <= 32)%Z -> exists out, prf_compute (FakePrf name) input k = Ok out /\
     Z.of_nat (length out) = k /\
     exists more, out ++ more = input ++ blit "|" ++ n ++ blit "|" ++ repeat "*"%byte 32) /\
  (forall k, (32 < k)%Z -> exists e, prf_compute (FakePrf name) input k = Err e /\ is_tink_error e = true).
Proof.
  intros name n input Hn. cbn [FakePrf prf_compute]. split.
  - intros k Hk. replace (32 <? k)%Z with false by (symmetry; apply Z.ltb_ge; lia).
    rewrite (encode_name_named _ _ Hn). cbn [bind]. eexists. split; [reflexivity |].
    unfold slice_to. replace (k <? 0)%Z with false by (symmetry; apply Z.ltb_ge; lia).
    change (blit "|") with [bar]. change "*"%byte with x2a. split.
    + rewrite firstn_length. unfold bytes in *. repeat rewrite app_length. rewrite repeat_length. cbn [length]. lia.
    + set (h := input ++ [bar] ++ n ++ [bar]).
      replace (input ++ [bar] ++ n ++ [bar] ++ repeat x2a (Z.to_nat k)) with (h ++ repeat x2a (Z.to_nat k))
        by (unfold h; repeat rewrite <- app_assoc; reflexivity).
      replace (input ++ [bar] ++ n ++ [bar] ++ repeat x2a 32) with (h ++ repeat x2a 32)
        by (unfold h; repeat rewrite <- app_assoc; reflexivity).
      exists (skipn (Z.to_nat k) (h ++ repeat x2a 32)).
      replace (firstn (Z.to_nat k) (h ++ repeat x2a (Z.to_nat k))) with (firstn (Z.to_nat k) (h ++ repeat x2a 32));
        [apply firstn_skipn |].
      rewrite !firstn_app. f_equal.
      assert (F : forall a b, a <= b -> firstn a (repeat x2a b) = repeat x2a a).
      { induction a as [| a IH]; intros b Hb; [reflexivity |]. destruct b as [| b]; [lia |]. cbn [repeat firstn].
        rewrite IH by lia. reflexivity. }
      rewrite !F by lia. reflexivity.
  - intros k Hk. replace (32 <? k)%Z with true by (symmetry; apply Z.ltb_lt; lia). eexists. split; reflexivity.
Qed.

Theorem fake_prf_set_spec : forall name,
  In (fake_prf_set_primary_id, fake_prf_set_primary name) (fake_prf_set_all name) /\
  (forall i p, In (i, p) (fake_prf_set_all name) -> i = fake_prf_set_primary_id /\ p = FakePrf name).
Proof.
  intros name. split; [left; reflexivity |]. intros i p [H | []]. injection H as <- <-. auto.
Qed.

(** ** Test data *)
Theorem testdata_path_spec : forall environ join exists_,
  match tink_py_testdata_path environ join exists_ with
  | Ok p => exists_ p = true /\
      ((exists root, environ (ulit "TINK_PYTHON_ROOT_PATH") = Some root /\ p = join root (ulit "testdata")) \/
       (environ (ulit "TINK_PYTHON_ROOT_PATH") = None /\
        exists d, environ (ulit "TEST_SRCDIR") = Some d /\ p = join d (ulit "tink_py/testdata")))
  | Err (ValueError _) => environ (ulit "TINK_PYTHON_ROOT_PATH") = None /\ environ (ulit "TEST_SRCDIR") = None
  | Err e => e = OtherError 2 /\
      ((exists root, environ (ulit "TINK_PYTHON_ROOT_PATH") = Some root /\ exists_ (join root (ulit "testdata")) = false) \/
       (environ (ulit "TINK_PYTHON_ROOT_PATH") = None /\
        exists d, environ (ulit "TEST_SRCDIR") = Some d /\ exists_ (join d (ulit "tink_py/testdata")) = false))
  end.
Proof.
  intros environ join exists_. unfold tink_py_testdata_path.
  destruct (environ (ulit "TINK_PYTHON_ROOT_PATH")) as [root |] eqn:E1; cbn [app].
  - destruct (exists_ (join root (ulit "testdata"))) eqn:Ex; cbn [negb]; eauto 6.
  - destruct (environ (ulit "TEST_SRCDIR")) as [d |] eqn:E2; cbn [app]; [| auto].
    destruct (exists_ (join d (ulit "tink_py/testdata"))) eqn:Ex; cbn [negb]; eauto 8.
Qed.

(** ** Values after close *)
Lemma write_open : forall b x, bio_closed b = false -> bio_closed (snd (bio_write b x)) = false.
Proof. intros b x H. unfold bio_write. rewrite H. destruct x; [exact H | reflexivity]. Qed.
Lemma step_open : forall v c, c <> VClose -> bio_closed (vio_io v) = false -> bio_closed (vio_io (vio_step v c)) = false.
Proof.
  intros v c Hc H. destruct c as [x | n | p |]; cbn [vio_step vio_io]; [apply write_open; exact H | | | congruence].
  - unfold bio_read. rewrite H. reflexivity.
  - unfold bio_seek. rewrite H. destruct (p <? 0)%Z; [exact H | reflexivity].
Qed.
Lemma run_open : forall l v, ~ In VClose l -> bio_closed (vio_io v) = false -> bio_closed (vio_io (vio_run v l)) = false.
Proof.
  induction l as [| c l IH]; intros v Hl H; [exact H |]. cbn [vio_run fold_left]. apply IH.
  - intros X. apply Hl. right. exact X.
  - apply step_open; [| exact H]. intros ->. apply Hl. left. reflexivity.
Qed.
Lemma step_closed : forall v c, bio_closed (vio_io v) = true ->
  bio_closed (vio_io (vio_step v c)) = true /\ vio_value_after_close (vio_step v c) = vio_value_after_close v.
Proof.
  intros v c H. destruct c; cbn [vio_step vio_io vio_value_after_close].
  - unfold bio_write. rewrite H. auto.
  - unfold bio_read. rewrite H. auto.
  - unfold bio_seek. rewrite H. auto.
  - unfold vio_close. cbn [vio_io bio_closed vio_value_after_close]. rewrite H. auto.
Qed.
Lemma run_closed : forall l v, bio_closed (vio_io v) = true ->
  bio_closed (vio_io (vio_run v l)) = true /\ vio_value_after_close (vio_run v l) = vio_value_after_close v.
Proof.
  induction l as [| c l IH]; intros v H; [auto |]. destruct (step_closed v c H) as [H1 H2].
  destruct (IH _ H1) as [H3 H4]. cbn [vio_run fold_left]. split; [exact H3 | etransitivity; [exact H4 | exact H2]].
Qed.
Theorem value_after_close_spec : forall initial before after, ~ In VClose before ->
  (exists m, vio_value (vio_run (vio_new initial) before) = Err (ValueError m)) /\
  exists x, bio_getvalue (vio_io (vio_run (vio_new initial) before)) = Ok x /\
    vio_value (vio_run (vio_new initial) (before ++ VClose :: after)) = Ok x /\
    exists m, bio_getvalue (vio_io (vio_run (vio_new initial) (before ++ VClose :: after))) = Err (ValueError m).
Proof.
  intros initial before after Hb.
  assert (O : bio_closed (vio_io (vio_run (vio_new initial) before)) = false) by (apply run_open; [exact Hb | reflexivity]).
  split; [unfold vio_value; rewrite O; eexists; reflexivity |].
  eexists. split; [unfold bio_getvalue; rewrite O; reflexivity |].
  assert (R : vio_run (vio_new initial) (before ++ VClose :: after) =
    vio_run (vio_close (vio_run (vio_new initial) before)) after).
  { unfold vio_run. rewrite fold_left_app. reflexivity. }
  destruct (run_closed after (vio_close (vio_run (vio_new initial) before)) eq_refl) as [C V].
  rewrite R. unfold vio_value, bio_getvalue. rewrite C, V. cbn [negb].
  unfold vio_close at 1. cbn [vio_value_after_close]. rewrite O. split; [reflexivity | eexists; reflexivity].
Qed.
Lemma write_end : forall b x, bio_closed b = false -> bio_pos b = length (bio_buf b) ->
  bio_buf (snd (bio_write b x)) = bio_buf b ++ x /\
  bio_pos (snd (bio_write b x)) = length (bio_buf (snd (bio_write b x))) /\ bio_closed (snd (bio_write b x)) = false.
Proof.
  intros b x H Hp. unfold bio_write. rewrite H. destruct x as [| c x].
  - cbn [snd]. rewrite app_nil_r. auto.
  - cbn [snd bio_buf bio_pos bio_closed]. rewrite Hp, Nat.sub_diag. cbn [repeat]. rewrite app_nil_r, firstn_all.
    rewrite skipn_all2 by lia. rewrite app_nil_r. split; [reflexivity |]. split; [| reflexivity].
    rewrite app_length. reflexivity.
Qed.
Theorem written_after_close : forall pieces,
  vio_value (vio_run (vio_new None) (map VWrite pieces ++ [VClose])) = Ok (concat pieces).
Proof.
  intros pieces.
  assert (G : forall l v, bio_closed (vio_io v) = false -> bio_pos (vio_io v) = length (bio_buf (vio_io v)) ->
    bio_closed (vio_io (vio_run v (map VWrite l))) = false /\
    bio_buf (vio_io (vio_run v (map VWrite l))) = bio_buf (vio_io v) ++ concat l).
  { induction l as [| x l IH]; intros v H Hp; [cbn; rewrite app_nil_r; auto |].
    destruct (write_end (vio_io v) x H Hp) as (E1 & E2 & E3).
    destruct (IH (vio_step v (VWrite x)) E3 E2) as [I1 I2]. cbn [map vio_run fold_left concat]. split; [exact I1 |].
    etransitivity; [exact I2 |]. cbn [vio_step vio_io]. rewrite E1, <- app_assoc. reflexivity. }
  destruct (G pieces (vio_new None) eq_refl eq_refl) as [G1 G2].
  unfold vio_run in *. rewrite fold_left_app. cbn [fold_left vio_step]. unfold vio_value, vio_close.
  cbn [vio_io bio_closed negb vio_value_after_close]. rewrite G1, G2. reflexivity.
Qed.

(** ** Slow streams *)
Lemma read_open : forall b size, bio_closed b = false -> exists d,
  bio_read b size = (Ok d, mk_bytes_io (bio_buf b) (bio_pos b + length d) false) /\
  skipn (bio_pos b) (bio_buf b) = d ++ skipn (bio_pos b + length d) (bio_buf b) /\
  match size with
  | Some z => if (z <? 0)%Z then d = skipn (bio_pos b) (bio_buf b)
              else Z.of_nat (length d) = Z.min z (Z.of_nat (length (skipn (bio_pos b) (bio_buf b))))
  | None => d = skipn (bio_pos b) (bio_buf b)
  end.
Proof.
  intros b size H. unfold bio_read. rewrite H. eexists. split; [reflexivity |].
  set (rest := skipn (bio_pos b) (bio_buf b)). set (n := match size with Some _ => _ | None => _ end). split.
  - transitivity (firstn n rest ++ skipn n rest); [symmetry; apply firstn_skipn |]. f_equal.
    assert (E : skipn (length (firstn n rest)) rest = skipn n rest).
    { rewrite firstn_length. destruct (Nat.le_ge_cases n (length rest)) as [L | L].
      - rewrite Nat.min_l by exact L. reflexivity.
      - rewrite Nat.min_r by exact L. rewrite !skipn_all2 by lia. reflexivity. }
    rewrite <- E. unfold rest. clear. generalize (length (firstn n (skipn (bio_pos b) (bio_buf b)))). intros k.
    generalize (bio_buf b). generalize (bio_pos b). induction n0 as [| p IH]; intros l; [reflexivity |].
    destruct l; [rewrite !skipn_nil; reflexivity |]. exact (IH l).
  - destruct size as [z |]; [destruct (z <? 0)%Z eqn:Ez |]; subst n.
    + apply firstn_all.
    + apply Z.ltb_ge in Ez. rewrite firstn_length. lia.
    + apply firstn_all.
Qed.

Lemma slow_reads_gen : forall sizes s rs s', bio_closed (sio_io s) = false -> (-1 <= sio_state s)%Z ->
  (sio_state s + Z.of_nat (length sizes) <= 10000000)%Z -> sio_reads s sizes = (rs, s') ->
  slow_answers (Z.to_N (sio_state s + 1)) (skipn (bio_pos (sio_io s)) (bio_buf (sio_io s))) sizes rs
    (skipn (bio_pos (sio_io s')) (bio_buf (sio_io s'))).
Proof.
  induction sizes as [| z sizes IH]; intros s rs s' Hc Hs Hn H; cbn [sio_reads] in H.
  - injection H as <- <-. constructor.
  - destruct (sio_read s z) as [r s1] eqn:E. destruct (sio_reads s1 sizes) as [rs1 s2] eqn:E2. injection H as <- <-.
    cbn [length] in Hn.
    assert (P : forall size, (forall k, size = Some k -> (k <= 0)%Z) -> sio_read s size = (r, s1) ->
      slow_answers (Z.to_N (sio_state s + 1)) (skipn (bio_pos (sio_io s)) (bio_buf (sio_io s))) (size :: sizes) (r :: rs1)
        (skipn (bio_pos (sio_io s2)) (bio_buf (sio_io s2)))).
    { intros size Hz E'.
      assert (E'' : (let (r, io) := bio_read (sio_io s) size in (r, mk_slow_io io (sio_seekable s) (sio_state s))) = (r, s1)).
      { unfold sio_read in E'. destruct size as [k |]; [| exact E'].
        replace (0 <? k)%Z with false in E' by (symmetry; apply Z.ltb_ge, Hz; reflexivity). exact E'. }
      destruct (read_open (sio_io s) size Hc) as (d & Er & Es & Ed). rewrite Er in E''. injection E'' as <- <-.
      match type of E2 with sio_reads ?st _ = _ => specialize (IH st _ _ eq_refl Hs ltac:(cbn [sio_state]; lia) E2) end. cbn [sio_io sio_state bio_pos bio_buf] in IH.
      destruct size as [k |].
      - specialize (Hz k eq_refl). destruct (k <? 0)%Z eqn:Ek.
        + apply Z.ltb_lt in Ek. subst d. apply SA_all; [intros x X; injection X as <-; exact Ek |].
          assert (N : skipn (bio_pos (sio_io s) + length (skipn (bio_pos (sio_io s)) (bio_buf (sio_io s)))) (bio_buf (sio_io s)) = []).
          { apply (app_inv_head (skipn (bio_pos (sio_io s)) (bio_buf (sio_io s)))). rewrite <- Es, app_nil_r. reflexivity. }
          rewrite N in IH. exact IH.
        + apply Z.ltb_ge in Ek. assert (k = 0%Z) by lia. subst k.
          assert (d = []) by (destruct d; [reflexivity | cbn [length] in Ed; lia]). subst d.
          cbn [length] in IH. rewrite Nat.add_0_r in IH. apply SA_zero. exact IH.
      - subst d. apply SA_all; [discriminate |].
        assert (N : skipn (bio_pos (sio_io s) + length (skipn (bio_pos (sio_io s)) (bio_buf (sio_io s)))) (bio_buf (sio_io s)) = []).
        { apply (app_inv_head (skipn (bio_pos (sio_io s)) (bio_buf (sio_io s)))). rewrite <- Es, app_nil_r. reflexivity. }
        rewrite N in IH. exact IH. }
    destruct z as [z |]; [| apply P; [discriminate | exact E]].
    destruct (0 <? z)%Z eqn:Ez; [| apply P; [intros k X; injection X as <-; apply Z.ltb_ge; exact Ez | exact E]].
    clear P. unfold sio_read in E. rewrite Ez in E. apply Z.ltb_lt in Ez.
    replace (10000000 <? sio_state s + 1)%Z with false in E by (symmetry; apply Z.ltb_ge; lia).
    assert (M : (Z.to_N (sio_state s + 1) mod 3)%N = Z.to_N ((sio_state s + 1) mod 3)).
    { rewrite Z2N.inj_mod by lia. reflexivity. }
    destruct ((sio_state s + 1) mod 3 =? 0)%Z eqn:Em.
    + injection E as <- <-. apply Z.eqb_eq in Em. apply SA_blocks; [exact Ez | rewrite M, Em; reflexivity |].
      specialize (IH (mk_slow_io (sio_io s) (sio_seekable s) (sio_state s + 1)%Z) _ _ Hc ltac:(cbn [sio_state]; lia) ltac:(cbn [sio_state]; lia) E2).
      cbn [sio_io sio_state] in IH. replace (Z.to_N (sio_state s + 1) + 1)%N with (Z.to_N (sio_state s + 1 + 1)) by lia. exact IH.
    + apply Z.eqb_neq in Em. destruct (read_open (sio_io s) (Some (Z.min z 5)) Hc) as (d & Er & Es & Ed).
      rewrite Er in E. injection E as <- <-. replace (Z.min z 5 <? 0)%Z with false in Ed by (symmetry; apply Z.ltb_ge; lia).
      rewrite Es.
      assert (L : length (skipn (bio_pos (sio_io s)) (bio_buf (sio_io s))) =
        length d + length (skipn (bio_pos (sio_io s) + length d) (bio_buf (sio_io s)))) by (rewrite Es at 1; apply app_length).
      match type of E2 with sio_reads ?st _ = _ => specialize (IH st _ _ eq_refl ltac:(cbn [sio_state]; lia) ltac:(cbn [sio_state]; lia) E2) end.
      cbn [sio_io sio_state bio_pos bio_buf] in IH.
      apply SA_some; [exact Ez | | lia | lia | |].
      * rewrite M. pose proof (Z.mod_pos_bound (sio_state s + 1) 3). lia.
      * destruct (skipn (bio_pos (sio_io s) + length d) (bio_buf (sio_io s))) as [| c x] eqn:Ek; [auto |].
        cbn [length] in L. lia.
      * replace (Z.to_N (sio_state s + 1) + 1)%N with (Z.to_N (sio_state s + 1 + 1)) by lia. exact IH.
Qed.

Theorem slow_bytes_io_spec : forall data seekable sizes rs s, (Z.of_nat (length sizes) <= 10000001)%Z ->
  sio_reads (sio_new data seekable) sizes = (rs, s) ->
  exists rest, slow_answers 0 data sizes rs rest.
Proof.
  intros data seekable sizes rs s Hn H. eexists.
  refine (slow_reads_gen sizes (sio_new data seekable) rs s eq_refl _ _ H); cbn [sio_new sio_state]; lia.
Qed.
Theorem slow_answers_data : forall n data sizes rs rest, slow_answers n data sizes rs rest -> data = returned rs ++ rest.
Proof.
  induction 1; unfold returned in *; cbn [map concat]; auto.
  - rewrite <- app_assoc. f_equal. exact IHslow_answers.
  - rewrite <- app_assoc, <- IHslow_answers, app_nil_r. reflexivity.
Qed.
(** A read for a positive number of bytes that returns none is at the end. *)
Theorem slow_answers_end : forall n data sizes rs rest, slow_answers n data sizes rs rest ->
  forall i z, nth_error sizes i = Some (Some z) -> (0 < z)%Z -> nth_error rs i = Some (Ok []) -> rest = [] /\ returned rs = data.
Proof.
  assert (E : forall n d sizes rs rest, slow_answers n d sizes rs rest -> d = [] -> rest = []).
  { intros n d sizes rs rest H ->. apply slow_answers_data in H. symmetry in H. apply app_eq_nil in H. apply H. }
  assert (Main : forall n data sizes rs rest, slow_answers n data sizes rs rest ->
    forall i z, nth_error sizes i = Some (Some z) -> (0 < z)%Z -> nth_error rs i = Some (Ok []) -> rest = []).
  { induction 1 as [n rest | n rest z l rs rest' Hz Hn H IH | n d rest z l rs rest' Hz Hn H5 Hl Hc H IH
      | n rest l rs rest' H IH | n rest z l rs rest' Hz H IH]; intros [| i] y Hi Hy Hr; cbn [nth_error] in Hi, Hr;
      try discriminate; try (eapply IH; eassumption).
    - injection Hi as <-. injection Hr as ->. cbn [length] in Hc.
      destruct Hc as [Hc | [Hc | Hc]]; [lia | discriminate | eapply E; [exact H | exact Hc]].
    - injection Hi as <-. lia.
    - eapply E; [exact H | reflexivity]. }
  intros n data sizes rs rest H i z Hi Hz Hr. pose proof (Main _ _ _ _ _ H i z Hi Hz Hr) as ->. split; [reflexivity |].
  apply slow_answers_data in H. rewrite app_nil_r in H. congruence.
Qed.
Theorem slow_seek_spec : forall s p,
  (sio_seekable s = false -> sio_seek s p = (Err UnsupportedOperation, s)) /\
  (sio_seekable s = true -> fst (sio_seek s p) = fst (bio_seek (sio_io s) p) /\
     sio_io (snd (sio_seek s p)) = snd (bio_seek (sio_io s) p)).
Proof.
  intros s p. unfold sio_seek. destruct (sio_seekable s); [| split; congruence].
  split; [discriminate |]. destruct (bio_seek (sio_io s) p). auto.
Qed.

Lemma slow_raw_gen : forall sizes s rs s', bio_closed (sr_io s) = false -> (-1 <= sr_state s)%Z ->
  (sr_state s + Z.of_nat (length sizes) <= 10000000)%Z -> sr_reads s sizes = (rs, s') ->
  slow_raw_answers (Z.to_N (sr_state s + 1)) (skipn (bio_pos (sr_io s)) (bio_buf (sr_io s))) rs
    (skipn (bio_pos (sr_io s')) (bio_buf (sr_io s'))).
Proof.
  induction sizes as [| z sizes IH]; intros s rs s' Hc Hs Hn H; cbn [sr_reads] in H.
  - injection H as <- <-. constructor.
  - destruct (sr_read s z) as [r s1] eqn:E. destruct (sr_reads s1 sizes) as [rs1 s2] eqn:E2. injection H as <- <-.
    cbn [length] in Hn. unfold sr_read, sr_readinto in E.
    replace (10000000 <? sr_state s + 1)%Z with false in E by (symmetry; apply Z.ltb_ge; lia).
    assert (M : (Z.to_N (sr_state s + 1) mod 3)%N = Z.to_N ((sr_state s + 1) mod 3)).
    { rewrite Z2N.inj_mod by lia. reflexivity. }
    destruct ((sr_state s + 1) mod 3 =? 0)%Z eqn:Em.
    + injection E as <- <-. apply Z.eqb_eq in Em. apply RA_none; [rewrite M, Em; reflexivity |].
      specialize (IH (mk_slow_raw (sr_io s) (sr_state s + 1)%Z) _ _ Hc ltac:(cbn [sr_state]; lia) ltac:(cbn [sr_state]; lia) E2).
      cbn [sr_io sr_state] in IH. replace (Z.to_N (sr_state s + 1) + 1)%N with (Z.to_N (sr_state s + 1 + 1)) by lia. exact IH.
    + apply Z.eqb_neq in Em. destruct (read_open (sr_io s) (Some 5%Z) Hc) as (d & Er & Es & Ed).
      rewrite Er in E. rewrite Nnat.Nat2N.id in E. rewrite firstn_app, firstn_all, Nat.sub_diag in E. cbn [firstn] in E.
      rewrite app_nil_r in E. injection E as <- <-. cbn [Z.ltb] in Ed. rewrite Es.
      assert (L : length (skipn (bio_pos (sr_io s)) (bio_buf (sr_io s))) =
        length d + length (skipn (bio_pos (sr_io s) + length d) (bio_buf (sr_io s)))) by (rewrite Es at 1; apply app_length).
      match type of E2 with sr_reads ?st _ = _ => specialize (IH st _ _ eq_refl ltac:(cbn [sr_state]; lia) ltac:(cbn [sr_state]; lia) E2) end.
      cbn [sr_io sr_state bio_pos bio_buf] in IH. change (5 <? 0)%Z with false in Ed. cbn iota in Ed.
      apply RA_some; [| lia | |].
      * rewrite M. pose proof (Z.mod_pos_bound (sr_state s + 1) 3). lia.
      * destruct (skipn (bio_pos (sr_io s) + length d) (bio_buf (sr_io s))) as [| c x] eqn:Ek; [auto |].
        cbn [length] in L. lia.
      * replace (Z.to_N (sr_state s + 1) + 1)%N with (Z.to_N (sr_state s + 1 + 1)) by lia. exact IH.
Qed.
Theorem slow_raw_spec : forall data sizes rs s, (Z.of_nat (length sizes) <= 10000001)%Z ->
  sr_reads (sr_new data) sizes = (rs, s) ->
  exists rest, slow_raw_answers 0 data rs rest /\ data = returned_raw rs ++ rest.
Proof.
  intros data sizes rs s Hn H.
  assert (A : slow_raw_answers 0 data rs (skipn (bio_pos (sr_io s)) (bio_buf (sr_io s)))).
  { refine (slow_raw_gen sizes (sr_new data) rs s eq_refl _ _ H); cbn [sr_new sr_state]; lia. }
  eexists. split; [exact A |]. clear H Hn. induction A; unfold returned_raw in *; cbn [map concat]; auto.
  rewrite <- app_assoc. f_equal. exact IHA.
Qed.
