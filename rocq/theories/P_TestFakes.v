(** C80: the test doubles of tink.testing. *)
From Coq Require Import Strings.Byte Strings.String List NArith ZArith Bool Lia.
From Verif Require Import M_Base M_Utf8 M_Proto M_Prims M_TestFakes S_TestFakes L_Base L_TestFakes.
Import ListNotations.
Open Scope string_scope.
Open Scope list_scope.

Theorem C80_mac : forall name n data tag, named name n ->
  mac_compute (FakeMac name) data = Ok (data ++ blit "|" ++ n) /\
  (tag = data ++ blit "|" ++ n -> mac_verify (FakeMac name) tag data = Ok tt) /\
  (tag <> data ++ blit "|" ++ n -> refuses tag (mac_verify (FakeMac name) tag data)).
Proof. exact fake_mac_spec. Qed.
Print Assumptions C80_mac.
Theorem C80_signature : forall name n rnd data sig, named name n ->
  sign (FakePublicKeySign name) rnd data = Ok (data ++ blit "|" ++ n) /\
  (sig = data ++ blit "|" ++ n -> verify (FakePublicKeyVerify name) sig data = Ok tt) /\
  (sig <> data ++ blit "|" ++ n -> refuses sig (verify (FakePublicKeyVerify name) sig data)).
Proof. exact fake_signature_spec. Qed.
Print Assumptions C80_signature.
Theorem C80_decrypt : forall name n ct ad, named name n ->
  (forall pt, aead_decrypt (FakeAead name) ct ad = Ok pt <->
     no_bar pt /\ no_bar ad /\ no_bar n /\
     (ct = pt ++ blit "|" ++ ad ++ blit "|" ++ n \/
      exists more, ct = pt ++ blit "|" ++ ad ++ blit "|" ++ n ++ blit "|" ++ more)) /\
  ((forall pt, aead_decrypt (FakeAead name) ct ad <> Ok pt) -> refuses ct (aead_decrypt (FakeAead name) ct ad)).
Proof. exact fake_decrypt_spec. Qed.
Print Assumptions C80_decrypt.
Theorem C80_round_trip : forall name n rnd pt ad, named name n ->
  exists ct, aead_encrypt (FakeAead name) rnd pt ad = Ok ct /\
    (aead_decrypt (FakeAead name) ct ad = Ok pt <-> no_bar pt /\ no_bar ad /\ no_bar n).
Proof. exact fake_round_trip_iff. Qed.
Print Assumptions C80_round_trip.
Theorem C80_same : forall name,
  daead_encrypt (FakeDeterministicAead name) = aead_encrypt (FakeAead name) 0%N /\
  daead_decrypt (FakeDeterministicAead name) = aead_decrypt (FakeAead name) /\
  (forall rnd rnd', he_encrypt (FakeHybridEncrypt name) rnd = aead_encrypt (FakeAead name) rnd') /\
  hd_decrypt (FakeHybridDecrypt name) = aead_decrypt (FakeAead name).
Proof. exact fake_same. Qed.
Print Assumptions C80_same.
Theorem C80_prf : forall name n input, named name n ->
  (forall k, (0 <= k <= 32)%Z -> exists out, prf_compute (FakePrf name) input k = Ok out /\
     Z.of_nat (length out) = k /\
     exists more, out ++ more = input ++ blit "|" ++ n ++ blit "|" ++ repeat "*"%byte 32) /\
  (forall k, (32 < k)%Z -> exists e, prf_compute (FakePrf name) input k = Err e /\ is_tink_error e = true).
Proof. exact fake_prf_spec. Qed.
Print Assumptions C80_prf.
Theorem C80_prf_set : forall name,
  In (fake_prf_set_primary_id, fake_prf_set_primary name) (fake_prf_set_all name) /\
  (forall i p, In (i, p) (fake_prf_set_all name) -> i = fake_prf_set_primary_id /\ p = FakePrf name).
Proof. exact fake_prf_set_spec. Qed.
Print Assumptions C80_prf_set.
Theorem C80_testdata_path : forall environ join exists_,
  match tink_py_testdata_path environ join exists_ with
  | Ok p => exists_ p = true /\
      ((exists root, environ (ulit "TINK_PYTHON_ROOT_PATH") = Some root /\ p = join root (ulit "testdata")) \/
       (environ (ulit "TINK_PYTHON_ROOT_PATH") = None /\
        exists d, environ (ulit "TEST_SRCDIR") = Some d /\ p = join d (ulit "tink_py/testdata")))
  | Err (ValueError _) => environ (ulit "TINK_PYTHON_ROOT_PATH") = None /\ environ (ulit "TEST_SRCDIR") = None
  | Err e => e = OtherError 2 /\
      ((exists root, environ (ulit "TINK_PYTHON_ROOT_PATH") = Some root /\ exists_ (join root (ulit "testdata")) = false) \/
       (environ (ulit "TINK_PYTHON_ROOT_PATH") = None /\
        exists d, environ (ulit "TEST_SRCDIR") = Some d /\ exists_ (join d (ulit "tink_py/testdata")) = false))
  end.
Proof. exact testdata_path_spec. Qed.
Print Assumptions C80_testdata_path.
Theorem C80_value_after_close : forall initial before after, ~ In VClose before ->
  (exists m, vio_value (vio_run (vio_new initial) before) = Err (ValueError m)) /\
  exists x, bio_getvalue (vio_io (vio_run (vio_new initial) before)) = Ok x /\
    vio_value (vio_run (vio_new initial) (before ++ VClose :: after)) = Ok x /\
    exists m, bio_getvalue (vio_io (vio_run (vio_new initial) (before ++ VClose :: after))) = Err (ValueError m).
Proof. exact value_after_close_spec. Qed.
Print Assumptions C80_value_after_close.
Theorem C80_written_after_close : forall pieces,
  vio_value (vio_run (vio_new None) (map VWrite pieces ++ [VClose])) = Ok (concat pieces).
Proof. exact written_after_close. Qed.
Print Assumptions C80_written_after_close.
Theorem C80_slow_reads : forall data seekable sizes rs s, (Z.of_nat (length sizes) <= 10000001)%Z ->
  sio_reads (sio_new data seekable) sizes = (rs, s) ->
  exists rest, slow_answers 0 data sizes rs rest.
Proof. exact slow_bytes_io_spec. Qed.
Print Assumptions C80_slow_reads.
Theorem C80_slow_data : forall n data sizes rs rest, slow_answers n data sizes rs rest -> data = returned rs ++ rest.
Proof. exact slow_answers_data. Qed.
Print Assumptions C80_slow_data.
Theorem C80_slow_end : forall n data sizes rs rest, slow_answers n data sizes rs rest ->
  forall i z, nth_error sizes i = Some (Some z) -> (0 < z)%Z -> nth_error rs i = Some (Ok []) -> rest = [] /\ returned rs = data.
Proof. exact slow_answers_end. Qed.
Print Assumptions C80_slow_end.
Theorem C80_slow_seek : forall s p,
  (sio_seekable s = false -> sio_seek s p = (Err UnsupportedOperation, s)) /\
  (sio_seekable s = true -> fst (sio_seek s p) = fst (bio_seek (sio_io s) p) /\
     sio_io (snd (sio_seek s p)) = snd (bio_seek (sio_io s) p)).
Proof. exact slow_seek_spec. Qed.
Print Assumptions C80_slow_seek.
Theorem C80_slow_raw : forall data sizes rs s, (Z.of_nat (length sizes) <= 10000001)%Z ->
  sr_reads (sr_new data) sizes = (rs, s) ->
  exists rest, slow_raw_answers 0 data rs rest /\ data = returned_raw rs ++ rest.
Proof. exact slow_raw_spec. Qed.
Print Assumptions C80_slow_raw.

(** ** Examples *)
Example C80_hypotheses_met :
  named (ulit "mac") (blit "mac") /\ named [233%N] [xc3; xa9] /\ (forall n, ~ named [55296%N] n) /\
  no_bar (blit "hello") /\ no_bar (blit "ad") /\ no_bar (blit "mac") /\
  mac_verify (FakeMac (ulit "mac")) (blit "hello|mac") (blit "hello") = Ok tt /\
  refuses (blit "hello|Mac") (mac_verify (FakeMac (ulit "mac")) (blit "hello|Mac") (blit "hello")) /\
  aead_encrypt (FakeAead (ulit "mac")) 0%N (blit "hello") (blit "ad") = Ok (blit "hello|ad|mac") /\
  aead_decrypt (FakeAead (ulit "mac")) (blit "hello|ad|mac") (blit "ad") = Ok (blit "hello") /\
  prf_compute (FakePrf (ulit "p")) (blit "in") 9 = Ok (blit "in|p|****") /\
  ~ In VClose [VWrite (blit "ab"); VSeek 1; VWrite (blit "cd"); VRead None] /\
  vio_value (vio_run (vio_new (Some (blit "xyzw"))) ([VWrite (blit "ab"); VSeek 1; VWrite (blit "cd"); VRead None] ++ [VClose; VWrite (blit "q"); VClose])) =
    Ok (blit "acdw") /\
  fst (sio_reads (sio_new (blit "0123456789") false) [Some 100; Some 100; Some 2; Some 9; Some 9; Some 9]%Z) =
    [Err (BlockingIOError 0); Ok (blit "01234"); Ok (blit "56"); Err (BlockingIOError 0); Ok (blit "789"); Ok []] /\
  fst (sr_reads (sr_new (blit "0123456")) [8; 8; 8; 8; 8]%nat) =
    [Ok None; Ok (Some (blit "01234")); Ok (Some (blit "56")); Ok None; Ok (Some [])].
Proof.
  split; [reflexivity |]. split; [reflexivity |]. split; [intros n H; discriminate |].
  split; [intros H; cbn in H; repeat (destruct H as [H | H]; [discriminate |]); exact H |].
  split; [intros H; cbn in H; repeat (destruct H as [H | H]; [discriminate |]); exact H |].
  split; [intros H; cbn in H; repeat (destruct H as [H | H]; [discriminate |]); exact H |].
  split; [reflexivity |]. split; [exists (TinkError "invalid mac "); split; reflexivity |].
  split; [reflexivity |]. split; [reflexivity |]. split; [reflexivity |].
  split; [intros H; cbn in H; repeat (destruct H as [H | H]; [discriminate |]); exact H |].
  split; [vm_compute; reflexivity |]. split; vm_compute; reflexivity.
Qed.

(** Not every error is a TinkError: the message decodes the rejected bytes. *)
Theorem C80_only_tink_error_refuted : exists name tag data e,
  mac_verify (FakeMac name) tag data = Err e /\ is_tink_error e = false.
Proof. exists (ulit "mac"), [xff], [], UnicodeError. split; reflexivity. Qed.
Print Assumptions C80_only_tink_error_refuted.
(** A plaintext with a bar does not come back: it is refused or comes back shortened. *)
Theorem C80_round_trip_refuted : exists name pt ad ct pt',
  aead_encrypt (FakeAead name) 0%N pt ad = Ok ct /\ aead_decrypt (FakeAead name) ct ad = Ok pt' /\ pt' <> pt.
Proof.
  exists (ulit "a"), (blit "x|a|a"), (blit "a"), (blit "x|a|a|a|a"), (blit "x").
  split; [reflexivity |]. split; [reflexivity | discriminate].
Qed.
Print Assumptions C80_round_trip_refuted.
(** The fake AEAD is not authenticated: a changed ciphertext can decrypt. *)
Theorem C80_altered_is_detected_refuted : exists name pt ad ct,
  aead_encrypt (FakeAead name) 0%N pt ad = Ok ct /\ aead_decrypt (FakeAead name) (ct ++ blit "|more") ad = Ok pt.
Proof. exists (ulit "a"), (blit "x"), (blit "y"), (blit "x|y|a"). split; reflexivity. Qed.
Print Assumptions C80_altered_is_detected_refuted.
(** PRFs with different names can agree; a negative length is no error. *)
Theorem C80_prf_depends_on_name_refuted : forall name n name' n' input k, named name n -> named name' n' ->
  (0 <= k <= 32)%Z -> (k <= Z.of_nat (length input))%Z ->
  prf_compute (FakePrf name) input k = prf_compute (FakePrf name') input k.
Proof.
  intros name n name' n' input k H H' Hk Hl. cbn [FakePrf prf_compute].
  replace (32 <? k)%Z with false by (symmetry; apply Z.ltb_ge; lia).
  rewrite (encode_name_named _ _ H), (encode_name_named _ _ H'). cbn [bind]. unfold slice_to.
  replace (k <? 0)%Z with false by (symmetry; apply Z.ltb_ge; lia). f_equal.
  assert (F : forall x, firstn (Z.to_nat k) (input ++ x) = firstn (Z.to_nat k) input).
  { intros x. rewrite firstn_app. replace (Z.to_nat k - length input)%nat with 0%nat by lia.
    cbn [firstn]. apply app_nil_r. }
  rewrite !F. reflexivity.
Qed.
Print Assumptions C80_prf_depends_on_name_refuted.
Theorem C80_negative_length_refuted : forall name n input k, named name n -> (k < 0)%Z ->
  exists out cut, prf_compute (FakePrf name) input k = Ok out /\ out ++ cut = input ++ blit "|" ++ n ++ blit "|" /\
    (Z.of_nat (length cut) = - k \/ Z.of_nat (length cut) < - k /\ out = [])%Z.
Proof.
  intros name n input k Hn Hk. cbn [FakePrf prf_compute]. replace (32 <? k)%Z with false by (symmetry; apply Z.ltb_ge; lia).
  rewrite (encode_name_named _ _ Hn). cbn [bind]. unfold slice_to. replace (k <? 0)%Z with true by (symmetry; apply Z.ltb_lt; lia).
  replace (Z.to_nat k) with 0%nat by lia. change (repeat x2a 0) with (@nil byte). rewrite app_nil_r. change (blit "|") with [bar].
  set (x := input ++ [bar] ++ n ++ [bar]). set (m := Z.to_nat (Z.of_nat (length x) + k)).
  exists (firstn m x), (skipn m x). split; [reflexivity |]. split; [apply firstn_skipn |].
  pose proof (skipn_length m x) as S. unfold m, bytes in *. destruct (Z.le_gt_cases 0 (Z.of_nat (length x) + k)) as [L | L].
  - left. lia.
  - right. replace (Z.to_nat (Z.of_nat (length x) + k)) with 0%nat in * by lia. split; [lia | reflexivity].
Qed.
Print Assumptions C80_negative_length_refuted.
(** A raw stream can return more than was asked for. *)
Theorem C80_raw_at_most_size_refuted : exists data s d s1,
  snd (sr_read (sr_new data) 3) = s /\ sr_read s 3 = (Ok (Some d), s1) /\ (3 < length d)%nat.
Proof.
  exists (blit "0123456"). eexists. eexists. eexists. split; [reflexivity |].
  split; [vm_compute; reflexivity |]. vm_compute. auto.
Qed.
Print Assumptions C80_raw_at_most_size_refuted.
