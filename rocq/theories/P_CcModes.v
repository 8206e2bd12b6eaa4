(** C81, C82: AES-EAX and AES-SIV in the C++ library. *)
From Coq Require Import Strings.Byte Strings.String List NArith ZArith Bool Lia.
From Verif Require Import M_Base L_Base M_Prims M_StreamTypes M_CcStream M_CcManagers M_CcModes S_CcModes
  L_CcModes L_CcModes2 L_CcModes3 L_CcModes4 X_Aes.
Import ListNotations.
Open Scope string_scope.
Open Scope list_scope.
Open Scope nat_scope.

(** AES of FIPS 197 (X_Aes) is a block cipher; two vectors of FIPS 197, appendix C *)
Example C81_aes_law : aes_law aes.
Proof. intros key _. apply aes_block_cipher. Qed.
Example C81_aes_vectors :
  (bytes_eqb (aes (hex "000102030405060708090a0b0c0d0e0f") (hex "00112233445566778899aabbccddeeff")) (hex "69c4e0d86a7b0430d8cdb78070b4c55a") &&
   bytes_eqb (aes (hex "000102030405060708090a0b0c0d0e0f101112131415161718191a1b1c1d1e1f") (hex "00112233445566778899aabbccddeeff"))
     (hex "8ea2b7ca516745bfeafc49904b496089"))%bool = true.
Proof. vm_compute. reflexivity. Qed.

(** ** C81: AES-EAX *)
Theorem C81_made : forall aes random key ns,
  (exists p, aes_eax_new aes random key ns = StOk p) <-> In (length key) [16; 32]%nat /\ In ns [12; 16]%nat.
Proof. exact aes_eax_made. Qed.
Print Assumptions C81_made.
Theorem C81_encrypts : forall aes random key ns p rnd P ad, aes_law aes -> aes_eax_new aes random key ns = StOk p ->
  eax_sizes P ad ->
  exists C, ca_encrypt p rnd P ad = StOk C /\ eax_ciphertext (aes key) (random rnd (Z.of_nat ns)) ad P C.
Proof. exact aes_eax_encrypts. Qed.
Print Assumptions C81_encrypts.
Theorem C81_decrypts : forall aes random key ns p C ad P, aes_law aes -> aes_eax_new aes random key ns = StOk p ->
  (ca_decrypt p C ad = StOk P <-> eax_sizes P ad /\ exists nonce, length nonce = ns /\ eax_ciphertext (aes key) nonce ad P C).
Proof. exact aes_eax_decrypts. Qed.
Print Assumptions C81_decrypts.
Theorem C81_round_trip : forall aes random key ns p rnd P ad, aes_law aes -> aes_eax_new aes random key ns = StOk p ->
  length (random rnd (Z.of_nat ns)) = ns -> eax_sizes P ad ->
  exists C, ca_encrypt p rnd P ad = StOk C /\ length C = ns + length P + 16 /\ ca_decrypt p C ad = StOk P.
Proof. exact aes_eax_round_trip. Qed.
Print Assumptions C81_round_trip.
Theorem C81_unambiguous : forall E nonce nonce' ad P P' C, block_cipher E -> length nonce = length nonce' ->
  eax_ciphertext E nonce ad P C -> eax_ciphertext E nonce' ad P' C -> nonce = nonce' /\ P = P'.
Proof. exact eax_unambiguous. Qed.
Print Assumptions C81_unambiguous.
Theorem C81_too_long : forall aes random key ns p rnd P ad, aes_law aes -> aes_eax_new aes random key ns = StOk p ->
  ~ eax_sizes P ad -> ca_encrypt p rnd P ad = StErr Undefined.
Proof. exact aes_eax_too_long. Qed.
Print Assumptions C81_too_long.

Definition st_is (r : st_or bytes) (b : bytes) : bool := match r with StOk c => bytes_eqb c b | _ => false end.
Definition st_fails (r : st_or bytes) : bool := match r with StOk _ => false | _ => true end.
(** The first vector of java/.../AesEaxJceTest.java, its random nonce being given *)
Definition eax_key : bytes := hex "7c77d6e813bed5ac98baa417477a2e7d".
Definition eax_random : coins -> Z -> bytes := fun _ _ => hex "1a8c98dcd73d38393b2bf1569deefc19".
Definition eax_pt : bytes := hex "8b0a79306c9ce7ed99dae4f87f8dd61636".
Definition eax_ad : bytes := hex "65d2017990d62528".
Definition eax_ct : bytes := hex "1a8c98dcd73d38393b2bf1569deefc1902083e3979da014812f59f11d52630da30137327d10649b0aa6e1c181db617d7f2".
Definition eax_damaged : bytes := hex "1a8c98dcd73d38393b2bf1569deefc1902083e3979da014812f59f11d52630da30137327d10649b0aa6e1c181db617d7f3".
Definition with_eax (f : cc_aead -> bool) : bool := match aes_eax_new aes eax_random eax_key 16 with StOk p => f p | _ => false end.
Example C81_hypotheses_met :
  (exists p, aes_eax_new aes eax_random eax_key 16 = StOk p) /\ eax_sizes eax_pt eax_ad /\
  (forall rnd, length (eax_random rnd (Z.of_nat 16)) = 16).
Proof.
  split; [apply C81_made; vm_compute; auto |]. split; [split; vm_compute; discriminate |]. intros rnd. reflexivity.
Qed.
Example C81_vector : forall rnd,
  with_eax (fun p => st_is (ca_encrypt p rnd eax_pt eax_ad) eax_ct && st_is (ca_decrypt p eax_ct eax_ad) eax_pt)%bool = true.
Proof. intros rnd. vm_compute. reflexivity. Qed.
Example C81_damaged :
  with_eax (fun p => st_fails (ca_decrypt p eax_damaged eax_ad) && st_fails (ca_decrypt p eax_ct []) &&
    st_fails (ca_decrypt p (firstn 31 eax_ct) eax_ad))%bool = true.
Proof. vm_compute. reflexivity. Qed.
(** The vector satisfies the specification of the mode too. *)
Lemma with_eax_made : forall f p, aes_eax_new aes eax_random eax_key 16 = StOk p -> with_eax f = f p.
Proof. intros f p H. unfold with_eax. rewrite H. reflexivity. Qed.
Lemma st_is_spec : forall r b, st_is r b = true -> r = StOk b.
Proof. intros [c | e] b H; [| discriminate H]. apply bytes_eqb_spec in H. rewrite H. reflexivity. Qed.
Example C81_specified : exists nonce, nonce = hex "1a8c98dcd73d38393b2bf1569deefc19" /\ eax_ciphertext (aes eax_key) nonce eax_ad eax_pt eax_ct.
Proof.
  exists (eax_random 0%N (Z.of_nat 16)). split; [reflexivity |].
  destruct C81_hypotheses_met as ((p & H) & S & R).
  destruct (C81_encrypts aes eax_random eax_key 16 p 0%N eax_pt eax_ad C81_aes_law H S) as (C & E & HC).
  pose proof (C81_vector 0%N) as V. rewrite (with_eax_made _ p H) in V. apply andb_true_iff in V. destruct V as (V & _).
  apply st_is_spec in V. rewrite E in V. injection V as V. rewrite <- V. exact HC.
Qed.
(** Longer associated data exists, of course. *)
Example C81_too_long_met : exists P ad, ~ eax_sizes P ad.
Proof.
  exists [], (repeat x00 (N.to_nat (2 ^ 31 + 1))). intros (_ & H). rewrite repeat_length, N2Nat.id in H.
  apply (N.lt_irrefl (2 ^ 31)). apply N.lt_le_trans with (2 ^ 31 + 1)%N; [apply N.lt_add_pos_r; reflexivity | exact H].
Qed.
(** That all messages can be encrypted is not true. *)
Theorem C81_all_sizes_refuted :
  ~ (forall aes random key ns p rnd P ad, aes_law aes -> aes_eax_new aes random key ns = StOk p -> exists C, ca_encrypt p rnd P ad = StOk C).
Proof.
  intros H. destruct C81_hypotheses_met as ((p & Hp) & _). destruct C81_too_long_met as (P & ad & L).
  destruct (H _ _ _ _ p 0%N P ad C81_aes_law Hp) as (C & E).
  rewrite (C81_too_long _ _ _ _ p _ P ad C81_aes_law Hp L) in E. discriminate E.
Qed.
Print Assumptions C81_all_sizes_refuted.

(** ** C82: AES-SIV *)
Theorem C82_made : forall aes key, (exists p, aes_siv_new aes key = StOk p) <-> length key = 64.
Proof. exact aes_siv_made. Qed.
Print Assumptions C82_made.
Theorem C82_encrypts : forall aes key p P ad C, aes_law aes -> aes_siv_new aes key = StOk p ->
  (cda_encrypt p P ad = StOk C <-> siv_ciphertext (aes (firstn 32 key)) (aes (skipn 32 key)) ad P C).
Proof. exact aes_siv_encrypts. Qed.
Print Assumptions C82_encrypts.
Theorem C82_decrypts : forall aes key p P ad C, aes_law aes -> aes_siv_new aes key = StOk p ->
  (cda_decrypt p C ad = StOk P <-> siv_ciphertext (aes (firstn 32 key)) (aes (skipn 32 key)) ad P C).
Proof. exact aes_siv_decrypts. Qed.
Print Assumptions C82_decrypts.
Theorem C82_round_trip : forall aes key p P ad, aes_law aes -> aes_siv_new aes key = StOk p ->
  exists C, cda_encrypt p P ad = StOk C /\ length C = 16 + length P /\ cda_decrypt p C ad = StOk P /\
    forall C' P', cda_decrypt p C' ad = StOk P' -> cda_encrypt p P' ad = StOk C'.
Proof. exact aes_siv_round_trip. Qed.
Print Assumptions C82_round_trip.

(** RFC 5297, appendix A.1 (keys of 128 bits, which New does not take) *)
Example C82_vector :
  st_is (siv_encrypt (aes (hex "fffefdfcfbfaf9f8f7f6f5f4f3f2f1f0")) (aes (hex "f0f1f2f3f4f5f6f7f8f9fafbfcfdfeff"))
    (hex "112233445566778899aabbccddee") (hex "101112131415161718191a1b1c1d1e1f2021222324252627"))
    (hex "85632d07c6e8f37f950acd320a2ecc9340c02b9690c4dc04daef7f6afe5c") = true.
Proof. vm_compute. reflexivity. Qed.
(** A key of 512 bits, and a plaintext of more than a block *)
Definition siv_key : bytes :=
  hex "000102030405060708090a0b0c0d0e0f101112131415161718191a1b1c1d1e1f202122232425262728292a2b2c2d2e2f303132333435363738393a3b3c3d3e3f".
Example C82_hypotheses_met : exists p, aes_siv_new aes siv_key = StOk p.
Proof. apply C82_made. reflexivity. Qed.
Definition with_siv (f : cc_daead -> bool) : bool := match aes_siv_new aes siv_key with StOk p => f p | _ => false end.
Example C82_damaged :
  with_siv (fun p =>
    match cda_encrypt p (list_byte_of_string "a message of more than a block") (list_byte_of_string "ad") with
    | StOk C => Nat.eqb (length C) 46 && st_is (cda_decrypt p C (list_byte_of_string "ad")) (list_byte_of_string "a message of more than a block") &&
        st_fails (cda_decrypt p C []) && st_fails (cda_decrypt p (skipn 1 C) (list_byte_of_string "ad")) &&
        st_fails (cda_decrypt p (removelast C ++ [x00]) (list_byte_of_string "ad"))
    | _ => false end)%bool = true.
Proof. vm_compute. reflexivity. Qed.
