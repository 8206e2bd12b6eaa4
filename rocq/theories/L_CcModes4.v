(** AES-EAX and AES-SIV as objects. *)
From Coq Require Import Strings.Byte Strings.String List NArith ZArith Bool Lia.
From Verif Require Import M_Base M_Prims M_StreamTypes M_CcStream M_CcManagers M_CcModes S_CcModes L_Base L_CcModes L_CcModes2 L_CcModes3.
Import ListNotations.
Open Scope list_scope.
Open Scope nat_scope.

Lemma size_two : forall n a b, (Nat.eqb n a || Nat.eqb n b)%bool = true <-> n = a \/ n = b.
Proof. intros. rewrite orb_true_iff, !Nat.eqb_eq. reflexivity. Qed.
Theorem aes_eax_made : forall aes random key ns,
  (exists p, aes_eax_new aes random key ns = StOk p) <-> In (length key) [16; 32]%nat /\ In ns [12; 16]%nat.
Proof.
  intros aes random key ns. unfold aes_eax_new.
  destruct (Nat.eqb (length key) 16 || Nat.eqb (length key) 32)%bool eqn:K; cbn [negb].
  2: { split; [intros (p & H); discriminate |]. intros ([H | [H | []]] & _); rewrite <- H in K; discriminate. }
  apply size_two in K.
  destruct (Nat.eqb ns 12 || Nat.eqb ns 16)%bool eqn:I; cbn [negb].
  2: { split; [intros (p & H); discriminate |]. intros (_ & [H | [H | []]]); rewrite <- H in I; discriminate. }
  apply size_two in I.
  assert (Z : aes_key_size_ok (length key) = true) by (destruct K as [-> | ->]; reflexivity). rewrite Z. cbn [negb].
  split; [intros _; split; [destruct K as [-> | ->] | destruct I as [-> | ->]]; cbn; tauto | intros _; eexists; reflexivity].
Qed.
Lemma aes_eax_inv : forall aes random key ns p, aes_eax_new aes random key ns = StOk p ->
  p = mk_cc_aead (fun rnd plaintext associated_data => eax_encrypt (aes key) (random rnd (Z.of_nat ns)) plaintext associated_data) (eax_decrypt (aes key) ns) /\
  In (length key) [16; 24; 32]%nat.
Proof.
  intros aes random key ns p H.
  assert (X : In (length key) [16; 32]%nat) by (apply (aes_eax_made aes random key ns); eexists; exact H). unfold aes_eax_new in H.
  destruct (negb (Nat.eqb (length key) 16 || Nat.eqb (length key) 32)); [discriminate |].
  destruct (negb (Nat.eqb ns 12 || Nat.eqb ns 16)); [discriminate |]. destruct (negb (aes_key_size_ok (length key))); [discriminate |].
  injection H as <-. split; [reflexivity |]. cbn in *. tauto.
Qed.
Theorem aes_eax_encrypts : forall aes random key ns p rnd P ad, aes_law aes -> aes_eax_new aes random key ns = StOk p ->
  eax_sizes P ad ->
  exists C, ca_encrypt p rnd P ad = StOk C /\ eax_ciphertext (aes key) (random rnd (Z.of_nat ns)) ad P C.
Proof.
  intros aes random key ns p rnd P ad L H S. destruct (aes_eax_inv _ _ _ _ _ H) as (-> & K). cbn [ca_encrypt].
  apply (eax_encrypt_spec (aes key) (L key K)). exact S.
Qed.
Theorem aes_eax_too_long : forall aes random key ns p rnd P ad, aes_law aes -> aes_eax_new aes random key ns = StOk p ->
  ~ eax_sizes P ad -> ca_encrypt p rnd P ad = StErr Undefined.
Proof.
  intros aes random key ns p rnd P ad L H S. destruct (aes_eax_inv _ _ _ _ _ H) as (-> & K). cbn [ca_encrypt].
  apply (eax_encrypt_spec (aes key) (L key K)). exact S.
Qed.
Theorem aes_eax_decrypts : forall aes random key ns p C ad P, aes_law aes -> aes_eax_new aes random key ns = StOk p ->
  (ca_decrypt p C ad = StOk P <-> eax_sizes P ad /\ exists nonce, length nonce = ns /\ eax_ciphertext (aes key) nonce ad P C).
Proof.
  intros aes random key ns p C ad P L H. destruct (aes_eax_inv _ _ _ _ _ H) as (-> & K). cbn [ca_decrypt].
  apply (eax_decrypt_spec (aes key) (L key K)).
Qed.
Theorem aes_eax_round_trip : forall aes random key ns p rnd P ad, aes_law aes -> aes_eax_new aes random key ns = StOk p ->
  length (random rnd (Z.of_nat ns)) = ns -> eax_sizes P ad ->
  exists C, ca_encrypt p rnd P ad = StOk C /\ length C = ns + length P + 16 /\ ca_decrypt p C ad = StOk P.
Proof.
  intros aes random key ns p rnd P ad L H R S. destruct (aes_eax_encrypts _ _ _ _ _ rnd P ad L H S) as (C & E & HC).
  exists C. split; [exact E |]. destruct (aes_eax_inv _ _ _ _ _ H) as (_ & K). split.
  - rewrite (eax_ciphertext_length (aes key) (L key K) _ _ _ _ HC), R. reflexivity.
  - apply (aes_eax_decrypts aes random key ns p C ad P L H). split; [exact S |]. eexists. split; [exact R | exact HC].
Qed.
Theorem eax_unambiguous : forall E nonce nonce' ad P P' C, block_cipher E -> length nonce = length nonce' ->
  eax_ciphertext E nonce ad P C -> eax_ciphertext E nonce' ad P' C -> nonce = nonce' /\ P = P'.
Proof.
  intros E nonce nonce' ad P P' C HE Ln H H'.
  pose proof (eax_ciphertext_length E HE _ _ _ _ H) as L1. pose proof (eax_ciphertext_length E HE _ _ _ _ H') as L2.
  destruct H as (n & h & c & t & Hn & Hh & Hc & Ht & EC). destruct H' as (n' & h' & c' & t' & Hn' & Hh' & Hc' & Ht' & EC').
  rewrite EC in EC'. apply app_len_inj in EC'; [| exact Ln]. destruct EC' as (-> & X).
  apply app_len_inj in X; [| rewrite (proj1 Hc), (proj1 Hc'); lia]. destruct X as (-> & _).
  rewrite (cmac_fun _ _ _ _ Hn' Hn) in Hc'. split; [reflexivity |].
  exact (ctr_mode_fun _ _ _ _ _ (ctr_mode_sym _ _ _ _ Hc) (ctr_mode_sym _ _ _ _ Hc')).
Qed.

Theorem aes_siv_made : forall aes key, (exists p, aes_siv_new aes key = StOk p) <-> length key = 64.
Proof.
  intros aes key. unfold aes_siv_new. destruct (Nat.eqb (length key) 64) eqn:K; cbn [negb].
  - apply Nat.eqb_eq in K. rewrite firstn_length, skipn_length, K. cbn. split; [reflexivity | intros _; eexists; reflexivity].
  - apply Nat.eqb_neq in K. split; [intros (p & H); discriminate | intros H; contradiction].
Qed.
Lemma aes_siv_inv : forall aes key p, aes_siv_new aes key = StOk p ->
  p = mk_cc_daead (siv_encrypt (aes (firstn 32 key)) (aes (skipn 32 key))) (siv_decrypt (aes (firstn 32 key)) (aes (skipn 32 key))) /\
  In (length (firstn 32 key)) [16; 24; 32]%nat.
Proof.
  intros aes key p H. assert (K : length key = 64) by (apply (aes_siv_made aes key); eexists; exact H).
  unfold aes_siv_new in H. rewrite !firstn_length, !skipn_length, K in H. cbn in H. injection H as <-. split; [reflexivity |].
  rewrite firstn_length, K. cbn. tauto.
Qed.
Theorem aes_siv_encrypts : forall aes key p P ad C, aes_law aes -> aes_siv_new aes key = StOk p ->
  (cda_encrypt p P ad = StOk C <-> siv_ciphertext (aes (firstn 32 key)) (aes (skipn 32 key)) ad P C).
Proof.
  intros aes key p P ad C L H. destruct (aes_siv_inv _ _ _ H) as (-> & K). cbn [cda_encrypt]. apply siv_encrypt_spec. exact (L _ K).
Qed.
Theorem aes_siv_decrypts : forall aes key p P ad C, aes_law aes -> aes_siv_new aes key = StOk p ->
  (cda_decrypt p C ad = StOk P <-> siv_ciphertext (aes (firstn 32 key)) (aes (skipn 32 key)) ad P C).
Proof.
  intros aes key p P ad C L H. destruct (aes_siv_inv _ _ _ H) as (-> & K). cbn [cda_decrypt]. apply siv_decrypt_spec. exact (L _ K).
Qed.
Theorem aes_siv_round_trip : forall aes key p P ad, aes_law aes -> aes_siv_new aes key = StOk p ->
  exists C, cda_encrypt p P ad = StOk C /\ length C = 16 + length P /\ cda_decrypt p C ad = StOk P /\
    forall C' P', cda_decrypt p C' ad = StOk P' -> cda_encrypt p P' ad = StOk C'.
Proof.
  intros aes key p P ad L H.
  assert (X : exists C, cda_encrypt p P ad = StOk C) by (destruct (aes_siv_inv _ _ _ H) as (-> & K); eexists; reflexivity).
  destruct X as (C & X). exists C. split; [exact X |]. pose proof (proj1 (aes_siv_encrypts _ _ _ _ _ _ L H) X) as Y. split; [| split].
  - destruct (aes_siv_inv _ _ _ H) as (_ & K). exact (siv_ciphertext_length _ _ (L _ K) _ _ _ Y).
  - apply (aes_siv_decrypts _ _ _ _ _ _ L H). exact Y.
  - intros C' P' D. apply (aes_siv_encrypts _ _ _ _ _ _ L H). apply (aes_siv_decrypts _ _ _ _ _ _ L H). exact D.
Qed.
