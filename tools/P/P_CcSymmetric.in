(** C83, C84: the other AEADs, the MACs and the PRFs in the C++ library. *)
From Coq Require Import Strings.Byte Strings.String List NArith ZArith Bool Lia.
From Verif Require Import M_Base L_Base M_Prims M_StreamTypes M_CcStream M_CcManagers M_CcAes M_CcModes M_CcSymmetric
  S_CcAes S_CcModes S_CcSymmetric L_CcModes L_CcModes2 L_CcModes3 L_CcModes4 L_CcSymmetric L_CcSymmetric2 X_Aes X_CcSymmetric.
Import ListNotations.
Open Scope string_scope.
Open Scope list_scope.
Open Scope nat_scope.

(** The laws are those of some library. *)
Example C83_laws_met : crypto_laws sym_toy.
Proof. exact sym_toy_laws. Qed.

(** ** C83: AES-GCM, AES-GCM-SIV, XChaCha20-Poly1305 *)
@thm C83_made one_shot_made
@thm C83_encrypts one_shot_encrypts
@thm C83_decrypts one_shot_decrypts
@thm C83_round_trip one_shot_round_trip
@thm C83_unambiguous sealed_unambiguous

Definition st_is (r : st_or bytes) (b : bytes) : bool := match r with StOk c => bytes_eqb c b | _ => false end.
Definition st_fails {A} (r : st_or A) : bool := match r with StOk _ => false | _ => true end.
Definition sym_random (rnd : coins) (n : Z) : bytes := repeat (byte_of_N rnd) (Z.to_nat n).
Definition key32 : bytes := hex "000102030405060708090a0b0c0d0e0f101112131415161718191a1b1c1d1e1f".
Definition msg : bytes := list_byte_of_string "a message of more than a block".
Definition ad0 : bytes := list_byte_of_string "associated data".
Example C83_hypotheses_met : forall alg rnd,
  (exists p, one_shot_new sym_toy sym_random alg key32 = StOk p) /\ aead_law sym_toy alg /\ aead_sizes msg ad0 /\
  length (sym_random rnd (Z.of_nat (alg_nonce_size alg))) = alg_nonce_size alg.
Proof.
  intros alg rnd. split; [apply C83_made; destruct alg; vm_compute; auto |]. split; [apply C83_laws_met |].
  split; [split; vm_compute; [discriminate | reflexivity] |]. unfold sym_random. rewrite repeat_length. apply Nat2Z.id.
Qed.
Definition tampering_detected (p : cc_aead) (size : nat) : bool :=
  match ca_encrypt p 5%N msg ad0 with
  | StOk C =>
      Nat.eqb (length C) (length msg + size) && st_is (ca_decrypt p C ad0) msg && st_fails (ca_decrypt p C []) &&
      st_fails (ca_decrypt p (skipn 1 C) ad0) && st_fails (ca_decrypt p (x00 :: skipn 1 C) ad0) &&
      st_fails (ca_decrypt p (removelast C ++ [x01]) ad0) && st_fails (ca_decrypt p (firstn 11 C) ad0)
  | _ => false
  end%bool.
Example C83_concrete :
  forallb (fun '(alg, size) =>
    match one_shot_new sym_toy sym_random alg key32 with StOk p => tampering_detected p size | _ => false end)
    [(AesGcm, 28); (AesGcmSiv, 28); (XChaCha20Poly1305, 40)] = true.
Proof. vm_compute. reflexivity. Qed.

(** *** AES-CTR with HMAC *)
@thm C83_ctr_hmac_made ctr_hmac_made
@thm C83_ctr_hmac_encrypts ctr_hmac_encrypts
@thm C83_ctr_hmac_decrypts ctr_hmac_decrypts
@thm C83_ctr_hmac_round_trip ctr_hmac_round_trip
@thm C83_ctr_hmac_unambiguous ctr_hmac_unambiguous
@thm C83_authenticated_injective authenticated_injective
@thm C83_encrypt_then_mac_decrypts eta_decrypts

Definition eta_key : ctr_hmac_key := mk_ctr_hmac_key (firstn 16 key32) 12 key32 SHA256 16.
Example C83_ctr_hmac_hypotheses_met : forall rnd,
  (exists p, ctr_hmac_new sym_toy sym_random eta_key = StOk p) /\ hmac_size_law sym_toy /\ ctr_hmac_sizes msg ad0 /\
  length (sym_random rnd (Z.of_nat (iv_size eta_key))) = iv_size eta_key.
Proof.
  intros rnd. split; [apply C83_ctr_hmac_made; vm_compute; intuition |]. split; [apply C83_laws_met |].
  split; [split; vm_compute; reflexivity |]. reflexivity.
Qed.
Example C83_ctr_hmac_concrete :
  match ctr_hmac_new sym_toy sym_random eta_key with StOk p => tampering_detected p 28 | _ => false end = true.
Proof. vm_compute. reflexivity. Qed.
(** Moving a byte from the associated data to the ciphertext is noticed. *)
Example C83_authenticated_example : authenticated [x61] [x62; x63] <> authenticated [x61; x62] [x63].
Proof. intros E. apply C83_authenticated_injective in E; [destruct E; discriminate | reflexivity | reflexivity]. Qed.
(** That all messages can be encrypted is not true of AES-CTR with HMAC: 2^31 bytes cannot. *)
Theorem C83_all_sizes_refuted :
  ~ (forall lib random k p rnd P ad, crypto_laws lib -> ctr_hmac_new lib random k = StOk p ->
       length (random rnd (Z.of_nat (iv_size k))) = iv_size k -> exists C, ca_encrypt p rnd P ad = StOk C).
Proof.
  intros H. destruct (C83_ctr_hmac_hypotheses_met 5%N) as ((p & Hp) & HL & _ & R).
  destruct (H sym_toy sym_random eta_key p 5%N (repeat x00 (N.to_nat (2 ^ 31))) [] C83_laws_met Hp R) as (C & E).
  apply (C83_ctr_hmac_encrypts _ _ _ _ _ _ _ _ Hp HL R) in E. destruct E as ((L & _) & _).
  rewrite repeat_length, N2Nat.id in L. exact (N.lt_irrefl _ L).
Qed.
Print Assumptions C83_all_sizes_refuted.

(** ** C84: MACs and PRFs *)
@thm C84_hmac_made hmac_made
@thm C84_hmac_computes hmac_computes
@thm C84_cmac_made cmac_made
@thm C84_cmac_computes cmac_computes
@thm C84_hmac_prf_output hmac_prf_output
@thm C84_cmac_prf_output cmac_prf_output
@thm C84_hkdf_prf_made hkdf_prf_made
@thm C84_hkdf_prf_output hkdf_prf_output
@thm C84_hkdf_prf_wraps hkdf_prf_wraps

Example C84_macs_made :
  (exists m, hmac_new sym_toy SHA512 20 key32 = StOk m) /\ (exists m, cmac_new sym_toy key32 12 = StOk m) /\
  hmac_size_law sym_toy /\ aes_law (aes_encrypt sym_toy) /\ cmac_law sym_toy.
Proof.
  split; [apply C84_hmac_made; split; [discriminate |]; vm_compute; intuition |].
  split; [apply C84_cmac_made; vm_compute; intuition |]. split; [| split]; apply C83_laws_met.
Qed.
Definition forgery_detected (m : cc_mac) (size : nat) : bool :=
  match cm_compute m msg with
  | StOk tag =>
      Nat.eqb (length tag) size && negb (st_fails (cm_verify m tag msg)) && st_fails (cm_verify m tag ad0) &&
      st_fails (cm_verify m (removelast tag) msg) && st_fails (cm_verify m (tag ++ [x00]) msg) && st_fails (cm_verify m [] msg)
  | _ => false
  end%bool.
Example C84_macs_concrete :
  (match hmac_new sym_toy SHA512 20 key32 with StOk m => forgery_detected m 20 | _ => false end &&
   match cmac_new sym_toy key32 12 with StOk m => forgery_detected m 12 | _ => false end)%bool = true.
Proof. vm_compute. reflexivity. Qed.
(** RFC 4493, section 4, example 2 *)
Example C84_cmac_vector :
  match cmac_new sym_toy (hex "2b7e151628aed2a6abf7158809cf4f3c") 16 with
  | StOk m => st_is (cm_compute m (hex "6bc1bee22e409f96e93d7e117393172a")) (hex "070a16b46b4d4144f79bdd9dd04a287c")
  | _ => false end = true.
Proof. vm_compute. reflexivity. Qed.

Definition toy_hkdf : st_or cc_prf := hkdf_prf_new sym_toy SHA256 key32 ad0.
Example C84_hkdf_made : exists p, toy_hkdf = StOk p.
Proof. apply C84_hkdf_prf_made. vm_compute. intuition. Qed.
Definition prf_outputs (r : st_or cc_prf) (good : N) : bool :=
  match r with
  | StOk p =>
      match cp_compute p msg good with
      | StOk o => N.eqb (N.of_nat (length o)) good && st_is (cp_compute p msg 5) (firstn 5 o)
      | _ => false end
  | _ => false
  end%bool.
Example C84_prfs_concrete :
  let hmac_prf := prf_from_stateful_mac (stateful_hmac sym_toy SHA256 32 key32) in
  let cmac_prf := prf_from_stateful_mac (stateful_cmac sym_toy 16 key32) in
  (prf_outputs toy_hkdf 70 && prf_outputs (StOk hmac_prf) 32 && st_fails (cp_compute hmac_prf msg 33) &&
   prf_outputs (StOk cmac_prf) 16 && st_fails (cp_compute cmac_prf msg 17))%bool = true.
Proof. vm_compute. reflexivity. Qed.
Example C84_hkdf_too_long : forall p, toy_hkdf = StOk p ->
  cp_compute p msg 8161 = StErr OutOfRange /\ exists o, cp_compute p msg 8160 = StOk o.
Proof.
  intros p Hp. destruct C84_macs_made as (_ & _ & L & _). split.
  - apply (proj2 (proj2 (C84_hkdf_prf_output _ _ _ _ p msg 8161%N Hp L eq_refl))). reflexivity.
  - apply (proj1 (proj2 (C84_hkdf_prf_output _ _ _ _ p msg 8160%N Hp L eq_refl))). apply N.eq_le_incl. vm_compute. reflexivity.
Qed.
(** That the HKDF PRF returns as many bytes as it has been asked for, or fails, is not true:
    for 2^31 bytes it returns none, for 2^32 + 5 it returns 5. *)
Theorem C84_length_refuted :
  ~ (forall lib h key salt p x n o, crypto_laws lib -> hkdf_prf_new lib h key salt = StOk p ->
       cp_compute p x n = StOk o -> N.of_nat (length o) = n).
Proof.
  intros H. destruct C84_hkdf_made as (p & Hp).
  pose proof (proj1 (C84_hkdf_prf_wraps _ _ _ _ p msg (2 ^ 31)%N _ Hp eq_refl)) as E.
  assert (L : (2 ^ 31 <= 2 ^ 31 mod 2 ^ 32)%N) by (vm_compute; discriminate).
  specialize (H _ _ _ _ p msg (2 ^ 31)%N _ C83_laws_met Hp (E L)). discriminate H.
Qed.
Print Assumptions C84_length_refuted.
