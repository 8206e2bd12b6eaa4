(** A library of cryptography for the examples: AES and CMAC are the real ones, the rest are
    checksums, which obey the laws and hide nothing. *)
From Coq Require Import Strings.Byte Strings.String List NArith ZArith Bool Lia.
From Verif Require Import M_Base L_Base M_Prims M_StreamTypes M_CcStream M_CcManagers M_CcAes M_CcModes M_CcSymmetric
  S_CcAes S_CcModes S_CcSymmetric L_CcModes L_CcModes2 L_CcModes3 L_CcModes4 X_Aes.
Import ListNotations.
Open Scope list_scope.
Open Scope nat_scope.

Definition checksum (data : bytes) : N :=
  fold_left (fun a b => (a * 257 + Byte.to_N b + 1) mod 340282366920938463463374607431768211297)%N data 7%N.
Definition check_bytes (size : nat) (parts : list bytes) : bytes :=
  rev (be_bytes size (checksum (concat (map (fun p => be_bytes 4 (N.of_nat (length p)) ++ p) parts)))).
Definition alg_name (alg : evp_aead) : bytes := match alg with AesGcm => [x01] | AesGcmSiv => [x02] | XChaCha20Poly1305 => [x03] end.
Definition toy_tag (alg : evp_aead) (key nonce P ad : bytes) : bytes := check_bytes 16 [alg_name alg; key; nonce; ad; P].
Definition sym_toy : crypto := mk_crypto aes
  (fun alg key nonce P ad => Some (P ++ toy_tag alg key nonce P ad))
  (fun alg key nonce C ad =>
     let P := firstn (length C - 16) C in
     if bytes_eqb (P ++ toy_tag alg key nonce P ad) C then Some P else None)
  (fun h key data => check_bytes (hash_size h) [key; data])
  (fun key data => siv_cmac (aes key) data).
Lemma check_bytes_length : forall n ps, length (check_bytes n ps) = n.
Proof. intros. unfold check_bytes. rewrite rev_length. apply be_bytes_length. Qed.
Theorem sym_toy_laws : crypto_laws sym_toy.
Proof.
  split; [intros key _; apply aes_block_cipher |]. split; [| split].
  - intros alg key nonce ad _ _. cbn [evp_seal evp_open sym_toy]. split; [intros P _; eexists; reflexivity |]. split.
    + intros P C E. injection E as <-. rewrite app_length. unfold toy_tag. rewrite check_bytes_length. reflexivity.
    + intros P C. cbv zeta. split.
      * destruct (bytes_eqb _ C) eqn:B; [| discriminate]. intros E. injection E as E. rewrite E in B.
        apply bytes_eqb_spec in B. rewrite B. reflexivity.
      * intros E. injection E as <-. set (T := toy_tag alg key nonce P ad).
        assert (F : firstn (length (P ++ T) - 16) (P ++ T) = P).
        { rewrite app_length. unfold T, toy_tag. rewrite check_bytes_length, Nat.add_sub.
          rewrite firstn_app, firstn_all, Nat.sub_diag. cbn [firstn]. apply app_nil_r. }
        rewrite F. fold T. rewrite (proj2 (bytes_eqb_spec _ _) eq_refl). reflexivity.
  - intros h key data. apply check_bytes_length.
  - intros key data _. cbn [aes_encrypt evp_cmac sym_toy]. apply siv_cmac_spec. apply aes_block_cipher.
Qed.
