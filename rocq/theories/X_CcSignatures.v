(** A small library of signature schemes for the examples: digests are prefixes, and a
    signature shows the public key and the digest. Nothing here models code of /repo. *)
From Coq Require Import Strings.Byte Strings.String List NArith ZArith Bool Lia.
From Verif Require Import M_Base L_Base M_Proto M_Wire M_ProtoMsg M_KeyFormats M_Prims M_StreamTypes M_CcStream M_CcManagers M_CcAes
  M_CcStreamKeys M_CcModes M_CcSymmetric M_CcSymKeys M_CcEcies M_CcEciesKeys M_CcSignatures S_Config S_CcAes S_CcStreamKeys S_CcModes S_CcSymmetric S_CcSymKeys S_CcSymHandles S_CcEcies S_CcEciesKeys S_CcSignatures S_CcSigHandles
  L_CcSymmetric L_CcSymmetric2 L_CcSigDer X_Aes X_CcSymmetric X_CcSymKeys X_CcEcies.
Import ListNotations.
Open Scope string_scope.
Open Scope list_scope.
Open Scope nat_scope.

Definition pad (n : nat) (x : bytes) : bytes := firstn n (x ++ repeat x00 n).
Lemma pad_length : forall n x, length (pad n x) = n.
Proof. intros n x. unfold pad. rewrite firstn_length, app_length, repeat_length. lia. Qed.
Definition first_number (x : bytes) : N := match x with b :: _ => Byte.to_N b | [] => 0 end.
Definition fits (n : N) (h : hash_type) (salt : Z) : bool := (Z.of_nat (hash_size h) + salt + 2 <=? (Z.of_N (N.size n) - 1 + 7) / 8)%Z.
Definition toy_sig : sig_crypto := mk_sig_crypto
  (fun h x => pad (hash_size h) x)
  (fun c d => (d =? 1) || (d =? 2))%N
  (fun c d rnd x => Some (first_number x + 1, 2 * d)%N)
  (fun c Q x rs => ((fst rs =? first_number x + 1) && (snd rs =? fst Q) && (fst Q <? 256))%N)%bool
  (fun rnd => repeat (byte_of_N rnd) 32)
  toy_public
  (fun a x => pad 32 (toy_public a) ++ pad 32 x)
  (fun A x sig => bytes_eqb sig (pad 32 A ++ pad 32 x))
  (fun k => (rsa_n k =? rsa_p k * rsa_q k)%N)
  (fun bits e rnd => if ((2048 <=? bits) && (bits <=? 16384))%Z%bool then let q := (2 ^ Z.to_N (bits - bits mod 128 - 2))%N in Some (mk_rsa_key (2 * q) e (rnd mod 2) 2 q 1 1 1) else None)
  (fun k h x => Some (pad (modulus_size (rsa_n k)) x))
  (fun k h x sig => bytes_eqb sig (pad (modulus_size (fst k)) x))
  (fun n rnd x h mgf salt => if fits n h salt then Some (pad (modulus_size n) x) else None)
  (fun n x h mgf EM salt => fits n h salt && bytes_eqb EM (pad (modulus_size n) x))%bool
  (fun k EM => Some EM)
  (fun k sig => if Nat.eqb (length sig) (modulus_size (fst k)) then Some sig else None).
Theorem toy_sig_laws : sig_laws toy_ec toy_sig.
Proof.
  assert (B : forall c, nist c -> (257 < 256 ^ N.of_nat (coordinate_size c))%N) by (intros c [<- | [<- | [<- | []]]]; reflexivity).
  assert (FN : forall x, (first_number x < 256)%N) by (intros [| b x]; [reflexivity | destruct b; reflexivity]).
  constructor.
  - intros h x _. apply pad_length.
  - intros c d rnd x N H. cbn [ec_private_ok toy_sig] in H. exists (first_number x + 1)%N, (2 * d)%N. split; [reflexivity |]. specialize (B c N). specialize (FN x). apply orb_prop in H. destruct H as [H | H]; apply N.eqb_eq in H; lia.
  - intros c Q x r s N H. cbn [ecdsa_do_verify toy_sig fst snd] in H. apply andb_prop in H. destruct H as (H & H3). apply andb_prop in H. destruct H as (H1 & H2). apply N.eqb_eq in H1, H2. apply N.ltb_lt in H3. specialize (B c N). specialize (FN x). lia.
  - intros c d Q rnd x rs N P M S. cbn [ecdsa_do_sign ecdsa_do_verify ec_private_ok toy_sig fst snd] in *. injection S as <-. cbn [fst snd]. rewrite N.eqb_refl. cbn [ec_point_mul ec_generator toy_ec] in M. apply toy_mul_generator in M.
    apply orb_prop in P. destruct P as [P | P]; apply N.eqb_eq in P; subst d; destruct M as [(M & ->) | (M & ->)]; try discriminate M; reflexivity.
  - intros c rnd N. cbn [ec_generate_key ec_private_ok toy_ec toy_sig]. destruct (N.odd rnd); reflexivity.
  - intros rnd. apply repeat_length.
  - intros a H. cbn [ed25519_public toy_sig]. unfold toy_public. rewrite map_length. exact H.
  - intros a x H. cbn [ed25519_sign ed25519_verify ed25519_public toy_sig]. split; [rewrite app_length, !pad_length; reflexivity |]. apply bytes_eqb_spec. reflexivity.
  - intros k h x _ _ _ _ _. eexists. split; [reflexivity |]. cbn [rsa_verify toy_sig fst]. apply bytes_eqb_spec. reflexivity.
  - intros n rnd x h salt _ _ _ _. cbn [pss_add toy_sig]. unfold pss_fits, fits. destruct (Z.leb_spec (Z.of_nat (hash_size h) + salt + 2) ((Z.of_N (N.size n) - 1 + 7) / 8)) as [H | H].
    + split; [auto |]. intros _. eexists. reflexivity.
    + split; [intros (EM & K); discriminate K | intros K; lia].
  - intros k rnd x h salt EM _ _ _ _ _ _ H. cbn [pss_add pss_verify rsa_private_encrypt rsa_public_decrypt toy_sig] in *. destruct (fits (rsa_n k) h salt); [| discriminate H]. injection H as <-.
    split; [apply pad_length |]. split; [apply bytes_eqb_spec; reflexivity |]. eexists. split; [reflexivity |]. cbn [fst]. rewrite pad_length, Nat.eqb_refl. reflexivity.
  - intros bits e rnd k EX H. cbn [rsa_generate toy_sig] in H. destruct ((2048 <=? bits) && (bits <=? 16384))%Z%bool eqn:C; [| discriminate H]. apply andb_prop in C. destruct C as (C & C'). apply Z.leb_le in C, C'.
    apply (f_equal (fun o => match o with Some x => x | None => k end)) in H. cbv beta iota zeta in H. subst k. cbn [rsa_e rsa_check rsa_n rsa_p rsa_q toy_sig].
    split; [reflexivity |]. split; [apply N.eqb_refl |]. split; [lia |]. pose proof (Z.mod_pos_bound bits 128 ltac:(lia)) as MB. pose proof (Z.div_mod bits 128 ltac:(lia)) as DM. assert (16 <= bits / 128)%Z by (apply Z.div_le_lower_bound; lia).
    set (b := Z.to_N (bits - bits mod 128 - 2)). rewrite <- N.pow_succ_r'. replace (N.size (2 ^ N.succ b)) with (N.succ (N.succ b)); [unfold b; lia |].
    rewrite N.size_log2 by (apply N.pow_nonzero; discriminate). rewrite N.log2_pow2 by lia. reflexivity.
  - intros bits e rnd EX (B1 & B2). cbn [rsa_generate toy_sig]. apply Z.leb_le in B1, B2. rewrite B1, B2. eexists. reflexivity.
Qed.
Theorem toy_rsa_sizes : rsa_sizes toy_sig.
Proof.
  constructor.
  - intros n e h x sig H. cbn [rsa_verify toy_sig fst] in H. apply bytes_eqb_spec in H. subst sig. apply pad_length.
  - intros n e sig EM H. cbn [rsa_public_decrypt toy_sig fst] in H. destruct (Nat.eqb_spec (length sig) (modulus_size n)) as [E | E]; [exact E | discriminate H].
  - intros bits e rnd k H. cbn [rsa_generate toy_sig] in H. destruct ((2048 <=? bits) && (bits <=? 16384))%Z%bool; [| discriminate H].
    apply (f_equal (fun o => match o with Some x => x | None => k end)) in H. cbv beta iota zeta in H. subst k. cbn [rsa_n rsa_d rsa_p rsa_q rsa_dp rsa_dq rsa_crt].
    assert (Q : (2 ^ Z.to_N (bits - bits mod 128 - 2) <> 0)%N) by (apply N.pow_nonzero; discriminate). revert Q. generalize (2 ^ Z.to_N (bits - bits mod 128 - 2))%N. intros q Q.
    pose proof (N.mod_lt rnd 2 ltac:(discriminate)). repeat constructor; lia.
Qed.
