(** ECIES: only proper keys encrypt or decrypt, and what ends the process. *)
From Coq Require Import Strings.Byte Strings.String List NArith ZArith Bool Lia.
From Verif Require Import M_Base L_Base M_Proto M_Utf8 M_Wire L_Wire S_Wire M_ProtoMsg S_ProtoMsg L_ProtoMsg M_KeyFormats M_Prims M_StreamTypes M_CcStream M_CcManagers M_CcAes
  M_CcStreamKeys M_CcModes M_CcSymmetric M_CcSymKeys M_CcEcies S_Config S_CcAes S_CcStreamKeys S_CcModes S_CcSymmetric S_CcSymKeys S_CcSymHandles
  S_CcEcies L_CcStreamKeys L_CcModes L_CcModes4 L_CcSymmetric L_CcSymmetric2 L_CcSymKeys L_CcSymHandles L_CcEcies L_CcEcies2 L_CcEcies3 L_CcEcies4.
Import ListNotations.
Open Scope string_scope.
Open Scope list_scope.
Open Scope nat_scope.

Lemma read_text : forall fs m p, holds_all fs m -> path_type (TMsg fs) p = Some TString -> exists s, text fs m p s.
Proof. intros fs m p H P. destruct (read_path _ _ _ _ (holds_msg _ _ H) P) as (v & V & E). inversion V; subst. eexists. exact E. Qed.
Lemma known_curve_number : forall z, curve_proto_to_subtle z <> UNKNOWN_CURVE -> curve_number (curve_proto_to_subtle z) z.
Proof. intros z H. destruct z as [| q | q]; try contradiction. do 3 try (destruct q as [q | q |]; try contradiction); cbn; tauto. Qed.
Lemma known_format_number : forall z, format_proto_to_subtle z <> UNKNOWN_FORMAT -> format_number (format_proto_to_subtle z) z.
Proof. intros z H. destruct z as [| q | q]; try contradiction. do 2 try (destruct q as [q | q |]; try contradiction); cbn; tauto. Qed.
Lemma known_hash_number' : forall z, proto_to_subtle z <> UNKNOWN_HASH -> hash_number (proto_to_subtle z) z.
Proof. intros z H. destruct z as [| q | q]; try contradiction. do 3 try (destruct q as [q | q |]; try contradiction); cbn; tauto. Qed.
Lemma params_written : forall lib random fs m pre dk K o, holds_all fs m ->
  path_type (TMsg fs) (pre ++ ["kem_params"; "curve_type"]) = Some TEnum -> path_type (TMsg fs) (pre ++ ["kem_params"; "hkdf_hash_type"]) = Some TEnum ->
  path_type (TMsg fs) (pre ++ ["kem_params"; "hkdf_salt"]) = Some TBytes -> path_type (TMsg fs) (pre ++ ["ec_point_format"]) = Some TEnum ->
  path_type (TMsg fs) (pre ++ ["dem_params"; "aead_dem"; "type_url"]) = Some TString -> path_type (TMsg fs) (pre ++ ["dem_params"; "aead_dem"; "value"]) = Some TBytes ->
  let at_ := fun q => pre ++ q in
  params_curve fs at_ m <> UNKNOWN_CURVE -> params_hash fs at_ m <> UNKNOWN_HASH -> params_format fs at_ m <> UNKNOWN_FORMAT ->
  params_dem fs at_ m = StOk dk -> get_aead_or_daead lib random dk K = Some (StOk o) ->
  exists t, dem_kind t = true /\ usable t /\ dem_size t = length K /\ dk_size dk = Z.of_nat (dem_size t) /\
    has_ecies_params fs m pre (mk_ecies_params (params_curve fs at_ m) (params_hash fs at_ m) (params_salt fs at_ m) (params_format fs at_ m) t).
Proof.
  intros lib random fs m pre dk K o H T1 T2 T3 T4 T5 T6. cbn zeta. unfold params_curve, params_hash, params_format, params_salt, params_dem. intros C HH F D G.
  destruct (read_enum fs m _ H T1) as (z1 & Z1). destruct (read_enum fs m _ H T2) as (z2 & Z2). destruct (read_octets fs m _ H T3) as (s & S).
  destruct (read_enum fs m _ H T4) as (z4 & Z4). destruct (read_text fs m _ H T5) as (url & U). destruct (read_octets fs m _ H T6) as (x & V).
  rewrite (num_at_number _ _ _ _ Z1) in *. rewrite (num_at_number _ _ _ _ Z2) in *. rewrite (num_at_number _ _ _ _ Z4) in *. rewrite (bytes_at_content _ _ _ _ S), (bytes_at_content _ _ _ _ V) in *.
  assert (E : string_at fs m (pre ++ ["dem_params"; "aead_dem"; "type_url"]) = url) by (unfold string_at; rewrite U; reflexivity). rewrite E in D.
  destruct (dem_read lib random url x dk K o D G) as (t & A1 & A2 & A3 & A4 & A5 & A6 & _). exists t. split; [exact A1 |]. split; [exact A3 |]. split; [exact A5 |]. split; [exact A6 |].
  split; [exists z1; split; [exact Z1 | apply known_curve_number, C] |]. split; [exists z2; split; [exact Z2 | apply known_hash_number', HH] |].
  split; [exact S |]. split; [exists z4; split; [exact Z4 | apply known_format_number, F] |]. exists url, x. split; [exact U |]. split; [exact V | exact A2].
Qed.
Lemma symmetric_key_hash : forall ec h kem S salt info n K, ecies_hkdf_symmetric_key ec h kem S salt info n = StOk K -> h <> UNKNOWN_HASH.
Proof. intros ec h kem S salt info n K H ->. discriminate H. Qed.
Lemma bind_ok : forall A B (a : st_or A) (f : A -> st_or B) b, bind_st a f = StOk b -> exists x, a = StOk x /\ f x = StOk b.
Proof. intros A B a f b H. destruct a as [x |]; [exists x; split; [reflexivity | exact H] | discriminate H]. Qed.
Lemma bind_out_ok : forall A B (a : outcome A) (f : A -> outcome B) b, bind_out a f = Some (StOk b) -> exists x, a = Some (StOk x) /\ f x = Some (StOk b).
Proof. intros A B a f b H. destruct a as [[x |] |]; [exists x; split; [reflexivity | exact H] | discriminate H | discriminate H]. Qed.
Lemma sender_params : forall ec lib c X Y kem rnd h salt info n f kb K, ec_laws ec lib -> crypto_laws lib -> sender_kem_new ec c X Y = StOk kem ->
  kem rnd h salt info n f = Some (StOk (kb, K)) ->
  c <> UNKNOWN_CURVE /\ h <> UNKNOWN_HASH /\ f <> UNKNOWN_FORMAT /\ (c = CURVE25519 -> f = Compressed) /\ length K = n /\ n <= 255 * hash_size h.
Proof.
  intros ec lib c X Y kem rnd h salt info n f kb K L CL N H. assert (C : c <> UNKNOWN_CURVE) by (intros ->; discriminate N). split; [exact C |].
  assert (R : h <> UNKNOWN_HASH /\ f <> UNKNOWN_FORMAT /\ (c = CURVE25519 -> f = Compressed)).
  { assert (NI : nist c -> h <> UNKNOWN_HASH /\ f <> UNKNOWN_FORMAT /\ (c = CURVE25519 -> f = Compressed)).
    { intros NC. assert (E : sender_kem_new ec c X Y = nist_sender_kem ec c X Y) by (destruct NC as [<- | [<- | [<- | []]]]; reflexivity). rewrite E in N. unfold nist_sender_kem in N.
      apply bind_ok in N. destruct N as (Q & _ & N). injection N as <-. injection H as H. apply bind_ok in H. destruct H as (g & _ & H).
      destruct (ec_generate_key ec c rnd) as (e & R). apply bind_ok in H. destruct H as (kb' & EN & H). apply bind_ok in H. destruct H as (S & _ & H). apply bind_ok in H. destruct H as (K' & HK & _).
      split; [exact (symmetric_key_hash _ _ _ _ _ _ _ _ HK) |]. split; [intros ->; apply (encode_point ec lib L _ _ _ _ NC) in EN; destruct EN as (_ & []) | intros ->; destruct NC as [NC | [NC | [NC | []]]]; discriminate NC]. }
    destruct (curve_cases c C) as [NC | ->]; [exact (NI NC) |]. cbn [sender_kem_new x25519_sender_kem] in N. destruct (negb _); [discriminate N |]. destruct (negb _); [discriminate N |]. injection N as <-.
    destruct f; try discriminate H. destruct (x25519_derive ec (x25519_generate ec rnd) X); [| discriminate H]. injection H as H. apply bind_ok in H. destruct H as (K' & HK & _).
    split; [exact (symmetric_key_hash _ _ _ _ _ _ _ _ HK) |]. split; [discriminate | reflexivity]. }
  destruct R as (R1 & R2 & R3). split; [exact R1 |]. split; [exact R2 |]. split; [exact R3 |].
  pose (p := mk_ecies_params c h salt f (GcmKey [])). destruct (sender_key ec lib L CL p X Y kem rnd info n R1 R3 R2 N) as (A & _). apply A in H. destruct H as (S & _ & B). split; [apply B |].
  destruct CL as (_ & _ & LH & _). apply (hkdf_exists lib h salt (kb ++ S) info n LH R1). exists K. exact B.
Qed.
(** Whoever has encrypted a message had a proper key. *)
Theorem ecies_encrypts_only : forall ec lib random m enc rnd P info C, ec_laws ec lib -> crypto_laws lib -> holds_all EciesAeadHkdfPublicKey m ->
  ecies_encrypt_new ec lib random m = StOk enc -> enc rnd P info = Some (StOk C) ->
  exists p X Y, public_message m p X Y /\ proper p /\ public_ok ec (ep_curve p) X Y.
Proof.
  intros ec lib random m enc rnd P info C L CL HM N H. pose proof N as N0.
  destruct (read_octets EciesAeadHkdfPublicKey m ["x"] HM eq_refl) as (X & HX). destruct (read_octets EciesAeadHkdfPublicKey m ["y"] HM eq_refl) as (Y & HY).
  unfold ecies_encrypt_new in N. cbv zeta in N. destruct (encrypt_validate m); [discriminate N |]. rewrite (bytes_at_content _ _ _ _ HX), (bytes_at_content _ _ _ _ HY) in N.
  apply bind_ok in N. destruct N as (kem & K & N). apply bind_ok in N. destruct N as (dk & D & N). injection N as <-.
  apply bind_out_ok in H. destruct H as ((kb & k) & H1 & H). cbn [fst snd] in H. apply bind_out_ok in H. destruct H as (o & H2 & _).
  destruct (sender_params ec lib _ _ _ _ _ _ _ _ _ _ _ _ L CL K H1) as (A1 & A2 & A3 & A4 & A5 & A6).
  destruct (params_written lib random EciesAeadHkdfPublicKey m ["params"] dk k o HM eq_refl eq_refl eq_refl eq_refl eq_refl eq_refl A1 A2 A3 D H2) as (t & T1 & T2 & T3 & T4 & T5). cbn zeta in T5.
  eexists. exists X, Y. assert (M : public_message m _ X Y) by (split; [exact T5 | split; [exact HX | exact HY]]). split; [exact M |].
  split; [| apply (ecies_encrypt_made ec lib random m _ X Y M T1); exists (fun rnd P info => bind_out (kem rnd (params_hash EciesAeadHkdfPublicKey (cons "params") m) (params_salt EciesAeadHkdfPublicKey (cons "params") m) info
                      (Z.to_nat (dk_size dk)) (params_format EciesAeadHkdfPublicKey (cons "params") m)) (fun kem_key => bind_out (get_aead_or_daead lib random dk (snd kem_key)) (fun p => Some (bind_st (aod_encrypt p rnd P []) (fun c => StOk (fst kem_key ++ c)))))); exact N0].
  unfold proper. cbn [ep_curve ep_hash ep_format ep_dem]. repeat (split; [assumption |]). rewrite T3, A5. exact A6.
Qed.
Lemma recipient_params : forall ec lib c d kem kb h salt info n f K, ec_laws ec lib -> crypto_laws lib -> recipient_kem_new ec c d = StOk kem ->
  kem kb h salt info n f = StOk K ->
  c <> UNKNOWN_CURVE /\ h <> UNKNOWN_HASH /\ f <> UNKNOWN_FORMAT /\ (c = CURVE25519 -> f = Compressed) /\ length K = n /\ n <= 255 * hash_size h.
Proof.
  intros ec lib c d kem kb h salt info n f K L CL N H. assert (C : c <> UNKNOWN_CURVE) by (intros ->; discriminate N). split; [exact C |].
  assert (R : h <> UNKNOWN_HASH /\ f <> UNKNOWN_FORMAT /\ (c = CURVE25519 -> f = Compressed)).
  { assert (NI : nist c -> h <> UNKNOWN_HASH /\ f <> UNKNOWN_FORMAT /\ (c = CURVE25519 -> f = Compressed)).
    { intros NC. assert (E : recipient_kem_new ec c d = nist_recipient_kem ec c d) by (destruct NC as [<- | [<- | [<- | []]]]; reflexivity). rewrite E in N. unfold nist_recipient_kem in N.
      destruct (Nat.eqb (length d) 0); [discriminate N |]. apply bind_ok in N. destruct N as (Q & _ & N). injection N as <-. apply bind_ok in H. destruct H as (R & DE & H).
      apply bind_ok in H. destruct H as (S & _ & HK).
      split; [exact (symmetric_key_hash _ _ _ _ _ _ _ _ HK) |]. split; [intros ->; discriminate DE | intros ->; destruct NC as [NC | [NC | [NC | []]]]; discriminate NC]. }
    destruct (curve_cases c C) as [NC | ->]; [exact (NI NC) |]. cbn [recipient_kem_new x25519_recipient_kem] in N. destruct (negb _); [discriminate N |]. injection N as <-.
    destruct f; try discriminate H. destruct (negb _); [discriminate H |]. destruct (x25519_derive ec d kb); [| discriminate H].
    split; [exact (symmetric_key_hash _ _ _ _ _ _ _ _ H) |]. split; [discriminate | reflexivity]. }
  destruct R as (R1 & R2 & R3). split; [exact R1 |]. split; [exact R2 |]. split; [exact R3 |].
  pose (p := mk_ecies_params c h salt f (GcmKey [])). apply (recipient_key ec lib L p d kem kb info n R1 R3 R2 N) in H. destruct H as (S & _ & B). split; [apply B |].
  destruct CL as (_ & _ & LH & _). apply (hkdf_exists lib h salt (kb ++ S) info n LH R1). exists K. exact B.
Qed.
Theorem ecies_decrypts_only : forall ec lib random m dec C info P, ec_laws ec lib -> crypto_laws lib -> holds_all EciesAeadHkdfPrivateKey m ->
  ecies_decrypt_new ec lib random m = StOk dec -> dec C info = Some (StOk P) ->
  exists p d X Y, private_message m p d X Y /\ proper p /\ private_ok (ep_curve p) d X Y.
Proof.
  intros ec lib random m dec C info P L CL HM N H. assert (N0 : exists dec, ecies_decrypt_new ec lib random m = StOk dec) by (exists dec; exact N).
  destruct (read_octets EciesAeadHkdfPrivateKey m ["key_value"] HM eq_refl) as (d & HD).
  destruct (read_octets EciesAeadHkdfPrivateKey m ["public_key"; "x"] HM eq_refl) as (X & HX). destruct (read_octets EciesAeadHkdfPrivateKey m ["public_key"; "y"] HM eq_refl) as (Y & HY).
  unfold ecies_decrypt_new in N. cbv zeta in N. destruct (decrypt_validate m); [discriminate N |]. rewrite (bytes_at_content _ _ _ _ HD) in N.
  apply bind_ok in N. destruct N as (kem & K & N). apply bind_ok in N. destruct N as (dk & D & N). injection N as <-.
  destruct (ec_point_encoding_size _ _) as [hs |]; [| discriminate H]. destruct (Nat.ltb (length C) hs); [discriminate H |].
  cbn [bind_out] in H. match type of H with match ?e with _ => _ end = _ => destruct e as [k |] eqn:H1; [| discriminate H] end. apply bind_out_ok in H. destruct H as (o & H2 & _).
  destruct (recipient_params ec lib _ _ _ _ _ _ _ _ _ _ L CL K H1) as (A1 & A2 & A3 & A4 & A5 & A6).
  destruct (params_written lib random EciesAeadHkdfPrivateKey m ["public_key"; "params"] dk k o HM eq_refl eq_refl eq_refl eq_refl eq_refl eq_refl A1 A2 A3 D H2) as (t & T1 & T2 & T3 & T4 & T5). cbn zeta in T5.
  eexists. exists d, X, Y. assert (M : private_message m _ d X Y) by (split; [exact T5 | split; [exact HD | split; [exact HX | exact HY]]]). split; [exact M |].
  split; [| apply (ecies_decrypt_made ec lib random m _ d X Y M T1); exact N0].
  unfold proper. cbn [ep_curve ep_hash ep_format ep_dem]. repeat (split; [assumption |]). rewrite T3, A5. exact A6.
Qed.

(** ** What ends the process *)

(** X25519 public keys that lead to no secret, for example 32 zeros, are accepted; every
    attempt to encrypt with one ends the process. *)
Theorem low_order_crashes : forall ec lib random m p X, ec_laws ec lib -> crypto_laws lib -> random_law random ->
  public_message m p X [] -> proper p -> ep_curve p = CURVE25519 -> length X = 32 -> (forall a, length a = 32 -> x25519_derive ec a X = None) ->
  exists enc, ecies_encrypt_new ec lib random m = StOk enc /\ forall rnd P info, enc rnd P info = None.
Proof.
  intros ec lib random m p X L CL RL M PR C LX Z. pose proof PR as (_ & _ & _ & _ & D & _).
  destruct (proj2 (ecies_encrypt_made ec lib random m p X [] M D)) as (enc & E); [rewrite C; split; [exact LX | reflexivity] |]. exists enc. split; [exact E |].
  intros rnd P info. apply (ecies_encrypts ec lib random m p X [] enc L CL RL M PR E rnd P info). split; [exact C | apply Z, (law_x25519_generate _ _ L)].
Qed.
(** The sizes of the AES and of the HMAC key add up to [n] only because the sum is too large
    for 32 bits: such keys are accepted too, and every attempt to encrypt ends the process. *)
Theorem sizes_wrap_crashes : forall ec lib random m p X Y k n, ec_laws ec lib -> crypto_laws lib ->
  public_message m p X Y -> ep_dem p = CtrHmacAeadKey k -> public_ok ec (ep_curve p) X Y -> (ep_curve p = CURVE25519 -> ep_format p = Compressed) ->
  (Z.of_nat (length (aes_key k)) < 2 ^ 32)%Z -> (Z.of_nat (length (hmac_key k)) < 2 ^ 32)%Z ->
  (Z.of_nat (length (aes_key k)) + Z.of_nat (length (hmac_key k)) = 2 ^ 32 + Z.of_nat n)%Z -> n <= 255 * hash_size (ep_hash p) ->
  exists enc, ecies_encrypt_new ec lib random m = StOk enc /\ forall rnd P info, enc rnd P info = None.
Proof.
  intros ec lib random m p X Y k n L CL M DK PO FX LA LB SUM B. assert (D : dem_kind (ep_dem p) = true) by (rewrite DK; reflexivity).
  destruct (proj2 (ecies_encrypt_made ec lib random m p X Y M D) PO) as (enc & E). exists enc. split; [exact E |]. intros rnd P info.
  destruct M as (MP & HX & HY). destruct (public_params m p MP) as (A1 & A2 & A3 & A4 & A5 & _ & _ & _ & P1 & P2 & P3). cbn zeta in *. destruct (A5 D) as (dk & A6 & A7).
  rewrite DK in A7. cbn [describes] in A7. destruct A7 as (z & _ & A7).
  unfold ecies_encrypt_new in E. cbv zeta in E. rewrite A1, A2, A3, A4, A6, (bytes_at_content _ _ _ _ HX), (bytes_at_content _ _ _ _ HY) in E.
  destruct (encrypt_validate m); [discriminate E |]. destruct (sender_kem_new ec (ep_curve p) X Y) as [kem |] eqn:K; [| discriminate E]. cbn [bind_st] in E. injection E as <-.
  change (2 ^ 32)%Z with 4294967296%Z in *.
  assert (SZ : dk_size dk = Z.of_nat n).
  { rewrite A7. cbn [dk_size]. unfold uint32. rewrite SUM. symmetry. apply (Z.mod_unique _ _ 1); lia. }
  rewrite SZ, Nat2Z.id. destruct (sender_key ec lib L CL p X Y kem rnd info n P2 FX P3 K) as (B1 & _ & B3). destruct (B3 B) as [NN | ((kb & key) & NN)].
  - rewrite NN. reflexivity.
  - rewrite NN. cbn [bind_out fst snd]. apply B1 in NN. destruct NN as (S & _ & LK & _). unfold get_aead_or_daead. rewrite LK, SZ, Z.eqb_refl. cbn [negb].
    assert (TY : dk_type dk = AES_CTR_HMAC_AEAD_KEY) by (rewrite A7; reflexivity). assert (AS : dk_aes_ctr_key_size dk = Z.of_nat (length (aes_key k))) by (rewrite A7; reflexivity). rewrite TY, AS. destruct (Z.ltb_spec (Z.of_nat n) (Z.of_nat (length (aes_key k)))); [reflexivity | lia].
Qed.
(** The same when something is decrypted, as soon as the ephemeral public key is good *)
Theorem sizes_wrap_crashes_decryption : forall ec lib random m p d X Y k n, ec_laws ec lib -> crypto_laws lib ->
  private_message m p d X Y -> ep_dem p = CtrHmacAeadKey k -> private_ok (ep_curve p) d X Y -> (ep_curve p = CURVE25519 -> ep_format p = Compressed) ->
  (Z.of_nat (length (aes_key k)) < 2 ^ 32)%Z -> (Z.of_nat (length (hmac_key k)) < 2 ^ 32)%Z ->
  (Z.of_nat (length (aes_key k)) + Z.of_nat (length (hmac_key k)) = 2 ^ 32 + Z.of_nat n)%Z -> n <= 255 * hash_size (ep_hash p) ->
  exists dec, ecies_decrypt_new ec lib random m = StOk dec /\
    forall kem S rest info, recipient_secret ec p d kem S -> dec (kem ++ rest) info = None.
Proof.
  intros ec lib random m p d X Y k n L CL M DK PO FX LA LB SUM B. assert (D : dem_kind (ep_dem p) = true) by (rewrite DK; reflexivity).
  destruct (proj2 (ecies_decrypt_made ec lib random m p d X Y M D) PO) as (dec & E). exists dec. split; [exact E |]. intros kb S rest info RS.
  destruct M as (MP & HD & HX & HY). destruct (private_params m p MP) as (A1 & A2 & A3 & A4 & A5 & _ & _ & _ & P1 & P2 & P3). cbn zeta in *. destruct (A5 D) as (dk & A6 & A7).
  rewrite DK in A7. cbn [describes] in A7. destruct A7 as (z & _ & A7).
  unfold ecies_decrypt_new in E. cbv zeta in E. rewrite A1, A2, A3, A4, A6, (bytes_at_content _ _ _ _ HD) in E.
  destruct (decrypt_validate m); [discriminate E |]. destruct (recipient_kem_new ec (ep_curve p) d) as [kem |] eqn:K; [| discriminate E]. cbn [bind_st] in E. injection E as <-.
  change (2 ^ 32)%Z with 4294967296%Z in *.
  assert (SZ : dk_size dk = Z.of_nat n).
  { rewrite A7. cbn [dk_size]. unfold uint32. rewrite SUM. symmetry. apply (Z.mod_unique _ _ 1); lia. }
  rewrite (header_size p P1 P3), SZ, Nat2Z.id. pose proof (recipient_secret_size _ _ _ _ _ P1 RS) as LK. rewrite app_length, LK.
  destruct (Nat.ltb_spec (kem_size p + length rest) (kem_size p)); [lia |]. rewrite (proj1 (cut_app kb rest _ LK)).
  destruct CL as (_ & _ & LH & _). destruct (proj2 (hkdf_exists lib (ep_hash p) (ep_salt p) (kb ++ S) info n LH P2) B) as (key & HK).
  assert (KE : kem kb (ep_hash p) (ep_salt p) info n (ep_format p) = StOk key) by (apply (recipient_key ec lib L p d kem kb info n P2 FX P3 K); exists S; split; assumption).
  rewrite KE. cbn [bind_out]. unfold get_aead_or_daead. rewrite (proj1 HK), SZ, Z.eqb_refl. cbn [negb].
  assert (TY : dk_type dk = AES_CTR_HMAC_AEAD_KEY) by (rewrite A7; reflexivity). assert (AS : dk_aes_ctr_key_size dk = Z.of_nat (length (aes_key k))) by (rewrite A7; reflexivity). rewrite TY, AS. destruct (Z.ltb_spec (Z.of_nat n) (Z.of_nat (length (aes_key k)))); [reflexivity | lia].
Qed.
