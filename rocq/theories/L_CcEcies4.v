(** ECIES: what is encrypted, what is decrypted, and what goes wrong. *)
From Coq Require Import Strings.Byte Strings.String List NArith ZArith Bool Lia.
From Verif Require Import M_Base L_Base M_Proto M_Utf8 M_Wire L_Wire S_Wire M_ProtoMsg S_ProtoMsg L_ProtoMsg M_KeyFormats M_Prims M_StreamTypes M_CcStream M_CcManagers M_CcAes
  M_CcStreamKeys M_CcModes M_CcSymmetric M_CcSymKeys M_CcEcies S_Config S_CcAes S_CcStreamKeys S_CcModes S_CcSymmetric S_CcSymKeys S_CcSymHandles
  S_CcEcies L_CcStreamKeys L_CcModes L_CcModes4 L_CcSymmetric L_CcSymmetric2 L_CcSymKeys L_CcSymHandles L_CcEcies L_CcEcies2 L_CcEcies3.
Import ListNotations.
Open Scope string_scope.
Open Scope list_scope.
Open Scope nat_scope.

(** ** Points *)
Theorem point_decodes : forall ec lib c f x Q, ec_laws ec lib -> nist c ->
  (ec_point_decode ec c f x = StOk Q <-> point_encoding ec c f Q x) /\ (ec_point_encode ec c f Q = StOk x <-> point_encoding ec c f Q x).
Proof. intros ec lib c f x Q L N. split; [exact (decode_point ec lib L c f x Q N) | exact (encode_point ec lib L c f Q x N)]. Qed.
Theorem point_round_trip : forall ec lib c f Q, ec_laws ec lib -> nist c -> f <> UNKNOWN_FORMAT -> ec_on_curve ec c Q = true ->
  exists x, ec_point_encode ec c f Q = StOk x /\ ec_point_decode ec c f x = StOk Q /\ ec_point_encoding_size c f = StOk (length x).
Proof.
  intros ec lib c f Q L N F O.
  assert (E : exists x, point_encoding ec c f Q x) by (destruct f; try contradiction; eexists; (split; [exact O | reflexivity])).
  destruct E as (x & E). exists x. split; [apply (encode_point ec lib L c f Q x N), E |]. split; [apply (decode_point ec lib L c f x Q N), E |].
  rewrite (encoding_length ec c f Q x E). unfold ec_point_encoding_size, ec_field_size. destruct N as [<- | [<- | [<- | []]]]; destruct f; try contradiction; reflexivity.
Qed.

(** ** Encryption *)
Lemma public_params : forall m p, has_ecies_params EciesAeadHkdfPublicKey m ["params"] p ->
  let fs := EciesAeadHkdfPublicKey in let at_ := cons "params" in
  params_curve fs at_ m = ep_curve p /\ params_format fs at_ m = ep_format p /\ params_hash fs at_ m = ep_hash p /\ params_salt fs at_ m = ep_salt p /\
  (dem_kind (ep_dem p) = true -> exists dk, params_dem fs at_ m = StOk dk /\ describes dk (ep_dem p)) /\
  (params_are_25519 fs at_ m = true <-> ep_curve p = CURVE25519) /\ has_at fs m ["params"] = true /\ validate_params fs at_ m = None /\
  ep_curve p <> UNKNOWN_CURVE /\ ep_hash p <> UNKNOWN_HASH /\ ep_format p <> UNKNOWN_FORMAT.
Proof. intros m p H. exact (params_read EciesAeadHkdfPublicKey m ["params"] p eq_refl eq_refl eq_refl eq_refl H). Qed.
Lemma private_params : forall m p, has_ecies_params EciesAeadHkdfPrivateKey m ["public_key"; "params"] p ->
  let fs := EciesAeadHkdfPrivateKey in let at_ := fun q => "public_key" :: "params" :: q in
  params_curve fs at_ m = ep_curve p /\ params_format fs at_ m = ep_format p /\ params_hash fs at_ m = ep_hash p /\ params_salt fs at_ m = ep_salt p /\
  (dem_kind (ep_dem p) = true -> exists dk, params_dem fs at_ m = StOk dk /\ describes dk (ep_dem p)) /\
  (params_are_25519 fs at_ m = true <-> ep_curve p = CURVE25519) /\ has_at fs m ["public_key"; "params"] = true /\ validate_params fs at_ m = None /\
  ep_curve p <> UNKNOWN_CURVE /\ ep_hash p <> UNKNOWN_HASH /\ ep_format p <> UNKNOWN_FORMAT.
Proof. intros m p H. exact (params_read EciesAeadHkdfPrivateKey m ["public_key"; "params"] p eq_refl eq_refl eq_refl eq_refl H). Qed.
Lemma encrypt_validated : forall m p X Y, public_message m p X Y ->
  (encrypt_validate m = None <-> X <> [] /\ (ep_curve p = CURVE25519 <-> Y = [])).
Proof.
  intros m p X Y (P & HX & HY). destruct (public_params m p P) as (_ & _ & _ & _ & _ & A & B & _). cbn zeta in A, B.
  unfold encrypt_validate. cbv zeta. rewrite B, and_then_none, check_none. pose proof (empty_at_octets _ _ _ _ HX) as EX. pose proof (empty_at_octets _ _ _ _ HY) as EY.
  destruct (empty_at EciesAeadHkdfPublicKey m ["x"]); cbn [orb negb].
  - split; [intros (H & _); discriminate H | intros (H & _); elim H; apply EX; reflexivity].
  - assert (X <> []) by (intros H; apply EX in H; discriminate H).
    destruct (params_are_25519 EciesAeadHkdfPublicKey (cons "params") m); rewrite check_none.
    + assert (E : ep_curve p = CURVE25519) by (apply A; reflexivity). destruct (empty_at EciesAeadHkdfPublicKey m ["y"]); cbn [negb]; tauto || (split; [intros (_ & H'); discriminate H' | intros (_ & H'); apply H' in E; apply EY in E; discriminate E]).
    + assert (E : ep_curve p <> CURVE25519) by (intros E; apply A in E; discriminate E). destruct (empty_at EciesAeadHkdfPublicKey m ["y"]); [| assert (Y <> []) by (intros H'; apply EY in H'; discriminate H')]; tauto || (split; [intros (_ & H'); discriminate H' | intros (_ & H'); elim E; apply H', EY; reflexivity]).
Qed.
Theorem ecies_encrypt_made : forall ec lib random m p X Y, public_message m p X Y -> dem_kind (ep_dem p) = true ->
  ((exists enc, ecies_encrypt_new ec lib random m = StOk enc) <-> public_ok ec (ep_curve p) X Y).
Proof.
  intros ec lib random m p X Y M D. pose proof (encrypt_validated m p X Y M) as V. destruct M as (P & HX & HY).
  destruct (public_params m p P) as (A1 & _ & _ & _ & A5 & _). cbn zeta in *. destruct (A5 D) as (dk & A6 & _). pose proof (sender_new ec (ep_curve p) X Y) as S.
  unfold ecies_encrypt_new. cbv zeta. rewrite A1, A6, (bytes_at_content _ _ _ _ HX), (bytes_at_content _ _ _ _ HY).
  destruct (encrypt_validate m) as [s |].
  - split; [intros (e & H); discriminate H |]. intros H. assert (W : X <> [] /\ (ep_curve p = CURVE25519 <-> Y = [])); [| apply V in W; discriminate W].
    unfold public_ok in H. destruct (ep_curve p); try contradiction; (split; [| split; intros E; try discriminate E; try tauto]); try tauto. intros E. rewrite E in H. destruct H as (H & _). discriminate H.
  - destruct (proj1 V eq_refl) as (V1 & V2). rewrite <- S. destruct (sender_kem_new ec (ep_curve p) X Y) as [k |]; cbn [bind_st].
    + split; [intros _ | intros _; eexists; reflexivity]. split; [eexists; reflexivity |].
      destruct (ep_curve p); try (left; reflexivity); right; (split; [exact V1 | intros H; apply V2 in H; discriminate H]).
    + split; [intros (e & H); discriminate H | intros ((k & H) & _); discriminate H].
Qed.
Lemma proper_size : forall p, proper p -> (Z.of_nat (dem_size (ep_dem p)) < 2 ^ 32)%Z.
Proof.
  intros p (_ & _ & _ & _ & _ & _ & B). assert (hash_size (ep_hash p) <= 64) by (destruct (ep_hash p); cbn; lia). change (2 ^ 32)%Z with 4294967296%Z. lia.
Qed.
Lemma dem_key_nonce : forall t K, dem_kind t = true -> nonce_size (dem_key t K) = nonce_size t.
Proof. intros t K D. destruct t; try discriminate D; reflexivity. Qed.
Lemma dem_key_admits : forall t K P, dem_kind t = true -> (dem_admits (dem_key t K) P <-> dem_admits t P).
Proof. intros t K P D. destruct t; try discriminate D; reflexivity. Qed.
Theorem ecies_encrypts : forall ec lib random m p X Y enc, ec_laws ec lib -> crypto_laws lib -> random_law random ->
  public_message m p X Y -> proper p -> ecies_encrypt_new ec lib random m = StOk enc -> forall rnd P info,
  (forall C, enc rnd P info = Some (StOk C) <->
     exists kem S, sender_secret ec p X Y rnd kem S /\ ecies_ciphertext lib p kem S info (random rnd (Z.of_nat (nonce_size (ep_dem p)))) P C) /\
  (enc rnd P info = None <-> ep_curve p = CURVE25519 /\ x25519_derive ec (x25519_generate ec rnd) X = None) /\
  (dem_admits (ep_dem p) P -> enc rnd P info = None \/ exists C, enc rnd P info = Some (StOk C)).
Proof.
  intros ec lib random m p X Y enc L CL RL (MP & HX & HY) PR H rnd P info. pose proof (proper_size p PR) as SZ.
  destruct (public_params m p MP) as (A1 & A2 & A3 & A4 & A5 & _). cbn zeta in *. destruct PR as (P1 & P2 & P3 & P4 & P5 & P6 & P7). destruct (A5 P5) as (dk & A6 & A7).
  unfold ecies_encrypt_new in H. cbv zeta in H. rewrite A1, A2, A3, A4, A6, (bytes_at_content _ _ _ _ HX), (bytes_at_content _ _ _ _ HY) in H.
  destruct (encrypt_validate m); [discriminate H |]. destruct (sender_kem_new ec (ep_curve p) X Y) as [kem |] eqn:K; [| discriminate H]. cbn [bind_st] in H. injection H as <-.
  rewrite (described_size dk _ P5 P6 A7 SZ), Nat2Z.id.
  destruct (sender_key ec lib L CL p X Y kem rnd info (dem_size (ep_dem p)) P2 P4 P3 K) as (B1 & B2 & B3).
  assert (R : forall kb k, kem rnd (ep_hash p) (ep_salt p) info (dem_size (ep_dem p)) (ep_format p) = Some (StOk (kb, k)) ->
    exists o, dem_object lib random (dem_key (ep_dem p) k) = StOk o /\ get_aead_or_daead lib random dk k = Some (StOk o) /\ usable (dem_key (ep_dem p) k) /\ dem_kind (dem_key (ep_dem p) k) = true).
  { intros kb k E. apply B1 in E. destruct E as (S & _ & LK & _).
    assert (U : usable (dem_key (ep_dem p) k)) by (apply dem_key_usable; assumption). pose proof (dem_key_kind (ep_dem p) k P5) as DK.
    destruct (proj2 (dem_object_made lib random _ DK) U) as (o & O). exists o. split; [exact O |]. split; [rewrite (dem_made lib random dk _ k A7 P6 P5 LK SZ), O; reflexivity | split; assumption]. }
  destruct (kem rnd (ep_hash p) (ep_salt p) info (dem_size (ep_dem p)) (ep_format p)) as [[(kb & k) | s] |] eqn:E; cbn [bind_out fst snd].
  - destruct (R kb k eq_refl) as (o & O & G & U & DK). rewrite G. cbn [bind_out].
    destruct (dem_encrypts lib random _ o CL RL U DK O rnd P) as (D1 & D2). rewrite (dem_key_nonce _ k P5) in D1. rewrite (dem_key_admits _ k P P5) in D2.
    destruct (proj1 (B1 kb k) eq_refl) as (S0 & SS & HK). split; [| split].
    + intros C. split.
      * destruct (aod_encrypt o rnd P []) as [c |] eqn:AE; [| discriminate]. intros H. cbn [bind_st] in H. injection H as <-.
        exists kb, S0. split; [exact SS |]. exists k, c. split; [exact HK |]. split; [apply D1; reflexivity | reflexivity].
      * intros (kb' & S' & SS' & k' & c & HK' & DC & ->). assert (EE : Some (StOk (kb, k)) = Some (StOk (kb', k'))) by (apply B1; exists S'; split; assumption).
        injection EE as <- <-. apply D1 in DC. rewrite DC. reflexivity.
    + split; [discriminate | intros N; apply B2 in N; discriminate N].
    + intros AD. right. destruct (D2 AD) as (c & DC). rewrite DC. eexists. reflexivity.
  - split; [| split].
    + intros C. split; [discriminate |]. intros (kb' & S' & SS' & k' & c & HK' & DC & ->). assert (EE : Some (StErr s) = Some (StOk (kb', k'))) by (apply B1; exists S'; split; assumption). discriminate EE.
    + split; [discriminate | intros N; apply B2 in N; discriminate N].
    + intros AD. destruct (B3 P7) as [N | (x & N)]; discriminate N.
  - split; [| split].
    + intros C. split; [discriminate |]. intros (kb' & S' & SS' & k' & c & HK' & DC & ->). assert (EE : None = Some (StOk (kb', k'))) by (apply B1; exists S'; split; assumption). discriminate EE.
    + split; [intros _; apply B2; reflexivity | reflexivity].
    + intros _. left. reflexivity.
Qed.

(** ** Decryption *)
Lemma decrypt_validated : forall m p d X Y, private_message m p d X Y ->
  (decrypt_validate m = None <-> d <> [] /\ X <> [] /\ (ep_curve p = CURVE25519 <-> Y = [])).
Proof.
  intros m p d X Y (P & HD & HX & HY). destruct (private_params m p P) as (_ & _ & _ & _ & _ & A & B & _). cbn zeta in A, B.
  assert (B' : has_at EciesAeadHkdfPrivateKey m ["public_key"] = true).
  { destruct P as ((z & Z1 & Z2) & _). apply (is_set EciesAeadHkdfPrivateKey m ["public_key"] ["params"; "kem_params"; "curve_type"] EciesAeadHkdfPublicKey (VNum z) eq_refl Z1).
    destruct (curve_number_subtle _ _ Z2) as (_ & NZ & _). cbn. intros E. injection E as E. congruence. }
  unfold decrypt_validate. cbv zeta. rewrite B, B', and_then_none, check_none. pose proof (empty_at_octets _ _ _ _ HX) as EX. pose proof (empty_at_octets _ _ _ _ HY) as EY. pose proof (empty_at_octets _ _ _ _ HD) as ED.
  cbn [negb orb].
  destruct (empty_at EciesAeadHkdfPrivateKey m ["public_key"; "x"]); cbn [orb].
  - split; [intros (H & _); discriminate H | intros (_ & H & _); elim H; apply EX; reflexivity].
  - assert (X <> []) by (intros H; apply EX in H; discriminate H). destruct (empty_at EciesAeadHkdfPrivateKey m ["key_value"]).
    + split; [intros (H' & _); discriminate H' | intros (H' & _); elim H'; apply ED; reflexivity].
    + assert (d <> []) by (intros H'; apply ED in H'; discriminate H').
      destruct (params_are_25519 EciesAeadHkdfPrivateKey (fun q => "public_key" :: "params" :: q) m); rewrite check_none.
      * assert (E : ep_curve p = CURVE25519) by (apply A; reflexivity). destruct (empty_at EciesAeadHkdfPrivateKey m ["public_key"; "y"]); cbn [negb]; tauto || (split; [intros (_ & H'); discriminate H' | intros (_ & _ & H'); apply H' in E; apply EY in E; discriminate E]).
      * assert (E : ep_curve p <> CURVE25519) by (intros E; apply A in E; discriminate E). destruct (empty_at EciesAeadHkdfPrivateKey m ["public_key"; "y"]); [| assert (Y <> []) by (intros H'; apply EY in H'; discriminate H')]; tauto || (split; [intros (_ & H'); discriminate H' | intros (_ & _ & H'); elim E; apply H', EY; reflexivity]).
Qed.
Theorem ecies_decrypt_made : forall ec lib random m p d X Y, private_message m p d X Y -> dem_kind (ep_dem p) = true ->
  ((exists dec, ecies_decrypt_new ec lib random m = StOk dec) <-> private_ok (ep_curve p) d X Y).
Proof.
  intros ec lib random m p d X Y M D. pose proof (decrypt_validated m p d X Y M) as V. destruct M as (P & HD & HX & HY).
  destruct (private_params m p P) as (A1 & _ & _ & _ & A5 & _). cbn zeta in *. destruct (A5 D) as (dk & A6 & _). rewrite <- (recipient_new ec (ep_curve p) d X Y).
  unfold ecies_decrypt_new. cbv zeta. rewrite A1, A6, (bytes_at_content _ _ _ _ HD).
  destruct (decrypt_validate m) as [s |].
  - split; [intros (e & H); discriminate H |]. intros (_ & H). apply V in H. discriminate H.
  - pose proof (proj1 V eq_refl) as W. destruct (recipient_kem_new ec (ep_curve p) d) as [k |]; cbn [bind_st].
    + split; [intros _; split; [eexists; reflexivity | exact W] | intros _; eexists; reflexivity].
    + split; [intros (e & H); discriminate H | intros ((k & H) & _); discriminate H].
Qed.
Lemma header_size : forall p, ep_curve p <> UNKNOWN_CURVE -> ep_format p <> UNKNOWN_FORMAT -> ec_point_encoding_size (ep_curve p) (ep_format p) = StOk (kem_size p).
Proof. intros p C F. unfold ec_point_encoding_size, ec_field_size, kem_size. destruct (ep_curve p); try contradiction; destruct (ep_format p); try contradiction; reflexivity. Qed.
Lemma recipient_secret_size : forall ec p d kem S, ep_curve p <> UNKNOWN_CURVE -> recipient_secret ec p d kem S -> length kem = kem_size p.
Proof.
  intros ec p d kem S C H. unfold recipient_secret in H. unfold kem_size. destruct (ep_curve p); try contradiction; try (destruct H as (H & _); exact H);
    destruct H as (R & T & H & _); exact (encoding_length ec _ _ _ _ H).
Qed.
Theorem ecies_decrypts : forall ec lib random m p d X Y dec, ec_laws ec lib -> crypto_laws lib ->
  private_message m p d X Y -> proper p -> ecies_decrypt_new ec lib random m = StOk dec -> forall C info,
  (forall P, dec C info = Some (StOk P) <-> exists kem S nonce, recipient_secret ec p d kem S /\ ecies_ciphertext lib p kem S info nonce P C) /\
  dec C info <> None.
Proof.
  intros ec lib random m p d X Y dec L CL (MP & HD & HX & HY) PR H C info. pose proof (proper_size p PR) as SZ.
  destruct (private_params m p MP) as (A1 & A2 & A3 & A4 & A5 & _). cbn zeta in *. destruct PR as (P1 & P2 & P3 & P4 & P5 & P6 & P7). destruct (A5 P5) as (dk & A6 & A7).
  unfold ecies_decrypt_new in H. cbv zeta in H. rewrite A1, A2, A3, A4, A6, (bytes_at_content _ _ _ _ HD) in H.
  destruct (decrypt_validate m); [discriminate H |]. destruct (recipient_kem_new ec (ep_curve p) d) as [kem |] eqn:K; [| discriminate H]. cbn [bind_st] in H. injection H as <-.
  rewrite (header_size p P1 P3), (described_size dk _ P5 P6 A7 SZ), Nat2Z.id.
  pose proof (fun kb => recipient_key ec lib L p d kem kb info (dem_size (ep_dem p)) P2 P4 P3 K) as B1.
  destruct (Nat.ltb_spec (length C) (kem_size p)) as [S | S].
  - split; [| discriminate]. intros P. split; [discriminate |]. intros (kb & S' & nonce & RS & k & c & _ & _ & ->). rewrite app_length, (recipient_secret_size _ _ _ _ _ P1 RS) in S. lia.
  - set (kb := firstn (kem_size p) C). set (c := skipn (kem_size p) C).
    assert (LK : length kb = kem_size p) by (apply firstn_length_le; exact S). assert (EC : C = kb ++ c) by (symmetry; apply firstn_skipn).
    assert (SP : forall P, (exists kem0 S0 nonce, recipient_secret ec p d kem0 S0 /\ ecies_ciphertext lib p kem0 S0 info nonce P C) <->
      exists k nonce, kem kb (ep_hash p) (ep_salt p) info (dem_size (ep_dem p)) (ep_format p) = StOk k /\ dem_ciphertext lib (dem_key (ep_dem p) k) nonce P c).
    { intros P. split.
      - intros (kb' & S' & nonce & RS & k & c' & HK & DC & E). pose proof (recipient_secret_size _ _ _ _ _ P1 RS) as LK'.
        destruct (cut_app kb' c' _ LK') as (E1 & E2). rewrite <- E in E1, E2. fold kb in E1. fold c in E2. subst kb' c'. exists k, nonce. split; [| exact DC]. apply B1. exists S'. split; assumption.
      - intros (k & nonce & HK & DC). apply B1 in HK. destruct HK as (S' & RS & HK). exists kb, S', nonce. split; [exact RS |]. exists k, c. split; [exact HK |]. split; [exact DC | exact EC]. }
    destruct (kem kb (ep_hash p) (ep_salt p) info (dem_size (ep_dem p)) (ep_format p)) as [k |] eqn:E; cbn [bind_out].
    + assert (LKK : length k = dem_size (ep_dem p)) by (apply B1 in E; destruct E as (S' & _ & E & _); exact E).
      assert (U : usable (dem_key (ep_dem p) k)) by (apply dem_key_usable; assumption). pose proof (dem_key_kind (ep_dem p) k P5) as DK.
      destruct (proj2 (dem_object_made lib random _ DK) U) as (o & O). rewrite (dem_made lib random dk _ k A7 P6 P5 LKK SZ), O. cbn [bind_out]. split; [| discriminate].
      intros P. rewrite SP. pose proof (dem_decrypts lib random _ o CL U DK O c P) as D. split.
      * intros H. injection H as H. apply D in H. destruct H as (nonce & H). exists k, nonce. split; [reflexivity | exact H].
      * intros (k' & nonce & EE & H). injection EE as <-. f_equal. apply D. exists nonce. exact H.
    + split; [| discriminate]. intros P. rewrite SP. split; [discriminate |]. intros (k' & nonce & EE & H). discriminate EE.
Qed.

(** ** Round trip *)
Lemma key_pair_ok : forall ec lib c d X Y, ec_laws ec lib -> key_pair ec c d X Y -> public_ok ec c X Y /\ private_ok c d X Y.
Proof.
  intros ec lib c d X Y L H. assert (N : nist c \/ c = CURVE25519) by (apply curve_cases; intros ->; exact H).
  assert (NI : forall c, nist c -> (d <> [] /\ X <> [] /\ Y <> [] /\ ec_point_mul ec c (num d) (ec_generator ec c) = Some (num X, num Y)) -> (X <> [] /\ Y <> [] /\ ec_on_curve ec c (num X, num Y) = true) /\ d <> [] /\ X <> [] /\ Y <> []).
  { intros c0 N0 (A & B & C & D). repeat split; try assumption. apply (law_generator _ _ L _ _ N0). exists (num d). exact D. }
  destruct c; cbn [key_pair public_ok private_ok] in *; try contradiction; try (apply NI; [unfold nist; cbn; tauto | exact H]).
  destruct H as (A & -> & ->). pose proof (law_x25519_public _ _ L d A) as B. repeat split; try assumption. intros E. rewrite E in B. discriminate B.
Qed.
Lemma secrets_agree : forall ec lib p d X Y rnd kem S, ec_laws ec lib -> key_pair ec (ep_curve p) d X Y -> sender_secret ec p X Y rnd kem S -> recipient_secret ec p d kem S.
Proof.
  intros ec lib p d X Y rnd kem S L K H. unfold sender_secret, recipient_secret, key_pair in *.
  assert (NI : forall c, nist c -> (d <> [] /\ X <> [] /\ Y <> [] /\ ec_point_mul ec c (num d) (ec_generator ec c) = Some (num X, num Y)) ->
    (point_encoding ec c (ep_format p) (snd (ec_generate_key ec c rnd)) kem /\ exists T, ec_point_mul ec c (fst (ec_generate_key ec c rnd)) (num X, num Y) = Some T /\ S = be_bytes (coordinate_size c) (fst T)) ->
    exists R T, point_encoding ec c (ep_format p) R kem /\ ec_point_mul ec c (num d) R = Some T /\ S = be_bytes (coordinate_size c) (fst T)).
  { intros c N (_ & _ & _ & D) (E & T & M & ->). destruct (law_agree _ _ L c _ _ _ _ N D (law_generate _ _ L c rnd N)) as (T' & M1 & M2).
    rewrite M in M2. injection M2 as <-. exists (snd (ec_generate_key ec c rnd)), T. split; [exact E |]. split; [exact M1 | reflexivity]. }
  destruct (ep_curve p); try contradiction; try (apply NI; [unfold nist; cbn; tauto | exact K | exact H]).
  destruct K as (A & -> & _). destruct H as (-> & H). pose proof (law_x25519_generate _ _ L rnd) as B. split; [exact (law_x25519_public _ _ L _ B) |].
  destruct (law_x25519_agree _ _ L _ _ B A) as (S' & H1 & H2). congruence.
Qed.
Theorem ecies_round_trip : forall ec lib random mpub mpriv p d X Y, ec_laws ec lib -> crypto_laws lib -> random_law random ->
  public_message mpub p X Y -> private_message mpriv p d X Y -> proper p -> key_pair ec (ep_curve p) d X Y ->
  exists enc dec, ecies_encrypt_new ec lib random mpub = StOk enc /\ ecies_decrypt_new ec lib random mpriv = StOk dec /\
    forall rnd P info, dem_admits (ep_dem p) P -> exists C, enc rnd P info = Some (StOk C) /\ dec C info = Some (StOk P).
Proof.
  intros ec lib random mpub mpriv p d X Y L CL RL M1 M2 PR K. destruct (key_pair_ok ec lib _ _ _ _ L K) as (K1 & K2). pose proof PR as (_ & _ & _ & _ & D & _).
  destruct (proj2 (ecies_encrypt_made ec lib random mpub p X Y M1 D) K1) as (enc & E1). destruct (proj2 (ecies_decrypt_made ec lib random mpriv p d X Y M2 D) K2) as (dec & E2).
  exists enc, dec. split; [exact E1 |]. split; [exact E2 |]. intros rnd P info AD.
  destruct (ecies_encrypts ec lib random mpub p X Y enc L CL RL M1 PR E1 rnd P info) as (A & B & C).
  assert (NN : enc rnd P info <> None).
  { intros N. apply B in N. destruct N as (CC & N). unfold key_pair in K. rewrite CC in K. destruct K as (LD & -> & _).
    destruct (law_x25519_agree _ _ L _ _ (law_x25519_generate _ _ L rnd) LD) as (S & H & _). congruence. }
  destruct (C AD) as [N | (c & EC)]; [contradiction |]. exists c. split; [exact EC |]. apply A in EC. destruct EC as (kem & S & SS & EC).
  apply (ecies_decrypts ec lib random mpriv p d X Y dec L CL M2 PR E2). exists kem, S. eexists. split; [exact (secrets_agree ec lib p d X Y rnd kem S L K SS) | exact EC].
Qed.
Theorem ecies_ciphertext_size : forall ec lib p d kem S info nonce P C, crypto_laws lib -> proper p -> recipient_secret ec p d kem S ->
  ecies_ciphertext lib p kem S info nonce P C -> length C = ecies_overhead p + length P.
Proof.
  intros ec lib p d kem S info nonce P C CL (P1 & _ & _ & _ & P5 & P6 & _) RS (K & c & (LK & _) & DC & ->).
  assert (U : usable (dem_key (ep_dem p) K)) by (apply dem_key_usable; assumption).
  rewrite app_length, (recipient_secret_size _ _ _ _ _ P1 RS). unfold ecies_overhead. rewrite <- Nat.add_assoc. f_equal.
  destruct (ep_dem p) as [| key | | key | k | key | | | | |] eqn:E; try discriminate P5; cbn [dem_key dem_ciphertext] in *;
    try (apply (aead_ciphertext_length lib _ nonce [] P c CL U) in DC; exact DC).
  apply (daead_ciphertext_length lib _ [] P c CL U) in DC. exact DC.
Qed.
