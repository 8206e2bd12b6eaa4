(** Encryption and decryption with ECIES. *)
From Coq Require Import Strings.Byte Strings.String List NArith ZArith Bool Lia.
From Verif Require Import M_Base L_Base M_Proto M_Utf8 M_Wire L_Wire S_Wire M_ProtoMsg S_ProtoMsg L_ProtoMsg M_KeyFormats M_Prims M_StreamTypes M_CcStream M_CcManagers M_CcAes
  M_CcStreamKeys M_CcModes M_CcSymmetric M_CcSymKeys M_CcEcies S_Config S_CcAes S_CcStreamKeys S_CcModes S_CcSymmetric S_CcSymKeys S_CcSymHandles
  S_CcEcies L_CcStreamKeys L_CcModes L_CcModes4 L_CcSymmetric L_CcSymmetric2 L_CcSymKeys L_CcSymHandles L_CcEcies L_CcEcies2.
Import ListNotations.
Open Scope string_scope.
Open Scope list_scope.
Open Scope nat_scope.

(** ** The params of a key *)
Lemma get_path_unset : forall p q t v fs w, path_type t p = Some (TMsg fs) -> get_path t v p = None -> get_path t v (p ++ q) = Some w ->
  get_path (TMsg fs) None q = Some w.
Proof.
  induction p as [| name rest IH]; intros q t v fs w T N H.
  - cbn [path_type] in T. injection T as ->. cbn [app] in H. destruct v as [v |]; [discriminate N | exact H].
  - destruct t as [| | | | | fs0]; try discriminate T. cbn [path_type get_path app] in *.
    revert T N H. generalize (match v with Some (VMsg vs) => vs | _ => empty_message fs0 end). induction fs0 as [| ((n & i) & t') fs0 IF]; intros vs T N H; [discriminate T |].
    destruct vs as [| v' vs]; [discriminate H |]. destruct (String.eqb n name); [exact (IH _ _ _ _ _ T N H) | exact (IF _ T N H)].
Qed.
Lemma is_set : forall fs m p q fs' w, path_type (TMsg fs) p = Some (TMsg fs') -> get_path (TMsg fs) (Some (VMsg m)) (p ++ q) = Some w ->
  get_path (TMsg fs') None q <> Some w -> has_at fs m p = true.
Proof.
  intros fs m p q fs' w T H D. unfold has_at. destruct (get_path (TMsg fs) (Some (VMsg m)) p) eqn:E; [reflexivity |].
  elim D. exact (get_path_unset _ _ _ _ _ _ T E H).
Qed.
Lemma curve_number_subtle : forall c z, curve_number c z -> curve_proto_to_subtle z = c /\ z <> 0%Z /\ (z = 5%Z <-> c = CURVE25519) /\ c <> UNKNOWN_CURVE.
Proof.
  intros c z H. cbn in H. repeat (destruct H as [H | H]; [injection H as <- <-; cbn; repeat split; intros; try discriminate; try reflexivity |]). contradiction.
Qed.
Lemma format_number_subtle : forall f z, format_number f z -> format_proto_to_subtle z = f /\ z <> 0%Z /\ f <> UNKNOWN_FORMAT.
Proof.
  intros f z H. cbn in H. repeat (destruct H as [H | H]; [injection H as <- <-; cbn; repeat split; intros; try discriminate; try reflexivity |]). contradiction.
Qed.
Lemma hash_number_nonzero : forall h z, hash_number h z -> z <> 0%Z /\ h <> UNKNOWN_HASH.
Proof. intros h z H. cbn in H. repeat (destruct H as [H | H]; [injection H as <- <-; split; discriminate |]). contradiction. Qed.
Lemma type_url_nonempty : forall s, type_url s <> [].
Proof. intros s H. unfold type_url in H. discriminate H. Qed.
Lemma params_read : forall fs m pre p, path_type (TMsg fs) pre = Some (TMsg EciesAeadHkdfParams) ->
  path_type (TMsg fs) (pre ++ ["kem_params"]) = Some (TMsg EciesHkdfKemParams) ->
  path_type (TMsg fs) (pre ++ ["dem_params"]) = Some (TMsg EciesAeadDemParams) ->
  path_type (TMsg fs) (pre ++ ["dem_params"; "aead_dem"]) = Some (TMsg KeyTemplate) ->
  has_ecies_params fs m pre p ->
  let at_ := fun q => pre ++ q in
  params_curve fs at_ m = ep_curve p /\ params_format fs at_ m = ep_format p /\ params_hash fs at_ m = ep_hash p /\ params_salt fs at_ m = ep_salt p /\
  (dem_kind (ep_dem p) = true -> exists dk, params_dem fs at_ m = StOk dk /\ describes dk (ep_dem p)) /\
  (params_are_25519 fs at_ m = true <-> ep_curve p = CURVE25519) /\ has_at fs m pre = true /\ validate_params fs at_ m = None /\
  ep_curve p <> UNKNOWN_CURVE /\ ep_hash p <> UNKNOWN_HASH /\ ep_format p <> UNKNOWN_FORMAT.
Proof.
  intros fs m pre p T1 T2 T3 T4 ((zc & C1 & C2) & (zh & H1 & H2) & S & (zf & F1 & F2) & url & x & U & V & A). cbn zeta.
  destruct (curve_number_subtle _ _ C2) as (C3 & C4 & C5 & C6). destruct (format_number_subtle _ _ F2) as (F3 & F4 & F5). destruct (hash_number_nonzero _ _ H2) as (H3 & H4).
  assert (UN : url <> []) by (destruct A as (-> & _); apply type_url_nonempty).
  pose proof (num_at_number _ _ _ _ C1) as C1'. pose proof (num_at_number _ _ _ _ F1) as F1'. pose proof (num_at_number _ _ _ _ H1) as H1'.
  assert (K1 : has_at fs m pre = true).
  { apply (is_set _ _ _ _ _ _ T1 C1). cbn. intros E. injection E as E. congruence. }
  assert (K2 : has_at fs m (pre ++ ["kem_params"]) = true).
  { apply (is_set _ _ _ ["curve_type"] _ (VNum zc) T2); [rewrite <- app_assoc; exact C1 |]. cbn. intros E. injection E as E. congruence. }
  assert (K3 : has_at fs m (pre ++ ["dem_params"]) = true).
  { apply (is_set _ _ _ ["aead_dem"; "type_url"] _ (VString url) T3); [rewrite <- app_assoc; exact U |]. cbn. intros E. injection E as E. congruence. }
  assert (K4 : has_at fs m (pre ++ ["dem_params"; "aead_dem"]) = true).
  { apply (is_set _ _ _ ["type_url"] _ (VString url) T4); [rewrite <- app_assoc; exact U |]. cbn. intros E. injection E as E. congruence. }
  unfold params_curve, params_format, params_hash, params_salt, params_dem, params_are_25519, validate_params.
  rewrite C1', F1', H1', K2, K3, K4. cbn [negb check and_then andb].
  split; [exact C3 |]. split; [exact F3 |]. split; [apply hash_number_subtle, H2 |]. split; [apply bytes_at_content, S |].
  split. { intros D. destruct (dem_described url x (ep_dem p) D A) as (dk & G & E). exists dk. split; [| exact E].
    unfold string_at. rewrite U. rewrite (bytes_at_content _ _ _ _ V). exact G. }
  split; [rewrite Z.eqb_eq; exact C5 |]. split; [exact K1 |]. split; [| auto].
  destruct (Z.eqb_spec zc 0); [contradiction |]. destruct (Z.eqb_spec zh 0); [contradiction |]. destruct (Z.eqb_spec zf 0); [contradiction |]. reflexivity.
Qed.
Lemma empty_at_octets : forall fs m p x, octets fs m p x -> empty_at fs m p = true <-> x = [].
Proof.
  intros fs m p x H. unfold empty_at. rewrite (bytes_at_content _ _ _ _ H), Nat.eqb_eq. destruct x; split; intros E; try reflexivity; discriminate E.
Qed.
Lemma curve_cases : forall c, c <> UNKNOWN_CURVE -> nist c \/ c = CURVE25519.
Proof. intros [] H; unfold nist; cbn; auto. contradiction. Qed.

Section Ecies.
  Variable ec : ec_crypto.
  Variable lib : crypto.
  Variable random : coins -> Z -> bytes.
  Hypothesis L : ec_laws ec lib.
  Hypothesis CL : crypto_laws lib.

  (** ** KEM *)
  Lemma sender_new : forall c X Y, ((exists k, sender_kem_new ec c X Y = StOk k) /\ (c = CURVE25519 \/ X <> [] /\ Y <> [])) <-> public_ok ec c X Y.
  Proof.
    intros c X Y. assert (NI : nist c -> (exists k, sender_kem_new ec c X Y = StOk k) <-> ec_on_curve ec c (num X, num Y) = true).
    { intros N. assert (E : sender_kem_new ec c X Y = nist_sender_kem ec c X Y) by (destruct N as [<- | [<- | [<- | []]]]; reflexivity). rewrite E.
      unfold nist_sender_kem, get_ec_point, point_from_coordinates. rewrite (nist_group c N). cbn [bind_st]. rewrite !bin2bn_num.
      destruct (ec_on_curve ec c (num X, num Y)); cbn [bind_st]; split; intros H; try reflexivity; try discriminate H; [eexists; reflexivity | destruct H as (k & H); discriminate H]. }
    destruct c; cbn [public_ok].
    - split; [intros ((k & H) & _); discriminate H | contradiction].
    - rewrite NI by (unfold nist; cbn; auto). split; [intros (A & [B | B]); [discriminate B | tauto] | tauto].
    - rewrite NI by (unfold nist; cbn; auto). split; [intros (A & [B | B]); [discriminate B | tauto] | tauto].
    - rewrite NI by (unfold nist; cbn; auto). split; [intros (A & [B | B]); [discriminate B | tauto] | tauto].
    - cbn [sender_kem_new x25519_sender_kem]. destruct (Nat.eqb_spec (length X) 32); cbn [negb].
      + destruct Y as [| y Y]; cbn [length Nat.eqb negb].
        * split; [intros _; split; [assumption | reflexivity] | intros _; split; [eexists; reflexivity | left; reflexivity]].
        * split; [intros ((k & H) & _); discriminate H | intros (_ & H); discriminate H].
      + split; [intros ((k & H) & _); discriminate H | intros (H & _); contradiction].
  Qed.
  Lemma sender_key : forall p X Y kem rnd info n, ep_hash p <> UNKNOWN_HASH -> (ep_curve p = CURVE25519 -> ep_format p = Compressed) -> ep_format p <> UNKNOWN_FORMAT ->
    sender_kem_new ec (ep_curve p) X Y = StOk kem ->
    let r := kem rnd (ep_hash p) (ep_salt p) info n (ep_format p) in
    (forall kb K, r = Some (StOk (kb, K)) <-> exists S, sender_secret ec p X Y rnd kb S /\ hkdf_output (evp_hmac lib (ep_hash p)) (ep_salt p) (kb ++ S) info n K) /\
    (r = None <-> ep_curve p = CURVE25519 /\ x25519_derive ec (x25519_generate ec rnd) X = None) /\
    (n <= 255 * hash_size (ep_hash p) -> r = None \/ exists x, r = Some (StOk x)).
  Proof.
    intros p X Y kem rnd info n HU FX FU H. cbn zeta. destruct CL as (_ & _ & LH & _).
    assert (CU : ep_curve p <> UNKNOWN_CURVE) by (intros E; rewrite E in H; discriminate H).
    destruct (curve_cases _ CU) as [N | E].
    - assert (E : sender_kem_new ec (ep_curve p) X Y = nist_sender_kem ec (ep_curve p) X Y) by (destruct N as [<- | [<- | [<- | []]]]; reflexivity). rewrite E in H. clear E.
      assert (NX : ep_curve p <> CURVE25519) by (destruct N as [<- | [<- | [<- | []]]]; discriminate).
      unfold nist_sender_kem, get_ec_point, point_from_coordinates in H. rewrite (nist_group _ N) in H. cbn [bind_st] in H. rewrite !bin2bn_num in H.
      destruct (ec_on_curve ec (ep_curve p) (num X, num Y)) eqn:O; [| discriminate H]. cbn [bind_st] in H. injection H as <-.
      destruct (ec_generate_key ec (ep_curve p) rnd) as (e & R) eqn:G.
      assert (GP : ec_point_mul ec (ep_curve p) e (ec_generator ec (ep_curve p)) = Some R) by (pose proof (law_generate _ _ L (ep_curve p) rnd N) as X0; rewrite G in X0; exact X0).
      assert (SS : forall kb S, sender_secret ec p X Y rnd kb S <-> ec_point_encode ec (ep_curve p) (ep_format p) R = StOk kb /\ compute_ecdh_shared_secret ec (ep_curve p) e (num X, num Y) = StOk S).
      { intros kb S. rewrite (encode_point ec lib L _ _ _ _ N), (shared_secret ec lib L _ _ _ N O). unfold sender_secret.
        destruct N as [N | [N | [N | []]]]; rewrite <- N in G |- *; rewrite G; cbn [fst snd]; reflexivity. }
      assert (OR : ec_on_curve ec (ep_curve p) R = true) by (apply (law_generator _ _ L _ _ N); exists e; exact GP).
      assert (EK : exists kb, ec_point_encode ec (ep_curve p) (ep_format p) R = StOk kb).
      { destruct (ep_format p) eqn:F; try contradiction; eexists; apply (encode_point ec lib L _ _ _ _ N); (split; [exact OR | reflexivity]). }
      assert (ES : exists S, compute_ecdh_shared_secret ec (ep_curve p) e (num X, num Y) = StOk S).
      { destruct (proj1 (law_generator _ _ L _ _ N) O) as (d & D). destruct (law_agree _ _ L _ _ _ _ _ N GP D) as (S & A & _).
        eexists. apply (shared_secret ec lib L _ _ _ N O). exists S. split; [exact A | reflexivity]. }
      destruct EK as (kb0 & EK). destruct ES as (S0 & ES). rewrite EK, ES. cbn [bind_st]. split; [| split].
      + intros kb K. split.
        * destruct (ecies_hkdf_symmetric_key ec (ep_hash p) kb0 S0 (ep_salt p) info n) as [K0 |] eqn:HK; [| discriminate]. intros H. cbn [bind_st] in H. injection H as <- <-.
          exists S0. split; [apply SS; split; assumption | apply (symmetric_key ec lib L _ _ _ _ _ _ _ HU); exact HK].
        * intros (S & A & B). apply SS in A. destruct A as (A1 & A2). rewrite EK in A1. rewrite ES in A2. injection A1 as ->. injection A2 as ->.
          apply (symmetric_key ec lib L _ _ _ _ _ _ _ HU) in B. rewrite B. reflexivity.
      + split; [discriminate | intros (E & _); contradiction].
      + intros B. right. destruct (proj2 (hkdf_exists lib (ep_hash p) (ep_salt p) (kb0 ++ S0) info n LH HU) B) as (K & HK).
        apply (symmetric_key ec lib L _ _ _ _ _ _ _ HU) in HK. rewrite HK. eexists. reflexivity.
    - unfold sender_secret. rewrite E in H |- *. cbn [sender_kem_new x25519_sender_kem] in H. destruct (negb _); [discriminate H |]. destruct (negb _); [discriminate H |].
      injection H as <-. rewrite (FX E). destruct (x25519_derive ec (x25519_generate ec rnd) X) as [S0 |] eqn:D.
      + split; [| split].
        * intros kb K. split.
          -- destruct (ecies_hkdf_symmetric_key ec (ep_hash p) (x25519_public ec (x25519_generate ec rnd)) S0 (ep_salt p) info n) as [K0 |] eqn:HK; [| discriminate]. intros H. cbn [bind_st] in H. injection H as <- <-.
             exists S0. split; [split; reflexivity | apply (symmetric_key ec lib L _ _ _ _ _ _ _ HU); exact HK].
          -- intros (S & (-> & A) & B). injection A as <-. apply (symmetric_key ec lib L _ _ _ _ _ _ _ HU) in B. rewrite B. reflexivity.
        * split; [discriminate | intros (_ & H); discriminate H].
        * intros B. right. destruct (proj2 (hkdf_exists lib (ep_hash p) (ep_salt p) (x25519_public ec (x25519_generate ec rnd) ++ S0) info n LH HU) B) as (K & HK).
          apply (symmetric_key ec lib L _ _ _ _ _ _ _ HU) in HK. rewrite HK. eexists. reflexivity.
      + split; [| split].
        * intros kb K. split; [discriminate |]. intros (S & (_ & H) & _). discriminate H.
        * split; [intros _; split; reflexivity | intros _; reflexivity].
        * intros _. left. reflexivity.
  Qed.
  Lemma recipient_new : forall c d X Y, ((exists k, recipient_kem_new ec c d = StOk k) /\ d <> [] /\ X <> [] /\ (c = CURVE25519 <-> Y = [])) <-> private_ok c d X Y.
  Proof.
    intros c d X Y. assert (NI : nist c -> (exists k, recipient_kem_new ec c d = StOk k) <-> d <> []).
    { intros N. assert (E : recipient_kem_new ec c d = nist_recipient_kem ec c d) by (destruct N as [<- | [<- | [<- | []]]]; reflexivity). rewrite E.
      unfold nist_recipient_kem. rewrite (nist_group c N). destruct d; cbn [length Nat.eqb bind_st]; split; intros H; try discriminate; try (elim H; reflexivity); [destruct H as (k & H); discriminate H | eexists; reflexivity]. }
    assert (EQ : forall c, c <> CURVE25519 -> (c = CURVE25519 <-> Y = []) <-> Y <> []) by (intros c0 H; tauto).
    destruct c; cbn [private_ok].
    - split; [intros ((k & H) & _); discriminate H | contradiction].
    - rewrite NI by (unfold nist; cbn; auto). rewrite EQ by discriminate. tauto.
    - rewrite NI by (unfold nist; cbn; auto). rewrite EQ by discriminate. tauto.
    - rewrite NI by (unfold nist; cbn; auto). rewrite EQ by discriminate. tauto.
    - cbn [recipient_kem_new x25519_recipient_kem]. destruct (Nat.eqb_spec (length d) 32) as [LD | LD]; cbn [negb].
      + split; [intros (_ & _ & A & B); repeat split; try assumption; apply B; reflexivity |]. intros (_ & A & B). split; [eexists; reflexivity |].
        split; [destruct d; discriminate |]. split; [exact A | tauto].
      + split; [intros ((k & H) & _); discriminate H | intros (H & _); contradiction].
  Qed.
  Lemma recipient_key : forall p d kem kb info n, ep_hash p <> UNKNOWN_HASH -> (ep_curve p = CURVE25519 -> ep_format p = Compressed) -> ep_format p <> UNKNOWN_FORMAT ->
    recipient_kem_new ec (ep_curve p) d = StOk kem ->
    forall K, kem kb (ep_hash p) (ep_salt p) info n (ep_format p) = StOk K <->
      exists S, recipient_secret ec p d kb S /\ hkdf_output (evp_hmac lib (ep_hash p)) (ep_salt p) (kb ++ S) info n K.
  Proof.
    intros p d kem kb info n HU FX FU H K.
    assert (CU : ep_curve p <> UNKNOWN_CURVE) by (intros E; rewrite E in H; discriminate H).
    destruct (curve_cases _ CU) as [N | E].
    - assert (E : recipient_kem_new ec (ep_curve p) d = nist_recipient_kem ec (ep_curve p) d) by (destruct N as [<- | [<- | [<- | []]]]; reflexivity). rewrite E in H. clear E.
      unfold nist_recipient_kem in H. rewrite (nist_group _ N) in H. destruct (Nat.eqb (length d) 0); [discriminate H |]. cbn [bind_st] in H. injection H as <-.
      assert (RS : forall S, recipient_secret ec p d kb S <-> exists R, ec_point_decode ec (ep_curve p) (ep_format p) kb = StOk R /\ compute_ecdh_shared_secret ec (ep_curve p) (num d) R = StOk S).
      { intros S. assert (U : recipient_secret ec p d kb S <-> exists R T, point_encoding ec (ep_curve p) (ep_format p) R kb /\ ec_point_mul ec (ep_curve p) (num d) R = Some T /\ S = be_bytes (coordinate_size (ep_curve p)) (fst T)).
        { unfold recipient_secret. destruct N as [N | [N | [N | []]]]; rewrite <- N; reflexivity. }
        rewrite U. split.
        - intros (R & T & A & B). exists R. split; [apply (decode_point ec lib L _ _ _ _ N), A |]. apply (shared_secret ec lib L _ _ _ N (proj1 A)). exists T. exact B.
        - intros (R & A & B). apply (decode_point ec lib L _ _ _ _ N) in A. apply (shared_secret ec lib L _ _ _ N (proj1 A)) in B. destruct B as (T & B). exists R, T. split; assumption. }
      rewrite bin2bn_num. destruct (ec_point_decode ec (ep_curve p) (ep_format p) kb) as [R |] eqn:D; cbn [bind_st].
      + destruct (compute_ecdh_shared_secret ec (ep_curve p) (num d) R) as [S0 |] eqn:C; cbn [bind_st].
        * rewrite (symmetric_key ec lib L _ _ _ _ _ _ _ HU). split; [intros B; exists S0; split; [apply RS; exists R; split; [reflexivity | exact C] | exact B] |].
          intros (S & A & B). apply RS in A. destruct A as (R' & A1 & A2). injection A1 as <-. rewrite C in A2. injection A2 as <-. exact B.
        * split; [discriminate |]. intros (S & A & B). apply RS in A. destruct A as (R' & A1 & A2). injection A1 as <-. rewrite C in A2. discriminate A2.
      + split; [discriminate |]. intros (S & A & B). apply RS in A. destruct A as (R' & A1 & A2). discriminate A1.
    - unfold recipient_secret. rewrite E in H |- *. cbn [recipient_kem_new x25519_recipient_kem] in H. destruct (negb _); [discriminate H |]. injection H as <-. rewrite (FX E).
      destruct (Nat.eqb_spec (length kb) 32) as [LB | LB]; cbn [negb].
      + destruct (x25519_derive ec d kb) as [S0 |].
        * rewrite (symmetric_key ec lib L _ _ _ _ _ _ _ HU). split; [intros B; exists S0; split; [split; [exact LB | reflexivity] | exact B] |]. intros (S & (_ & A) & B). injection A as <-. exact B.
        * split; [discriminate |]. intros (S & (_ & A) & B). discriminate A.
      + split; [discriminate |]. intros (S & (A & _) & B). contradiction.
  Qed.
End Ecies.
