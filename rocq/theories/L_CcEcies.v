(** Points and secrets of ECIES. *)
From Coq Require Import Strings.Byte Strings.String List NArith ZArith Bool Lia.
From Verif Require Import M_Base L_Base M_Proto M_Wire M_ProtoMsg M_KeyFormats M_Prims M_StreamTypes M_CcStream M_CcManagers M_CcAes
  M_CcStreamKeys M_CcModes M_CcSymmetric M_CcSymKeys M_CcEcies S_Config S_CcAes S_CcStreamKeys S_CcModes S_CcSymmetric S_CcSymKeys S_CcSymHandles
  S_CcEcies L_CcModes L_CcSymmetric2.
Import ListNotations.
Open Scope list_scope.
Open Scope nat_scope.

Lemma bin2bn_num : forall x, BN_bin2bn x = num x.
Proof. intros x. unfold BN_bin2bn. rewrite load_le_num, rev_involutive. reflexivity. Qed.
Lemma bn2binpad_be : forall n v, (v < 256 ^ N.of_nat n)%N -> bn2binpad v n = StOk (be_bytes n v).
Proof. intros n v H. unfold bn2binpad. apply N.ltb_lt in H. rewrite H, store_le_be, rev_involutive. reflexivity. Qed.
Lemma num_be_small : forall n v, (v < 256 ^ N.of_nat n)%N -> num (be_bytes n v) = v.
Proof. intros n v H. rewrite num_be_bytes. apply N.mod_small, H. Qed.
Lemma be_bytes_back : forall x n, length x = n -> be_bytes n (num x) = x.
Proof. intros x n <-. apply be_bytes_num. Qed.
Lemma nist_group : forall c, nist c -> ec_group c = StOk (coordinate_size c).
Proof. intros c [<- | [<- | [<- | []]]]; reflexivity. Qed.
Lemma group_nist : forall c n, ec_group c = StOk n -> nist c /\ n = coordinate_size c.
Proof. intros [] n H; try discriminate H; injection H as <-; unfold nist; cbn; auto. Qed.
Lemma coordinate_size_pos : forall c, 32 <= coordinate_size c.
Proof. intros []; cbn; lia. Qed.
Lemma cut_app : forall (a b : bytes) n, length a = n -> firstn n (a ++ b) = a /\ skipn n (a ++ b) = b.
Proof.
  intros a b n <-. rewrite firstn_app, skipn_app, firstn_all, skipn_all, Nat.sub_diag. cbn. rewrite app_nil_r. split; reflexivity.
Qed.

Section Points.
  Variable ec : ec_crypto.
  Variable lib : crypto.
  Hypothesis L : ec_laws ec lib.

  Lemma encode_point : forall c f Q x, nist c -> (ec_point_encode ec c f Q = StOk x <-> point_encoding ec c f Q x).
  Proof.
    intros c f Q x N. unfold ec_point_encode, point_encoding. rewrite (nist_group c N). cbn [bind_st].
    destruct (ec_on_curve ec c Q) eqn:O; cbn [negb]; [| split; [discriminate | intros (H & _); discriminate]].
    destruct Q as (a & b). destruct (law_coordinates _ _ L c a b N O) as (A & B).
    unfold point2oct. cbn [fst snd]. rewrite (bn2binpad_be _ _ A), (bn2binpad_be _ _ B). cbn [bind_st app].
    destruct f; (split; [intros H | intros (_ & H)]); try discriminate H; try contradiction; try (injection H as <-); try subst x; try reflexivity; (split; [reflexivity |]); reflexivity.
  Qed.
  Lemma encoding_length : forall c f Q x, point_encoding ec c f Q x ->
    length x = match f with Uncompressed => 1 + 2 * coordinate_size c | Compressed => 1 + coordinate_size c | CrunchyUncompressed => 2 * coordinate_size c | UNKNOWN_FORMAT => 0 end.
  Proof.
    intros c f Q x (_ & H). destruct f; cbn zeta in H; [contradiction | ..]; subst x; rewrite !app_length, ?be_bytes_length; cbn [length]; lia.
  Qed.
  Lemma decode_coordinates : forall c x, nist c -> length x = 2 * coordinate_size c -> forall Q,
    point_from_coordinates ec c (firstn (coordinate_size c) x) (skipn (coordinate_size c) x) = StOk Q <->
    ec_on_curve ec c Q = true /\ x = be_bytes (coordinate_size c) (fst Q) ++ be_bytes (coordinate_size c) (snd Q).
  Proof.
    intros c x N Lx Q. unfold point_from_coordinates. rewrite !bin2bn_num.
    assert (L1 : length (firstn (coordinate_size c) x) = coordinate_size c) by (apply firstn_length_le; lia).
    assert (L2 : length (skipn (coordinate_size c) x) = coordinate_size c) by (rewrite skipn_length; lia).
    split.
    - destruct (ec_on_curve ec c _) eqn:O; [| discriminate]. intros H. injection H as <-. split; [exact O |]. cbn [fst snd].
      rewrite (be_bytes_back _ _ L1), (be_bytes_back _ _ L2). symmetry. apply firstn_skipn.
    - intros (O & E). destruct Q as (a & b). destruct (law_coordinates _ _ L c a b N O) as (A & B). cbn [fst snd] in E.
      destruct (cut_app (be_bytes (coordinate_size c) a) (be_bytes (coordinate_size c) b) _ (be_bytes_length _ _)) as (E1 & E2).
      rewrite E, E1, E2, !num_be_small by assumption. rewrite O. reflexivity.
  Qed.
  Lemma decode_point : forall c f x Q, nist c -> (ec_point_decode ec c f x = StOk Q <-> point_encoding ec c f Q x).
  Proof.
    intros c f x Q N. pose proof (nist_group c N) as G.
    assert (S : ec_point_encoding_size c f = match f with Uncompressed => StOk (2 * coordinate_size c + 1) | Compressed => StOk (coordinate_size c + 1)
              | CrunchyUncompressed => StOk (2 * coordinate_size c) | UNKNOWN_FORMAT => StErr (NotOk "Unsupported elliptic curve point format") end).
    { unfold ec_point_encoding_size, ec_field_size. destruct N as [<- | [<- | [<- | []]]]; reflexivity. }
    split.
    - intros H. destruct f; cbn [ec_point_decode] in H; try discriminate H.
      + unfold point_from_encoded in H. rewrite G, S in H. cbn [bind_st] in H.
        destruct (Nat.eqb_spec (length x) (2 * coordinate_size c + 1)) as [Lx |]; [cbn [negb] in H | discriminate H].
        destruct x as [| b xy]; [cbn in Lx; lia |]. cbn [hd] in H. destruct (Byte.eqb b x04) eqn:B; [cbn [negb] in H | discriminate H].
        apply Byte.byte_dec_bl in B. subst b. cbn [oct2point] in H. cbn [length] in Lx.
        assert (Lxy : length xy = 2 * coordinate_size c) by lia. rewrite Lxy, Nat.eqb_refl in H. cbn [andb] in H.
        pose proof (decode_coordinates c xy N Lxy Q) as D. unfold point_from_coordinates in D.
        destruct (ec_on_curve ec c (BN_bin2bn (firstn (coordinate_size c) xy), BN_bin2bn (skipn (coordinate_size c) xy))) eqn:O; [| discriminate H].
        rewrite O in H. destruct (proj1 D H) as (O' & E). split; [exact O' |]. cbn zeta. rewrite E. reflexivity.
      + unfold point_from_encoded in H. rewrite G, S in H. cbn [bind_st] in H.
        destruct (Nat.eqb_spec (length x) (coordinate_size c + 1)) as [Lx |]; [cbn [negb] in H | discriminate H].
        destruct x as [| b xy]; [cbn in Lx; lia |]. cbn [hd] in H. cbn [length] in Lx. assert (Lxy : length xy = coordinate_size c) by lia.
        assert (B : b = x03 \/ b = x02).
        { destruct (Byte.eqb b x03) eqn:B3; [left; apply Byte.byte_dec_bl, B3 |]. destruct (Byte.eqb b x02) eqn:B2; [right; apply Byte.byte_dec_bl, B2 | discriminate H]. }
        assert (K : forall odd, match (match ec_decompress ec c (BN_bin2bn xy) odd with Some y => Some (BN_bin2bn xy, y) | None => None end) with
            | None => StErr (NotOk "EC_POINT_toc2point failed")
            | Some point => if ec_on_curve ec c point then StOk point else StErr (NotOk "Point is not on curve") end = StOk Q ->
            point_encoding ec c Compressed Q ((if odd then x03 else x02) :: xy)).
        { intros odd K. destruct (ec_decompress ec c (BN_bin2bn xy) odd) as [y |] eqn:D; [| discriminate K].
          apply (law_decompress _ _ L c _ _ _ N) in D. destruct D as (O & P). rewrite O in K. injection K as <-. split; [exact O |]. cbn zeta. cbn [fst snd app].
          rewrite P, bin2bn_num, (be_bytes_back _ _ Lxy). reflexivity. }
        destruct B as [-> | ->]; cbn [oct2point Byte.eqb] in H; rewrite Lxy, Nat.eqb_refl in H; [exact (K true H) | exact (K false H)].
      + rewrite G in H. cbn [bind_st] in H. destruct (Nat.eqb_spec (length x) (2 * coordinate_size c)) as [Lx |]; [cbn [negb] in H | discriminate H].
        exact (proj1 (decode_coordinates c x N Lx Q) H).
    - intros P. pose proof (encoding_length _ _ _ _ P) as Lx. destruct P as (O & E). destruct Q as (a & b). destruct (law_coordinates _ _ L c a b N O) as (A & B).
      destruct f; cbn zeta in E; cbn [fst snd] in E; [contradiction | ..]; cbn [ec_point_decode].
      + unfold point_from_encoded. rewrite G, S. cbn [bind_st]. replace (2 * coordinate_size c + 1) with (length x) by lia. rewrite Nat.eqb_refl. cbn [negb].
        rewrite E. cbn [app hd]. change (Byte.eqb x04 x04) with true. cbn [negb]. cbn [oct2point].
        destruct (cut_app (be_bytes (coordinate_size c) a) (be_bytes (coordinate_size c) b) _ (be_bytes_length _ _)) as (E1 & E2).
        rewrite E1, E2, !bin2bn_num, !num_be_small by assumption. rewrite app_length, !be_bytes_length, O.
        replace (coordinate_size c + coordinate_size c) with (2 * coordinate_size c) by lia. rewrite Nat.eqb_refl. cbn [andb]. rewrite O. reflexivity.
      + unfold point_from_encoded. rewrite G, S. cbn [bind_st]. replace (coordinate_size c + 1) with (length x) by lia. rewrite Nat.eqb_refl. cbn [negb].
        rewrite E. cbn [app hd]. assert (D : ec_decompress ec c a (N.odd b) = Some b) by (apply (law_decompress _ _ L c _ _ _ N); split; [exact O | reflexivity]).
        destruct (N.odd b); cbn [oct2point Byte.eqb]; rewrite be_bytes_length, Nat.eqb_refl; cbn [andb orb];
          rewrite bin2bn_num, num_be_small by assumption;
          [change (Byte.eqb x03 x03) with true | change (Byte.eqb x02 x03) with false]; cbn; rewrite D, O; reflexivity.
      + rewrite G. cbn [bind_st]. rewrite Lx, Nat.eqb_refl. cbn [negb]. apply (decode_coordinates c x N Lx). split; [exact O | exact E].
  Qed.

  Lemma shared_secret : forall c d Q, nist c -> ec_on_curve ec c Q = true -> forall S,
    compute_ecdh_shared_secret ec c d Q = StOk S <-> exists T, ec_point_mul ec c d Q = Some T /\ S = be_bytes (coordinate_size c) (fst T).
  Proof.
    intros c d Q N O S. unfold compute_ecdh_shared_secret. rewrite (nist_group c N). cbn [bind_st]. rewrite O. cbn [negb].
    destruct (ec_point_mul ec c d Q) as [(a & b) |] eqn:M; [| split; [discriminate | intros (T & H & _); discriminate]].
    pose proof (law_mul _ _ L c d Q (a, b) N O M) as O'. rewrite O'. cbn [negb fst].
    rewrite (bn2binpad_be _ _ (proj1 (law_coordinates _ _ L c a b N O'))). split.
    - intros H. injection H as <-. exists (a, b). split; reflexivity.
    - intros (T & H & ->). injection H as <-. reflexivity.
  Qed.
  Lemma symmetric_key : forall h kem S salt info n K, h <> UNKNOWN_HASH ->
    (ecies_hkdf_symmetric_key ec h kem S salt info n = StOk K <-> hkdf_output (evp_hmac lib h) salt (kem ++ S) info n K).
  Proof.
    intros h kem S salt info n K U. unfold ecies_hkdf_symmetric_key.
    assert (E : exists k, evp_md_size h = Some k) by (destruct h; try contradiction; eexists; reflexivity). destruct E as (k & ->).
    rewrite <- (law_hkdf _ _ L h _ salt info n K U).
    destruct (evp_hkdf ec h (kem ++ S) salt info n) as [o |]; split; intros H; try discriminate H; congruence.
  Qed.
  Lemma hkdf_exists : forall h salt ikm info n, hmac_size_law lib -> h <> UNKNOWN_HASH ->
    ((exists K, hkdf_output (evp_hmac lib h) salt ikm info n K) <-> n <= 255 * hash_size h).
  Proof.
    intros h salt ikm info n HL U. assert (P : 0 < hash_size h) by (destruct h; try contradiction; cbn; lia).
    pose proof (all_length (evp_hmac lib h) (evp_hmac lib h salt ikm) info (hash_size h) P (fun k d => HL h k d)) as AL. unfold hkdf_output. split.
    - intros (K & E & rest & H). apply (f_equal (@length byte)) in H. rewrite app_length, AL in H. lia.
    - intros H. exists (firstn n (concat (map (hkdf_t (evp_hmac lib h) (evp_hmac lib h salt ikm) info) (seq 1 255)))). split; [apply firstn_length_le; lia |].
      eexists. apply firstn_skipn.
  Qed.
  Lemma hkdf_unique : forall hmac salt ikm info n K K', hkdf_output hmac salt ikm info n K -> hkdf_output hmac salt ikm info n K' -> K = K'.
  Proof.
    intros hmac salt ikm info n K K' (E & r & H) (E' & r' & H'). rewrite <- H' in H. apply (f_equal (firstn n)) in H.
    rewrite (proj1 (cut_app K r n E)), (proj1 (cut_app K' r' n E')) in H. exact H.
  Qed.
End Points.
