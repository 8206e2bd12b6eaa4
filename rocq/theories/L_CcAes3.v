(** AES-CTR-HMAC streaming: the theorems. *)
From Coq Require Import Strings.Byte Strings.String List NArith ZArith Bool Lia.
From Verif Require Import M_Base L_Base M_StreamTypes M_CcStream M_CcSegments M_CcAes S_CcStream S_Buffered S_CcSegments S_CcAes
  L_CcStream L_CcStream3 L_CcStream4 L_CcSegments L_CcSegments2 L_CcSegments3 L_CcSegments4 L_CcAes L_CcAes2.
Import ListNotations.
Open Scope string_scope.
Open Scope list_scope.
Open Scope nat_scope.

Section Ctr.
  Variables (lib : ssl) (p : ctr_hmac_params).
  Hypothesis (U : ctr_hmac_usable p) (Hk : hkdf_law lib).
  Local Notation ks := (ch_key_size p).
  Local Notation size := (ch_ciphertext_segment_size p).
  Local Notation offset := (ch_ciphertext_offset p).
  Local Notation tag := (ch_tag_size p).

  Lemma ctr_key : forall salt ad, exists keys, hkdf lib (ch_hkdf_algo p) (ch_ikm p) salt ad (ks + 32) = StOk keys /\ length keys = ks + 32.
  Proof. intros salt ad. destruct U as ((U1 & U2 & U3 & U4) & U5 & U6). apply Hk; [exact U1 | lia]. Qed.
  Lemma ctr_validate : ctr_hmac_validate p = None.
  Proof.
    destruct U as ((U1 & U2 & U3 & U4) & U5 & U6 & U7). unfold ctr_hmac_validate.
    destruct (Nat.ltb_spec (length (ch_ikm p)) (Nat.max 16 ks)); [lia |].
    replace (known_hash (ch_hkdf_algo p)) with true by (destruct U1 as [-> | [-> | ->]]; reflexivity). cbn [negb].
    replace (Nat.eqb ks 16 || Nat.eqb ks 32)%bool with true by (destruct U2 as [-> | ->]; reflexivity). cbn [negb].
    unfold nonce_prefix_size. destruct (Nat.leb_spec size (offset + (1 + ks + 7) + tag)); [lia |].
    destruct (Nat.ltb_spec tag 10); [lia |].
    replace (known_hash (ch_tag_algo p)) with true by (destruct U5 as [-> | [-> | ->]]; reflexivity). cbn [negb].
    destruct U5 as [E | [E | E]]; rewrite E in *; cbn [hash_size] in U7.
    - destruct (Nat.ltb_spec 20 tag); [lia | reflexivity].
    - destruct (Nat.ltb_spec 32 tag); [lia | reflexivity].
    - destruct (Nat.ltb_spec 64 tag); [lia | reflexivity].
  Qed.
  Lemma ctr_streaming : forall n salt prefix, aes_ctr_hmac_streaming n lib p salt prefix =
    StOk (nonce_based_streaming_aead n (ctr_new_segment_encrypter lib p salt prefix) (ctr_new_segment_decrypter lib p)).
  Proof. intros n salt prefix. unfold aes_ctr_hmac_streaming. rewrite ctr_validate. reflexivity. Qed.
  Lemma ctr_encrypter : forall keys salt prefix ad, length salt = ks -> length prefix = 7 ->
    hkdf lib (ch_hkdf_algo p) (ch_ikm p) salt ad (ks + 32) = StOk keys ->
    ctr_new_segment_encrypter lib p salt prefix ad = StOk (common_encrypter ks size offset tag salt prefix (repeat x00 4) (ctr_hmac_seal lib p keys)).
  Proof.
    intros keys salt prefix ad Ls Lp Ek. unfold ctr_new_segment_encrypter. rewrite ctr_validate. unfold ctr_derive_keys, hmac_key_size. rewrite Ek.
    unfold common_encrypter, ctr_header, common_header. rewrite Ls, Lp. replace (1 + ks + 7) with (ks + 8) by lia. reflexivity.
  Qed.
  Definition ctr_decrypter (ad : bytes) : segment_decrypter := mk_segment_decrypter (ks + 8) size offset (ctr_init lib p ad).
  Lemma ctr_decrypter_ok : forall ad, ctr_new_segment_decrypter lib p ad = StOk (ctr_decrypter ad).
  Proof.
    intros ad. unfold ctr_new_segment_decrypter. rewrite ctr_validate. unfold ctr_decrypter, nonce_prefix_size.
    replace (1 + ks + 7) with (ks + 8) by lia. reflexivity.
  Qed.
  Definition ctr_bad : cc_status := NotOk "verification failed".
  Lemma ctr_init_ok : forall ad header, length header = ks + 8 -> Byte.to_N (hd x00 header) = N.of_nat (ks + 8) ->
    exists keys decrypt, hkdf lib (ch_hkdf_algo p) (ch_ikm p) (firstn ks (skipn 1 header)) ad (ks + 32) = StOk keys /\
      ctr_init lib p ad header = StOk decrypt /\
      forall i is_last c, decrypt i is_last c =
        common_decrypt size tag (repeat x00 4) ctr_bad (firstn 7 (skipn (1 + ks) header)) (ctr_hmac_open lib p keys) i is_last c.
  Proof.
    intros ad header L E. destruct (ctr_key (firstn ks (skipn 1 header)) ad) as (keys & Ek & Lk). exists keys. unfold ctr_init, nonce_prefix_size.
    replace (1 + ks + 7) with (ks + 8) by lia. rewrite L, Nat.eqb_refl, E, N.eqb_refl. cbn [negb]. unfold ctr_derive_keys, hmac_key_size. rewrite Ek.
    eexists. split; [reflexivity |]. split; [reflexivity |]. intros i is_last c. unfold common_decrypt.
    destruct (Nat.ltb _ _); [reflexivity |]. destruct (Nat.ltb _ _); [reflexivity |]. destruct (too_many_segments _ _); [reflexivity |].
    unfold ctr_hmac_open, compute_mac, seg_nonce, ctr_nonce. destruct (bytes_eqb _ _); reflexivity.
  Qed.
  Lemma ctr_init_inv : forall ad header decrypt, ctr_init lib p ad header = StOk decrypt ->
    length header = ks + 8 /\ Byte.to_N (hd x00 header) = N.of_nat (ks + 8).
  Proof.
    intros ad header decrypt H. unfold ctr_init, nonce_prefix_size in H. replace (1 + ks + 7) with (ks + 8) in H by lia.
    destruct (Nat.eqb_spec (length header) (ks + 8)) as [E1 |]; [| discriminate]. cbn [negb] in H. rewrite E1 in H.
    destruct (N.eqb_spec (Byte.to_N (hd x00 header)) (N.of_nat (ks + 8))) as [E2 |]; [auto | discriminate].
  Qed.
  Lemma ctr_errors : forall ad, errors_are_errors (ctr_decrypter ad).
  Proof.
    intros ad. split.
    - intros h e H. cbn [sd_init ctr_decrypter] in H. unfold ctr_init in H. destruct (negb (Nat.eqb _ _)); [injection H as <-; eauto |].
      destruct (negb (N.eqb _ _)); [injection H as <-; eauto |]. destruct (ctr_key (firstn ks (skipn 1 h)) ad) as (keys & Ek & _).
      unfold ctr_derive_keys, hmac_key_size in H. rewrite Ek in H. discriminate.
    - intros h decrypt i is_last c e H Hd. cbn [sd_init ctr_decrypter] in H. destruct (ctr_init_inv _ _ _ H) as (L & E).
      destruct (ctr_init_ok ad h L E) as (keys & decrypt' & _ & H' & HD). rewrite H in H'. injection H' as <-. rewrite HD in Hd. unfold common_decrypt in Hd.
      destruct (Nat.ltb _ _); [injection Hd as <-; eauto |]. destruct (Nat.ltb _ _); [injection Hd as <-; eauto |].
      destruct (too_many_segments _ _); [injection Hd as <-; eauto |]. destruct (ctr_hmac_open _ _ _ _ _); [discriminate | injection Hd as <-; unfold ctr_bad; eauto].
  Qed.
End Ctr.

Definition ctr_seal (lib : ssl) (p : ctr_hmac_params) (ad salt : bytes) : bytes -> bytes -> bytes :=
  match hkdf lib (ch_hkdf_algo p) (ch_ikm p) salt ad (ch_key_size p + 32) with StOk keys => ctr_hmac_seal lib p keys | StErr _ => fun _ _ => [] end.
Definition ctr_open (lib : ssl) (p : ctr_hmac_params) (ad salt : bytes) : bytes -> bytes -> option bytes :=
  match hkdf lib (ch_hkdf_algo p) (ch_ikm p) salt ad (ch_key_size p + 32) with StOk keys => ctr_hmac_open lib p keys | StErr _ => fun _ _ => None end.
Definition ctr_format (lib : ssl) (p : ctr_hmac_params) (ad salt prefix : bytes) : bytes -> bytes -> Prop :=
  format (ch_key_size p) (ch_ciphertext_segment_size p) (ch_ciphertext_offset p) (ch_tag_size p) (repeat x00 4) (ctr_seal lib p ad) salt prefix.
Lemma ctr_format_iff : forall lib p ad salt prefix P C, ctr_hmac_usable p -> hkdf_law lib ->
  ctr_format lib p ad salt prefix P C <-> ctr_hmac_ciphertext lib p ad salt prefix P C.
Proof.
  intros lib p ad salt prefix P C U Hk. destruct (ctr_key lib p U Hk salt ad) as (keys & Ek & Lk).
  unfold ctr_format, format, ctr_seal, ctr_hmac_ciphertext. rewrite Ek. split.
  - intros H. exists keys. split; [reflexivity | exact H].
  - intros (keys' & E & H). injection E as <-. exact H.
Qed.
Lemma ctr_enc : forall lib p ad, ctr_hmac_usable p -> hkdf_law lib -> forall salt prefix, length salt = ch_key_size p -> length prefix = 7 ->
  ctr_new_segment_encrypter lib p salt prefix ad =
  StOk (common_encrypter (ch_key_size p) (ch_ciphertext_segment_size p) (ch_ciphertext_offset p) (ch_tag_size p) salt prefix (repeat x00 4) (ctr_seal lib p ad salt)).
Proof.
  intros lib p ad U Hk salt prefix Ls Lp. destruct (ctr_key lib p U Hk salt ad) as (keys & Ek & Lk).
  unfold ctr_seal. rewrite Ek. apply (ctr_encrypter lib p U); assumption.
Qed.
Lemma ctr_init_open : forall lib p ad, ctr_hmac_usable p -> hkdf_law lib ->
  forall header, length header = ch_key_size p + 8 -> Byte.to_N (hd x00 header) = N.of_nat (ch_key_size p + 8) ->
  exists decrypt, ctr_init lib p ad header = StOk decrypt /\
    forall i is_last c, decrypt i is_last c =
      common_decrypt (ch_ciphertext_segment_size p) (ch_tag_size p) (repeat x00 4) ctr_bad (firstn 7 (skipn (1 + ch_key_size p) header))
        (ctr_open lib p ad (firstn (ch_key_size p) (skipn 1 header))) i is_last c.
Proof.
  intros lib p ad U Hk header L E. destruct (ctr_init_ok lib p U Hk ad header L E) as (keys & decrypt & Ek & Ed & HD).
  exists decrypt. split; [exact Ed |]. unfold ctr_open. rewrite Ek. exact HD.
Qed.
Lemma ctr_body : forall (c t : bytes), firstn (length (c ++ t) - length t) (c ++ t) = c /\ skipn (length (c ++ t) - length t) (c ++ t) = t.
Proof.
  intros c t. rewrite app_length. replace (length c + length t - length t) with (length c) by lia. split.
  - rewrite firstn_app, Nat.sub_diag, firstn_all, firstn_O. apply app_nil_r.
  - rewrite skipn_app, Nat.sub_diag, skipn_all. reflexivity.
Qed.
Lemma ctr_seal_law : forall lib p ad, ctr_hmac_usable p -> hkdf_law lib -> ctr_law lib -> hmac_law lib (ch_tag_algo p) (ch_tag_size p) ->
  (forall salt prefix i is_last s, length prefix = 7 ->
    length (ctr_seal lib p ad salt (seg_nonce (repeat x00 4) prefix i is_last) s) = length s + ch_tag_size p /\
    ctr_open lib p ad salt (seg_nonce (repeat x00 4) prefix i is_last) (ctr_seal lib p ad salt (seg_nonce (repeat x00 4) prefix i is_last) s) = Some s) /\
  (forall salt prefix i s, length prefix = 7 ->
    ctr_open lib p ad salt (seg_nonce (repeat x00 4) prefix i false) (ctr_seal lib p ad salt (seg_nonce (repeat x00 4) prefix i true) s) = None).
Proof.
  intros lib p ad U Hk Hc (M1 & M2). pose proof U as ((U1 & U2 & U3 & U4) & U5 & U6 & U7).
  assert (Lt : forall key data, length (firstn (ch_tag_size p) (hmac lib (ch_tag_algo p) key data)) = ch_tag_size p)
    by (intros key data; rewrite firstn_length, M1; lia).
  split.
  - intros salt prefix i is_last s L. unfold ctr_seal, ctr_open. destruct (ctr_key lib p U Hk salt ad) as (keys & Ek & Lk). rewrite Ek.
    set (nonce := seg_nonce _ _ _ _). unfold ctr_hmac_seal, ctr_hmac_open. destruct (Hc (firstn (ch_key_size p) keys) nonce s) as (C1 & C2).
    set (c := ctr lib _ nonce s) in *. set (t := firstn _ (hmac _ _ _ (nonce ++ c))).
    assert (Ht : length t = ch_tag_size p) by apply Lt. split; [rewrite app_length, C1, Ht; reflexivity |].
    rewrite <- Ht. destruct (ctr_body c t) as (B1 & B2). rewrite B1, B2. rewrite Ht. fold t.
    rewrite (proj2 (bytes_eqb_spec t t) eq_refl), C2. reflexivity.
  - intros salt prefix i s L. unfold ctr_seal, ctr_open. destruct (ctr_key lib p U Hk salt ad) as (keys & Ek & Lk). rewrite Ek.
    set (nonce := seg_nonce _ _ _ true). set (nonce' := seg_nonce _ _ _ false). unfold ctr_hmac_seal, ctr_hmac_open.
    set (c := ctr lib _ nonce s) in *. set (t := firstn _ (hmac _ _ _ (nonce ++ c))).
    assert (Ht : length t = ch_tag_size p) by apply Lt. rewrite <- Ht. destruct (ctr_body c t) as (B1 & B2). rewrite B1, B2. rewrite Ht.
    destruct (bytes_eqb (firstn (ch_tag_size p) (hmac lib (ch_tag_algo p) (skipn (ch_key_size p) keys) (nonce' ++ c))) t) eqn:K; [exfalso | reflexivity].
    apply bytes_eqb_spec in K.
    unfold t, nonce, nonce', seg_nonce in K. rewrite <- !app_assoc, !(app_assoc prefix) in K. revert K. apply M2. rewrite app_length, L. reflexivity.
Qed.
Lemma ctr_forgery : forall lib p ad sent C, ctr_hmac_usable p -> hkdf_law lib -> ctr_hmac_no_forgery lib p ad sent C ->
  no_forgery (ch_key_size p) (ch_ciphertext_segment_size p) (ch_ciphertext_offset p) (ch_tag_size p) (repeat x00 4)
    (ctr_seal lib p ad (salt_of (ch_key_size p) C)) (ctr_open lib p ad (salt_of (ch_key_size p) C)) sent C.
Proof.
  intros lib p ad sent C U Hk N. destruct (ctr_key lib p U Hk (salt_of (ch_key_size p) C) ad) as (keys & Ek & Lk).
  unfold ctr_seal, ctr_open. rewrite Ek. apply N. exact Ek.
Qed.

Lemma ctr_hmac_encrypts : forall F n lib p ad salt prefix,
  ctr_hmac_usable p -> hkdf_law lib -> length salt = ch_key_size p -> length prefix = 7%nat ->
  exists cc, aes_ctr_hmac_streaming n lib p salt prefix = StOk cc /\
    cc_encrypts F (stream_capacity (ch_key_size p) (ch_ciphertext_segment_size p) (ch_ciphertext_offset p) (ch_tag_size p))
      (fun P C => ctr_hmac_ciphertext lib p ad salt prefix P C /\ (length P <= stream_capacity (ch_key_size p) (ch_ciphertext_segment_size p) (ch_ciphertext_offset p) (ch_tag_size p))%nat) cc ad.
Proof.
  intros F n lib p ad salt prefix U Hk Ls Lp. eexists. split; [apply (ctr_streaming lib p U) |].
  apply (encrypts_impl _ _ (fun P C => ctr_format lib p ad salt prefix P C /\ length P <= stream_capacity (ch_key_size p) (ch_ciphertext_segment_size p) (ch_ciphertext_offset p) (ch_tag_size p)));
    [intros P C (H & L); split; [apply ctr_format_iff; assumption | exact L] |].
  pose proof U as ((U1 & U2 & U3 & U4) & U5 & U6).
  exact (scheme_encrypts _ _ _ (ch_tag_size p) (repeat x00 4) n ad (ctr_seal lib p ad) (ctr_new_segment_encrypter lib p) (ctr_new_segment_decrypter lib p)
           U2 U4 (ctr_enc lib p ad U Hk) F salt prefix Ls Lp).
Qed.
Lemma ctr_hmac_ciphertext_exists : forall lib p ad salt prefix P,
  ctr_hmac_usable p -> hkdf_law lib -> length salt = ch_key_size p -> length prefix = 7%nat ->
  (length P <= stream_capacity (ch_key_size p) (ch_ciphertext_segment_size p) (ch_ciphertext_offset p) (ch_tag_size p))%nat ->
  exists C, ctr_hmac_ciphertext lib p ad salt prefix P C /\ forall C', ctr_hmac_ciphertext lib p ad salt prefix P C' -> C' = C.
Proof.
  intros lib p ad salt prefix P U Hk Ls Lp L. pose proof U as ((U1 & U2 & U3 & U4) & U5 & U6).
  destruct (format_exists _ _ _ (ch_tag_size p) (repeat x00 4) (ctr_seal lib p ad) U2 U4 salt prefix P Ls Lp L) as (C & H).
  exists C. split; [apply ctr_format_iff; assumption |]. intros C' H'. apply (ctr_format_iff _ _ _ _ _ _ _ U Hk) in H'. symmetry.
  exact (format_unique _ _ _ (ch_tag_size p) (repeat x00 4) (ctr_seal lib p ad) U2 U4 salt prefix P C C' Ls Lp L H H').
Qed.
Lemma ctr_hmac_decrypts : forall F n lib p ad salt prefix salt' prefix' P C,
  ctr_hmac_usable p -> hkdf_law lib -> ctr_law lib -> hmac_law lib (ch_tag_algo p) (ch_tag_size p) -> length salt = ch_key_size p -> length prefix = 7%nat ->
  (length P <= stream_capacity (ch_key_size p) (ch_ciphertext_segment_size p) (ch_ciphertext_offset p) (ch_tag_size p))%nat ->
  ctr_hmac_ciphertext lib p ad salt prefix P C ->
  exists cc, aes_ctr_hmac_streaming n lib p salt' prefix' = StOk cc /\ cc_decrypts F cc ad C P.
Proof.
  intros F n lib p ad salt prefix salt' prefix' P C U Hk G Gh Ls Lp L H. eexists. split; [apply (ctr_streaming lib p U) |].
  apply (ctr_format_iff _ _ _ _ _ _ _ U Hk) in H. pose proof U as ((U1 & U2 & U3 & U4) & U5 & U6). pose proof (ctr_seal_law lib p ad U Hk G Gh) as (G1 & G2).
  exact (scheme_decrypts _ _ _ (ch_tag_size p) (repeat x00 4) n ad (ctr_seal lib p ad) (ctr_open lib p ad) ctr_bad (ctr_new_segment_encrypter lib p) (ctr_new_segment_decrypter lib p)
           (ctr_decrypter lib p ad) U2 U4 (ctr_decrypter_ok lib p U ad) eq_refl eq_refl eq_refl (ctr_errors lib p U Hk ad) (ctr_init_open lib p ad U Hk)
           G1 G2 F salt prefix salt' prefix' P C Ls Lp L H).
Qed.
Lemma ctr_hmac_ignores_junk : forall F n lib p ad salt prefix salt' prefix' P C junk k,
  ctr_hmac_usable p -> hkdf_law lib -> ctr_law lib -> hmac_law lib (ch_tag_algo p) (ch_tag_size p) -> length salt = ch_key_size p -> length prefix = 7%nat ->
  (length P <= stream_capacity (ch_key_size p) (ch_ciphertext_segment_size p) (ch_ciphertext_offset p) (ch_tag_size p))%nat ->
  ctr_hmac_ciphertext lib p ad salt prefix P C ->
  length P = (ch_ciphertext_segment_size p - ch_tag_size p - ch_ciphertext_offset p - (ch_key_size p + 8) + k * (ch_ciphertext_segment_size p - ch_tag_size p))%nat ->
  exists cc, aes_ctr_hmac_streaming n lib p salt' prefix' = StOk cc /\ cc_decrypts F cc ad (C ++ junk) P.
Proof.
  intros F n lib p ad salt prefix salt' prefix' P C junk k U Hk G Gh Ls Lp L H K. eexists. split; [apply (ctr_streaming lib p U) |].
  apply (ctr_format_iff _ _ _ _ _ _ _ U Hk) in H. pose proof U as ((U1 & U2 & U3 & U4) & U5 & U6). pose proof (ctr_seal_law lib p ad U Hk G Gh) as (G1 & G2).
  exact (scheme_ignores_junk _ _ _ (ch_tag_size p) (repeat x00 4) n ad (ctr_seal lib p ad) (ctr_open lib p ad) ctr_bad (ctr_new_segment_encrypter lib p) (ctr_new_segment_decrypter lib p)
           (ctr_decrypter lib p ad) U2 U4 (ctr_decrypter_ok lib p U ad) eq_refl eq_refl eq_refl (ctr_errors lib p U Hk ad) (ctr_init_open lib p ad U Hk)
           G1 G2 F salt prefix salt' prefix' P C junk k Ls Lp L H K).
Qed.
Lemma ctr_hmac_tampered : forall F n lib p ad sent salt' prefix' C,
  ctr_hmac_usable p -> hkdf_law lib -> sent_streams (ch_key_size p) sent -> ctr_hmac_no_forgery lib p ad sent C ->
  exists cc P whole, aes_ctr_hmac_streaming n lib p salt' prefix' = StOk cc /\
    cc_gives F (F \/ whole = false) (whole = true) cc ad C P /\
    (P = [] /\ whole = false \/
     exists salt prefix Q, In (salt, prefix, Q) sent /\
       firstn (ch_key_size p + 8) C = byte_of_N (N.of_nat (ch_key_size p + 8)) :: salt ++ prefix /\
       (exists rest, Q = P ++ rest) /\
       (whole = true -> P = Q /\ exists D junk, ctr_hmac_ciphertext lib p ad salt prefix P D /\ C = D ++ junk /\
          (junk = [] \/ exists k, ch_ciphertext_offset p + length D = k * ch_ciphertext_segment_size p)%nat)).
Proof.
  intros F n lib p ad sent salt' prefix' C U Hk Hs N. pose proof U as ((U1 & U2 & U3 & U4) & U5 & U6).
  destruct (scheme_tampered _ _ _ (ch_tag_size p) (repeat x00 4) n ad (ctr_seal lib p ad) (ctr_open lib p ad) ctr_bad (ctr_new_segment_encrypter lib p) (ctr_new_segment_decrypter lib p)
           (ctr_decrypter lib p ad) U2 U4 (ctr_decrypter_ok lib p U ad) eq_refl eq_refl eq_refl (ctr_errors lib p U Hk ad) (ctr_init_open lib p ad U Hk)
           (ctr_init_inv lib p ad) sent Hs F salt' prefix' C (ctr_forgery lib p ad sent C U Hk N)) as (P & whole & G & H).
  eexists. exists P, whole. split; [apply (ctr_streaming lib p U) |]. split; [exact G |].
  destruct H as [H | (salt & prefix & Q & H1 & H2 & H3 & H4)]; [left; exact H | right].
  exists salt, prefix, Q. split; [exact H1 |]. split; [exact H2 |]. split; [exact H3 |]. intros W. destruct (H4 W) as (E & D & junk & K1 & K2 & K3).
  split; [exact E |]. exists D, junk. split; [apply ctr_format_iff; assumption |]. split; [exact K2 | exact K3].
Qed.
Lemma ctr_hmac_cut_off : forall F n lib p ad sent salt' prefix' salt prefix Q C cut,
  ctr_hmac_usable p -> hkdf_law lib -> sent_streams (ch_key_size p) sent -> ctr_hmac_no_forgery lib p ad sent C ->
  In (salt, prefix, Q) sent ->
  (length Q <= stream_capacity (ch_key_size p) (ch_ciphertext_segment_size p) (ch_ciphertext_offset p) (ch_tag_size p))%nat ->
  ctr_hmac_ciphertext lib p ad salt prefix Q (C ++ cut) -> cut <> [] ->
  exists cc P rest, aes_ctr_hmac_streaming n lib p salt' prefix' = StOk cc /\ cc_gives F True False cc ad C P /\ Q = P ++ rest.
Proof.
  intros F n lib p ad sent salt' prefix' salt prefix Q C cut U Hk Hs N I L H NC. pose proof U as ((U1 & U2 & U3 & U4) & U5 & U6).
  apply (ctr_format_iff _ _ _ _ _ _ _ U Hk) in H.
  destruct (scheme_cut_off _ _ _ (ch_tag_size p) (repeat x00 4) n ad (ctr_seal lib p ad) (ctr_open lib p ad) ctr_bad (ctr_new_segment_encrypter lib p) (ctr_new_segment_decrypter lib p)
           (ctr_decrypter lib p ad) U2 U4 (ctr_decrypter_ok lib p U ad) eq_refl eq_refl eq_refl (ctr_errors lib p U Hk ad) (ctr_init_open lib p ad U Hk)
           (ctr_init_inv lib p ad) sent Hs F salt' prefix' salt prefix Q C cut (ctr_forgery lib p ad sent C U Hk N) I L H NC) as (P & rest & G & R).
  eexists. exists P, rest. split; [apply (ctr_streaming lib p U) |]. split; [exact G | exact R].
Qed.
Lemma ctr_hmac_unknown_header : forall F n lib p ad sent salt' prefix' C,
  ctr_hmac_usable p -> hkdf_law lib -> sent_streams (ch_key_size p) sent -> ctr_hmac_no_forgery lib p ad sent C ->
  (forall salt prefix Q, In (salt, prefix, Q) sent ->
     firstn (ch_key_size p + 8) C <> byte_of_N (N.of_nat (ch_key_size p + 8)) :: salt ++ prefix) ->
  exists cc, aes_ctr_hmac_streaming n lib p salt' prefix' = StOk cc /\ cc_refuses F cc ad C.
Proof.
  intros F n lib p ad sent salt' prefix' C U Hk Hs N H. pose proof U as ((U1 & U2 & U3 & U4) & U5 & U6).
  eexists. split; [apply (ctr_streaming lib p U) |].
  exact (scheme_unknown_header _ _ _ (ch_tag_size p) (repeat x00 4) n ad (ctr_seal lib p ad) (ctr_open lib p ad) ctr_bad (ctr_new_segment_encrypter lib p) (ctr_new_segment_decrypter lib p)
           (ctr_decrypter lib p ad) U2 U4 (ctr_decrypter_ok lib p U ad) eq_refl eq_refl eq_refl (ctr_errors lib p U Hk ad) (ctr_init_open lib p ad U Hk)
           (ctr_init_inv lib p ad) sent Hs F salt' prefix' C (ctr_forgery lib p ad sent C U Hk N) H).
Qed.
