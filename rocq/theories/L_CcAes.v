(** AES-GCM-HKDF and AES-CTR-HMAC streaming. *)
From Coq Require Import Strings.Byte Strings.String List NArith ZArith Bool Lia.
From Verif Require Import M_Base L_Base M_StreamTypes M_CcStream M_CcSegments M_CcAes S_CcStream S_Buffered S_CcSegments S_CcAes
  L_CcStream L_CcStream3 L_CcStream4 L_CcSegments L_CcSegments2 L_CcSegments3 L_CcSegments4.
Import ListNotations.
Open Scope string_scope.
Open Scope list_scope.
Open Scope nat_scope.

Lemma length_be32 : forall n, length (be32 n) = 4.
Proof. reflexivity. Qed.
Lemma be32_inj : forall i j, (i < 2 ^ 32)%N -> (j < 2 ^ 32)%N -> be32 i = be32 j -> i = j.
Proof.
  intros i j Hi Hj E. destruct (be32_bytes i Hi) as (b3 & b2 & b1 & b0 & E1 & V1).
  destruct (be32_bytes j Hj) as (c3 & c2 & c1 & c0 & E2 & V2). rewrite E1, E2 in E. injection E as -> -> -> ->. congruence.
Qed.
Lemma too_many_iff : forall i is_last, too_many_segments i is_last = false <->
  (i + 1 < 2 ^ 32 \/ i + 1 = 2 ^ 32 /\ is_last = true)%N.
Proof.
  intros i is_last. unfold too_many_segments. change (2 ^ 32)%N with 4294967296%N.
  destruct (N.ltb_spec 4294967295 i); destruct (N.eqb_spec i 4294967295); destruct is_last; cbn; split; try discriminate; try lia; auto.
Qed.

(** ** Both kinds of segments have the same form. *)
Section Common.
  Variables (ks size offset tag : nat) (salt prefix trailer : bytes).
  Variables (seal : bytes -> bytes -> bytes) (open : bytes -> bytes -> option bytes).
  Hypothesis (Hp : length prefix = 7) (Hsalt : length salt = ks) (Hks : ks = 16 \/ ks = 32).
  Hypothesis (Hsize : offset + (ks + 8) + tag < size).
  Definition seg_nonce (pre : bytes) (i : N) (is_last : bool) : bytes := pre ++ be32 i ++ [if is_last then x01 else x00] ++ trailer.
  Hypothesis (Hseal : forall i is_last s, length (seal (seg_nonce prefix i is_last) s) = length s + tag /\
                        open (seg_nonce prefix i is_last) (seal (seg_nonce prefix i is_last) s) = Some s).
  Hypothesis (Hlast : forall i s, open (seg_nonce prefix i false) (seal (seg_nonce prefix i true) s) = None).

  Definition common_header : bytes := byte_of_N (N.of_nat (ks + 8)) :: salt ++ prefix.
  Definition common_encrypt (i : N) (is_last : bool) (s : bytes) : st_or bytes :=
    if Nat.ltb (size - tag) (length s) then StErr (NotOk "plaintext too long")
    else if too_many_segments i is_last then StErr (NotOk "too many segments")
    else StOk (seal (seg_nonce prefix i is_last) s).
  Definition common_encrypter : segment_encrypter := mk_segment_encrypter common_header (size - tag) offset common_encrypt.
  Definition common_decrypt (bad : cc_status) (pre : bytes) (op : bytes -> bytes -> option bytes) (i : N) (is_last : bool) (c : bytes)
    : st_or bytes :=
    if Nat.ltb size (length c) then StErr (NotOk "ciphertext too long")
    else if Nat.ltb (length c) tag then StErr (NotOk "ciphertext too short")
    else if too_many_segments i is_last then StErr (NotOk "too many segments")
    else match op (seg_nonce pre i is_last) c with Some s => StOk s | None => StErr bad end.

  Lemma common_header_length : length common_header = ks + 8.
  Proof. clear - Hp Hsalt. unfold common_header. cbn [length]. rewrite app_length. lia. Qed.
  Lemma common_has_space : has_space common_encrypter.
  Proof. unfold has_space, common_encrypter. cbn [se_header se_ciphertext_offset se_plaintext_segment_size]. rewrite common_header_length. lia. Qed.
  Lemma common_takes : takes_segments common_encrypter (2 ^ 32).
  Proof.
    clear Hseal Hlast Hks Hsize Hp Hsalt. split; [lia |]. intros i is_last s L H. cbn [se_encrypt common_encrypter] in *. unfold common_encrypt.
    cbn [se_plaintext_segment_size common_encrypter] in L. destruct (Nat.ltb_spec (size - tag) (length s)); [lia |].
    rewrite (proj2 (too_many_iff i is_last) H). eauto.
  Qed.
  Lemma common_capacity : capacity common_encrypter (2 ^ 32) = stream_capacity ks size offset tag.
  Proof.
    unfold capacity, stream_capacity, common_encrypter. cbn [se_header se_ciphertext_offset se_plaintext_segment_size].
    rewrite common_header_length. reflexivity.
  Qed.
  Lemma common_first : first_segment_size common_encrypter = size - tag - offset - (ks + 8).
  Proof. unfold first_segment_size, common_encrypter. cbn [se_header se_ciphertext_offset se_plaintext_segment_size]. rewrite common_header_length. reflexivity. Qed.
  Lemma common_opens : forall sd bad decrypt, sd_header_size sd = ks + 8 -> sd_ciphertext_offset sd = offset ->
    sd_ciphertext_segment_size sd = size -> sd_init sd common_header = StOk decrypt ->
    (forall i is_last c, decrypt i is_last c = common_decrypt bad prefix open i is_last c) -> opens_segments common_encrypter sd.
  Proof.
    intros sd bad decrypt E1 E2 E3 E4 E5. exists tag, decrypt.
    cbn [se_header se_ciphertext_offset se_plaintext_segment_size se_encrypt common_encrypter]. rewrite common_header_length.
    repeat (split; [first [exact E4 | lia] |]). intros i is_last s c E. unfold common_encrypt in E.
    destruct (Nat.ltb_spec (size - tag) (length s)) as [L | L]; [discriminate |].
    destruct (too_many_segments i is_last) eqn:T; [discriminate |]. injection E as <-.
    destruct (Hseal i is_last s) as (S1 & S2). split; [exact S1 |]. rewrite !E5. unfold common_decrypt. rewrite S1.
    destruct (Nat.ltb_spec size (length s + tag)); [lia |]. destruct (Nat.ltb_spec (length s + tag) tag); [lia |]. rewrite T, S2.
    split; [reflexivity |]. intros ->. destruct (too_many_segments i false); [eauto |]. rewrite Hlast. eauto.
  Qed.

  Lemma sealed_impl : forall (e e' : N -> bool -> bytes -> st_or bytes) i l D,
    (forall j is_last s c, (i <= j < i + N.of_nat (length l))%N -> In s l -> (is_last = false -> (j + 1 < i + N.of_nat (length l))%N) ->
       e j is_last s = StOk c -> e' j is_last s = StOk c) ->
    sealed e i l D -> sealed e' i l D.
  Proof.
    intros e e' i l D H S. induction S as [i s c E | i s c l D E N S IH].
    - apply Sealed_last. apply H; cbn; auto; [lia | discriminate].
    - destruct l as [| s1 l]; [congruence |]. apply Sealed_more; [| exact N |].
      + apply H; cbn [length]; auto; [lia | left; reflexivity | lia].
      + apply IH. intros j is_last s' c' Hj Hin Hl. apply H; [cbn [length] in *; lia | right; exact Hin |].
        intros Z. specialize (Hl Z). cbn [length] in *. lia.
  Qed.
  (** The format. *)
  Lemma common_format : forall P C, segment_encryption common_encrypter P C ->
    stream_format ks size offset tag salt prefix trailer seal P C.
  Proof.
    intros P C (l & D & H1 & H2 & ->). exists l, D.
    cbn [se_header se_ciphertext_offset se_plaintext_segment_size se_encrypt common_encrypter] in *. rewrite common_header_length in H1.
    split; [exact H1 |]. split.
    - revert H2. apply sealed_impl. intros j is_last s c _ _ _ E. unfold common_encrypt in E.
      destruct (Nat.ltb _ _); [discriminate |]. destruct (too_many_segments _ _); [discriminate |]. exact E.
    - unfold common_header. cbn [app]. rewrite <- app_assoc. reflexivity.
  Qed.
  Lemma sealed_count : forall i l D, sealed common_encrypt i l D -> (i + N.of_nat (length l) <= 2 ^ 32)%N.
  Proof.
    intros i l D S. induction S as [i s c E | i s c l D E N S IH]; unfold common_encrypt in E;
      (destruct (Nat.ltb _ _); [discriminate |]); (destruct (too_many_segments _ _) eqn:T; [discriminate |]); apply too_many_iff in T;
      cbn [length]; lia.
  Qed.
  Lemma common_bound : forall P C, segment_encryption common_encrypter P C -> length P <= stream_capacity ks size offset tag.
  Proof.
    intros P C (l & D & H1 & H2 & _).
    cbn [se_header se_ciphertext_offset se_plaintext_segment_size se_encrypt common_encrypter] in *. rewrite common_header_length in H1.
    pose proof (segmented_count (size - tag) _ _ _ ltac:(lia) H1) as (K1 & _ & _). apply sealed_count in H2.
    assert (A : length l - 1 <= N.to_nat (2 ^ 32 - 1)) by (clear - H2; lia). unfold stream_capacity. nia.
  Qed.
  Lemma format_common : forall P C, length P <= stream_capacity ks size offset tag ->
    stream_format ks size offset tag salt prefix trailer seal P C -> segment_encryption common_encrypter P C.
  Proof.
    intros P C L (l & D & H1 & H2 & ->). exists l, D.
    cbn [se_header se_ciphertext_offset se_plaintext_segment_size se_encrypt common_encrypter] in *. rewrite common_header_length.
    split; [exact H1 |]. split.
    - pose proof (segmented_count (size - tag) _ _ _ ltac:(lia) H1) as (_ & K2 & K3).
      assert (K : (N.of_nat (length l) <= 2 ^ 32)%N).
      { destruct (Nat.le_gt_cases (length l) 1) as [K | K]; [lia |]. specialize (K2 K). unfold stream_capacity in L.
        assert (A : length l - 2 < N.to_nat (2 ^ 32 - 1)) by nia. clear - A K. lia. }
      pose proof (segmented_sizes _ _ _ _ H1 ltac:(lia)) as Fa. rewrite Forall_forall in Fa.
      revert H2. apply sealed_impl. intros j is_last s c Hj Hin Hl E. unfold common_encrypt.
      specialize (Fa s Hin). destruct (Nat.ltb_spec (size - tag) (length s)); [lia |].
      rewrite (proj2 (too_many_iff j is_last)); [exact E |]. destruct is_last; [lia | specialize (Hl eq_refl); lia].
    - unfold common_header. cbn [app]. rewrite <- app_assoc. reflexivity.
  Qed.
End Common.

(** ** Other ciphertexts *)

Lemma common_header_inj : forall ks salt prefix salt' prefix', length salt = length salt' ->
  common_header ks salt prefix = common_header ks salt' prefix' -> salt = salt' /\ prefix = prefix'.
Proof. intros ks salt prefix salt' prefix' L E. injection E as E. apply app_same_length; [exact E | exact L]. Qed.
Definition stream_list (ks size offset tag : nat) (trailer : bytes) (seal : bytes -> bytes -> bytes -> bytes)
  (sent : list (bytes * bytes * bytes)) : list (segment_encrypter * bytes) :=
  map (fun x => (common_encrypter ks size offset tag (fst (fst x)) (snd (fst x)) trailer (seal (fst (fst x))), snd x)) sent.
Lemma stream_list_differ : forall ks size offset tag trailer seal sent, sent_streams ks sent ->
  headers_differ (stream_list ks size offset tag trailer seal sent).
Proof.
  intros ks size offset tag trailer seal sent (H1 & H2). unfold headers_differ, stream_list. rewrite map_map.
  cbn [fst se_header common_encrypter]. induction sent as [| ((salt & prefix) & P) sent IH]; cbn [map] in *; [constructor |].
  inversion H1 as [| ? ? (A1 & A2) A3]; subst. inversion H2 as [| ? ? N1 N2]; subst. constructor; [| apply IH; assumption].
  cbn [fst snd] in *. intros I. apply in_map_iff in I. destruct I as (((salt' & prefix') & P') & E & I). cbn [fst snd] in E. rewrite Forall_forall in A3.
  destruct (A3 _ I) as (B1 & B2). cbn [fst snd] in *. destruct (common_header_inj _ _ _ _ _ B1 E) as (-> & ->).
  apply N1. change (salt, prefix) with (fst (salt, prefix, P')). apply in_map. exact I.
Qed.
Lemma common_opens_only : forall ks size offset tag trailer seal open bad sent sd C,
  0 < ks -> offset + (ks + 8) + tag < size -> sd_header_size sd = ks + 8 -> sd_ciphertext_offset sd = offset -> sd_ciphertext_segment_size sd = size ->
  (forall decrypt, sd_init sd (firstn (ks + 8) C) = StOk decrypt ->
     ks + 8 <= length C /\ firstn (ks + 8) C = common_header ks (salt_of ks C) (prefix_of ks C) /\
     forall i is_last c, decrypt i is_last c = common_decrypt size tag trailer bad (prefix_of ks C) (open (salt_of ks C)) i is_last c) ->
  no_forgery ks size offset tag trailer (seal (salt_of ks C)) (open (salt_of ks C)) sent C ->
  opens_only sd (stream_list ks size offset tag trailer seal sent) C.
Proof.
  intros ks size offset tag trailer seal open bad sent sd C Hks Hs E1 E2 E3 Hi N decrypt i is_last s Hd Ho.
  rewrite E1 in *. destruct (Hi _ Hd) as (HL & HC & HD). rewrite HD in Ho. unfold common_decrypt in Ho.
  assert (Lh : length (common_header ks (salt_of ks C) (prefix_of ks C)) = ks + 8).
  { unfold common_header. cbn [length]. rewrite app_length. unfold salt_of, prefix_of. rewrite !firstn_length, !skipn_length. lia. }
  assert (At : segment_at sd C i = stream_segment ks size offset C i).
  { unfold segment_at, stream_segment. rewrite E1, E2, E3. reflexivity. }
  rewrite At in *.
  destruct (Nat.ltb size _); [discriminate |]. destruct (Nat.ltb _ tag); [discriminate |].
  destruct (too_many_segments i is_last) eqn:T; [discriminate |]. destruct (open _ _ _) as [s' |] eqn:O; [injection Ho as -> | discriminate].
  assert (Hi32 : (i < 2 ^ 32)%N) by (apply too_many_iff in T; lia).
  destruct (N i is_last s Hi32 O) as (P & segs & I & K1 & K2 & K3 & K4).
  exists (common_encrypter ks size offset tag (salt_of ks C) (prefix_of ks C) trailer (seal (salt_of ks C))), P, segs.
  split; [apply in_map_iff; eexists; split; [| exact I]; reflexivity |]. cbn [se_header common_encrypter se_plaintext_segment_size se_ciphertext_offset se_encrypt].
  split; [symmetry; exact HC |]. rewrite Lh. split; [exact K1 |]. split; [exact K2 |]. split; [exact K3 |].
  unfold common_encrypt. rewrite T. pose proof (segmented_sizes _ _ _ _ K1 ltac:(lia)) as Fa. rewrite Forall_forall in Fa.
  specialize (Fa s (nth_error_In _ _ K2)). destruct (Nat.ltb_spec (size - tag) (length s)); [lia |]. rewrite K4. reflexivity.
Qed.

(** Headers *)
Lemma split_header : forall ks (C : bytes), ks + 8 <= length C -> Byte.to_N (hd x00 C) = N.of_nat (ks + 8) ->
  firstn (ks + 8) C = common_header ks (salt_of ks C) (prefix_of ks C).
Proof.
  intros ks C L E. destruct C as [| b C]; [cbn in L; lia |]. cbn [hd] in E. unfold common_header. rewrite <- E, byte_of_N_of_to_N.
  unfold salt_of, prefix_of. rewrite (Nat.add_succ_r ks 7).
  change (b :: firstn (ks + 7) C = b :: firstn ks C ++ firstn 7 (skipn ks C)). rewrite firstn_more. reflexivity.
Qed.
Lemma common_header_hd : forall ks salt prefix, ks = 16 \/ ks = 32 -> Byte.to_N (hd x00 (common_header ks salt prefix)) = N.of_nat (ks + 8).
Proof. intros ks salt prefix [-> | ->]; reflexivity. Qed.
Lemma common_header_salt : forall ks salt prefix, length salt = ks -> firstn ks (skipn 1 (common_header ks salt prefix)) = salt.
Proof. intros ks salt prefix <-. cbn [skipn common_header]. rewrite firstn_app, Nat.sub_diag, firstn_all, firstn_O. apply app_nil_r. Qed.
Lemma common_header_prefix : forall ks salt prefix, length salt = ks -> length prefix = 7 ->
  firstn 7 (skipn (1 + ks) (common_header ks salt prefix)) = prefix.
Proof.
  intros ks salt prefix <- L. cbn [skipn common_header Nat.add]. rewrite skipn_app, Nat.sub_diag, skipn_all. cbn [app skipn].
  rewrite <- L. apply firstn_all.
Qed.
Lemma salt_of_header : forall ks C, firstn ks (skipn 1 (firstn (ks + 8) C)) = salt_of ks C.
Proof. intros ks C. unfold salt_of. rewrite skipn_firstn_comm, firstn_firstn. f_equal. lia. Qed.
Lemma prefix_of_header : forall ks C, firstn 7 (skipn (1 + ks) (firstn (ks + 8) C)) = prefix_of ks C.
Proof. intros ks C. unfold prefix_of. rewrite skipn_firstn_comm, firstn_firstn. f_equal. lia. Qed.
Lemma hd_firstn : forall n (C : bytes), hd x00 (firstn (S n) C) = hd x00 C.
Proof. intros n [| b C]; reflexivity. Qed.

(** ** Streams *)

Lemma encrypts_impl : forall F cap (enc enc' : bytes -> bytes -> Prop) cc ad, (forall P C, enc P C -> enc' P C) ->
  cc_encrypts F cap enc cc ad -> cc_encrypts F cap enc' cc ad.
Proof.
  intros F cap enc enc' cc ad H G r o Hr. specialize (G r o Hr). destruct r as [e | s]; [| exact G].
  destruct G as (J & J1 & J2 & J3 & J4 & J5 & J6). exists J. repeat (split; [assumption |]).
  intros st o0 P HJ. destruct (J6 _ _ _ HJ) as (C & K1 & K2). eauto.
Qed.
Section Scheme.
  Variables (ks size offset tag : nat) (trailer : bytes) (n : nat) (ad : bytes).
  Variables (seal : bytes -> bytes -> bytes -> bytes) (open : bytes -> bytes -> bytes -> option bytes) (bad : cc_status).
  Variables (new_encrypter : bytes -> bytes -> bytes -> st_or segment_encrypter) (new_decrypter : bytes -> st_or segment_decrypter).
  Variables (sd : segment_decrypter).
  Hypothesis (Hks : ks = 16 \/ ks = 32) (Hsize : offset + (ks + 8) + tag < size).
  Hypothesis (He : forall salt prefix, length salt = ks -> length prefix = 7 ->
    new_encrypter salt prefix ad = StOk (common_encrypter ks size offset tag salt prefix trailer (seal salt))).
  Hypothesis (Hd : new_decrypter ad = StOk sd) (L1 : sd_header_size sd = ks + 8) (L2 : sd_ciphertext_offset sd = offset)
    (L3 : sd_ciphertext_segment_size sd = size) (Herr : errors_are_errors sd).
  Hypothesis (Hi : forall header, length header = ks + 8 -> Byte.to_N (hd x00 header) = N.of_nat (ks + 8) ->
    exists decrypt, sd_init sd header = StOk decrypt /\
      forall i is_last c, decrypt i is_last c =
        common_decrypt size tag trailer bad (firstn 7 (skipn (1 + ks) header)) (open (firstn ks (skipn 1 header))) i is_last c).
  Hypothesis (Hv : forall header decrypt, sd_init sd header = StOk decrypt ->
    length header = ks + 8 /\ Byte.to_N (hd x00 header) = N.of_nat (ks + 8)).

  Definition format (salt prefix : bytes) : bytes -> bytes -> Prop := stream_format ks size offset tag salt prefix trailer (seal salt).
  Definition scheme (salt prefix : bytes) : cc_streaming_aead := nonce_based_streaming_aead n (new_encrypter salt prefix) new_decrypter.

  Lemma scheme_encrypts : forall F salt prefix, length salt = ks -> length prefix = 7 ->
    cc_encrypts F (stream_capacity ks size offset tag) (fun P C => format salt prefix P C /\ length P <= stream_capacity ks size offset tag)
      (scheme salt prefix) ad.
  Proof.
    intros F salt prefix Ls Lp.
    apply (encrypts_impl _ _ (segment_encryption (common_encrypter ks size offset tag salt prefix trailer (seal salt)))).
    - intros P C H. split; [apply common_format; assumption | apply (common_bound ks size offset tag salt prefix trailer (seal salt)) in H; assumption].
    - rewrite <- (common_capacity ks size offset tag salt prefix trailer (seal salt)) by assumption.
      apply (nonce_based_encrypts F n); [apply He; assumption | apply common_has_space; assumption | apply common_takes; assumption].
  Qed.
  Lemma format_exists : forall salt prefix P, length salt = ks -> length prefix = 7 ->
    length P <= stream_capacity ks size offset tag -> exists C, format salt prefix P C.
  Proof.
    intros salt prefix P Ls Lp L.
    assert (exists C, segment_encryption (common_encrypter ks size offset tag salt prefix trailer (seal salt)) P C) as (C & H).
    { apply (segment_encryption_exists _ (2 ^ 32)); [apply common_has_space; assumption | apply common_takes; assumption |].
      rewrite common_capacity by assumption. exact L. }
    exists C. apply common_format; assumption.
  Qed.
  Lemma format_unique : forall salt prefix P C C', length salt = ks -> length prefix = 7 -> length P <= stream_capacity ks size offset tag ->
    format salt prefix P C -> format salt prefix P C' -> C = C'.
  Proof.
    intros salt prefix P C C' Ls Lp L H H'. apply format_common in H; try assumption. apply format_common in H'; try assumption.
    apply (segment_encryption_unique _ _ _ _ H H').
  Qed.

  Hypothesis (Hseal : forall salt prefix i is_last s, length prefix = 7 ->
    length (seal salt (seg_nonce trailer prefix i is_last) s) = length s + tag /\
    open salt (seg_nonce trailer prefix i is_last) (seal salt (seg_nonce trailer prefix i is_last) s) = Some s).
  Section Genuine.
  Hypothesis (Hlast : forall salt prefix i s, length prefix = 7 ->
    open salt (seg_nonce trailer prefix i false) (seal salt (seg_nonce trailer prefix i true) s) = None).
  Lemma scheme_opens : forall salt prefix, length salt = ks -> length prefix = 7 ->
    opens_segments (common_encrypter ks size offset tag salt prefix trailer (seal salt)) sd.
  Proof.
    intros salt prefix Ls Lp.
    destruct (Hi (common_header ks salt prefix) (common_header_length ks salt prefix Lp Ls) (common_header_hd ks salt prefix Hks)) as (decrypt & E & HD).
    rewrite (common_header_salt ks salt prefix Ls), (common_header_prefix ks salt prefix Ls Lp) in HD.
    apply (common_opens ks size offset tag salt prefix trailer (seal salt) (open salt)) with (bad := bad) (decrypt := decrypt); auto.
  Qed.
  Lemma scheme_decrypts : forall F salt prefix salt' prefix' P C, length salt = ks -> length prefix = 7 ->
    length P <= stream_capacity ks size offset tag -> format salt prefix P C -> cc_decrypts F (scheme salt' prefix') ad C P.
  Proof.
    intros F salt prefix salt' prefix' P C Ls Lp L H. apply format_common in H; try assumption. unfold scheme.
    apply (nonce_based_decrypts F n _ _ ad (common_encrypter ks size offset tag salt prefix trailer (seal salt)) sd C P Hd); auto;
      [apply common_has_space; assumption | apply scheme_opens; assumption].
  Qed.
  Lemma scheme_ignores_junk : forall F salt prefix salt' prefix' P C junk k, length salt = ks -> length prefix = 7 ->
    length P <= stream_capacity ks size offset tag -> format salt prefix P C ->
    length P = size - tag - offset - (ks + 8) + k * (size - tag) -> cc_decrypts F (scheme salt' prefix') ad (C ++ junk) P.
  Proof.
    intros F salt prefix salt' prefix' P C junk k Ls Lp L H K. apply format_common in H; try assumption. unfold scheme.
    apply (nonce_based_ignores_junk F n _ _ ad (common_encrypter ks size offset tag salt prefix trailer (seal salt)) sd C P junk k Hd); auto;
      [apply common_has_space; assumption | apply scheme_opens; assumption |].
    rewrite common_first by assumption. exact K.
  Qed.
  End Genuine.

  Section Tampered.
  Variables (sent : list (bytes * bytes * bytes)).
  Hypothesis (Hsent : sent_streams ks sent).
  Local Notation streams := (stream_list ks size offset tag trailer seal sent).
  Lemma scheme_opens_only : forall C,
    no_forgery ks size offset tag trailer (seal (salt_of ks C)) (open (salt_of ks C)) sent C -> opens_only sd streams C.
  Proof.
    intros C N. apply (common_opens_only ks size offset tag trailer seal open bad sent sd C); try assumption; [lia |].
    intros decrypt E. destruct (Hv _ _ E) as (Lh & Eh). destruct (Hi _ Lh Eh) as (decrypt' & E' & HD). rewrite E in E'. injection E' as <-.
    rewrite salt_of_header, prefix_of_header in HD. rewrite firstn_length in Lh. split; [lia |]. split; [| exact HD].
    apply split_header; [lia |]. rewrite (Nat.add_succ_r ks 7) in Eh |- *. rewrite hd_firstn in Eh. exact Eh.
  Qed.
  Lemma in_streams : forall se Q, In (se, Q) streams -> exists salt prefix, In (salt, prefix, Q) sent /\ length salt = ks /\ length prefix = 7 /\
    se = common_encrypter ks size offset tag salt prefix trailer (seal salt).
  Proof.
    intros se Q I. apply in_map_iff in I. destruct I as (((salt & prefix) & Q') & E & I). cbn [fst snd] in E. injection E as <- <-.
    destruct Hsent as (H1 & _). rewrite Forall_forall in H1. destruct (H1 _ I) as (A1 & A2). cbn [fst snd] in *. exists salt, prefix. auto.
  Qed.
  Lemma streams_in : forall salt prefix Q, In (salt, prefix, Q) sent ->
    In (common_encrypter ks size offset tag salt prefix trailer (seal salt), Q) streams /\ length salt = ks /\ length prefix = 7.
  Proof.
    intros salt prefix Q I. split; [apply in_map_iff; exists (salt, prefix, Q); split; [reflexivity | exact I] |].
    destruct Hsent as (H1 & _). rewrite Forall_forall in H1. exact (H1 _ I).
  Qed.
  Lemma scheme_tampered : forall F salt' prefix' C,
    no_forgery ks size offset tag trailer (seal (salt_of ks C)) (open (salt_of ks C)) sent C ->
    exists P whole, cc_gives F (F \/ whole = false) (whole = true) (scheme salt' prefix') ad C P /\
      (P = [] /\ whole = false \/
       exists salt prefix Q, In (salt, prefix, Q) sent /\ firstn (ks + 8) C = byte_of_N (N.of_nat (ks + 8)) :: salt ++ prefix /\
         (exists rest, Q = P ++ rest) /\
         (whole = true -> P = Q /\ exists D junk, format salt prefix P D /\ C = D ++ junk /\
            (junk = [] \/ exists k, offset + length D = k * size))).
  Proof.
    intros F salt' prefix' C N.
    destruct (nonce_based_tampered F n (new_encrypter salt' prefix') new_decrypter ad sd streams C Hd ltac:(lia) ltac:(lia) Herr
                (scheme_opens_only C N) (stream_list_differ _ _ _ _ _ _ _ Hsent)) as (P & whole & G & H).
    exists P, whole. split; [exact G |]. destruct H as [H | (se & Q & I & H1 & H2 & H3)]; [left; exact H | right].
    destruct (in_streams _ _ I) as (salt & prefix & I' & Ls & Lp & ->). exists salt, prefix, Q. split; [exact I' |].
    rewrite L1 in H1. split; [symmetry; exact H1 |]. split; [exact H2 |]. intros W. destruct (H3 W) as (E & D & junk & K1 & K2 & K3).
    split; [exact E |]. exists D, junk. split; [apply common_format; assumption |]. split; [exact K2 |]. rewrite L2, L3 in K3. exact K3.
  Qed.
  Lemma scheme_cut_off : forall F salt' prefix' salt prefix Q C cut,
    no_forgery ks size offset tag trailer (seal (salt_of ks C)) (open (salt_of ks C)) sent C ->
    In (salt, prefix, Q) sent -> length Q <= stream_capacity ks size offset tag -> format salt prefix Q (C ++ cut) -> cut <> [] ->
    exists P rest, cc_gives F True False (scheme salt' prefix') ad C P /\ Q = P ++ rest.
  Proof.
    intros F salt' prefix' salt prefix Q C cut N I L H NC. destruct (streams_in _ _ _ I) as (I' & Ls & Lp).
    apply format_common in H; try assumption.
    apply (nonce_based_cut_off F n (new_encrypter salt' prefix') new_decrypter ad sd streams
             (common_encrypter ks size offset tag salt prefix trailer (seal salt)) Q C cut Hd); auto; try lia.
    - cbn [se_header common_encrypter]. rewrite (common_header_length ks salt prefix Lp Ls). exact L1.
    - apply scheme_opens_only. exact N.
    - apply stream_list_differ. exact Hsent.
  Qed.
  Lemma scheme_unknown_header : forall F salt' prefix' C,
    no_forgery ks size offset tag trailer (seal (salt_of ks C)) (open (salt_of ks C)) sent C ->
    (forall salt prefix Q, In (salt, prefix, Q) sent -> firstn (ks + 8) C <> byte_of_N (N.of_nat (ks + 8)) :: salt ++ prefix) ->
    cc_refuses F (scheme salt' prefix') ad C.
  Proof.
    intros F salt' prefix' C N H.
    apply (nonce_based_unknown_header F n (new_encrypter salt' prefix') new_decrypter ad sd streams C Hd ltac:(lia) ltac:(lia) Herr (scheme_opens_only C N)).
    intros (se & Q) I. destruct (in_streams _ _ I) as (salt & prefix & I' & _ & _ & ->). cbn [fst se_header common_encrypter]. rewrite L1.
    intros E. apply (H _ _ _ I'). symmetry. exact E.
  Qed.
  End Tampered.
End Scheme.

(** ** AES-GCM-HKDF *)
Section Gcm.
  Variables (lib : ssl) (p : gcm_hkdf_params).
  Hypothesis (U : gcm_hkdf_usable p) (Hk : hkdf_law lib).
  Local Notation ks := (gh_derived_key_size p).
  Local Notation size := (gh_ciphertext_segment_size p).
  Local Notation offset := (gh_ciphertext_offset p).

  Lemma gcm_key : forall salt ad, exists key, hkdf lib (gh_hash p) (gh_ikm p) salt ad ks = StOk key /\ length key = ks.
  Proof. intros salt ad. destruct U as (U1 & U2 & U3 & U4). apply Hk; [exact U1 | lia]. Qed.
  Lemma gcm_streaming : forall n salt prefix, aes_gcm_hkdf_streaming n lib p salt prefix =
    StOk (nonce_based_streaming_aead n (gcm_new_segment_encrypter lib p salt prefix) (gcm_new_segment_decrypter lib p)).
  Proof.
    intros n salt prefix. destruct U as (U1 & U2 & U3 & U4). unfold aes_gcm_hkdf_streaming, gcm_hkdf_validate.
    replace (known_hash (gh_hash p)) with true by (destruct U1 as [-> | [-> | ->]]; reflexivity). cbn [negb].
    destruct (Nat.ltb_spec (length (gh_ikm p)) 16); [lia |]. destruct (Nat.ltb_spec (length (gh_ikm p)) ks); [lia |]. cbn [orb].
    replace (Nat.eqb ks 16 || Nat.eqb ks 32)%bool with true by (destruct U2 as [-> | ->]; reflexivity). cbn [negb].
    unfold gcm_tag_size. destruct (Nat.leb_spec size (offset + ks + 16)); [lia | reflexivity].
  Qed.
  Lemma gcm_encrypter : forall key salt prefix ad, length salt = ks -> length prefix = 7 ->
    hkdf lib (gh_hash p) (gh_ikm p) salt ad ks = StOk key -> length key = ks ->
    gcm_new_segment_encrypter lib p salt prefix ad = StOk (common_encrypter ks size offset 16 salt prefix [] (gcm_encrypt lib key)).
  Proof.
    intros key salt prefix ad Ls Lp Ek Lk. destruct U as (U1 & U2 & U3 & U4). unfold gcm_new_segment_encrypter. rewrite Ek. unfold gcm_segment_encrypter.
    rewrite Lk, Ls. replace (Nat.eqb ks 16 || Nat.eqb ks 32)%bool with true by (destruct U2 as [-> | ->]; reflexivity). rewrite Nat.eqb_refl. cbn [negb].
    unfold nonce_prefix_size, gcm_tag_size. destruct (Nat.leb_spec size (offset + (1 + ks + 7) + 16)); [lia |].
    unfold common_encrypter, gcm_header, common_header. rewrite Ls. unfold nonce_prefix_size. replace (1 + ks + 7) with (ks + 8) by lia. reflexivity.
  Qed.
  Definition gcm_decrypter (ad : bytes) : segment_decrypter := mk_segment_decrypter (ks + 8) size offset (gcm_init lib p ad).
  Lemma gcm_decrypter_ok : forall ad, gcm_new_segment_decrypter lib p ad = StOk (gcm_decrypter ad).
  Proof.
    intros ad. destruct U as (U1 & U2 & U3 & U4). unfold gcm_new_segment_decrypter, gcm_decrypter_validate.
    replace (known_hash (gh_hash p)) with true by (destruct U1 as [-> | [-> | ->]]; reflexivity). cbn [negb].
    replace (Nat.eqb ks 16 || Nat.eqb ks 32)%bool with true by (destruct U2 as [-> | ->]; reflexivity). cbn [negb].
    destruct (Nat.ltb_spec (length (gh_ikm p)) 16); [lia |]. destruct (Nat.ltb_spec (length (gh_ikm p)) ks); [lia |]. cbn [orb].
    unfold nonce_prefix_size, gcm_tag_size. destruct (Nat.leb_spec size (offset + (1 + ks + 7) + 16)); [lia |].
    unfold gcm_decrypter. replace (1 + ks + 7) with (ks + 8) by lia. reflexivity.
  Qed.
  Definition gcm_bad : cc_status := NotOk "Authentication failed".
  Lemma gcm_init_ok : forall ad header, length header = ks + 8 -> Byte.to_N (hd x00 header) = N.of_nat (ks + 8) ->
    exists key decrypt, hkdf lib (gh_hash p) (gh_ikm p) (firstn ks (skipn 1 header)) ad ks = StOk key /\
      gcm_init lib p ad header = StOk decrypt /\
      forall i is_last c, decrypt i is_last c =
        common_decrypt size 16 [] gcm_bad (firstn 7 (skipn (1 + ks) header)) (gcm_decrypt lib key) i is_last c.
  Proof.
    intros ad header L E. destruct (gcm_key (firstn ks (skipn 1 header)) ad) as (key & Ek & Lk). exists key. unfold gcm_init, nonce_prefix_size.
    replace (1 + ks + 7) with (ks + 8) by lia. rewrite L, Nat.eqb_refl, E, N.eqb_refl. cbn [negb]. rewrite Ek. eexists. split; [reflexivity |].
    split; [reflexivity |]. intros i is_last c. reflexivity.
  Qed.
  Lemma gcm_init_inv : forall ad header decrypt, gcm_init lib p ad header = StOk decrypt ->
    length header = ks + 8 /\ Byte.to_N (hd x00 header) = N.of_nat (ks + 8).
  Proof.
    intros ad header decrypt H. unfold gcm_init, nonce_prefix_size in H. replace (1 + ks + 7) with (ks + 8) in H by lia.
    destruct (Nat.eqb_spec (length header) (ks + 8)) as [E1 |]; [| discriminate]. cbn [negb] in H.
    destruct (N.eqb_spec (Byte.to_N (hd x00 header)) (N.of_nat (ks + 8))) as [E2 |]; [auto | discriminate].
  Qed.
  Lemma gcm_errors : forall ad, errors_are_errors (gcm_decrypter ad).
  Proof.
    intros ad. split.
    - intros h e H. cbn [sd_init gcm_decrypter] in H. unfold gcm_init in H. destruct (negb (Nat.eqb _ _)); [injection H as <-; eauto |].
      destruct (negb (N.eqb _ _)); [injection H as <-; eauto |]. destruct (gcm_key (firstn ks (skipn 1 h)) ad) as (key & Ek & _).
      rewrite Ek in H. discriminate.
    - intros h decrypt i is_last c e H Hd. cbn [sd_init gcm_decrypter] in H. destruct (gcm_init_inv _ _ _ H) as (L & E).
      destruct (gcm_init_ok ad h L E) as (key & decrypt' & _ & H' & HD). rewrite H in H'. injection H' as <-. rewrite HD in Hd. unfold common_decrypt in Hd.
      destruct (Nat.ltb _ _); [injection Hd as <-; eauto |]. destruct (Nat.ltb _ _); [injection Hd as <-; eauto |].
      destruct (too_many_segments _ _); [injection Hd as <-; eauto |]. destruct (gcm_decrypt _ _ _ _); [discriminate | injection Hd as <-; unfold gcm_bad; eauto].
  Qed.
  Lemma gcm_init_C : forall ad C decrypt, gcm_init lib p ad (firstn (ks + 8) C) = StOk decrypt ->
    ks + 8 <= length C /\ firstn (ks + 8) C = common_header ks (salt_of ks C) (prefix_of ks C) /\
    exists key, hkdf lib (gh_hash p) (gh_ikm p) (salt_of ks C) ad ks = StOk key /\
      forall i is_last c, decrypt i is_last c = common_decrypt size 16 [] gcm_bad (prefix_of ks C) (gcm_decrypt lib key) i is_last c.
  Proof.
    intros ad C decrypt H. destruct (gcm_init_inv _ _ _ H) as (L & E). destruct (gcm_init_ok ad _ L E) as (key & d & Ek & H' & HD).
    rewrite H in H'. injection H' as <-. rewrite salt_of_header in Ek. rewrite prefix_of_header in HD.
    rewrite firstn_length in L. split; [lia |]. split; [| exists key; split; [exact Ek | exact HD]].
    apply split_header; [lia |]. rewrite (Nat.add_succ_r ks 7) in E |- *. rewrite hd_firstn in E. exact E.
  Qed.
End Gcm.
