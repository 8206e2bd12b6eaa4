(** The key managers of streaming AEAD. *)
From Coq Require Import Strings.Byte Strings.String List NArith ZArith Bool Lia.
From Verif Require Import M_Base L_Base M_Proto M_Utf8 L_Utf8 M_Wire L_Wire S_Wire M_ProtoMsg S_ProtoMsg L_ProtoMsg M_KeyFormats M_Prims M_StreamTypes
  M_CcStream M_CcManagers M_CcAes M_CcStreamKeys S_Config S_CcAes S_CcStreamKeys.
Import ListNotations.
Open Scope string_scope.
Open Scope list_scope.
Open Scope Z_scope.

(** ** Messages that were parsed are well typed *)
Lemma all_some_last : forall (A : Type) (f : A -> option pystr) l r, all_some f l = Some r ->
  (forall a b, f a = Some b -> valid_text b) -> valid_text (last r []).
Proof.
  intros A f l. induction l as [| a l IH]; intros r H V; cbn in H.
  - injection H as <-. intros c [].
  - destruct (f a) as [b |] eqn:E; [| discriminate]. destruct (all_some f l) as [t |] eqn:E2; [| discriminate].
    injection H as <-. destruct t as [| c t]; [cbn; eapply V; eassumption |].
    change (last (b :: c :: t) []) with (last (c :: t) []). apply IH; [reflexivity | assumption].
Qed.
Fixpoint decode_holds (t : ptype) : forall occ v, decode_value t occ = Some v -> holds t v.
Proof.
  destruct t as [| | | | | fs]; intros occ v H.
  1-5: cbn [decode_value] in H.
  - injection H as <-. constructor. unfold uint32_of_varint.
    pose proof (N.mod_lt (last (varints_of occ) 0%N) 4294967296 ltac:(discriminate)). lia.
  - injection H as <-. constructor. apply int32_of_varint_range.
  - injection H as <-. constructor. apply int32_of_varint_range.
  - injection H as <-. constructor.
  - destruct (all_some utf8_decode (lens_of occ)) as [l |] eqn:E; [| discriminate]. injection H as <-. constructor.
    eapply all_some_last; [exact E |]. intros a b. apply utf8_decode_valid.
  - rewrite decode_value_msg in H. destruct (lens_of occ) as [| x xs]; [injection H as <-; constructor |].
    destruct (all_some parse_fields (x :: xs)) as [ls |]; [| discriminate].
    destruct (decode_fields fs (concat ls)) as [vs |] eqn:E; [| discriminate]. injection H as <-. constructor.
    clear x xs. revert vs E. generalize (concat ls). intros l.
    induction fs as [| ((name & k) & t') fr IH]; intros vs E; cbn [decode_fields] in E.
    + injection E as <-. constructor.
    + destruct (decode_value t' (occurrences k l)) as [v |] eqn:E1; [| discriminate].
      destruct (decode_fields fr l) as [r |] eqn:E2; [| discriminate]. injection E as <-.
      econstructor; [reflexivity | eapply decode_holds; exact E1 | apply IH; reflexivity].
Qed.
Lemma parse_holds : forall fs x m, parse_message fs x = Some m -> holds_all fs m.
Proof.
  intros fs x m H. unfold parse_message in H. destruct (parse_fields x) as [l |]; [| discriminate].
  revert m H. induction fs as [| ((name & k) & t) fr IH]; intros m E; cbn [decode_fields] in E.
  - injection E as <-. constructor.
  - destruct (decode_value t (occurrences k l)) as [v |] eqn:E1; [| discriminate].
    destruct (decode_fields fr l) as [r |] eqn:E2; [| discriminate]. injection E as <-.
    econstructor; [reflexivity | eapply decode_holds; exact E1 | apply IH; reflexivity].
Qed.

(** ** Attributes *)
Lemma num_at_number : forall fs m p z, number fs m p z -> num_at fs m p = z.
Proof. intros fs m p z H. unfold num_at. rewrite H. reflexivity. Qed.
Lemma bytes_at_content : forall fs m p x, octets fs m p x -> bytes_at fs m p = x.
Proof. intros fs m p z H. unfold bytes_at. rewrite H. reflexivity. Qed.
Lemma number_fun : forall fs m p z z', number fs m p z -> number fs m p z' -> z = z'.
Proof. intros fs m p z z' H H'. apply num_at_number in H, H'. congruence. Qed.
Lemma content_fun : forall fs m p x x', octets fs m p x -> octets fs m p x' -> x = x'.
Proof. intros fs m p z z' H H'. apply bytes_at_content in H, H'. congruence. Qed.

Definition u32 (z : Z) : Prop := 0 <= z < 2 ^ 32.
Ltac open_message :=
  repeat match goal with
    | H : holds_all [] _ |- _ => inversion H; subst; clear H
    | H : holds_all (_ :: _) _ |- _ => inversion H; subst; clear H
    | H : holds _ _ |- _ => inversion H; subst; clear H
    | H : snd _ = _ |- _ => cbn in H; subst
    end.
Lemma gcm_key_read : forall m, holds_all AesGcmHkdfStreamingKey m ->
  exists v size dks h k,
    number AesGcmHkdfStreamingKey m ["version"] v /\ u32 v /\
    octets AesGcmHkdfStreamingKey m ["key_value"] k /\
    number AesGcmHkdfStreamingKey m ["params"; "ciphertext_segment_size"] size /\ u32 size /\
    number AesGcmHkdfStreamingKey m ["params"; "derived_key_size"] dks /\ u32 dks /\
    number AesGcmHkdfStreamingKey m ["params"; "hkdf_hash_type"] h.
Proof.
  intros m H. unfold AesGcmHkdfStreamingKey, AesGcmHkdfStreamingParams in *. open_message;
  do 5 eexists; repeat apply conj; try reflexivity; unfold u32; try assumption; cbn; lia.
Qed.
Lemma gcm_format_read : forall m, holds_all AesGcmHkdfStreamingKeyFormat m ->
  exists ks size dks h,
    number AesGcmHkdfStreamingKeyFormat m ["key_size"] ks /\ u32 ks /\
    number AesGcmHkdfStreamingKeyFormat m ["params"; "ciphertext_segment_size"] size /\ u32 size /\
    number AesGcmHkdfStreamingKeyFormat m ["params"; "derived_key_size"] dks /\ u32 dks /\
    number AesGcmHkdfStreamingKeyFormat m ["params"; "hkdf_hash_type"] h.
Proof.
  intros m H. unfold AesGcmHkdfStreamingKeyFormat, AesGcmHkdfStreamingParams in *. open_message;
  do 4 eexists; repeat apply conj; try reflexivity; unfold u32; try assumption; cbn; lia.
Qed.
Lemma ctr_key_read : forall m, holds_all AesCtrHmacStreamingKey m ->
  exists v size dks h k h' ts,
    number AesCtrHmacStreamingKey m ["version"] v /\ u32 v /\
    octets AesCtrHmacStreamingKey m ["key_value"] k /\
    number AesCtrHmacStreamingKey m ["params"; "ciphertext_segment_size"] size /\ u32 size /\
    number AesCtrHmacStreamingKey m ["params"; "derived_key_size"] dks /\ u32 dks /\
    number AesCtrHmacStreamingKey m ["params"; "hkdf_hash_type"] h /\
    number AesCtrHmacStreamingKey m ["params"; "hmac_params"; "hash"] h' /\
    number AesCtrHmacStreamingKey m ["params"; "hmac_params"; "tag_size"] ts /\ u32 ts.
Proof.
  intros m H. unfold AesCtrHmacStreamingKey, AesCtrHmacStreamingParams, HmacParams in *. open_message;
  do 7 eexists; repeat apply conj; try reflexivity; unfold u32; try assumption; cbn; lia.
Qed.
Lemma ctr_format_read : forall m, holds_all AesCtrHmacStreamingKeyFormat m ->
  exists ks size dks h h' ts,
    number AesCtrHmacStreamingKeyFormat m ["key_size"] ks /\ u32 ks /\
    number AesCtrHmacStreamingKeyFormat m ["params"; "ciphertext_segment_size"] size /\ u32 size /\
    number AesCtrHmacStreamingKeyFormat m ["params"; "derived_key_size"] dks /\ u32 dks /\
    number AesCtrHmacStreamingKeyFormat m ["params"; "hkdf_hash_type"] h /\
    number AesCtrHmacStreamingKeyFormat m ["params"; "hmac_params"; "hash"] h' /\
    number AesCtrHmacStreamingKeyFormat m ["params"; "hmac_params"; "tag_size"] ts /\ u32 ts.
Proof.
  intros m H. unfold AesCtrHmacStreamingKeyFormat, AesCtrHmacStreamingParams, HmacParams in *. open_message;
  do 6 eexists; repeat apply conj; try reflexivity; unfold u32; try assumption; cbn; lia.
Qed.

(** ** What the managers check *)
Definition hash_known (h : Z) : Prop := h = 1 \/ h = 3 \/ h = 4.
Lemma hash_supported_spec : forall h, hash_supported h = true <-> hash_known h.
Proof.
  intros h. unfold hash_supported, hash_known. rewrite !orb_true_iff, !Z.eqb_eq. tauto.
Qed.
Lemma aes_key_size_spec : forall z, validate_aes_key_size z = None <-> z = 16 \/ z = 32.
Proof.
  intros z. unfold validate_aes_key_size. destruct (Z.eqb_spec z 16), (Z.eqb_spec z 32); cbn; split; intros H; try discriminate;
    try reflexivity; tauto.
Qed.
Lemma header_spec : forall dks t : Z, dks = 16 \/ dks = 32 -> 0 <= t < 2 ^ 31 ->
  uint32 (uint32 (1 + dks + Z.of_nat nonce_prefix_size) + t) = dks + 8 + t.
Proof.
  intros dks t H T. unfold uint32. change (Z.of_nat nonce_prefix_size) with 7.
  rewrite (Z.mod_small (1 + dks + 7)) by (destruct H; subst; lia). rewrite Z.mod_small by (destruct H; subst; lia). lia.
Qed.
Lemma gcm_validate_spec : forall at_,
  gcm_validate_params at_ = None <->
  hash_known (at_ ["hkdf_hash_type"]) /\ (at_ ["derived_key_size"] = 16 \/ at_ ["derived_key_size"] = 32) /\
  at_ ["derived_key_size"] + 8 + 16 < at_ ["ciphertext_segment_size"].
Proof.
  intros at_. unfold gcm_validate_params. rewrite <- hash_supported_spec.
  generalize (at_ ["hkdf_hash_type"]), (at_ ["derived_key_size"]), (at_ ["ciphertext_segment_size"]). intros h dks size.
  destruct (hash_supported h); cbn [negb]; [| split; [discriminate | intros (? & _); discriminate]].
  cbv zeta. split.
  - intros H. destruct (size <=? _) eqn:E in H; [discriminate |]. apply aes_key_size_spec in H.
    apply Z.leb_gt in E. rewrite header_spec in E by (try assumption; cbn; lia).
    change (Z.of_nat gcm_tag_size) with 16 in E. tauto.
  - intros (_ & H & L). rewrite (header_spec dks) by (try assumption; cbn; lia).
    change (Z.of_nat gcm_tag_size) with 16. rewrite (proj2 (Z.leb_gt _ _) L). apply aes_key_size_spec. assumption.
Qed.
Definition tag_fits (h ts : Z) : Prop := 10 <= ts /\ (h = 1 -> ts <= 20) /\ (h = 3 -> ts <= 32) /\ (h = 4 -> ts <= 64).
Lemma ctr_validate_spec : forall at_,
  ctr_validate_params at_ = None <->
  hash_known (at_ ["hkdf_hash_type"]) /\ hash_known (at_ ["hmac_params"; "hash"]) /\
  tag_fits (at_ ["hmac_params"; "hash"]) (at_ ["hmac_params"; "tag_size"]) /\
  (at_ ["derived_key_size"] = 16 \/ at_ ["derived_key_size"] = 32) /\
  at_ ["derived_key_size"] + 8 + at_ ["hmac_params"; "tag_size"] < at_ ["ciphertext_segment_size"] < 2 ^ 31.
Proof.
  intros at_. unfold ctr_validate_params. rewrite <- !hash_supported_spec.
  generalize (at_ ["hkdf_hash_type"]), (at_ ["derived_key_size"]), (at_ ["ciphertext_segment_size"]),
    (at_ ["hmac_params"; "hash"]), (at_ ["hmac_params"; "tag_size"]). intros h dks size h' ts. cbv zeta.
  destruct (hash_supported h); cbn [negb]; [| split; [discriminate | intros (? & _); discriminate]].
  destruct (hash_supported h') eqn:Eh'; cbn [negb]; [| split; [discriminate | intros (_ & ? & _); discriminate]].
  apply hash_supported_spec in Eh'. unfold tag_fits.
  destruct (Z.ltb_spec ts 10); [split; [discriminate |]; intros (_ & _ & (X & _) & _); lia |].
  destruct ((h' =? 1) && (20 <? ts) || (h' =? 3) && (32 <? ts) || (h' =? 4) && (64 <? ts))%bool eqn:Et.
  { split; [discriminate |]. intros (_ & _ & (_ & X1 & X3 & X4) & _).
    rewrite !orb_true_iff, !andb_true_iff, !Z.eqb_eq, !Z.ltb_lt in Et. lia. }
  assert (F : (h' = 1 -> ts <= 20) /\ (h' = 3 -> ts <= 32) /\ (h' = 4 -> ts <= 64)).
  { rewrite !orb_false_iff, !andb_false_iff, !Z.eqb_neq, !Z.ltb_ge in Et. lia. }
  assert (TS : 0 <= ts < 2 ^ 31) by (destruct Eh' as [-> | [-> | ->]]; lia).
  split.
  - intros H0. destruct (size <=? _) eqn:E in H0; [discriminate |]. destruct (2147483647 <? size) eqn:E2; [discriminate |].
    apply aes_key_size_spec in H0. apply Z.leb_gt in E. apply Z.ltb_ge in E2. rewrite header_spec in E by assumption. repeat apply conj; try tauto; lia.
  - intros (_ & _ & _ & D & L1 & L2). rewrite (header_spec dks) by assumption. rewrite (proj2 (Z.leb_gt _ _) L1).
    replace (2147483647 <? size) with false by (symmetry; apply Z.ltb_ge; lia). apply aes_key_size_spec. assumption.
Qed.

Lemma hash_number_known : forall h z, hash_number h z -> proto_to_subtle z = h.
Proof.
  intros h z H. cbn in H. destruct H as [H | [H | [H | [H | [H | []]]]]]; injection H as <- <-; reflexivity.
Qed.
Lemma hash_number_fun : forall h z z', hash_number h z -> hash_number h z' -> z = z'.
Proof.
  intros h z z' H H'. cbn in H, H'.
  destruct H as [H | [H | [H | [H | [H | []]]]]]; injection H as <- <-;
  destruct H' as [H | [H | [H | [H | [H | []]]]]]; congruence.
Qed.
Lemma known_hash_number : forall z, hash_known z -> hash_number (proto_to_subtle z) z.
Proof. intros z [-> | [-> | ->]]; cbn; tauto. Qed.
Definition sha (h : hash_type) : Prop := h = M_CcAes.SHA1 \/ h = M_CcAes.SHA256 \/ h = M_CcAes.SHA512.
Lemma hash_known_sha : forall h z, hash_number h z -> (sha h <-> hash_known z).
Proof.
  intros h z H. cbn in H. unfold sha, hash_known.
  destruct H as [H | [H | [H | [H | [H | []]]]]]; injection H as <- <-; split; intros [X | [X | X]]; try discriminate; tauto.
Qed.

(** ** The parameters in a message *)
Lemma gcm_has_params : forall fs m size dks h p,
  number fs m ["params"; "ciphertext_segment_size"] size -> number fs m ["params"; "derived_key_size"] dks ->
  number fs m ["params"; "hkdf_hash_type"] h ->
  (has_params fs m (GcmHkdf p) <->
   size = Z.of_nat (gh_ciphertext_segment_size p) /\ dks = Z.of_nat (gh_derived_key_size p) /\ gh_ciphertext_offset p = 0%nat /\
   hash_number (gh_hash p) h).
Proof.
  intros fs m size dks h p Hs Hd Hh. split.
  - intros (S & D & O & h1 & Hh1 & N). cbn [segment_size salt_size stream_offset] in *.
    rewrite (number_fun _ _ _ _ _ Hs S), (number_fun _ _ _ _ _ Hd D), (number_fun _ _ _ _ _ Hh Hh1). tauto.
  - intros (-> & -> & O & N). split; [exact Hs |]. split; [exact Hd |]. split; [exact O |]. exists h. tauto.
Qed.
Lemma ctr_has_params : forall fs m size dks h h' ts p,
  number fs m ["params"; "ciphertext_segment_size"] size -> number fs m ["params"; "derived_key_size"] dks ->
  number fs m ["params"; "hkdf_hash_type"] h -> number fs m ["params"; "hmac_params"; "hash"] h' ->
  number fs m ["params"; "hmac_params"; "tag_size"] ts ->
  (has_params fs m (CtrHmac p) <->
   size = Z.of_nat (ch_ciphertext_segment_size p) /\ dks = Z.of_nat (ch_key_size p) /\ ch_ciphertext_offset p = 0%nat /\
   hash_number (ch_hkdf_algo p) h /\ hash_number (ch_tag_algo p) h' /\ ts = Z.of_nat (ch_tag_size p)).
Proof.
  intros fs m size dks h h' ts p Hs Hd Hh Hh' Ht. split.
  - intros (S & D & O & h1 & Hh1 & N & T & h2 & Hh2 & N'). cbn [segment_size salt_size stream_offset] in *.
    rewrite (number_fun _ _ _ _ _ Hs S), (number_fun _ _ _ _ _ Hd D), (number_fun _ _ _ _ _ Hh Hh1), (number_fun _ _ _ _ _ Hh' Hh2),
      (number_fun _ _ _ _ _ Ht T). tauto.
  - intros (-> & -> & O & N & N' & ->). split; [exact Hs |]. split; [exact Hd |]. split; [exact O |]. exists h.
    split; [exact Hh |]. split; [exact N |]. split; [exact Ht |]. exists h'. tauto.
Qed.
Lemma gcm_usable_numbers : forall p h, hash_number (gh_hash p) h -> gh_ciphertext_offset p = 0%nat ->
  (params_usable (GcmHkdf p) <->
   hash_known h /\ (Z.of_nat (gh_derived_key_size p) = 16 \/ Z.of_nat (gh_derived_key_size p) = 32) /\
   Z.of_nat (gh_derived_key_size p) <= Z.of_nat (length (gh_ikm p)) /\
   Z.of_nat (gh_derived_key_size p) + 8 + 16 < Z.of_nat (gh_ciphertext_segment_size p)).
Proof.
  intros p h N O. rewrite <- (hash_known_sha _ _ N). cbn [params_usable]. unfold gcm_hkdf_usable, usable, sha. rewrite O.
  split; intros (A & B & C & D); repeat apply conj; try assumption; lia.
Qed.
Lemma ctr_usable_numbers : forall p h h', hash_number (ch_hkdf_algo p) h -> hash_number (ch_tag_algo p) h' -> ch_ciphertext_offset p = 0%nat ->
  (params_usable (CtrHmac p) <->
   hash_known h /\ hash_known h' /\ tag_fits h' (Z.of_nat (ch_tag_size p)) /\
   (Z.of_nat (ch_key_size p) = 16 \/ Z.of_nat (ch_key_size p) = 32) /\
   Z.of_nat (ch_key_size p) <= Z.of_nat (length (ch_ikm p)) /\
   Z.of_nat (ch_key_size p) + 8 + Z.of_nat (ch_tag_size p) < Z.of_nat (ch_ciphertext_segment_size p)).
Proof.
  intros p h h' N N' O. rewrite <- (hash_known_sha _ _ N), <- (hash_known_sha _ _ N'). cbn [params_usable].
  unfold ctr_hmac_usable, usable, sha, tag_fits. rewrite O.
  cbn in N'. destruct N' as [E | [E | [E | [E | [E | []]]]]]; injection E as E <-; rewrite <- E; cbn [hash_size].
  all: split; [intros ((A & B & C & D) & F & G) | intros (A & F & G & B & C & D)];
    repeat apply conj; try assumption; try lia; try (destruct F as [F | [F | F]]; discriminate F).
Qed.

(** ** Primitives of keys *)
Lemma type_urls : forall n, type_url n = ulit ("type.googleapis.com/google.crypto.tink." ++ n).
Proof. reflexivity. Qed.
Lemma gcm_get_primitive : forall n lib salt prefix d cc,
  get_primitive (type_url "AesGcmHkdfStreamingKey") AesGcmHkdfStreamingKey gcm_validate_params (gcm_create n lib salt prefix) d = StOk cc <->
  exists p, key_params d (GcmHkdf p) /\ params_usable (GcmHkdf p) /\ segments_fit (GcmHkdf p) /\
    aes_streaming n lib (GcmHkdf p) salt prefix = StOk cc.
Proof.
  intros n lib salt prefix d cc. unfold get_primitive.
  destruct (str_eqb (type_url "AesGcmHkdfStreamingKey") (kd_type_url d)) eqn:EU; cbn [negb].
  2:{ split; [discriminate |]. intros (p & (U & _) & _). cbn [stream_type] in U. rewrite U, (proj2 (str_eqb_spec _ _) eq_refl) in EU. discriminate. }
  apply str_eqb_spec in EU.
  destruct (parse_message AesGcmHkdfStreamingKey (kd_value d)) as [m |] eqn:EM.
  2:{ split; [discriminate |]. intros (p & (_ & m & E & _) & _). cbn [key_schema] in E. rewrite EM in E. discriminate. }
  destruct (gcm_key_read _ (parse_holds _ _ _ EM)) as (v & size & dks & h & k & Hv & Rv & Hk & Hs & Rs & Hd & Rd & Hh).
  unfold validate_key, gcm_create. rewrite (num_at_number _ _ _ _ Hv), (bytes_at_content _ _ _ _ Hk), (num_at_number _ _ _ _ Hd),
    (num_at_number _ _ _ _ Hs), (num_at_number _ _ _ _ Hh).
  unfold u32 in *. split.
  - intros H. unfold validate_version in H. destruct (Z.ltb_spec 0 v); [discriminate |].
    destruct (Z.ltb_spec (Z.of_nat (length k)) dks); [discriminate |].
    destruct (gcm_validate_params _) as [s |] eqn:EP in H; [discriminate |].
    apply gcm_validate_spec in EP. rewrite (num_at_number _ _ _ _ Hd), (num_at_number _ _ _ _ Hs), (num_at_number _ _ _ _ Hh) in EP.
    destruct EP as (P1 & P2 & P3). destruct (Z.ltb_spec 2147483647 size); [discriminate |].
    exists (mk_gcm_hkdf_params k (proto_to_subtle h) (Z.to_nat dks) (Z.to_nat size) 0).
    assert (HP : hash_number (proto_to_subtle h) h) by (apply known_hash_number; assumption).
    split; [| split; [| split; [| exact H]]].
    + split; [symmetry; exact EU |]. exists m. split; [exact EM |]. replace v with 0 in Hv by lia.
      split; [exact Hv |]. split; [exact Hk |]. apply (gcm_has_params _ _ _ _ _ _ Hs Hd Hh). cbn. rewrite !Z2Nat.id by lia. tauto.
    + apply (gcm_usable_numbers _ h); cbn; [exact HP | reflexivity |]. rewrite !Z2Nat.id by lia. tauto.
    + unfold segments_fit. cbn. rewrite Z2Nat.id by lia. lia.
  - intros (p & (_ & m1 & E1 & Hv1 & Hk1 & HP) & HU & HF & HC). cbn [key_schema key_material] in *.
    rewrite EM in E1. injection E1 as <-. rewrite (number_fun _ _ _ _ _ Hv Hv1). rewrite (content_fun _ _ _ _ _ Hk Hk1) in *.
    apply (gcm_has_params _ _ _ _ _ _ Hs Hd Hh) in HP. destruct HP as (-> & -> & O & HN).
    apply (gcm_usable_numbers _ _ HN O) in HU. destruct HU as (U1 & U2 & U3 & U4).
    cbn [validate_version Z.ltb Z.compare]. rewrite (proj2 (Z.ltb_ge _ _) U3).
    replace (gcm_validate_params _) with (@None cc_status).
    2:{ symmetry. apply gcm_validate_spec. rewrite (num_at_number _ _ _ _ Hd), (num_at_number _ _ _ _ Hs), (num_at_number _ _ _ _ Hh). tauto. }
    unfold segments_fit in HF. cbn [segment_size] in HF. rewrite (proj2 (Z.ltb_ge _ _)) by lia.
    rewrite (hash_number_known _ _ HN), !Nat2Z.id. rewrite <- O. destruct p. exact HC.
Qed.
Lemma ctr_get_primitive : forall n lib salt prefix d cc,
  get_primitive (type_url "AesCtrHmacStreamingKey") AesCtrHmacStreamingKey ctr_validate_params (ctr_create n lib salt prefix) d = StOk cc <->
  exists p, key_params d (CtrHmac p) /\ params_usable (CtrHmac p) /\ segments_fit (CtrHmac p) /\
    aes_streaming n lib (CtrHmac p) salt prefix = StOk cc.
Proof.
  intros n lib salt prefix d cc. unfold get_primitive.
  destruct (str_eqb (type_url "AesCtrHmacStreamingKey") (kd_type_url d)) eqn:EU; cbn [negb].
  2:{ split; [discriminate |]. intros (p & (U & _) & _). cbn [stream_type] in U. rewrite U, (proj2 (str_eqb_spec _ _) eq_refl) in EU. discriminate. }
  apply str_eqb_spec in EU.
  destruct (parse_message AesCtrHmacStreamingKey (kd_value d)) as [m |] eqn:EM.
  2:{ split; [discriminate |]. intros (p & (_ & m & E & _) & _). cbn [key_schema] in E. rewrite EM in E. discriminate. }
  destruct (ctr_key_read _ (parse_holds _ _ _ EM)) as (v & size & dks & h & k & h' & ts & Hv & Rv & Hk & Hs & Rs & Hd & Rd & Hh & Hh' & Ht & Rt).
  unfold validate_key, ctr_create. rewrite (num_at_number _ _ _ _ Hv), (bytes_at_content _ _ _ _ Hk), (num_at_number _ _ _ _ Hd),
    (num_at_number _ _ _ _ Hs), (num_at_number _ _ _ _ Hh), (num_at_number _ _ _ _ Hh'), (num_at_number _ _ _ _ Ht).
  unfold u32 in *. split.
  - intros H. unfold validate_version in H. destruct (Z.ltb_spec 0 v); [discriminate |].
    destruct (Z.ltb_spec (Z.of_nat (length k)) dks); [discriminate |].
    destruct (ctr_validate_params _) as [s |] eqn:EP in H; [discriminate |].
    apply ctr_validate_spec in EP. rewrite (num_at_number _ _ _ _ Hd), (num_at_number _ _ _ _ Hs), (num_at_number _ _ _ _ Hh),
      (num_at_number _ _ _ _ Hh'), (num_at_number _ _ _ _ Ht) in EP.
    destruct EP as (P1 & P2 & P3 & P4 & P5 & P6).
    exists (mk_ctr_hmac_params k (proto_to_subtle h) (Z.to_nat dks) (Z.to_nat size) 0 (proto_to_subtle h') (Z.to_nat ts)).
    assert (HP : hash_number (proto_to_subtle h) h) by (apply known_hash_number; assumption).
    assert (HP' : hash_number (proto_to_subtle h') h') by (apply known_hash_number; assumption).
    split; [| split; [| split; [| exact H]]].
    + split; [symmetry; exact EU |]. exists m. split; [exact EM |]. replace v with 0 in Hv by lia.
      split; [exact Hv |]. split; [exact Hk |]. apply (ctr_has_params _ _ _ _ _ _ _ _ Hs Hd Hh Hh' Ht). cbn. rewrite !Z2Nat.id by lia. tauto.
    + apply (ctr_usable_numbers _ h h'); cbn; [exact HP | exact HP' | reflexivity |]. rewrite !Z2Nat.id by lia. tauto.
    + unfold segments_fit. cbn. rewrite Z2Nat.id by lia. lia.
  - intros (p & (_ & m1 & E1 & Hv1 & Hk1 & HP) & HU & HF & HC). cbn [key_schema key_material] in *.
    rewrite EM in E1. injection E1 as <-. rewrite (number_fun _ _ _ _ _ Hv Hv1). rewrite (content_fun _ _ _ _ _ Hk Hk1) in *.
    apply (ctr_has_params _ _ _ _ _ _ _ _ Hs Hd Hh Hh' Ht) in HP. destruct HP as (-> & -> & O & HN & HN' & ->).
    apply (ctr_usable_numbers _ _ _ HN HN' O) in HU. destruct HU as (U1 & U2 & U3 & U4 & U5 & U6).
    cbn [validate_version Z.ltb Z.compare]. rewrite (proj2 (Z.ltb_ge _ _) U5).
    unfold segments_fit in HF. cbn [segment_size] in HF.
    replace (ctr_validate_params _) with (@None cc_status).
    2:{ symmetry. apply ctr_validate_spec. rewrite (num_at_number _ _ _ _ Hd), (num_at_number _ _ _ _ Hs), (num_at_number _ _ _ _ Hh),
      (num_at_number _ _ _ _ Hh'), (num_at_number _ _ _ _ Ht). tauto. }
    rewrite (hash_number_known _ _ HN), (hash_number_known _ _ HN'), !Nat2Z.id. rewrite <- O. destruct p. exact HC.
Qed.

Lemma streaming_managers_spec : forall n lib salt prefix random url m,
  streaming_managers n lib salt prefix random url = Some m <->
  url = type_url "AesGcmHkdfStreamingKey" /\ m = aes_gcm_hkdf_streaming_key_manager n lib salt prefix random \/
  url = type_url "AesCtrHmacStreamingKey" /\ m = aes_ctr_hmac_streaming_key_manager n lib salt prefix random.
Proof.
  intros n lib salt prefix random url m. unfold streaming_managers. cbn [find cl_key_type aes_gcm_hkdf_streaming_key_manager aes_ctr_hmac_streaming_key_manager].
  change (ulit "type.googleapis.com/google.crypto.tink.AesGcmHkdfStreamingKey") with (type_url "AesGcmHkdfStreamingKey").
  change (ulit "type.googleapis.com/google.crypto.tink.AesCtrHmacStreamingKey") with (type_url "AesCtrHmacStreamingKey").
  assert (ND : type_url "AesGcmHkdfStreamingKey" <> type_url "AesCtrHmacStreamingKey") by (vm_compute; discriminate).
  destruct (str_eqb (type_url "AesGcmHkdfStreamingKey") url) eqn:E1.
  { apply str_eqb_spec in E1. subst url. split; [intros H; injection H as <-; left; split; reflexivity |].
    intros [(_ & ->) | (E & _)]; [reflexivity | contradiction]. }
  destruct (str_eqb (type_url "AesCtrHmacStreamingKey") url) eqn:E2.
  { apply str_eqb_spec in E2. subst url. split; [intros H; injection H as <-; right; split; reflexivity |].
    intros [(E & _) | (_ & ->)]; [symmetry in E; contradiction | reflexivity]. }
  split; [discriminate |].
  intros [(-> & _) | (-> & _)]; [rewrite (proj2 (str_eqb_spec _ _) eq_refl) in E1 | rewrite (proj2 (str_eqb_spec _ _) eq_refl) in E2]; discriminate.
Qed.
Theorem streaming_key_primitive : forall n lib salt prefix random d cc,
  (exists m, streaming_managers n lib salt prefix random (kd_type_url d) = Some m /\ cl_get_primitive m d = StOk cc) <->
  (exists sp, key_params d sp /\ params_usable sp /\ segments_fit sp /\ aes_streaming n lib sp salt prefix = StOk cc).
Proof.
  intros n lib salt prefix random d cc. split.
  - intros (m & M & H). apply streaming_managers_spec in M. destruct M as [(U & ->) | (U & ->)]; cbn [cl_get_primitive] in H.
    + apply gcm_get_primitive in H. destruct H as (p & H). exists (GcmHkdf p). exact H.
    + apply ctr_get_primitive in H. destruct H as (p & H). exists (CtrHmac p). exact H.
  - intros ([p | p] & H); assert (U : kd_type_url d = stream_type _) by (destruct H as ((U & _) & _); exact U); rewrite U.
    + exists (aes_gcm_hkdf_streaming_key_manager n lib salt prefix random). split; [apply streaming_managers_spec; left; split; reflexivity |].
      apply gcm_get_primitive. exists p. exact H.
    + exists (aes_ctr_hmac_streaming_key_manager n lib salt prefix random). split; [apply streaming_managers_spec; right; split; reflexivity |].
      apply ctr_get_primitive. exists p. exact H.
Qed.

(** ** New keys *)
Lemma path_default : forall fs pm a r,
  get_path (TMsg fs) (Some (match pm with Some p => p | None => VMsg (empty_message fs) end)) (a :: r) = get_path (TMsg fs) pm (a :: r).
Proof. intros fs [p |] a r; reflexivity. Qed.
Lemma holds_all_3 : forall f1 f2 f3 m, holds_all [f1; f2; f3] m ->
  exists v1 v2 v3, m = [v1; v2; v3] /\ holds (snd f1) v1 /\ holds (snd f2) v2 /\ holds (snd f3) v3.
Proof.
  intros f1 f2 f3 m H. repeat match goal with H : holds_all _ _ |- _ => inversion H; subst; clear H end. do 3 eexists. repeat split; assumption.
Qed.
Lemma holds_params : forall fs pm, holds_all fs (empty_message fs) -> holds (TMsg fs) pm ->
  holds (TMsg fs) (Some (match pm with Some p => p | None => VMsg (empty_message fs) end)).
Proof. intros fs pm E H. inversion H; subst; constructor; assumption. Qed.
Lemma has_params_path : forall fs m fs' m' sp,
  (forall a r, get_path (TMsg fs) (Some (VMsg m)) ("params" :: a :: r) = get_path (TMsg fs') (Some (VMsg m')) ("params" :: a :: r)) ->
  has_params fs m sp -> has_params fs' m' sp.
Proof.
  intros fs m fs' m' sp H (A & B & C & h & D & E). unfold has_params, number in *. rewrite !H in *.
  split; [exact A |]. split; [exact B |]. split; [exact C |]. exists h. split; [exact D |].
  destruct sp as [p | p]; [exact E |]. destruct E as (E & F & h' & G & I).
  split; [exact E |]. split; [exact F |]. exists h'. split; assumption.
Qed.
Lemma gcm_created : forall random m, holds_all AesGcmHkdfStreamingKeyFormat m ->
  let key := create_key random AesGcmHkdfStreamingKeyFormat AesGcmHkdfStreamingParams m in
  holds_all AesGcmHkdfStreamingKey key /\
  number AesGcmHkdfStreamingKey key ["version"] 0 /\
  octets AesGcmHkdfStreamingKey key ["key_value"] (random (num_at AesGcmHkdfStreamingKeyFormat m ["key_size"])) /\
  forall sp, has_params AesGcmHkdfStreamingKeyFormat m sp -> has_params AesGcmHkdfStreamingKey key sp.
Proof.
  intros random m H. cbv zeta. destruct (holds_all_3 _ _ _ _ H) as (pm & ks & ver & -> & Hp & Hk & Hv). cbn [snd] in Hp.
  unfold create_key. cbn [nth]. generalize (random (num_at AesGcmHkdfStreamingKeyFormat [pm; ks; ver] ["key_size"])). intros ikm.
  split; [| split; [reflexivity | split; [reflexivity |]]].
  - econstructor; [reflexivity | constructor; lia |]. econstructor; [reflexivity | |].
    { apply holds_params; [| exact Hp]. unfold AesGcmHkdfStreamingParams. repeat (econstructor; try reflexivity; try (split; cbn; lia)); cbn; lia. }
    econstructor; [reflexivity | constructor |]. constructor.
  - intros sp. apply has_params_path. intros a r.
    change (get_path (TMsg AesGcmHkdfStreamingKeyFormat) (Some (VMsg [pm; ks; ver])) ("params" :: a :: r))
      with (get_path (TMsg AesGcmHkdfStreamingParams) pm (a :: r)).
    rewrite <- path_default. reflexivity.
Qed.
Lemma ctr_created : forall random m, holds_all AesCtrHmacStreamingKeyFormat m ->
  let key := create_key random AesCtrHmacStreamingKeyFormat AesCtrHmacStreamingParams m in
  holds_all AesCtrHmacStreamingKey key /\
  number AesCtrHmacStreamingKey key ["version"] 0 /\
  octets AesCtrHmacStreamingKey key ["key_value"] (random (num_at AesCtrHmacStreamingKeyFormat m ["key_size"])) /\
  forall sp, has_params AesCtrHmacStreamingKeyFormat m sp -> has_params AesCtrHmacStreamingKey key sp.
Proof.
  intros random m H. cbv zeta. destruct (holds_all_3 _ _ _ _ H) as (pm & ks & ver & -> & Hp & Hk & Hv). cbn [snd] in Hp.
  unfold create_key. cbn [nth]. generalize (random (num_at AesCtrHmacStreamingKeyFormat [pm; ks; ver] ["key_size"])). intros ikm.
  split; [| split; [reflexivity | split; [reflexivity |]]].
  - econstructor; [reflexivity | constructor; lia |]. econstructor; [reflexivity | |].
    { apply holds_params; [| exact Hp]. unfold AesCtrHmacStreamingParams. repeat (econstructor; try reflexivity; try (split; cbn; lia)); cbn; lia. }
    econstructor; [reflexivity | constructor |]. constructor.
  - intros sp. apply has_params_path. intros a r.
    change (get_path (TMsg AesCtrHmacStreamingKeyFormat) (Some (VMsg [pm; ks; ver])) ("params" :: a :: r))
      with (get_path (TMsg AesCtrHmacStreamingParams) pm (a :: r)).
    rewrite <- path_default. reflexivity.
Qed.

Definition new_gcm (random : Z -> bytes) := new_key_data (type_url "AesGcmHkdfStreamingKey") AesGcmHkdfStreamingKeyFormat AesGcmHkdfStreamingParams
  AesGcmHkdfStreamingKey gcm_validate_params random.
Definition new_ctr (random : Z -> bytes) := new_key_data (type_url "AesCtrHmacStreamingKey") AesCtrHmacStreamingKeyFormat AesCtrHmacStreamingParams
  AesCtrHmacStreamingKey ctr_validate_params random.
(** [k]: any key material of the right size *)
Lemma gcm_new_ok : forall random x d, new_gcm random x = StOk d ->
  exists m p, parse_message AesGcmHkdfStreamingKeyFormat x = Some m /\
    d = mk_key_data (type_url "AesGcmHkdfStreamingKey")
          (serialize_message AesGcmHkdfStreamingKey (create_key random AesGcmHkdfStreamingKeyFormat AesGcmHkdfStreamingParams m)) SYMMETRIC /\
    (exists ks, number AesGcmHkdfStreamingKeyFormat m ["key_size"] ks /\ u32 ks /\
    forall k, Z.of_nat (length k) = ks -> asks_for (type_url "AesGcmHkdfStreamingKey") x (GcmHkdf (p k)) /\ key_material (GcmHkdf (p k)) = k /\
      format_accepted (GcmHkdf (p k))).
Proof.
  intros random x d H. unfold new_gcm, new_key_data in H.
  destruct (parse_message AesGcmHkdfStreamingKeyFormat x) as [m |] eqn:EM; [| discriminate].
  destruct (gcm_format_read _ (parse_holds _ _ _ EM)) as (ks & size & dks & h & Hk & Rk & Hs & Rs & Hd & Rd & Hh).
  unfold validate_key_format in H. rewrite (num_at_number _ _ _ _ Hk), (num_at_number _ _ _ _ Hd) in H.
  destruct (Z.ltb_spec ks dks); [discriminate |].
  destruct (gcm_validate_params _) as [s |] eqn:EP in H; [discriminate |]. injection H as <-.
  apply gcm_validate_spec in EP. rewrite (num_at_number _ _ _ _ Hd), (num_at_number _ _ _ _ Hs), (num_at_number _ _ _ _ Hh) in EP.
  destruct EP as (P1 & P2 & P3). unfold u32 in *.
  exists m, (fun k => mk_gcm_hkdf_params k (proto_to_subtle h) (Z.to_nat dks) (Z.to_nat size) 0).
  split; [reflexivity |]. split; [reflexivity |]. exists ks. split; [exact Hk |]. split; [exact Rk |].
  intros k L. assert (HP : hash_number (proto_to_subtle h) h) by (apply known_hash_number; assumption).
  split; [| split; [reflexivity | split; [| exact I]]].
  - split; [reflexivity |]. exists m. split; [exact EM |]. cbn [format_schema key_material gh_ikm]. rewrite L. split; [exact Hk |].
    apply (gcm_has_params _ _ _ _ _ _ Hs Hd Hh). cbn. rewrite !Z2Nat.id by lia. tauto.
  - apply (gcm_usable_numbers _ h); cbn; [exact HP | reflexivity |]. rewrite !Z2Nat.id by lia. rewrite L. tauto.
Qed.
Lemma ctr_new_ok : forall random x d, new_ctr random x = StOk d ->
  exists m p, parse_message AesCtrHmacStreamingKeyFormat x = Some m /\
    d = mk_key_data (type_url "AesCtrHmacStreamingKey")
          (serialize_message AesCtrHmacStreamingKey (create_key random AesCtrHmacStreamingKeyFormat AesCtrHmacStreamingParams m)) SYMMETRIC /\
    (exists ks, number AesCtrHmacStreamingKeyFormat m ["key_size"] ks /\ u32 ks /\
    forall k, Z.of_nat (length k) = ks -> asks_for (type_url "AesCtrHmacStreamingKey") x (CtrHmac (p k)) /\ key_material (CtrHmac (p k)) = k /\
      format_accepted (CtrHmac (p k))).
Proof.
  intros random x d H. unfold new_ctr, new_key_data in H.
  destruct (parse_message AesCtrHmacStreamingKeyFormat x) as [m |] eqn:EM; [| discriminate].
  destruct (ctr_format_read _ (parse_holds _ _ _ EM)) as (ks & size & dks & h & h' & ts & Hk & Rk & Hs & Rs & Hd & Rd & Hh & Hh' & Ht & Rt).
  unfold validate_key_format in H. rewrite (num_at_number _ _ _ _ Hk), (num_at_number _ _ _ _ Hd) in H.
  destruct (Z.ltb_spec ks dks); [discriminate |].
  destruct (ctr_validate_params _) as [s |] eqn:EP in H; [discriminate |]. injection H as <-.
  apply ctr_validate_spec in EP. rewrite (num_at_number _ _ _ _ Hd), (num_at_number _ _ _ _ Hs), (num_at_number _ _ _ _ Hh),
    (num_at_number _ _ _ _ Hh'), (num_at_number _ _ _ _ Ht) in EP.
  destruct EP as (P1 & P2 & P3 & P4 & P5 & P6). unfold u32 in *.
  exists m, (fun k => mk_ctr_hmac_params k (proto_to_subtle h) (Z.to_nat dks) (Z.to_nat size) 0 (proto_to_subtle h') (Z.to_nat ts)).
  split; [reflexivity |]. split; [reflexivity |]. exists ks. split; [exact Hk |]. split; [exact Rk |].
  intros k L. assert (HP : hash_number (proto_to_subtle h) h) by (apply known_hash_number; assumption).
  assert (HP' : hash_number (proto_to_subtle h') h') by (apply known_hash_number; assumption).
  split; [| split; [reflexivity | split]].
  - split; [reflexivity |]. exists m. split; [exact EM |]. cbn [format_schema key_material ch_ikm]. rewrite L. split; [exact Hk |].
    apply (ctr_has_params _ _ _ _ _ _ _ _ Hs Hd Hh Hh' Ht). cbn. rewrite !Z2Nat.id by lia. tauto.
  - apply (ctr_usable_numbers _ h h'); cbn; [exact HP | exact HP' | reflexivity |]. rewrite !Z2Nat.id by lia. rewrite L. tauto.
  - unfold segments_fit. cbn. rewrite Z2Nat.id by lia. exact P6.
Qed.
Lemma gcm_new_accepts : forall random x p, asks_for (type_url "AesGcmHkdfStreamingKey") x (GcmHkdf p) -> format_accepted (GcmHkdf p) ->
  exists d, new_gcm random x = StOk d.
Proof.
  intros random x p (_ & m & EM & Hk1 & HP) (HU & _). cbn [format_schema key_material] in *. unfold new_gcm, new_key_data. rewrite EM.
  destruct (gcm_format_read _ (parse_holds _ _ _ EM)) as (ks & size & dks & h & Hk & Rk & Hs & Rs & Hd & Rd & Hh).
  unfold validate_key_format. rewrite (num_at_number _ _ _ _ Hk), (num_at_number _ _ _ _ Hd). rewrite (number_fun _ _ _ _ _ Hk Hk1).
  apply (gcm_has_params _ _ _ _ _ _ Hs Hd Hh) in HP. destruct HP as (-> & -> & O & HN).
  apply (gcm_usable_numbers _ _ HN O) in HU. destruct HU as (U1 & U2 & U3 & U4).
  rewrite (proj2 (Z.ltb_ge _ _) U3).
  replace (gcm_validate_params _) with (@None cc_status); [eexists; reflexivity |].
  symmetry. apply gcm_validate_spec. rewrite (num_at_number _ _ _ _ Hd), (num_at_number _ _ _ _ Hs), (num_at_number _ _ _ _ Hh). tauto.
Qed.
Lemma ctr_new_accepts : forall random x p, asks_for (type_url "AesCtrHmacStreamingKey") x (CtrHmac p) -> format_accepted (CtrHmac p) ->
  exists d, new_ctr random x = StOk d.
Proof.
  intros random x p (_ & m & EM & Hk1 & HP) (HU & HF). cbn [format_schema key_material] in *. unfold new_ctr, new_key_data. rewrite EM.
  destruct (ctr_format_read _ (parse_holds _ _ _ EM)) as (ks & size & dks & h & h' & ts & Hk & Rk & Hs & Rs & Hd & Rd & Hh & Hh' & Ht & Rt).
  unfold validate_key_format. rewrite (num_at_number _ _ _ _ Hk), (num_at_number _ _ _ _ Hd). rewrite (number_fun _ _ _ _ _ Hk Hk1).
  apply (ctr_has_params _ _ _ _ _ _ _ _ Hs Hd Hh Hh' Ht) in HP. destruct HP as (-> & -> & O & HN & HN' & ->).
  apply (ctr_usable_numbers _ _ _ HN HN' O) in HU. destruct HU as (U1 & U2 & U3 & U4 & U5 & U6).
  rewrite (proj2 (Z.ltb_ge _ _) U5). unfold segments_fit in HF. cbn [segment_size] in HF.
  replace (ctr_validate_params _) with (@None cc_status); [eexists; reflexivity |].
  symmetry. apply ctr_validate_spec. rewrite (num_at_number _ _ _ _ Hd), (num_at_number _ _ _ _ Hs), (num_at_number _ _ _ _ Hh),
    (num_at_number _ _ _ _ Hh'), (num_at_number _ _ _ _ Ht). tauto.
Qed.

Theorem streaming_new_key_accepted : forall n lib salt prefix random rnd url x,
  (exists m d, streaming_managers n lib salt prefix random url = Some m /\ cl_new_key_data m rnd x = StOk d) <->
  (exists sp, asks_for url x sp /\ format_accepted sp).
Proof.
  intros n lib salt prefix random rnd url x. split.
  - intros (m & d & M & H). apply streaming_managers_spec in M. destruct M as [(-> & ->) | (-> & ->)]; cbn [cl_new_key_data] in H.
    + apply gcm_new_ok in H. destruct H as (m & p & _ & _ & ks & _ & R & H). unfold u32 in R.
      destruct (H (repeat x00 (Z.to_nat ks))) as (A & _ & B); [rewrite repeat_length; lia |]. eexists. split; eassumption.
    + apply ctr_new_ok in H. destruct H as (m & p & _ & _ & ks & _ & R & H). unfold u32 in R.
      destruct (H (repeat x00 (Z.to_nat ks))) as (A & _ & B); [rewrite repeat_length; lia |]. eexists. split; eassumption.
  - intros ([p | p] & A & B); assert (U : url = stream_type _) by (destruct A as (U & _); exact U); subst url.
    + destruct (gcm_new_accepts (random rnd) _ _ A B) as (d & E). exists (aes_gcm_hkdf_streaming_key_manager n lib salt prefix random), d.
      split; [apply streaming_managers_spec; left; split; reflexivity | exact E].
    + destruct (ctr_new_accepts (random rnd) _ _ A B) as (d & E). exists (aes_ctr_hmac_streaming_key_manager n lib salt prefix random), d.
      split; [apply streaming_managers_spec; right; split; reflexivity | exact E].
Qed.
Theorem streaming_new_key : forall n lib salt prefix random rnd url x m d,
  streaming_managers n lib salt prefix random url = Some m -> cl_new_key_data m rnd x = StOk d ->
  random_law random -> proto_size (kd_value d) ->
  kd_type_url d = url /\ kd_key_material_type d = SYMMETRIC /\
  exists sp, asks_for url x sp /\ format_accepted sp /\ key_params d sp /\
    key_material sp = random rnd (Z.of_nat (length (key_material sp))).
Proof.
  intros n lib salt prefix random rnd url x m0 d M H RL PS. apply streaming_managers_spec in M.
  destruct M as [(-> & ->) | (-> & ->)]; cbn [cl_new_key_data] in H.
  - apply gcm_new_ok in H. destruct H as (m & p & EM & -> & ks & Hk & R & H). split; [reflexivity |]. split; [reflexivity |].
    unfold u32 in R. destruct (H (random rnd ks) (RL rnd ks ltac:(lia))) as (A & K & B). exists (GcmHkdf (p (random rnd ks))).
    split; [exact A |]. split; [exact B |]. rewrite K, (RL rnd ks) by lia. split; [| reflexivity].
    destruct (gcm_created (random rnd) m (parse_holds _ _ _ EM)) as (W & V & C & P).
    split; [reflexivity |]. cbn [kd_value kd_type_url] in *. eexists. split; [apply message_round_trip; [vm_compute; reflexivity | exact W | exact PS] |].
    rewrite K. cbn [key_schema]. split; [exact V |]. rewrite (num_at_number _ _ _ _ Hk) in C. split; [exact C |]. apply P.
    destruct A as (_ & m1 & E1 & _ & A). cbn [format_schema] in *. rewrite EM in E1. injection E1 as <-. exact A.
  - apply ctr_new_ok in H. destruct H as (m & p & EM & -> & ks & Hk & R & H). split; [reflexivity |]. split; [reflexivity |].
    unfold u32 in R. destruct (H (random rnd ks) (RL rnd ks ltac:(lia))) as (A & K & B). exists (CtrHmac (p (random rnd ks))).
    split; [exact A |]. split; [exact B |]. rewrite K, (RL rnd ks) by lia. split; [| reflexivity].
    destruct (ctr_created (random rnd) m (parse_holds _ _ _ EM)) as (W & V & C & P).
    split; [reflexivity |]. cbn [kd_value kd_type_url] in *. eexists. split; [apply message_round_trip; [vm_compute; reflexivity | exact W | exact PS] |].
    rewrite K. cbn [key_schema]. split; [exact V |]. rewrite (num_at_number _ _ _ _ Hk) in C. split; [exact C |]. apply P.
    destruct A as (_ & m1 & E1 & _ & A). cbn [format_schema] in *. rewrite EM in E1. injection E1 as <-. exact A.
Qed.
