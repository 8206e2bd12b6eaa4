(** Helpers for the examples of AES streaming. *)
From Coq Require Import Strings.Byte Strings.String List NArith ZArith Bool Lia.
From Verif Require Import M_Base L_Base M_StreamTypes M_CcStream M_CcSegments M_CcAes S_CcSegments S_CcAes X_Toy X_CcAes.
Import ListNotations.
Open Scope list_scope.
Open Scope nat_scope.

Lemma toy_tag_length : forall key nonce s, length (toy_tag key nonce s) = 16.
Proof.
  intros key nonce s. unfold toy_tag. rewrite firstn_length, !app_length, repeat_length. cbn [length]. lia.
Qed.
Lemma toy_hkdf_law : hkdf_law toy_ssl.
Proof.
  intros h ikm salt info size _ _. eexists. split; [reflexivity |]. apply repeat_length.
Qed.
Lemma firstn_front : forall (A : Type) (l r : list A), firstn (length l) (l ++ r) = l.
Proof. intros A l r. rewrite firstn_app, Nat.sub_diag, firstn_all. cbn. apply app_nil_r. Qed.
Lemma skipn_front : forall (A : Type) (l r : list A), skipn (length l) (l ++ r) = r.
Proof. intros A l r. rewrite skipn_app, Nat.sub_diag, skipn_all. reflexivity. Qed.
Lemma toy_gcm_law : gcm_law toy_ssl.
Proof.
  split.
  - intros key nonce s _. split; [cbn [gcm_encrypt toy_ssl]; rewrite app_length, toy_tag_length; reflexivity |].
    cbn [gcm_encrypt gcm_decrypt toy_ssl].
    replace (length (s ++ toy_tag key nonce s) - 16) with (length s) by (rewrite app_length, toy_tag_length; lia).
    rewrite firstn_front, skipn_front, (proj2 (bytes_eqb_spec _ _) eq_refl). reflexivity.
  - intros key a s La. cbn [gcm_encrypt gcm_decrypt toy_ssl].
    replace (length (s ++ toy_tag key (a ++ [x01]) s) - 16) with (length s) by (rewrite app_length, toy_tag_length; lia).
    rewrite firstn_front, skipn_front.
    destruct (bytes_eqb (toy_tag key (a ++ [x01]) s) (toy_tag key (a ++ [x00]) s)) eqn:E; [exfalso | reflexivity].
    apply bytes_eqb_spec in E. unfold toy_tag in E.
    do 11 (destruct a as [| ? a]; [discriminate La |]). destruct a; [| discriminate La].
    cbn [app firstn] in E. injection E as E. discriminate E.
Qed.
Lemma toy_ctr_law : ctr_law toy_ssl.
Proof. intros key nonce s. cbn [ctr toy_ssl]. split; [apply rev_length | apply rev_involutive]. Qed.
Lemma toy_hmac_law : forall h size, 0 < size <= hash_size h -> hmac_law toy_ssl h size.
Proof.
  intros h size L. split.
  - intros key data. cbn [hmac toy_ssl]. rewrite firstn_length, !app_length, repeat_length.
    assert (hash_size h <= 64) by (destruct h; cbn; lia). cbn [length]. lia.
  - intros key a data La E. cbn [hmac toy_ssl] in E.
    do 11 (destruct a as [| ? a]; [discriminate La |]). destruct a; [| discriminate La].
    destruct size; [lia |]. destruct (hash_size h); [lia |].
    cbn [app firstn skipn] in E. injection E as E. discriminate E.
Qed.
Lemma toy_laws : forall x, ssl_laws toy_ssl (toy_gcm x) /\ ssl_laws toy_ssl (toy_ctr x).
Proof.
  intro x. split; (split; [exact toy_hkdf_law |]); [exact toy_gcm_law |].
  split; [exact toy_ctr_law |]. apply toy_hmac_law. cbn. lia.
Qed.
Lemma toy_usable : forall x, params_usable (toy_gcm x) /\ params_usable (toy_ctr x).
Proof.
  intro x. split; [| split; [| split; [tauto | cbn; lia]]];
    (split; [tauto |]; split; [left; reflexivity |]; split; [cbn; lia |]; cbn; lia).
Qed.
Lemma toy_fits : forall x n, n <= 32 -> n <= params_capacity (toy_gcm x) /\ n <= params_capacity (toy_ctr x).
Proof.
  intros x n L. unfold params_capacity, stream_capacity. cbn [salt_size segment_size stream_offset tag_size toy_gcm toy_ctr
    gh_derived_key_size gh_ciphertext_segment_size gh_ciphertext_offset ch_key_size ch_ciphertext_segment_size ch_ciphertext_offset ch_tag_size].
  assert (K : 1 <= N.to_nat (2 ^ 32 - 1)) by (clear; lia).
  split; nia.
Qed.

(** Ciphertexts of one and two segments *)
Lemma toy_one_ciphertext : forall sp ad salt s, sp = toy_gcm x61 \/ sp = toy_ctr x61 -> length s <= 4 ->
  stream_ciphertext toy_ssl sp ad salt toy_prefix s (toy_one sp ad salt toy_prefix s).
Proof.
  intros sp ad salt s [-> | ->] L.
  - eexists. split; [reflexivity |]. eexists [s], _. split; [apply Segmented_last; exact L |].
    split; [apply Sealed_last; reflexivity |]. unfold toy_one, toy_header. rewrite <- !app_assoc. reflexivity.
  - eexists. split; [reflexivity |]. eexists [s], _. split; [apply Segmented_last; exact L |].
    split; [apply Sealed_last; reflexivity |]. unfold toy_one, toy_header. rewrite <- !app_assoc. reflexivity.
Qed.
Lemma toy_two_ciphertext : forall sp ad salt s1 s2, sp = toy_gcm x61 \/ sp = toy_ctr x61 -> length s1 = 4 -> s2 <> [] -> length s2 <= 28 ->
  stream_ciphertext toy_ssl sp ad salt toy_prefix (s1 ++ s2) (toy_two sp ad salt toy_prefix s1 s2).
Proof.
  intros sp ad salt s1 s2 [-> | ->] L1 N L2.
  - eexists. split; [reflexivity |]. eexists [s1; s2], _. split; [apply Segmented_more; [exact L1 | exact N | apply Segmented_last; exact L2] |].
    split; [eapply Sealed_more; [reflexivity | discriminate | apply Sealed_last; reflexivity] |].
    unfold toy_two, toy_header. rewrite <- !app_assoc. reflexivity.
  - eexists. split; [reflexivity |]. eexists [s1; s2], _. split; [apply Segmented_more; [exact L1 | exact N | apply Segmented_last; exact L2] |].
    split; [eapply Sealed_more; [reflexivity | discriminate | apply Sealed_last; reflexivity] |].
    unfold toy_two, toy_header. rewrite <- !app_assoc. reflexivity.
Qed.

(** Segments of short bytes *)
Lemma no_forgery_short : forall ks size offset tag trailer seal open sent C,
  length C + offset <= 2 * size ->
  (forall nonce, open nonce [] = None) ->
  (forall is_last s,
     open (prefix_of ks C ++ be32 0 ++ [if is_last : bool then x01 else x00] ++ trailer) (stream_segment ks size offset C 0) = Some s ->
     exists P segments, In (salt_of ks C, prefix_of ks C, P) sent /\ segmented (size - tag) (size - tag - offset - (ks + 8)) P segments /\
       nth_error segments 0 = Some s /\ is_last = Nat.eqb 1 (length segments) /\
       stream_segment ks size offset C 0 = seal (prefix_of ks C ++ be32 0 ++ [if is_last then x01 else x00] ++ trailer) s) ->
  (forall is_last s,
     open (prefix_of ks C ++ be32 1 ++ [if is_last : bool then x01 else x00] ++ trailer) (stream_segment ks size offset C 1) = Some s ->
     exists P segments, In (salt_of ks C, prefix_of ks C, P) sent /\ segmented (size - tag) (size - tag - offset - (ks + 8)) P segments /\
       nth_error segments 1 = Some s /\ is_last = Nat.eqb 2 (length segments) /\
       stream_segment ks size offset C 1 = seal (prefix_of ks C ++ be32 1 ++ [if is_last then x01 else x00] ++ trailer) s) ->
  no_forgery ks size offset tag trailer seal open sent C.
Proof.
  intros ks size offset tag trailer seal open sent C L N H0 H1 i is_last s Hi nonce Ho. subst nonce.
  destruct (N.eq_dec i 0) as [-> | N0]; [exact (H0 is_last s Ho) |].
  destruct (N.eq_dec i 1) as [-> | N1]; [exact (H1 is_last s Ho) |].
  exfalso. revert Ho. unfold stream_segment.
  destruct (N.eqb i 0) eqn:E; [apply N.eqb_eq in E; contradiction |].
  assert (K : 2 <= N.to_nat i) by lia.
  rewrite (skipn_all2 (n := N.to_nat i * size - offset) C) by nia. rewrite firstn_nil, N. discriminate.
Qed.
Lemma gcm_nothing : forall key nonce, gcm_decrypt toy_ssl key nonce [] = None.
Proof.
  intros key nonce. cbn [gcm_decrypt toy_ssl]. change (firstn (length (@nil byte) - 16) []) with (@nil byte).
  change (skipn (length (@nil byte) - 16) []) with (@nil byte).
  destruct (bytes_eqb [] (toy_tag key nonce [])) eqn:E; [| reflexivity].
  apply bytes_eqb_spec in E. apply (f_equal (@length byte)) in E. rewrite toy_tag_length in E. discriminate E.
Qed.
Lemma ctr_nothing : forall p keys nonce, 0 < ch_tag_size p <= hash_size (ch_tag_algo p) -> ctr_hmac_open toy_ssl p keys nonce [] = None.
Proof.
  intros p keys nonce L. unfold ctr_hmac_open. cbn [length]. rewrite firstn_nil, skipn_nil.
  match goal with |- (if bytes_eqb ?t [] then _ else _) = _ => destruct (bytes_eqb t []) eqn:E end; [| reflexivity].
  apply bytes_eqb_spec in E. apply (f_equal (@length byte)) in E. rewrite firstn_length in E.
  rewrite (proj1 (toy_hmac_law (ch_tag_algo p) (ch_tag_size p) L)) in E. cbn [length] in E. lia.
Qed.
