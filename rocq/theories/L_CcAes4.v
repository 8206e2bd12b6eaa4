(** AES streaming: both kinds. *)
From Coq Require Import Strings.Byte Strings.String List NArith ZArith Bool Lia.
From Verif Require Import M_Base L_Base M_StreamTypes M_CcStream M_CcSegments M_CcAes S_CcStream S_Buffered S_CcSegments S_CcAes
  L_CcSegments4 L_CcAes L_CcAes2 L_CcAes3.
Import ListNotations.
Open Scope list_scope.
Open Scope nat_scope.

Lemma aes_streaming_encrypts : forall F n lib sp ad salt prefix,
  params_usable sp -> ssl_laws lib sp -> length salt = salt_size sp -> length prefix = 7%nat ->
  exists cc, aes_streaming n lib sp salt prefix = StOk cc /\
    cc_encrypts F (params_capacity sp)
      (fun P C => stream_ciphertext lib sp ad salt prefix P C /\ (length P <= params_capacity sp)%nat) cc ad.
Proof.
  intros F n lib sp ad salt prefix U (L & _) Ls Lp. destruct sp as [p | p].
  - exact (gcm_hkdf_encrypts F n lib p ad salt prefix U L Ls Lp).
  - exact (ctr_hmac_encrypts F n lib p ad salt prefix U L Ls Lp).
Qed.
Lemma stream_ciphertext_exists : forall lib sp ad salt prefix P,
  params_usable sp -> ssl_laws lib sp -> length salt = salt_size sp -> length prefix = 7%nat -> (length P <= params_capacity sp)%nat ->
  exists C, stream_ciphertext lib sp ad salt prefix P C /\ forall C', stream_ciphertext lib sp ad salt prefix P C' -> C' = C.
Proof.
  intros lib sp ad salt prefix P U (L & _) Ls Lp LP. destruct sp as [p | p].
  - exact (gcm_hkdf_ciphertext_exists lib p ad salt prefix P U L Ls Lp LP).
  - exact (ctr_hmac_ciphertext_exists lib p ad salt prefix P U L Ls Lp LP).
Qed.
Lemma aes_streaming_decrypts : forall F n lib sp ad salt prefix salt' prefix' P C,
  params_usable sp -> ssl_laws lib sp -> length salt = salt_size sp -> length prefix = 7%nat ->
  stream_ciphertext lib sp ad salt prefix P C -> (length P <= params_capacity sp)%nat ->
  exists cc, aes_streaming n lib sp salt' prefix' = StOk cc /\ cc_decrypts F cc ad C P.
Proof.
  intros F n lib sp ad salt prefix salt' prefix' P C U (L & L') Ls Lp H LP. destruct sp as [p | p].
  - exact (gcm_hkdf_decrypts F n lib p ad salt prefix salt' prefix' P C U L L' Ls Lp LP H).
  - destruct L' as (L1 & L2). exact (ctr_hmac_decrypts F n lib p ad salt prefix salt' prefix' P C U L L1 L2 Ls Lp LP H).
Qed.
Lemma aes_streaming_ignores_junk : forall F n lib sp ad salt prefix salt' prefix' P C junk k,
  params_usable sp -> ssl_laws lib sp -> length salt = salt_size sp -> length prefix = 7%nat ->
  stream_ciphertext lib sp ad salt prefix P C -> (length P <= params_capacity sp)%nat -> length P = full_segments sp k ->
  exists cc, aes_streaming n lib sp salt' prefix' = StOk cc /\ cc_decrypts F cc ad (C ++ junk) P.
Proof.
  intros F n lib sp ad salt prefix salt' prefix' P C junk k U (L & L') Ls Lp H LP K. destruct sp as [p | p].
  - exact (gcm_hkdf_ignores_junk F n lib p ad salt prefix salt' prefix' P C junk k U L L' Ls Lp LP H K).
  - destruct L' as (L1 & L2). exact (ctr_hmac_ignores_junk F n lib p ad salt prefix salt' prefix' P C junk k U L L1 L2 Ls Lp LP H K).
Qed.
Lemma aes_streaming_tampered : forall F n lib sp ad sent salt' prefix' C,
  params_usable sp -> ssl_laws lib sp -> sent_streams (salt_size sp) sent -> no_forged_segment lib sp ad sent C ->
  exists cc P whole, aes_streaming n lib sp salt' prefix' = StOk cc /\
    cc_gives F (F \/ whole = false) (whole = true) cc ad C P /\
    (P = [] /\ whole = false \/
     exists salt prefix Q, In (salt, prefix, Q) sent /\ has_header sp salt prefix C /\ (exists rest, Q = P ++ rest) /\
       (whole = true -> P = Q /\ exists D junk, stream_ciphertext lib sp ad salt prefix P D /\ C = D ++ junk /\
          (junk = [] \/ exists k, stream_offset sp + length D = k * segment_size sp)%nat)).
Proof.
  intros F n lib sp ad sent salt' prefix' C U (L & _) S N. destruct sp as [p | p].
  - exact (gcm_hkdf_tampered F n lib p ad sent salt' prefix' C U L S N).
  - exact (ctr_hmac_tampered F n lib p ad sent salt' prefix' C U L S N).
Qed.
Lemma aes_streaming_cut_off : forall F n lib sp ad sent salt' prefix' salt prefix Q C cut,
  params_usable sp -> ssl_laws lib sp -> sent_streams (salt_size sp) sent -> no_forged_segment lib sp ad sent C ->
  In (salt, prefix, Q) sent -> (length Q <= params_capacity sp)%nat ->
  stream_ciphertext lib sp ad salt prefix Q (C ++ cut) -> cut <> [] ->
  exists cc P rest, aes_streaming n lib sp salt' prefix' = StOk cc /\ cc_gives F True False cc ad C P /\ Q = P ++ rest.
Proof.
  intros F n lib sp ad sent salt' prefix' salt prefix Q C cut U (L & _) S N I LQ H NC. destruct sp as [p | p].
  - exact (gcm_hkdf_cut_off F n lib p ad sent salt' prefix' salt prefix Q C cut U L S N I LQ H NC).
  - exact (ctr_hmac_cut_off F n lib p ad sent salt' prefix' salt prefix Q C cut U L S N I LQ H NC).
Qed.
Lemma aes_streaming_unknown_header : forall F n lib sp ad sent salt' prefix' C,
  params_usable sp -> ssl_laws lib sp -> sent_streams (salt_size sp) sent -> no_forged_segment lib sp ad sent C ->
  (forall salt prefix Q, In (salt, prefix, Q) sent -> ~ has_header sp salt prefix C) ->
  exists cc, aes_streaming n lib sp salt' prefix' = StOk cc /\ cc_refuses F cc ad C.
Proof.
  intros F n lib sp ad sent salt' prefix' C U (L & _) S N H. destruct sp as [p | p].
  - exact (gcm_hkdf_unknown_header F n lib p ad sent salt' prefix' C U L S N H).
  - exact (ctr_hmac_unknown_header F n lib p ad sent salt' prefix' C U L S N H).
Qed.
