(** AES-GCM-HKDF streaming: the theorems. *)
From Coq Require Import Strings.Byte Strings.String List NArith ZArith Bool Lia.
From Verif Require Import M_Base L_Base M_StreamTypes M_CcStream M_CcSegments M_CcAes S_CcStream S_Buffered S_CcSegments S_CcAes
  L_CcStream L_CcStream3 L_CcStream4 L_CcSegments L_CcSegments2 L_CcSegments3 L_CcSegments4 L_CcAes.
Import ListNotations.
Open Scope string_scope.
Open Scope list_scope.
Open Scope nat_scope.

(** ** AES-GCM-HKDF *)

Definition gcm_seal (lib : ssl) (p : gcm_hkdf_params) (ad salt : bytes) : bytes -> bytes -> bytes :=
  match hkdf lib (gh_hash p) (gh_ikm p) salt ad (gh_derived_key_size p) with StOk key => gcm_encrypt lib key | StErr _ => fun _ _ => [] end.
Definition gcm_open (lib : ssl) (p : gcm_hkdf_params) (ad salt : bytes) : bytes -> bytes -> option bytes :=
  match hkdf lib (gh_hash p) (gh_ikm p) salt ad (gh_derived_key_size p) with StOk key => gcm_decrypt lib key | StErr _ => fun _ _ => None end.
Definition gcm_format (lib : ssl) (p : gcm_hkdf_params) (ad salt prefix : bytes) : bytes -> bytes -> Prop :=
  format (gh_derived_key_size p) (gh_ciphertext_segment_size p) (gh_ciphertext_offset p) 16 [] (gcm_seal lib p ad) salt prefix.
Lemma gcm_format_iff : forall lib p ad salt prefix P C, gcm_hkdf_usable p -> hkdf_law lib ->
  gcm_format lib p ad salt prefix P C <-> gcm_hkdf_ciphertext lib p ad salt prefix P C.
Proof.
  intros lib p ad salt prefix P C U Hk. destruct (gcm_key lib p U Hk salt ad) as (key & Ek & Lk).
  unfold gcm_format, format, gcm_seal, gcm_hkdf_ciphertext. rewrite Ek. split.
  - intros H. exists key. split; [reflexivity | exact H].
  - intros (key' & E & H). injection E as <-. exact H.
Qed.
Lemma gcm_enc : forall lib p ad, gcm_hkdf_usable p -> hkdf_law lib -> forall salt prefix, length salt = gh_derived_key_size p -> length prefix = 7 ->
  gcm_new_segment_encrypter lib p salt prefix ad =
  StOk (common_encrypter (gh_derived_key_size p) (gh_ciphertext_segment_size p) (gh_ciphertext_offset p) 16 salt prefix [] (gcm_seal lib p ad salt)).
Proof.
  intros lib p ad U Hk salt prefix Ls Lp. destruct (gcm_key lib p U Hk salt ad) as (key & Ek & Lk).
  unfold gcm_seal. rewrite Ek. apply (gcm_encrypter lib p U); assumption.
Qed.
Lemma gcm_init_open : forall lib p ad, gcm_hkdf_usable p -> hkdf_law lib ->
  forall header, length header = gh_derived_key_size p + 8 -> Byte.to_N (hd x00 header) = N.of_nat (gh_derived_key_size p + 8) ->
  exists decrypt, gcm_init lib p ad header = StOk decrypt /\
    forall i is_last c, decrypt i is_last c =
      common_decrypt (gh_ciphertext_segment_size p) 16 [] gcm_bad (firstn 7 (skipn (1 + gh_derived_key_size p) header))
        (gcm_open lib p ad (firstn (gh_derived_key_size p) (skipn 1 header))) i is_last c.
Proof.
  intros lib p ad U Hk header L E. destruct (gcm_init_ok lib p U Hk ad header L E) as (key & decrypt & Ek & Ed & HD).
  exists decrypt. split; [exact Ed |]. unfold gcm_open. rewrite Ek. exact HD.
Qed.
Lemma length_nonce : forall trailer prefix i is_last, length prefix = 7 -> length (seg_nonce trailer prefix i is_last) = 12 + length trailer.
Proof. intros trailer prefix i is_last L. unfold seg_nonce. rewrite !app_length, L. reflexivity. Qed.
Lemma gcm_seal_law : forall lib p ad, gcm_hkdf_usable p -> hkdf_law lib -> gcm_law lib ->
  (forall salt prefix i is_last s, length prefix = 7 ->
    length (gcm_seal lib p ad salt (seg_nonce [] prefix i is_last) s) = length s + 16 /\
    gcm_open lib p ad salt (seg_nonce [] prefix i is_last) (gcm_seal lib p ad salt (seg_nonce [] prefix i is_last) s) = Some s) /\
  (forall salt prefix i s, length prefix = 7 ->
    gcm_open lib p ad salt (seg_nonce [] prefix i false) (gcm_seal lib p ad salt (seg_nonce [] prefix i true) s) = None).
Proof.
  intros lib p ad U Hk (G1 & G2). split.
  - intros salt prefix i is_last s L. unfold gcm_seal, gcm_open. destruct (gcm_key lib p U Hk salt ad) as (key & Ek & Lk). rewrite Ek.
    apply G1. rewrite length_nonce by exact L. reflexivity.
  - intros salt prefix i s L. unfold gcm_seal, gcm_open. destruct (gcm_key lib p U Hk salt ad) as (key & Ek & Lk). rewrite Ek.
    unfold seg_nonce. rewrite !app_nil_r, !(app_assoc prefix). apply G2. rewrite app_length, L. reflexivity.
Qed.
Lemma gcm_forgery : forall lib p ad sent C, gcm_hkdf_usable p -> hkdf_law lib -> gcm_hkdf_no_forgery lib p ad sent C ->
  no_forgery (gh_derived_key_size p) (gh_ciphertext_segment_size p) (gh_ciphertext_offset p) 16 []
    (gcm_seal lib p ad (salt_of (gh_derived_key_size p) C)) (gcm_open lib p ad (salt_of (gh_derived_key_size p) C)) sent C.
Proof.
  intros lib p ad sent C U Hk N. destruct (gcm_key lib p U Hk (salt_of (gh_derived_key_size p) C) ad) as (key & Ek & Lk).
  unfold gcm_seal, gcm_open. rewrite Ek. apply N. exact Ek.
Qed.

Lemma gcm_hkdf_encrypts : forall F n lib p ad salt prefix,
  gcm_hkdf_usable p -> hkdf_law lib -> length salt = gh_derived_key_size p -> length prefix = 7%nat ->
  exists cc, aes_gcm_hkdf_streaming n lib p salt prefix = StOk cc /\
    cc_encrypts F (stream_capacity (gh_derived_key_size p) (gh_ciphertext_segment_size p) (gh_ciphertext_offset p) 16)
      (fun P C => gcm_hkdf_ciphertext lib p ad salt prefix P C /\ (length P <= stream_capacity (gh_derived_key_size p) (gh_ciphertext_segment_size p) (gh_ciphertext_offset p) 16)%nat) cc ad.
Proof.
  intros F n lib p ad salt prefix U Hk Ls Lp. eexists. split; [apply (gcm_streaming lib p U) |].
  apply (encrypts_impl _ _ (fun P C => gcm_format lib p ad salt prefix P C /\ length P <= stream_capacity (gh_derived_key_size p) (gh_ciphertext_segment_size p) (gh_ciphertext_offset p) 16));
    [intros P C (H & L); split; [apply gcm_format_iff; assumption | exact L] |].
  pose proof U as (U1 & U2 & U3 & U4).
  exact (scheme_encrypts _ _ _ 16 [] n ad (gcm_seal lib p ad) (gcm_new_segment_encrypter lib p) (gcm_new_segment_decrypter lib p)
           U2 U4 (gcm_enc lib p ad U Hk) F salt prefix Ls Lp).
Qed.
Lemma gcm_hkdf_ciphertext_exists : forall lib p ad salt prefix P,
  gcm_hkdf_usable p -> hkdf_law lib -> length salt = gh_derived_key_size p -> length prefix = 7%nat ->
  (length P <= stream_capacity (gh_derived_key_size p) (gh_ciphertext_segment_size p) (gh_ciphertext_offset p) 16)%nat ->
  exists C, gcm_hkdf_ciphertext lib p ad salt prefix P C /\ forall C', gcm_hkdf_ciphertext lib p ad salt prefix P C' -> C' = C.
Proof.
  intros lib p ad salt prefix P U Hk Ls Lp L. pose proof U as (U1 & U2 & U3 & U4).
  destruct (format_exists _ _ _ 16 [] (gcm_seal lib p ad) U2 U4 salt prefix P Ls Lp L) as (C & H).
  exists C. split; [apply gcm_format_iff; assumption |]. intros C' H'. apply (gcm_format_iff _ _ _ _ _ _ _ U Hk) in H'. symmetry.
  exact (format_unique _ _ _ 16 [] (gcm_seal lib p ad) U2 U4 salt prefix P C C' Ls Lp L H H').
Qed.
Lemma gcm_hkdf_decrypts : forall F n lib p ad salt prefix salt' prefix' P C,
  gcm_hkdf_usable p -> hkdf_law lib -> gcm_law lib -> length salt = gh_derived_key_size p -> length prefix = 7%nat ->
  (length P <= stream_capacity (gh_derived_key_size p) (gh_ciphertext_segment_size p) (gh_ciphertext_offset p) 16)%nat ->
  gcm_hkdf_ciphertext lib p ad salt prefix P C ->
  exists cc, aes_gcm_hkdf_streaming n lib p salt' prefix' = StOk cc /\ cc_decrypts F cc ad C P.
Proof.
  intros F n lib p ad salt prefix salt' prefix' P C U Hk G Ls Lp L H. eexists. split; [apply (gcm_streaming lib p U) |].
  apply (gcm_format_iff _ _ _ _ _ _ _ U Hk) in H. pose proof U as (U1 & U2 & U3 & U4). pose proof (gcm_seal_law lib p ad U Hk G) as (G1 & G2).
  exact (scheme_decrypts _ _ _ 16 [] n ad (gcm_seal lib p ad) (gcm_open lib p ad) gcm_bad (gcm_new_segment_encrypter lib p) (gcm_new_segment_decrypter lib p)
           (gcm_decrypter lib p ad) U2 U4 (gcm_decrypter_ok lib p U ad) eq_refl eq_refl eq_refl (gcm_errors lib p U Hk ad) (gcm_init_open lib p ad U Hk)
           G1 G2 F salt prefix salt' prefix' P C Ls Lp L H).
Qed.
Lemma gcm_hkdf_ignores_junk : forall F n lib p ad salt prefix salt' prefix' P C junk k,
  gcm_hkdf_usable p -> hkdf_law lib -> gcm_law lib -> length salt = gh_derived_key_size p -> length prefix = 7%nat ->
  (length P <= stream_capacity (gh_derived_key_size p) (gh_ciphertext_segment_size p) (gh_ciphertext_offset p) 16)%nat ->
  gcm_hkdf_ciphertext lib p ad salt prefix P C ->
  length P = (gh_ciphertext_segment_size p - 16 - gh_ciphertext_offset p - (gh_derived_key_size p + 8) + k * (gh_ciphertext_segment_size p - 16))%nat ->
  exists cc, aes_gcm_hkdf_streaming n lib p salt' prefix' = StOk cc /\ cc_decrypts F cc ad (C ++ junk) P.
Proof.
  intros F n lib p ad salt prefix salt' prefix' P C junk k U Hk G Ls Lp L H K. eexists. split; [apply (gcm_streaming lib p U) |].
  apply (gcm_format_iff _ _ _ _ _ _ _ U Hk) in H. pose proof U as (U1 & U2 & U3 & U4). pose proof (gcm_seal_law lib p ad U Hk G) as (G1 & G2).
  exact (scheme_ignores_junk _ _ _ 16 [] n ad (gcm_seal lib p ad) (gcm_open lib p ad) gcm_bad (gcm_new_segment_encrypter lib p) (gcm_new_segment_decrypter lib p)
           (gcm_decrypter lib p ad) U2 U4 (gcm_decrypter_ok lib p U ad) eq_refl eq_refl eq_refl (gcm_errors lib p U Hk ad) (gcm_init_open lib p ad U Hk)
           G1 G2 F salt prefix salt' prefix' P C junk k Ls Lp L H K).
Qed.
Lemma gcm_hkdf_tampered : forall F n lib p ad sent salt' prefix' C,
  gcm_hkdf_usable p -> hkdf_law lib -> sent_streams (gh_derived_key_size p) sent -> gcm_hkdf_no_forgery lib p ad sent C ->
  exists cc P whole, aes_gcm_hkdf_streaming n lib p salt' prefix' = StOk cc /\
    cc_gives F (F \/ whole = false) (whole = true) cc ad C P /\
    (P = [] /\ whole = false \/
     exists salt prefix Q, In (salt, prefix, Q) sent /\
       firstn (gh_derived_key_size p + 8) C = byte_of_N (N.of_nat (gh_derived_key_size p + 8)) :: salt ++ prefix /\
       (exists rest, Q = P ++ rest) /\
       (whole = true -> P = Q /\ exists D junk, gcm_hkdf_ciphertext lib p ad salt prefix P D /\ C = D ++ junk /\
          (junk = [] \/ exists k, gh_ciphertext_offset p + length D = k * gh_ciphertext_segment_size p)%nat)).
Proof.
  intros F n lib p ad sent salt' prefix' C U Hk Hs N. pose proof U as (U1 & U2 & U3 & U4).
  destruct (scheme_tampered _ _ _ 16 [] n ad (gcm_seal lib p ad) (gcm_open lib p ad) gcm_bad (gcm_new_segment_encrypter lib p) (gcm_new_segment_decrypter lib p)
           (gcm_decrypter lib p ad) U2 U4 (gcm_decrypter_ok lib p U ad) eq_refl eq_refl eq_refl (gcm_errors lib p U Hk ad) (gcm_init_open lib p ad U Hk)
           (gcm_init_inv lib p ad) sent Hs F salt' prefix' C (gcm_forgery lib p ad sent C U Hk N)) as (P & whole & G & H).
  eexists. exists P, whole. split; [apply (gcm_streaming lib p U) |]. split; [exact G |].
  destruct H as [H | (salt & prefix & Q & H1 & H2 & H3 & H4)]; [left; exact H | right].
  exists salt, prefix, Q. split; [exact H1 |]. split; [exact H2 |]. split; [exact H3 |]. intros W. destruct (H4 W) as (E & D & junk & K1 & K2 & K3).
  split; [exact E |]. exists D, junk. split; [apply gcm_format_iff; assumption |]. split; [exact K2 | exact K3].
Qed.
Lemma gcm_hkdf_cut_off : forall F n lib p ad sent salt' prefix' salt prefix Q C cut,
  gcm_hkdf_usable p -> hkdf_law lib -> sent_streams (gh_derived_key_size p) sent -> gcm_hkdf_no_forgery lib p ad sent C ->
  In (salt, prefix, Q) sent ->
  (length Q <= stream_capacity (gh_derived_key_size p) (gh_ciphertext_segment_size p) (gh_ciphertext_offset p) 16)%nat ->
  gcm_hkdf_ciphertext lib p ad salt prefix Q (C ++ cut) -> cut <> [] ->
  exists cc P rest, aes_gcm_hkdf_streaming n lib p salt' prefix' = StOk cc /\ cc_gives F True False cc ad C P /\ Q = P ++ rest.
Proof.
  intros F n lib p ad sent salt' prefix' salt prefix Q C cut U Hk Hs N I L H NC. pose proof U as (U1 & U2 & U3 & U4).
  apply (gcm_format_iff _ _ _ _ _ _ _ U Hk) in H.
  destruct (scheme_cut_off _ _ _ 16 [] n ad (gcm_seal lib p ad) (gcm_open lib p ad) gcm_bad (gcm_new_segment_encrypter lib p) (gcm_new_segment_decrypter lib p)
           (gcm_decrypter lib p ad) U2 U4 (gcm_decrypter_ok lib p U ad) eq_refl eq_refl eq_refl (gcm_errors lib p U Hk ad) (gcm_init_open lib p ad U Hk)
           (gcm_init_inv lib p ad) sent Hs F salt' prefix' salt prefix Q C cut (gcm_forgery lib p ad sent C U Hk N) I L H NC) as (P & rest & G & R).
  eexists. exists P, rest. split; [apply (gcm_streaming lib p U) |]. split; [exact G | exact R].
Qed.
Lemma gcm_hkdf_unknown_header : forall F n lib p ad sent salt' prefix' C,
  gcm_hkdf_usable p -> hkdf_law lib -> sent_streams (gh_derived_key_size p) sent -> gcm_hkdf_no_forgery lib p ad sent C ->
  (forall salt prefix Q, In (salt, prefix, Q) sent ->
     firstn (gh_derived_key_size p + 8) C <> byte_of_N (N.of_nat (gh_derived_key_size p + 8)) :: salt ++ prefix) ->
  exists cc, aes_gcm_hkdf_streaming n lib p salt' prefix' = StOk cc /\ cc_refuses F cc ad C.
Proof.
  intros F n lib p ad sent salt' prefix' C U Hk Hs N H. pose proof U as (U1 & U2 & U3 & U4).
  eexists. split; [apply (gcm_streaming lib p U) |].
  exact (scheme_unknown_header _ _ _ 16 [] n ad (gcm_seal lib p ad) (gcm_open lib p ad) gcm_bad (gcm_new_segment_encrypter lib p) (gcm_new_segment_decrypter lib p)
           (gcm_decrypter lib p ad) U2 U4 (gcm_decrypter_ok lib p U ad) eq_refl eq_refl eq_refl (gcm_errors lib p U Hk ad) (gcm_init_open lib p ad U Hk)
           (gcm_init_inv lib p ad) sent Hs F salt' prefix' C (gcm_forgery lib p ad sent C U Hk N) H).
Qed.
