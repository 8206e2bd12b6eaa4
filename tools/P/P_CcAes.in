(** C72, C73, C74: AES-GCM-HKDF and AES-CTR-HMAC streaming in the C++ library. *)
From Coq Require Import Strings.Byte Strings.String List NArith ZArith Bool Lia.
From Verif Require Import M_Base L_Base M_StreamTypes M_CcStream M_CcSegments M_CcAes S_CcStream S_Buffered S_CcSegments S_CcAes
  L_CcAes L_CcAes4 X_Toy L_Toy X_CcAes L_XCcAes.
Import ListNotations.
Open Scope string_scope.
Open Scope list_scope.
Open Scope nat_scope.

(** ** C72: encryption *)
@thm C72_encrypts aes_streaming_encrypts
@thm C72_ciphertext stream_ciphertext_exists

(** "hello" in segments of four bytes and one byte *)
Definition toy_hello (sp : stream_params) : bytes := toy_two sp (blit "ad") (toy_salt x01) toy_prefix (blit "hell") (blit "o").
Example C72_hypotheses_met : forall sp, sp = toy_gcm x61 \/ sp = toy_ctr x61 ->
  params_usable sp /\ ssl_laws toy_ssl sp /\ length (toy_salt x01) = salt_size sp /\ length toy_prefix = 7 /\
  (length (blit "hello") <= params_capacity sp)%nat /\
  stream_ciphertext toy_ssl sp (blit "ad") (toy_salt x01) toy_prefix (blit "hello") (toy_hello sp) /\
  length (toy_hello sp) = 61.
Proof.
  intros sp H. assert (S : stream_ciphertext toy_ssl sp (blit "ad") (toy_salt x01) toy_prefix (blit "hello") (toy_hello sp)).
  { apply (toy_two_ciphertext sp (blit "ad") (toy_salt x01) (blit "hell") (blit "o") H); [reflexivity | discriminate | cbn; lia]. }
  destruct H as [-> | ->].
  - split; [apply toy_usable |]. split; [apply toy_laws |]. split; [reflexivity |]. split; [reflexivity |].
    split; [apply toy_fits; cbn; lia |]. split; [exact S | vmr].
  - split; [apply toy_usable |]. split; [apply toy_laws |]. split; [reflexivity |]. split; [reflexivity |].
    split; [apply toy_fits; cbn; lia |]. split; [exact S | vmr].
Qed.

(** ** C73: decryption *)
@thm C73_decrypts aes_streaming_decrypts
(** The hypotheses are those of C72_hypotheses_met. *)
Theorem C73_round_trip : forall F n lib sp ad salt prefix P,
  params_usable sp -> ssl_laws lib sp -> length salt = salt_size sp -> length prefix = 7 -> (length P <= params_capacity sp)%nat ->
  exists cc C, aes_streaming n lib sp salt prefix = StOk cc /\
    cc_encrypts F (params_capacity sp) (fun P' C' => P' = P -> C' = C) cc ad /\ cc_decrypts F cc ad C P.
Proof.
  intros F n lib sp ad salt prefix P U L Ls Lp LP.
  destruct (stream_ciphertext_exists lib sp ad salt prefix P U L Ls Lp LP) as (C & HC & Hu).
  destruct (aes_streaming_encrypts F n lib sp ad salt prefix U L Ls Lp) as (cc & Hcc & He).
  destruct (aes_streaming_decrypts F n lib sp ad salt prefix salt prefix P C U L Ls Lp HC LP) as (cc' & Hcc' & Hd).
  rewrite Hcc in Hcc'. injection Hcc' as <-. exists cc, C. split; [exact Hcc |]. split; [| exact Hd].
  refine (encrypts_impl F _ _ _ cc ad _ He). intros P' C' (H & _) ->. apply Hu, H.
Qed.
Print Assumptions C73_round_trip.

(** ** C74: other ciphertexts *)
@thm C74_tampered aes_streaming_tampered
@thm C74_cut_off aes_streaming_cut_off
@thm C74_unknown_header aes_streaming_unknown_header

Definition toy_sent : list (bytes * bytes * bytes) :=
  [(toy_salt x01, toy_prefix, blit "hello"); (toy_salt x02, toy_prefix, blit "bye")].
Lemma toy_sent_ok : sent_streams 16 toy_sent.
Proof.
  split; [repeat constructor |]. cbn. constructor; [| constructor; [intros [] | constructor]].
  intros [E | []]. discriminate E.
Qed.
Ltac toy_nothing_opens := intros [|] s H; vm_compute in H; discriminate H.
Ltac toy_opens P segs :=
  intros [|] s H; vm_compute in H; (discriminate H || (injection H as <-; exists P, segs;
    split; [vm_compute; tauto |]; split; [| split; [vmr | split; vmr]])).
Ltac toy_first_opens := toy_opens (blit "hello") [blit "hell"; blit "o"];
  apply (Segmented_more 28 4 (blit "hell") (blit "o") [blit "o"]); [reflexivity | discriminate | apply Segmented_last; cbn; lia].

(** A byte of the second segment is different: the first is given, then an error. *)
Definition toy_damaged (sp : stream_params) : bytes := firstn 44 (toy_hello sp) ++ blit "p" ++ skipn 45 (toy_hello sp).
Example C74_tampered_hypotheses_met : forall sp, sp = toy_gcm x61 \/ sp = toy_ctr x61 ->
  params_usable sp /\ ssl_laws toy_ssl sp /\ sent_streams (salt_size sp) toy_sent /\
  toy_damaged sp <> toy_hello sp /\ no_forged_segment toy_ssl sp (blit "ad") toy_sent (toy_damaged sp).
Proof.
  intros sp [-> | ->]; (split; [apply toy_usable |]; split; [apply toy_laws |]; split; [exact toy_sent_ok |]; split;
    [intro E; vm_compute in E; discriminate E |]).
  - intros key Hk. injection Hk as <-. apply no_forgery_short; [vm_compute; lia | apply gcm_nothing | toy_first_opens | toy_nothing_opens].
  - intros key Hk. injection Hk as <-.
    apply no_forgery_short; [vm_compute; lia | intro; apply ctr_nothing; cbn; lia | toy_first_opens | toy_nothing_opens].
Qed.
(** The last byte, or the second segment, is missing. *)
Example C74_cut_off_hypotheses_met : forall sp k, sp = toy_gcm x61 \/ sp = toy_ctr x61 -> k = 60 \/ k = 44 ->
  params_usable sp /\ ssl_laws toy_ssl sp /\ sent_streams (salt_size sp) toy_sent /\
  no_forged_segment toy_ssl sp (blit "ad") toy_sent (firstn k (toy_hello sp)) /\
  In (toy_salt x01, toy_prefix, blit "hello") toy_sent /\ (length (blit "hello") <= params_capacity sp)%nat /\
  stream_ciphertext toy_ssl sp (blit "ad") (toy_salt x01) toy_prefix (blit "hello") (firstn k (toy_hello sp) ++ skipn k (toy_hello sp)) /\
  skipn k (toy_hello sp) <> [].
Proof.
  intros sp k H Hk. destruct (C72_hypotheses_met sp H) as (A & B & _ & _ & C & D & _).
  split; [exact A |]. split; [exact B |]. split; [destruct H as [-> | ->]; exact toy_sent_ok |].
  split; [| split; [left; reflexivity |]; split; [exact C |]; split; [rewrite firstn_skipn; exact D |];
            destruct H as [-> | ->], Hk as [-> | ->]; intro E; vm_compute in E; discriminate E].
  clear - H Hk. destruct H as [-> | ->], Hk as [-> | ->]; (intros key Hk; injection Hk as <-;
    apply no_forgery_short; [vm_compute; lia | intro; (apply gcm_nothing || (apply ctr_nothing; cbn; lia)) | toy_first_opens | toy_nothing_opens]).
Qed.
(** Another key, and other associated data: nothing was encrypted with them. *)
Example C74_unknown_header_hypotheses_met : forall sp sp' ad, sp = toy_gcm x61 \/ sp = toy_ctr x61 ->
  (sp' = toy_gcm x62 \/ sp' = toy_ctr x62) /\ ad = blit "ad" \/ sp' = sp /\ ad = blit "other" ->
  params_usable sp' /\ ssl_laws toy_ssl sp' /\ sent_streams (salt_size sp') [] /\
  no_forged_segment toy_ssl sp' ad [] (toy_hello sp) /\
  (forall salt prefix Q : bytes, In (salt, prefix, Q) [] -> ~ has_header sp' salt prefix (toy_hello sp)).
Proof.
  intros sp sp' ad H H'.
  assert (E : no_forged_segment toy_ssl sp' ad [] (toy_hello sp)).
  { destruct H' as [([-> | ->] & ->) | (-> & ->)], H as [-> | ->]; (intros key Hk; injection Hk as <-;
      apply no_forgery_short; [vm_compute; lia | intro; (apply gcm_nothing || (apply ctr_nothing; cbn; lia)) | toy_nothing_opens | toy_nothing_opens]). }
  split; [destruct H' as [([-> | ->] & _) | (-> & _)], H as [-> | ->]; apply toy_usable |].
  split; [destruct H' as [([-> | ->] & _) | (-> & _)], H as [-> | ->]; apply toy_laws |].
  split; [split; constructor |]. split; [exact E | intros salt prefix Q []].
Qed.

(** Not true: "bytes that differ from what was encrypted are not decrypted to the end". What
    follows a last segment of full size is ignored. *)
@thm C74_ignores_trailing_bytes aes_streaming_ignores_junk
Theorem C74_altered_is_detected_refuted : forall sp, sp = toy_gcm x61 \/ sp = toy_ctr x61 ->
  exists C C', stream_ciphertext toy_ssl sp (blit "ad") (toy_salt x01) toy_prefix (blit "hell") C /\ C' <> C /\
    params_usable sp /\ ssl_laws toy_ssl sp /\
    no_forged_segment toy_ssl sp (blit "ad") [(toy_salt x01, toy_prefix, blit "hell")] C' /\
    forall F n salt prefix, exists cc, aes_streaming n toy_ssl sp salt prefix = StOk cc /\ cc_decrypts F cc (blit "ad") C' (blit "hell").
Proof.
  intros sp H. set (C := toy_one sp (blit "ad") (toy_salt x01) toy_prefix (blit "hell")).
  assert (S : stream_ciphertext toy_ssl sp (blit "ad") (toy_salt x01) toy_prefix (blit "hell") C)
    by (apply toy_one_ciphertext; [exact H | cbn; lia]).
  destruct (C72_hypotheses_met sp H) as (U & L & Ls & Lp & _).
  exists C, (C ++ blit "x"). split; [exact S |].
  split. { intro E. apply (f_equal (@length byte)) in E. rewrite (app_length C (blit "x")) in E. change (length (blit "x")) with 1 in E. clearbody C. clear - E. lia. }
  split; [exact U |]. split; [exact L |]. split.
  - subst C. clear - H. destruct H as [-> | ->]; (intros key Hk; injection Hk as <-;
      apply no_forgery_short;
        [vm_compute; lia | intro; (apply gcm_nothing || (apply ctr_nothing; cbn; lia))
        | toy_opens (blit "hell") [blit "hell"]; apply Segmented_last; cbn; lia | toy_nothing_opens]).
  - intros F n salt prefix.
    apply (aes_streaming_ignores_junk F n toy_ssl sp (blit "ad") (toy_salt x01) toy_prefix salt prefix (blit "hell") C (blit "x") 0 U L Ls Lp S).
    + destruct H as [-> | ->]; apply toy_fits; cbn; lia.
    + destruct H as [-> | ->]; reflexivity.
Qed.
Print Assumptions C74_altered_is_detected_refuted.
