(** The streams of a keyset, as the user sees them. *)
From Coq Require Import Strings.String List NArith ZArith Bool Lia Permutation.
From Verif Require Import M_Base M_Proto M_StreamTypes M_Prims M_PrimitiveSet M_Registry M_KeysetHandle M_Stream M_CcStream M_Buffered
  L_Base S_Keyset S_PrimitiveSet L_PrimitiveSet L_Keyset L_Wrappers L_Wrappers2 S_Jwt L_Jwt6 S_Stream S_CcStream S_Buffered
  L_Stream2 L_Stream3 L_CcStream2 L_CcStream3 L_CcStream4 L_CcStream5 L_Buffered L_Buffered3 L_Buffered4.
Import ListNotations.
Open Scope list_scope.
Open Scope Z_scope.

(** ** Writing *)
Section Enc.
  Context (what : exn -> string) (X : exn -> Prop) (n cap : nat) (e : cc_enc_stream) (enc : bytes -> bytes -> Prop).
  Context (J : ce_state e -> ostate -> ostate -> Prop).
  Hypothesis Jnext : forall st o p r st' o', J st o p -> owrites (can_raise X) o (ce_next e st) (r, st') o' ->
       exists p', ideal_onext (can_raise X \/ (cap < size_of p)%nat) p r p' /\ J st' o' p'.
  Hypothesis Jstore : forall st o p i d st' o', J st o p -> owrites (can_raise X) o (ce_store e st i d) st' o' ->
       J st' o' (ideal_store p i d).
  Hypothesis Jback : forall st o p c st' o', J st o p -> owrites (can_raise X) o (ce_back_up e st c) st' o' ->
       J st' o' (ideal_oback_up p c).
  Hypothesis Jclose : forall st o p r st' o', J st o p -> owrites (can_raise X) o (ce_close e st) (r, st') o' ->
       exists p', ideal_close (can_raise X \/ (cap < size_of p)%nat) p r p' /\ J st' o' p'.
  Hypothesis Jenc : forall st o P, J st o (OClosed P) -> exists C, o = OClosed C /\ enc P C.

  Lemma adapter_write_failed : forall k st o rest written T x o', J st o (OFailed T) -> rest <> [] ->
    owrites (can_raise X) o (output_adapter_write e k st rest written) x o' ->
    exists z, fst x = StErr z /\ J (snd x) o' (OFailed T).
  Proof.
    intros k st o rest written T x o' Hj Hr H. destruct rest as [| b rest]; [congruence |].
    destruct k as [| k]; cbn [output_adapter_write] in H; [inversion H |].
    apply owrites_bind in H. destruct H as ((r & st1) & o1 & H1 & H2). cbn [fst snd] in H2.
    destruct (Jnext _ _ _ _ _ _ Hj H1) as (p1 & D1 & J1).
    inversion D1; subst. apply owrites_ret in H2. destruct H2 as (-> & ->). cbn. eauto.
  Qed.

  Definition raw_at (W : bytes) (s : res_state (raw_encrypting_stream what n e (new_output_stream []))) (st : rstate) : Prop :=
    exists s0, s = (false, s0) /\
    match st with
    | ROpen T => exists start, enc_rel e J W s0 (OOpen T start)
    | RFailed T => can_fail X cap T /\ exists T, enc_rel e J W s0 (OFailed T)
    end.

  Lemma raw_at_write : forall os W s T b r s' W', raw_at W s (ROpen T) ->
    writes X W (res_write (raw_encrypting_stream what n e os) s b) (r, s') W' ->
    match r with
    | Ok k => k = zlen b /\ raw_at W' s' (ROpen (T ++ b))
    | Err x => is_tink_error x = true /\ raw_at W' s' (RFailed (T ++ b))
    end.
  Proof.
    intros os W s T b r s' W' (s0 & -> & start & R) H. cbn [res_write raw_encrypting_stream fst snd] in H.
    apply writes_bind in H. destruct H as ((r1 & s2) & W3 & H1 & H2). apply writes_ret in H2. destruct H2 as (H2 & ->).
    cbn [fst snd] in H2. injection H2 as -> ->.
    pose proof (raw_enc_write_ok what X n cap e J Jnext Jstore Jback _ _ _ _ _ _ _ _ R H1) as K. destruct r1 as [k | x].
    - destruct K as (-> & start' & R'). split; [reflexivity |]. exists s2. split; [reflexivity |]. eauto.
    - destruct K as (K1 & K2 & j & K3). split; [exact K2 |]. exists s2. split; [reflexivity |]. eauto.
  Qed.
  Lemma raw_at_failed : forall os W s G b r s' W', raw_at W s (RFailed G) -> b <> [] ->
    writes X W (res_write (raw_encrypting_stream what n e os) s b) (r, s') W' ->
    exists x, r = Err x /\ is_tink_error x = true /\ raw_at W' s' (RFailed G).
  Proof.
    intros os W s G b r s' W' (s0 & -> & F & T & o & R & Hj) Hb H. cbn [res_write raw_encrypting_stream fst snd] in H.
    apply writes_bind in H. destruct H as ((r1 & s2) & W3 & H1 & H2). apply writes_ret in H2. destruct H2 as (H2 & ->).
    cbn [fst snd] in H2. injection H2 as -> ->. unfold raw_enc_write in H1. apply writes_bind in H1.
    destruct H1 as (((y & st) & os1) & W2 & H1 & H2). cbn [fst snd] in H2.
    apply writes_ret in H2. destruct H2 as (H2 & ->). injection H2 as -> ->.
    destruct (run_oio_ok what X _ n _ _ _ _ _ _ _ R H1) as (o' & K1 & K2).
    destruct (adapter_write_failed _ _ _ _ _ _ _ _ Hj Hb K1) as (z & Ez & J'). cbn [fst snd] in Ez, J'. subst y.
    assert (A : raw_at W2 (false, (st, os1)) (RFailed G)).
    { exists (st, os1). split; [reflexivity |]. split; [exact F |]. exists T, o'. split; [exact K2 | exact J']. }
    destruct z; cbn [py_output_answer use_tink_errors]; eexists; (split; [reflexivity |]); (split; [reflexivity | exact A]).
  Qed.
  Lemma raw_at_close : forall os W s T r s' W', raw_at W s (ROpen T) ->
    writes X W (res_close (raw_encrypting_stream what n e os) s) (r, s') W' ->
    match r with Ok _ => enc T W' | Err x => can_fail X cap T /\ is_tink_error x = true end.
  Proof.
    intros os W s T r (c & s') W' (s0 & -> & start & R) H. cbn [res_close raw_encrypting_stream] in H.
    pose proof (raw_enc_close_ok what X n cap e J Jclose _ _ _ _ _ _ _ _ R H) as K. destruct r as [[] | x]; [| tauto].
    destruct K as (-> & o & Ro & Ho). destruct (Jenc _ _ _ Ho) as (C & -> & K). cbn in Ro. destruct Ro as (_ & ->). exact K.
  Qed.
  Lemma raw_at_failed_close : forall os W s G r s' W', raw_at W s (RFailed G) ->
    writes X W (res_close (raw_encrypting_stream what n e os) s) (r, s') W' ->
    exists x, r = Err x /\ is_tink_error x = true.
  Proof.
    intros os W s G r s' W' (s0 & -> & F & T & o & R & Hj) H. cbn [res_close raw_encrypting_stream] in H.
    unfold raw_enc_close in H. cbn [fst snd] in H. apply writes_bind in H.
    destruct H as (((y & st) & os1) & W2 & H1 & H2).
    destruct (run_oio_ok what X _ n _ _ _ _ _ _ _ R H1) as (o' & K1 & K2).
    destruct (Jclose _ _ _ _ _ _ Hj K1) as (p' & D & J').
    apply writes_ret in H2. destruct H2 as (H2 & ->). cbn [fst snd] in H2.
    inversion D; subst. destruct e0; cbn in H2; injection H2 as -> ->; eauto.
  Qed.
End Enc.

(** The raw stream of the primary key. *)
Lemma writer_starts : forall what X in_buffer out_buffer n cc ad cap enc e W0,
  cc_encrypts (can_raise X) cap enc cc ad ->
  writes X [] (rsa_new_raw_encrypting_stream (streaming_aead_cc_to_py what in_buffer out_buffer n cc) ad) (Ok e) W0 ->
  exists I : bytes -> res_state e -> rstate -> Prop, I W0 (res_init e) (ROpen []) /\
  (forall W s T b r s' W', I W s (ROpen T) -> writes X W (res_write e s b) (r, s') W' ->
    match r with
    | Ok k => k = zlen b /\ I W' s' (ROpen (T ++ b))
    | Err x => is_tink_error x = true /\ I W' s' (RFailed (T ++ b))
    end) /\
  (forall W s T b r s' W', I W s (RFailed T) -> b <> [] -> writes X W (res_write e s b) (r, s') W' ->
    exists x, r = Err x /\ is_tink_error x = true /\ I W' s' (RFailed T)) /\
  (forall W s T r s' W', I W s (ROpen T) -> writes X W (res_close e s) (r, s') W' ->
    match r with Ok _ => enc T W' | Err x => can_fail X cap T /\ is_tink_error x = true end) /\
  (forall W s T r s' W', I W s (RFailed T) -> writes X W (res_close e s) (r, s') W' ->
    exists x, r = Err x /\ is_tink_error x = true) /\
  (forall W s T, I W s (RFailed T) -> can_fail X cap T) /\
  (forall W s T b, I W s (RFailed T) -> I W s (RFailed (T ++ b))).
Proof.
  intros what X ib ob n cc ad cap enc e W0 Hcc H. cbn [rsa_new_raw_encrypting_stream streaming_aead_cc_to_py] in H.
  unfold new_raw_encrypting_stream in H. apply writes_bind in H. destruct H as ((r & os) & W2 & H1 & H2).
  apply writes_ret in H2. destruct H2 as (H2 & ->). cbn [fst snd] in H2.
  destruct (run_oio_ok what X _ n _ _ _ _ _ _ _ (out_rel_new ob) H1) as (o & K1 & K2).
  pose proof (Hcc _ _ K1) as K. destruct r as [ce | st]; [| destruct st; discriminate].
  cbn in H2. injection H2 as ->. destruct K as (J & J0 & J1 & J2 & J3 & J4 & J5).
  exists (raw_at what X n cap ce J). split.
  { exists (ce_init ce, os). split; [reflexivity |]. exists 0%nat, o. auto. }
  split; [intros; eapply raw_at_write; eauto |]. split; [intros; eapply raw_at_failed; eauto |].
  split; [intros; eapply raw_at_close; eauto |]. split; [intros; eapply raw_at_failed_close; eauto |].
  split; [intros W s T (s0 & _ & F & _); exact F |].
  intros W s T b (s0 & E & F & G). exists s0. split; [exact E |]. split; [| exact G].
  destruct F as [F | F]; [left; exact F | right; rewrite app_length; lia].
Qed.

Lemma primary_raw : forall reg h Q k p ad,
  dict_get pclass_eqb ClsStreamingAead (r_wrappers reg) = Some streaming_aead_wrapper ->
  handle_primitive reg h ClsStreamingAead = Ok Q ->
  In k (enabled_keys (kh_keyset h)) -> k_key_id k = ks_primary_key_id (kh_keyset h) ->
  key_provides reg ClsRawStreamingAead k (PrimRawStreamingAead p) ->
  new_encrypting_stream Q ad = rsa_new_raw_encrypting_stream p ad.
Proof.
  intros reg h Q k p ad Hw He Ke Kid Kp. destruct (streaming_handle_spec _ _ _ Hw He) as (le & Lke & _ & Lenc & _).
  apply (Lenc k). split; [| exact Kid]. apply (law_in _ _ _ _ _ PrimRawStreamingAead_inj Lke). auto.
Qed.

(** close() returns only if every call before it succeeded, and then the file is an
    encryption of all the bytes written; otherwise close() raises TinkError. *)
Theorem encrypting_stream_close : forall reg h Q k what in_buffer out_buffer n cc cap enc ad X,
  dict_get pclass_eqb ClsStreamingAead (r_wrappers reg) = Some streaming_aead_wrapper ->
  handle_primitive reg h ClsStreamingAead = Ok Q ->
  In k (enabled_keys (kh_keyset h)) -> k_key_id k = ks_primary_key_id (kh_keyset h) ->
  key_provides reg ClsRawStreamingAead k (PrimRawStreamingAead (streaming_aead_cc_to_py what in_buffer out_buffer n cc)) ->
  cc_encrypts (can_raise X) cap enc cc ad ->
  forall e W0 size m calls w W r w' C, (0 < size)%Z ->
  writes X [] (new_encrypting_stream Q ad) (Ok e) W0 ->
  writer_history X size m e (bw_new e) W0 calls w W ->
  writes X W (bw_close m e w) (r, w') C ->
  match r with
  | Ok _ => Forall succeeded calls /\ enc (written calls) C
  | Err x => can_fail X cap (written calls) /\ is_tink_error x = true
  end.
Proof.
  intros reg h Q k what ib ob n cc cap enc ad X Hw Hh Ke Kid Kp Hcc e W0 size m calls w W r w' C Hsz Hnew Hhist Hclose.
  rewrite (primary_raw _ _ _ _ _ ad Hw Hh Ke Kid Kp) in Hnew.
  destruct (writer_starts _ _ _ _ _ _ _ _ _ _ _ Hcc Hnew) as (I & I0 & I1 & I2 & I3 & I4 & I5 & I6).
  assert (R0 : winv size e I W0 (bw_new e) (ROpen [])).
  { change (ROpen []) with (ROpen ([] ++ [])). constructor; [exact I0 | lia | auto]. }
  destruct (history_ok X size m cap e I I1 I2 I5 I6 _ _ _ _ _ _ Hsz R0 Hhist) as (_ & _ & K).
  destruct K as [(K & Hs) | K]; pose proof (close_ok X size m cap e enc I I1 I2 I3 I4 I5 _ _ _ _ _ _ K Hclose) as L; destruct r as [u | x]; try exact L.
  - destruct L as (T & ET & L). injection ET as <-. auto.
  - destruct L as (T & ET & _). discriminate.
Qed.

(** Every call before close() succeeds, or raises TinkError. *)
Theorem encrypting_stream_calls : forall reg h Q k what in_buffer out_buffer n cc cap enc ad X,
  dict_get pclass_eqb ClsStreamingAead (r_wrappers reg) = Some streaming_aead_wrapper ->
  handle_primitive reg h ClsStreamingAead = Ok Q ->
  In k (enabled_keys (kh_keyset h)) -> k_key_id k = ks_primary_key_id (kh_keyset h) ->
  key_provides reg ClsRawStreamingAead k (PrimRawStreamingAead (streaming_aead_cc_to_py what in_buffer out_buffer n cc)) ->
  cc_encrypts (can_raise X) cap enc cc ad ->
  forall e W0 size m calls w W, (0 < size)%Z ->
  writes X [] (new_encrypting_stream Q ad) (Ok e) W0 ->
  writer_history X size m e (bw_new e) W0 calls w W ->
  forall c r, In (c, r) calls -> succeeded (c, r) \/ exists x, r = Err x /\ can_fail X cap (written calls) /\ is_tink_error x = true.
Proof.
  intros reg h Q k what ib ob n cc cap enc ad X Hw Hh Ke Kid Kp Hcc e W0 size m calls w W Hsz Hnew Hhist c r Hin.
  rewrite (primary_raw _ _ _ _ _ ad Hw Hh Ke Kid Kp) in Hnew.
  destruct (writer_starts _ _ _ _ _ _ _ _ _ _ _ Hcc Hnew) as (I & I0 & I1 & I2 & I3 & I4 & I5 & I6).
  assert (R0 : winv size e I W0 (bw_new e) (ROpen [])).
  { change (ROpen []) with (ROpen ([] ++ [])). constructor; [exact I0 | lia | auto]. }
  destruct (history_ok X size m cap e I I1 I2 I5 I6 _ _ _ _ _ _ Hsz R0 Hhist) as (K1 & K2 & _).
  destruct r as [x | x]; [left | right; exists x; split; [reflexivity | eapply K1; eauto]].
  destruct c as [b |]; unfold succeeded; cbn [fst snd]; [rewrite (K2 _ _ Hin); reflexivity |].
  clear - Hhist Hin. induction Hhist as [| ? ? b r ? ? ? ? ? Hw Hr IH | ? ? r ? ? ? ? ? Hw Hr IH]; [destruct Hin | |].
  - destruct Hin as [Hin | Hin]; [discriminate | auto].
  - destruct Hin as [Hin | Hin]; [| auto]. destruct r; [| discriminate]. injection Hin as <-. reflexivity.
Qed.

(** After close(), whether it returned or raised, write and flush raise ValueError and
    nothing reaches the file; so does close() once it has returned. *)
Theorem encrypting_stream_closed : forall X size n e w W r w' W',
  writes X W (bw_close n e w) (r, w') W' ->
  (forall b r2 w2 W2, writes X W' (bw_write size n e w' b) (r2, w2) W2 ->
     (exists m, r2 = Err (ValueError m)) /\ w2 = w' /\ W2 = W') /\
  (forall r2 w2 W2, writes X W' (bw_flush n e w') (r2, w2) W2 ->
     (exists m, r2 = Err (ValueError m)) /\ w2 = w' /\ W2 = W') /\
  (r = Ok tt -> forall r2 w2 W2, writes X W' (bw_close n e w') (r2, w2) W2 -> r2 = Ok tt /\ w2 = w' /\ W2 = W').
Proof.
  intros X size n e w W r w' W' H.
  assert (K : bw_closed w' = true /\ (r = Ok tt -> bw_raw_closed w' = true)).
  { unfold bw_close in H. destruct (bw_raw_closed w) eqn:E.
    - apply writes_ret in H. destruct H as (H & ->). injection H as -> ->. unfold bw_closed. rewrite E, orb_true_r. auto.
    - apply writes_bind in H. destruct H as ((r1 & w1) & W1 & H1 & H2). cbn [fst snd] in H2.
      apply writes_bind in H2. destruct H2 as ((r2 & s2) & W2 & H2 & H3). cbn [fst snd] in H3.
      apply writes_ret in H3. destruct H3 as (H3 & ->). injection H3 as -> ->. split; [reflexivity |].
      cbn. destruct r2; [reflexivity | discriminate]. }
  destruct K as (K1 & K2). split; [| split].
  - intros b r2 w2 W2 Hb. unfold bw_write in Hb. rewrite K1 in Hb. apply writes_ret in Hb. destruct Hb as (Hb & ->). injection Hb as -> ->. eauto.
  - intros r2 w2 W2 Hb. unfold bw_flush in Hb. rewrite K1 in Hb. apply writes_ret in Hb. destruct Hb as (Hb & ->). injection Hb as -> ->. eauto.
  - intros Hr r2 w2 W2 Hb. unfold bw_close in Hb. rewrite (K2 Hr) in Hb. apply writes_ret in Hb. destruct Hb as (Hb & ->). injection Hb as -> ->. auto.
Qed.

(** ** Reading *)
Lemma opened : forall S (src : py_source S) fuel Q s ad b, open_decrypting_stream src fuel Q s ad = Some (Ok b) ->
  exists w, new_decrypting_stream src fuel Q s ad = Some (Ok w) /\ b = mk_buffered_reader w [].
Proof.
  intros S src fuel Q s ad b H. unfold open_decrypting_stream in H. destruct (new_decrypting_stream src fuel Q s ad) as [[w | e] |]; [| discriminate | discriminate].
  injection H as <-. eauto.
Qed.

(** A keyset with a key that gives [P]; the others turn the ciphertext down. *)
Theorem decrypting_stream_handle : forall reg h Q k what in_buffer out_buffer n cc ad Y F Fin C P,
  dict_get pclass_eqb ClsStreamingAead (r_wrappers reg) = Some streaming_aead_wrapper ->
  handle_primitive reg h ClsStreamingAead = Ok Q ->
  In k (enabled_keys (kh_keyset h)) ->
  key_provides reg ClsRawStreamingAead k (PrimRawStreamingAead (streaming_aead_cc_to_py what in_buffer out_buffer n cc)) ->
  cc_gives (raises Y) F Fin cc ad C P -> eof_is_clear what Y -> in_buffer <> [] ->
  (forall k' p', In k' (enabled_keys (kh_keyset h)) -> k' <> k ->
     key_provides reg ClsRawStreamingAead k' (PrimRawStreamingAead p') -> turns_down Y p' ad C) ->
  forall S (src : py_source S) fuel s b calls b', plays Y src C s 0 ->
  open_decrypting_stream src fuel Q s ad = Some (Ok b) ->
  reader_history (decrypting_call src fuel) b calls b' ->
  reads_as F Fin P calls.
Proof.
  intros reg h Q k what ib ob n cc ad Y F Fin C P Hw Hd Kd Kp Hcc Hclear Hb Hother S src fuel s b calls b' Hplay Hopen Hhist.
  destruct (streaming_handle_spec _ _ _ Hw Hd) as (ld & Lkd & Ldec & _ & _).
  set (p := streaming_aead_cc_to_py what ib ob n cc) in *.
  assert (Hin : In (k, p) (grouped [] ld)).
  { eapply Permutation_in; [apply Permutation_sym, grouped_permutation |]. apply (law_in _ _ _ _ _ PrimRawStreamingAead_inj Lkd). auto. }
  assert (Law : forall k' p', In (k', p') (grouped [] ld) -> In k' (enabled_keys (kh_keyset h)) /\
                key_provides reg ClsRawStreamingAead k' (PrimRawStreamingAead p')).
  { intros k' p' H. apply (law_in _ _ _ _ _ PrimRawStreamingAead_inj Lkd). eapply Permutation_in; [apply grouped_permutation | exact H]. }
  destruct (opened _ _ _ _ _ _ _ Hopen) as (w & Hnew & ->). rewrite Ldec in Hnew.
  refine (decrypting_stream_reads S Y src fuel F Fin C ad P _ p s w calls b' Hplay _ (raw_gives _ _ _ _ _ _ _ _ _ _ _ Hclear Hb Hcc) _ Hnew Hhist).
  - apply in_map_iff. exists (k, p). auto.
  - intros k' Hk. apply in_map_iff in Hk. destruct Hk as ((k1 & p1) & <- & Hk). cbn [snd]. destruct (Law k1 p1 Hk) as (L1 & L2).
    destruct (key_eq_dec k1 k) as [-> | Hne]; [left | right; eapply Hother; eauto].
    apply PrimRawStreamingAead_inj. eapply key_provides_fun; eauto.
Qed.

(** No key fits: no bytes are returned, and the stream does not look empty either. *)
Theorem decrypting_stream_no_key : forall reg h Q ad Y C,
  dict_get pclass_eqb ClsStreamingAead (r_wrappers reg) = Some streaming_aead_wrapper ->
  handle_primitive reg h ClsStreamingAead = Ok Q ->
  (forall k' p', In k' (enabled_keys (kh_keyset h)) ->
     key_provides reg ClsRawStreamingAead k' (PrimRawStreamingAead p') -> turns_down Y p' ad C) ->
  forall S (src : py_source S) fuel s b calls b', plays Y src C s 0 ->
  open_decrypting_stream src fuel Q s ad = Some (Ok b) ->
  reader_history (decrypting_call src fuel) b calls b' ->
  reads_as True False [] calls.
Proof.
  intros reg h Q ad Y C Hw Hd Hother S src fuel s b calls b' Hplay Hopen Hhist.
  destruct (streaming_handle_spec _ _ _ Hw Hd) as (ld & Lkd & Ldec & _ & _).
  assert (Law : forall k' p', In (k', p') (grouped [] ld) -> In k' (enabled_keys (kh_keyset h)) /\
                key_provides reg ClsRawStreamingAead k' (PrimRawStreamingAead p')).
  { intros k' p' H. apply (law_in _ _ _ _ _ PrimRawStreamingAead_inj Lkd). eapply Permutation_in; [apply grouped_permutation | exact H]. }
  destruct (opened _ _ _ _ _ _ _ Hopen) as (w & Hnew & ->). rewrite Ldec in Hnew.
  assert (All : forall k', In k' (map snd (grouped [] ld)) -> turns_down Y k' ad C).
  { intros k' Hk. apply in_map_iff in Hk. destruct Hk as ((k1 & p1) & <- & Hk). cbn [snd]. destruct (Law k1 p1 Hk) as (L1 & L2). eapply Hother; eauto. }
  destruct (map snd (grouped [] ld)) as [| p rest] eqn:E.
  { unfold dec_wrapper_init in Hnew. destruct (src_readable src s) eqn:Er; [| discriminate].
    unfold rewindable_init in Hnew. rewrite Er in Hnew. discriminate. }
  refine (decrypting_stream_reads S Y src fuel True False C ad [] (p :: rest) p s w calls b' Hplay (or_introl eq_refl) _ _ Hnew Hhist); [| auto].
  destruct (All p (or_introl eq_refl)) as (T1 & T2). split; [exact T1 |]. intros h0 size r A N. destruct (T2 _ _ _ A N) as (e & -> & He). auto.
Qed.

(** From end to end. *)
Theorem user_streams_round_trip : forall reg he hd Qe Qd k what in_buffer out_buffer n cc cap enc ad X Y,
  dict_get pclass_eqb ClsStreamingAead (r_wrappers reg) = Some streaming_aead_wrapper ->
  handle_primitive reg he ClsStreamingAead = Ok Qe ->
  handle_primitive reg hd ClsStreamingAead = Ok Qd ->
  In k (enabled_keys (kh_keyset he)) -> k_key_id k = ks_primary_key_id (kh_keyset he) ->
  In k (enabled_keys (kh_keyset hd)) ->
  key_provides reg ClsRawStreamingAead k (PrimRawStreamingAead (streaming_aead_cc_to_py what in_buffer out_buffer n cc)) ->
  cc_encrypts (can_raise X) cap enc cc ad ->
  (forall P C, enc P C -> cc_decrypts (raises Y) cc ad C P) ->
  eof_is_clear what Y -> in_buffer <> [] ->
  forall e W0 size m calls w W w' C, (0 < size)%Z ->
  writes X [] (new_encrypting_stream Qe ad) (Ok e) W0 ->
  writer_history X size m e (bw_new e) W0 calls w W ->
  writes X W (bw_close m e w) (Ok tt, w') C ->
  (forall k' p', In k' (enabled_keys (kh_keyset hd)) -> k' <> k ->
     key_provides reg ClsRawStreamingAead k' (PrimRawStreamingAead p') -> turns_down Y p' ad C) ->
  forall S (src : py_source S) fuel s b reads_ b', plays Y src C s 0 ->
  open_decrypting_stream src fuel Qd s ad = Some (Ok b) ->
  reader_history (decrypting_call src fuel) b reads_ b' ->
  reads_as (raises Y) True (written calls) reads_.
Proof.
  intros reg he hd Qe Qd k what ib ob n cc cap enc ad X Y Hw He Hd Ke Kid Kd Kp Henc Hdec Hclear Hb e W0 size m calls w W w' C Hsz Hnew Hhist Hclose
    Hother S src fuel s b rs b' Hplay Hopen Hreads.
  pose proof (encrypting_stream_close _ _ _ _ _ _ _ _ _ _ _ _ _ Hw He Ke Kid Kp Henc _ _ _ _ _ _ _ _ _ _ Hsz Hnew Hhist Hclose) as (_ & HC).
  exact (decrypting_stream_handle _ _ _ _ _ _ _ _ _ _ _ _ _ _ _ Hw Hd Kd Kp (cc_decrypts_gives _ _ _ _ _ (Hdec _ _ HC)) Hclear Hb Hother
           S src fuel s b rs b' Hplay Hopen Hreads).
Qed.
