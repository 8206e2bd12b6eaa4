(** Streaming encryption and decryption with keysets, from end to end. *)
From Coq Require Import Strings.String List NArith ZArith Bool Lia Permutation.
From Verif Require Import M_Base M_Proto M_StreamTypes M_Prims M_PrimitiveSet M_Registry M_KeysetHandle M_Stream M_CcStream
  L_Base S_Keyset S_PrimitiveSet L_PrimitiveSet L_Keyset L_Wrappers L_Wrappers2 S_Jwt L_Jwt6 S_Stream S_CcStream
  L_Stream2 L_Stream3 L_CcStream2 L_CcStream4.
Import ListNotations.
Open Scope list_scope.
Open Scope Z_scope.

Lemma PrimRawStreamingAead_inj : forall p q, PrimRawStreamingAead p = PrimRawStreamingAead q -> p = q.
Proof. intros p q H. injection H. auto. Qed.

Lemma split_at_first : forall (k : key) P (l : list (key * P)), (exists p, In (k, p) l) ->
  exists before p after, l = before ++ (k, p) :: after /\ forall k' p', In (k', p') before -> k' <> k.
Proof.
  intros k P l. induction l as [| (k0 & p0) l IH]; intros (p & H); [destruct H |].
  destruct (key_eq_dec k0 k) as [-> | Hne].
  - exists [], p0, l. split; [reflexivity | intros k' p' []].
  - destruct H as [H | H]; [injection H as -> ->; contradiction |].
    destruct IH as (b & p1 & a & -> & Hb); [eauto |]. exists ((k0, p0) :: b), p1, a. split; [reflexivity |].
    intros k' p' [E | E]; [injection E as <- <-; exact Hne | eauto].
Qed.

(** What is written to the encrypting stream of a keyset is read from the decrypting
    stream of every keyset that contains the primary key. *)
Theorem streaming_round_trip : forall reg he hd Qe Qd k what in_buffer out_buffer n cc cap enc ad X Y,
  dict_get pclass_eqb ClsStreamingAead (r_wrappers reg) = Some streaming_aead_wrapper ->
  handle_primitive reg he ClsStreamingAead = Ok Qe ->
  handle_primitive reg hd ClsStreamingAead = Ok Qd ->
  In k (enabled_keys (kh_keyset he)) -> k_key_id k = ks_primary_key_id (kh_keyset he) ->
  In k (enabled_keys (kh_keyset hd)) ->
  key_provides reg ClsRawStreamingAead k (PrimRawStreamingAead (streaming_aead_cc_to_py what in_buffer out_buffer n cc)) ->
  cc_encrypts (can_raise X) cap enc cc ad ->
  (forall P C, enc P C -> cc_decrypts (raises Y) cc ad C P) ->
  eof_is_clear what Y -> ~ raises Y -> in_buffer <> [] ->
  forall e W bs C,
  writes X [] (new_encrypting_stream Qe ad) (Ok e) W -> encrypting_run X e (res_init e) W bs C ->
  (forall k' p', In k' (enabled_keys (kh_keyset hd)) -> k' <> k ->
     key_provides reg ClsRawStreamingAead k' (PrimRawStreamingAead p') -> refuses Y p' ad C) ->
  forall S (src : py_source S) fuel s w h size r w',
  plays Y src C s 0 -> new_decrypting_stream src fuel Qd s ad = Some (Ok w) ->
  wrapper_history src fuel w (h ++ [(size, r)]) w' -> size <> 0 ->
  match r with
  | Ok (Some []) => data (proper h) = concat bs
  | Ok (Some d) => exists rest, concat bs = data (proper h) ++ d ++ rest
  | Ok None => True
  | Err _ => False
  end.
Proof.
  intros reg he hd Qe Qd k what ib ob n cc cap enc ad X Y Hw He Hd Ke Kid Kd Kp Henc Hdec Hclear Hq Hb e W bs C Hnew Hrun Hother
    S src fuel s w h size r w' Hplay Hopen Hhist Hz.
  destruct (streaming_handle_spec _ _ _ Hw He) as (le & Lke & _ & Lenc & _).
  destruct (streaming_handle_spec _ _ _ Hw Hd) as (ld & Lkd & Ldec & _ & _).
  set (p := streaming_aead_cc_to_py what ib ob n cc) in *.
  assert (Hpe : is_primary (kh_keyset he) le k p).
  { split; [| exact Kid]. apply (law_in _ _ _ _ _ PrimRawStreamingAead_inj Lke). auto. }
  rewrite (Lenc _ _ ad Hpe) in Hnew.
  pose proof (raw_encrypting_stream_ok _ _ _ _ _ _ _ _ _ _ _ _ _ Henc Hnew Hrun) as HC.
  assert (Hin : In (k, p) (grouped [] ld)).
  { eapply Permutation_in; [apply Permutation_sym, grouped_permutation |]. apply (law_in _ _ _ _ _ PrimRawStreamingAead_inj Lkd). auto. }
  assert (Law : forall k' p', In (k', p') (grouped [] ld) -> In k' (enabled_keys (kh_keyset hd)) /\
                key_provides reg ClsRawStreamingAead k' (PrimRawStreamingAead p')).
  { intros k' p' H. apply (law_in _ _ _ _ _ PrimRawStreamingAead_inj Lkd). eapply Permutation_in; [apply grouped_permutation | exact H]. }
  destruct (split_at_first k _ (grouped [] ld)) as (before & p0 & after & E & Hbef); [eauto |].
  assert (p0 = p).
  { destruct (Law k p0) as (_ & K); [rewrite E; apply in_or_app; right; left; reflexivity |].
    apply PrimRawStreamingAead_inj. eapply key_provides_fun; eauto. }
  subst p0. pose proof (raw_decrypts_to what Y ib ob n cc ad C (concat bs) Hclear Hq Hb (Hdec _ _ HC)) as Hdt. fold p in Hdt.
  rewrite Ldec, E, map_app in Hopen. cbn [map snd] in Hopen.
  refine (decrypting_stream_plaintext S Y src fuel C ad _ p _ (concat bs) s w h size r w' Hplay _ Hdt _ Hopen Hhist Hz).
  - intros k' H. apply in_map_iff in H. destruct H as ((k1 & p1) & <- & H). destruct (Law k1 p1) as (L1 & L2); [rewrite E; apply in_or_app; auto |].
    eapply Hother; eauto.
  - intros k' H. apply in_map_iff in H. destruct H as ((k1 & p1) & <- & H).
    destruct (Law k1 p1) as (L1 & L2); [rewrite E; apply in_or_app; right; right; auto |].
    destruct (key_eq_dec k1 k) as [-> | Hne].
    + assert (p1 = p) by (apply PrimRawStreamingAead_inj; eapply key_provides_fun; eauto). subst p1. apply Hdt.
    + apply (Hother _ _ L1 Hne L2).
Qed.
