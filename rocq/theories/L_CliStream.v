(** encrypt_file and decrypt_file. *)
From Coq Require Import Strings.String List NArith ZArith Bool Lia Permutation.
From Verif Require Import M_Base M_Proto M_StreamTypes M_Prims M_PrimitiveSet M_Registry M_KeysetHandle M_Stream M_CcStream M_Buffered M_CliStream
  L_Base S_Keyset S_PrimitiveSet L_PrimitiveSet L_Keyset L_Wrappers L_Wrappers2 S_Jwt L_Jwt6 S_Stream S_CcStream S_Buffered S_CliStream
  L_Stream2 L_Stream3 L_CcStream2 L_CcStream3 L_CcStream4 L_CcStream5 L_Buffered L_Buffered3 L_Buffered4 L_Buffered5.
Import ListNotations.
Open Scope list_scope.
Open Scope Z_scope.

(** ** Encrypting *)

Lemma writer_starts_err : forall what X in_buffer out_buffer n cc ad cap enc x W0,
  cc_encrypts (can_raise X) cap enc cc ad ->
  S_CcStream.writes X [] (rsa_new_raw_encrypting_stream (streaming_aead_cc_to_py what in_buffer out_buffer n cc) ad) (Err x) W0 ->
  can_raise X /\ is_tink_error x = true.
Proof.
  intros what X ib ob n cc ad cap enc x W0 Hcc H. cbn [rsa_new_raw_encrypting_stream streaming_aead_cc_to_py] in H.
  unfold new_raw_encrypting_stream in H. apply writes_bind in H. destruct H as ((r & os) & W2 & H1 & H2).
  apply writes_ret in H2. destruct H2 as (H2 & ->). cbn [fst snd] in H2.
  destruct (run_oio_ok what X _ n _ _ _ _ _ _ _ (out_rel_new ob) H1) as (o & K1 & K2).
  pose proof (Hcc _ _ K1) as K. destruct r as [ce | st]; [discriminate |]. split; [exact K |].
  destruct st; cbn in H2; injection H2 as ->; reflexivity.
Qed.

(** The loop, as a history of writes. *)
Lemma encrypt_blocks_history : forall S (src : py_source S) X Y P block n, 0 < block -> forall (at_ : S -> nat -> Prop),
  (forall s p size, at_ s p -> (p <= length P)%nat /\
      exists p', file_read Y P p size (fst (src_read src s size)) p' /\ at_ (snd (src_read src s size)) p') ->
  forall fuel e w s p W r w' s' W', at_ s p ->
  S_CcStream.writes X W (encrypt_blocks src block n fuel e w s) (r, w', s') W' ->
  exists h, writer_history X default_buffer_size n e w W h w' W' /\
    front (written h) (skipn p P) /\
    match r with
    | Ok _ => written h = skipn p P
    | Err x => Y x \/ ((exists m, x = TypeError m) /\ exists s1, fst (src_read src s1 block) = Ok None) \/ exists b, In (WcWrite b, Err x) h
    end.
Proof.
  intros S src X Y P block n Hb at_ Hat. induction fuel as [| fuel IH]; intros e w s p W r w' s' W' Ha H; cbn [encrypt_blocks] in H; [inversion H |].
  destruct (Hat s p block Ha) as (Hp & p' & Hr & Ha'). destruct (src_read src s block) as (x & s1) eqn:Ex. cbn [fst snd] in Hr, Ha'.
  inversion Hr as [d Hd Hs Hf Hx1 Hx2 | He Hx1 Hx2 | Hx1 Hx2 | ex p0 Hx Hy1 Hy2 Hx1 Hx2]; subst x.
  - destruct d as [| c d]; [congruence |]. apply writes_bind in H. destruct H as ((y & w1) & W1 & H1 & H2). cbn [fst snd] in H2.
    assert (Split : skipn p P = (c :: d) ++ skipn p' P).
    { rewrite <- Hx2, (Nat.add_comm p), <- skipn_skipn. rewrite <- (firstn_skipn (length (c :: d)) (skipn p P)) at 1. rewrite Hf. reflexivity. }
    destruct y as [z | ex].
    + destruct (IH _ _ _ _ _ _ _ _ _ Ha' H2) as (h & K1 & (rest & K2) & K3).
      exists ((WcWrite (c :: d), Ok (Some z)) :: h). split; [exact (BH_write X default_buffer_size n e _ _ _ _ _ _ _ _ _ H1 K1) |]. unfold written. cbn [map concat fst].
      change (concat (map _ h)) with (written h). split; [exists rest; rewrite Split, K2, <- app_assoc; reflexivity |].
      destruct r as [u | ex]; [rewrite K3, Split; reflexivity |]. destruct K3 as [K3 | [K3 | (b & K3)]]; [auto | auto | right; right; exists b; right; exact K3].
    + apply writes_ret in H2. destruct H2 as (H2 & ->). injection H2 as -> -> ->.
      exists [(WcWrite (c :: d), Err ex)]. split; [exact (BH_write X default_buffer_size n e _ _ _ _ _ _ _ _ _ H1 (BH_nil _ _ _ _ _ _)) |].
      unfold written. cbn [map concat fst]. rewrite app_nil_r. split; [exists (skipn p' P); exact Split |]. right. right. exists (c :: d). left. reflexivity.
  - apply writes_ret in H. destruct H as (H & ->). injection H as -> -> ->. exists []. split; [constructor |].
    subst p. assert (Hz : skipn p' P = []) by (apply skipn_all2; lia). rewrite Hz. split; [exists []; reflexivity | reflexivity].
  - apply writes_ret in H. destruct H as (H & ->). injection H as -> -> ->. exists []. split; [constructor |].
    split; [eexists; reflexivity |]. right. left. split; [eauto |]. exists s. rewrite Ex. reflexivity.
  - apply writes_ret in H. destruct H as (H & ->). injection H as -> -> ->. exists []. split; [constructor |].
    split; [eexists; reflexivity |]. left. exact Hx.
Qed.

(** When encrypt_file returns, the output is an encryption of the whole input. An
    exception is one of the input file, a TinkError because of one of the output file or of an input that is too long, or
    TypeError for a read that returned None; and then the output may still be an
    encryption, of a front part of the input. *)
Theorem encrypt_file_ok : forall reg h Q k what in_buffer out_buffer n cc cap enc ad X,
  dict_get pclass_eqb ClsStreamingAead (r_wrappers reg) = Some streaming_aead_wrapper ->
  handle_primitive reg h ClsStreamingAead = Ok Q ->
  In k (enabled_keys (kh_keyset h)) -> k_key_id k = ks_primary_key_id (kh_keyset h) ->
  key_provides reg ClsRawStreamingAead k (PrimRawStreamingAead (streaming_aead_cc_to_py what in_buffer out_buffer n cc)) ->
  cc_encrypts (can_raise X) cap enc cc ad ->
  forall S (src : py_source S) Y P s block m r s' C, (0 < block)%Z -> plays Y src P s 0 ->
  S_CcStream.writes X [] (encrypt_file src block m Q ad s) (r, s') C ->
  match r with
  | Ok _ => enc P C
  | Err x => (can_fail X cap P /\ is_tink_error x = true) \/
             ((Y x \/ (exists m, x = TypeError m) /\ exists s1, fst (src_read src s1 block) = Ok None) /\
              exists P', front P' P /\ enc P' C)
  end.
Proof.
  intros reg h Q k what ib ob n cc cap enc ad X Hw Hh Ke Kid Kp Hcc S src Y P s block m r s' C Hb (at_ & Ha & Hat) H.
  unfold encrypt_file in H. apply writes_bind in H. destruct H as (x & W0 & H0 & H).
  rewrite (primary_raw _ _ _ _ _ ad Hw Hh Ke Kid Kp) in H0. destruct x as [e | x].
  2:{ apply writes_ret in H. destruct H as (H & ->). injection H as -> ->. left. destruct (writer_starts_err _ _ _ _ _ _ _ _ _ _ _ Hcc H0) as (F & G). split; [left; exact F | exact G]. }
  apply writes_bind in H. destruct H as (((y & w) & s1) & W1 & H1 & H). cbn [fst snd] in H.
  apply writes_bind in H. destruct H as ((z & w2) & W2 & H2 & H). cbn [fst snd] in H.
  apply writes_ret in H. destruct H as (H & ->). injection H as -> ->.
  destruct (encrypt_blocks_history _ _ _ _ _ _ _ Hb _ Hat _ _ _ _ _ _ _ _ _ _ Ha H1) as (hist & K1 & K2 & K3). cbn [skipn] in K2, K3.
  rewrite <- (primary_raw _ _ _ _ _ ad Hw Hh Ke Kid Kp) in H0.
  pose proof (encrypting_stream_close _ _ _ _ _ _ _ _ _ _ _ _ _ Hw Hh Ke Kid Kp Hcc _ _ default_buffer_size _ _ _ _ _ _ _ ltac:(unfold default_buffer_size; lia) H0 K1 H2) as L.
  destruct z as [u | x].
  2:{ left. destruct L as ([L | L] & L'); (split; [| exact L']); [left; exact L | right]. destruct K2 as (rest & ->). rewrite app_length. lia. }
  destruct L as (L1 & L2). destruct y as [u' | x].
  - rewrite K3 in L2. exact L2.
  - right. split; [| exists (written hist); auto]. destruct K3 as [K3 | [K3 | (b & K3)]]; [auto | auto |].
    rewrite Forall_forall in L1. specialize (L1 _ K3). discriminate L1.
Qed.

(** ** Decrypting *)

Lemma fills_bind : forall A B X W (m : wio A) (f : A -> wio B) b W', fills X W (wio_bind m f) b W' ->
  exists a W1, fills X W m a W1 /\ fills X W1 (f a) b W'.
Proof.
  intros A B X W m f b W'. revert W. induction m as [a | d k IH | k IH |]; intros W H; cbn [wio_bind] in H.
  - exists a, W. split; [constructor | exact H].
  - inversion H; subst.
    + match goal with K : fills _ _ _ _ _ |- _ => destruct (IH _ _ K) as (a & W1 & K1 & K2) end.
      exists a, W1. split; [apply Fills_write; exact K1 | exact K2].
    + match goal with K : fills _ _ _ _ _ |- _ => destruct (IH _ _ K) as (a & W1 & K1 & K2) end.
      exists a, W1. split; [eapply Fills_error; eauto | exact K2].
  - inversion H; subst. match goal with K : fills _ _ _ _ _ |- _ => destruct (IH _ _ K) as (a & W1 & K1 & K2) end.
    exists a, W1. split; [eapply Fills_close; eauto | exact K2].
  - inversion H.
Qed.
Lemma fills_ret : forall A X W (a b : A) W', fills X W (WRet a) b W' -> b = a /\ W' = W.
Proof. intros A X W a b W' H. inversion H; subst. auto. Qed.

Lemma reader_history_snoc : forall W (call : reader_call -> W -> option (read_result * W)) b h b1 c r b2,
  reader_history call b h b1 -> call c b1 = Some (r, b2) -> reader_history call b (h ++ [(c, r)]) b2.
Proof.
  intros W call b h b1 c r b2 H. induction H; intros E; cbn [app]; [econstructor; [exact E | constructor] | econstructor; eauto].
Qed.
Lemma got_snoc : forall h c r, got (h ++ [(c, r)]) = got h ++ match c with RcPeek => [] | _ => data_of r end.
Proof. intros h c r. unfold got. rewrite map_app, concat_app. cbn [map concat fst snd]. rewrite app_nil_r. reflexivity. Qed.
Lemma front_trans : forall a b c, front a b -> front b c -> front a c.
Proof. intros a b c (r1 & ->) (r2 & ->). exists (r1 ++ r2). rewrite app_assoc. reflexivity. Qed.

Section Loop.
  Context {S : Type} (src : py_source S) (X : exn -> Prop) (F Fin : Prop) (P : bytes) (block : Z) (n : nat).
  Hypothesis block_pos : 0 < block.
  Variable b0 : buffered_reader (dec_wrapper S).
  Hypothesis Hreads : forall h b', reader_history (decrypting_call src n) b0 h b' -> reads_as F Fin P h.

  Lemma decrypt_blocks_ok : forall fuel b h W r b' W', reader_history (decrypting_call src n) b0 h b ->
    ~ failed h -> W = got h -> front W P ->
    fills X W (decrypt_blocks src block n fuel b) (r, b') W' ->
    front W' P /\ match r with Ok _ => W' = P /\ Fin | Err x => (F /\ is_tink_error x = true) \/ X x end.
  Proof.
    induction fuel as [| fuel IH]; intros b h W r b' W' Hh Hn HW Hf H; cbn [decrypt_blocks] in H; [inversion H |].
    destruct (decrypting_call src n (RcRead block) b) as [(x & b1) |] eqn:E; [| inversion H].
    pose proof (reader_history_snoc _ _ _ _ _ _ _ _ Hh E) as Hh'.
    pose proof (Hreads _ _ Hh' h (RcRead block) x [] eq_refl) as K.
    destruct x as [[d |] | ex]; [| contradiction |].
    - destruct K as (K & _). destruct (K Hn) as (rest & E1 & (more & E2) & E3).
      destruct (Z.ltb_spec block 0) as [Hl | _]; [lia |]. destruct E3 as (E3 & E4).
      destruct d as [| c d].
      + apply fills_ret in H. destruct H as (H & ->). injection H as -> ->. split; [exact Hf |].
        destruct (E4 ltac:(cbn; lia)) as (E5 & E6). split; [| exact E6]. rewrite HW, E1, <- E5, app_nil_r. reflexivity.
      + assert (Hg : got (h ++ [(RcRead block, Ok (Some (c :: d)))]) = W ++ c :: d) by (rewrite got_snoc, <- HW; reflexivity).
        assert (Hf' : front (W ++ c :: d) P) by (exists more; rewrite E1, E2, <- HW, <- app_assoc; reflexivity).
        inversion H; subst.
        * match goal with J : fills _ _ _ _ _ |- _ => refine (IH _ _ _ _ _ _ Hh' _ (eq_sym Hg) Hf' J) end.
          intros (c1 & e1 & Hin & He). apply in_app_or in Hin. destruct Hin as [Hin | [Hin | []]]; [apply Hn; exists c1, e1; auto | discriminate].
        * match goal with J : fills _ _ _ _ _ |- _ => apply fills_ret in J; destruct J as (J & ->); injection J as -> -> end.
          split; [| auto]. eapply front_trans; [| exact Hf']. exists (skipn j (c :: d)). rewrite <- app_assoc. f_equal. symmetry. apply firstn_skipn.
    - apply fills_ret in H. destruct H as (H & ->). injection H as -> ->. split; [exact Hf |].
      destruct K as [K | (K & _)]; [auto | cbn in K; lia].
  Qed.
End Loop.

(** Opening the stream does not fail. *)
Lemma open_works : forall S (src : py_source S) Y C fuel prims s ad x, plays Y src C s 0 -> src_readable src s = true ->
  prims <> [] -> (forall k, In k prims -> creation_works Y C ad k) ->
  dec_wrapper_init src fuel prims s ad = Some x -> exists w, x = Ok w.
Proof.
  intros S src Y C fuel prims s ad x (at_ & Ha & Hat) Er Hp Hc H. unfold dec_wrapper_init in H. rewrite Er in H.
  unfold rewindable_init in H. rewrite Er in H. destruct prims as [| k ks]; [congruence |]. cbn [next_decrypting_stream] in H.
  match type of H with context [run_rio _ _ ?s2] => set (source := s2) in * end.
  assert (A : rw_at C at_ source 0). { exists 0%nat. unfold source. cbn. repeat split; auto. }
  destruct (run_rio (rewindable_read src fuel) (rsa_new_raw_decrypting_stream k ad) source) as [[[o | e'] source3] |] eqn:E2; [| | discriminate].
  - injection H as <-. eauto.
  - destruct (run_reads Y src C at_ Hat _ fuel _ _ _ _ _ A E2) as (p2 & T1 & _). destruct (Hc k (or_introl eq_refl) _ _ T1). discriminate.
Qed.

Lemma close_works : forall S (src : py_source S) b, usable src -> fst (decrypting_close src b) = Ok tt.
Proof.
  intros S src b (_ & Hc). unfold decrypting_close, dec_wrapper_close. destruct (dw_closed (br_raw b)); [reflexivity |].
  unfold rewindable_close. destruct (rw_closed (dw_ciphertext_source (br_raw b))); [reflexivity |].
  pose proof (Hc (rw_input_stream (dw_ciphertext_source (br_raw b)))) as K.
  destruct (src_close src (rw_input_stream (dw_ciphertext_source (br_raw b)))) as (y & s1). cbn [fst] in K. subst y. reflexivity.
Qed.

Lemma decrypt_file_gen : forall S (src : py_source S) X Y F Fin C P prims Q ad s block m r W,
  new_decrypting_stream src m Q s ad = dec_wrapper_init src m prims s ad ->
  usable src -> plays Y src C s 0 -> prims <> [] -> (forall p, In p prims -> creation_works Y C ad p) ->
  (forall b h b', open_decrypting_stream src m Q s ad = Some (Ok b) -> reader_history (decrypting_call src m) b h b' -> reads_as F Fin P h) ->
  0 < block -> fills X [] (decrypt_file src block m Q ad s) r W ->
  front W P /\
  match r with
  | Ok z => (z = 0 /\ W = P /\ Fin) \/ (z = 1 /\ (F \/ exists x, X x))
  | Err x => X x /\ is_tink_error x = false
  end.
Proof.
  intros S src X Y F Fin C P prims Q ad s block m r W Hn Hu Hp Hne Hc Hr Hb H. unfold decrypt_file in H.
  destruct (open_decrypting_stream src m Q s ad) as [[b | x] |] eqn:Eo; [| | inversion H].
  2:{ unfold open_decrypting_stream in Eo. rewrite Hn in Eo. destruct (dec_wrapper_init src m prims s ad) as [y |] eqn:Ei; [| discriminate].
      destruct (open_works _ _ _ _ _ _ _ _ _ Hp (proj1 Hu s) Hne Hc Ei) as (w & ->). discriminate. }
  apply fills_bind in H. destruct H as ((y & b') & W1 & H1 & H2). apply fills_ret in H2. destruct H2 as (-> & ->). cbn [fst snd].
  rewrite (close_works _ _ _ Hu).
  destruct (decrypt_blocks_ok src X F Fin P block m Hb b (fun h b1 => Hr b h b1 eq_refl) _ b [] [] _ _ _ (RdH_nil _ _)
              (fun K => match K with ex_intro _ _ (ex_intro _ _ (conj Hin _)) => Hin end) eq_refl (ex_intro _ P eq_refl) H1) as (K1 & K2).
  split; [exact K1 |]. destruct y as [u | x]; [left; split; [reflexivity | exact K2] |].
  destruct K2 as [(K2 & K3) | K2]; [rewrite K3; auto |]. destruct (is_tink_error x) eqn:E; [right; eauto | auto].
Qed.

(** A keyset with a key that gives [P]: the output is a front part of [P]; when the call
    returns it is [P]; and what can go wrong is what [F] and [X] allow. *)
Theorem decrypt_file_ok : forall reg h Q k what in_buffer out_buffer n cc ad Y F Fin C P,
  dict_get pclass_eqb ClsStreamingAead (r_wrappers reg) = Some streaming_aead_wrapper ->
  handle_primitive reg h ClsStreamingAead = Ok Q ->
  In k (enabled_keys (kh_keyset h)) ->
  key_provides reg ClsRawStreamingAead k (PrimRawStreamingAead (streaming_aead_cc_to_py what in_buffer out_buffer n cc)) ->
  cc_gives (raises Y) F Fin cc ad C P -> eof_is_clear what Y -> in_buffer <> [] ->
  (forall k' p', In k' (enabled_keys (kh_keyset h)) -> k' <> k ->
     key_provides reg ClsRawStreamingAead k' (PrimRawStreamingAead p') -> turns_down Y p' ad C) ->
  forall S (src : py_source S) X s block m r W, usable src -> (0 < block)%Z -> plays Y src C s 0 ->
  fills X [] (decrypt_file src block m Q ad s) r W ->
  front W P /\
  match r with
  | Ok z => (z = 0%Z /\ W = P /\ Fin) \/ (z = 1%Z /\ (F \/ exists x, X x))
  | Err x => X x /\ is_tink_error x = false
  end.
Proof.
  intros reg h Q k what ib ob n cc ad Y F Fin C P Hw Hd Kd Kp Hcc Hclear Hib Hother S src X s block m r W Hu Hb Hplay H.
  destruct (streaming_handle_spec _ _ _ Hw Hd) as (ld & Lkd & Ldec & _ & _).
  set (p := streaming_aead_cc_to_py what ib ob n cc) in *.
  assert (Hin : In (k, p) (grouped [] ld)).
  { eapply Permutation_in; [apply Permutation_sym, grouped_permutation |]. apply (law_in _ _ _ _ _ PrimRawStreamingAead_inj Lkd). auto. }
  refine (decrypt_file_gen S src X Y F Fin C P _ Q ad s block m r W (Ldec _ _ _ _ _) Hu Hplay _ _ _ Hb H).
  - intros E. apply (in_map snd) in Hin. rewrite E in Hin. destruct Hin.
  - intros p' Hp'. apply in_map_iff in Hp'. destruct Hp' as ((k1 & p1) & <- & Hk1). cbn [snd].
    assert (L : In (k1, p1) ld) by (eapply Permutation_in; [apply grouped_permutation | exact Hk1]).
    apply (law_in _ _ _ _ _ PrimRawStreamingAead_inj Lkd) in L. destruct L as (L1 & L2).
    destruct (key_eq_dec k1 k) as [-> | Hne]; [| exact (proj1 (Hother _ _ L1 Hne L2))].
    assert (p1 = p) as -> by (apply PrimRawStreamingAead_inj; eapply key_provides_fun; eauto).
    exact (proj1 (raw_gives _ _ _ _ _ _ _ _ _ _ _ Hclear Hib Hcc)).
  - intros b hh b' Ho Hh. eapply decrypting_stream_handle; eauto.
Qed.

(** A keyset with keys that all turn the ciphertext down: nothing is written, and the
    program exits with status 1. *)
Theorem decrypt_file_no_key : forall reg h Q ad Y C,
  dict_get pclass_eqb ClsStreamingAead (r_wrappers reg) = Some streaming_aead_wrapper ->
  handle_primitive reg h ClsStreamingAead = Ok Q ->
  enabled_keys (kh_keyset h) <> [] ->
  (forall k' p', In k' (enabled_keys (kh_keyset h)) ->
     key_provides reg ClsRawStreamingAead k' (PrimRawStreamingAead p') -> turns_down Y p' ad C) ->
  forall S (src : py_source S) X s block m r W, usable src -> (0 < block)%Z -> plays Y src C s 0 ->
  fills X [] (decrypt_file src block m Q ad s) r W ->
  W = [] /\ (r = Ok 1%Z \/ exists x, r = Err x /\ X x).
Proof.
  intros reg h Q ad Y C Hw Hd Hsome Hother S src X s block m r W Hu Hb Hplay H.
  destruct (streaming_handle_spec _ _ _ Hw Hd) as (ld & Lkd & Ldec & _ & _).
  assert (K : front W [] /\ match r with
    | Ok z => (z = 0%Z /\ W = [] /\ False) \/ (z = 1%Z /\ (True \/ exists x, X x))
    | Err x => X x /\ is_tink_error x = false end).
  { refine (decrypt_file_gen S src X Y True False C [] _ Q ad s block m r W (Ldec _ _ _ _ _) Hu Hplay _ _ _ Hb H).
    - intros E. apply Hsome. rewrite <- (proj1 Lkd). destruct ld as [| x ld]; [reflexivity |].
      assert (Hin : In x (grouped [] (x :: ld))) by (eapply Permutation_in; [apply Permutation_sym, grouped_permutation | left; reflexivity]).
      apply (in_map snd) in Hin. rewrite E in Hin. destruct Hin.
    - intros p' Hp'. apply in_map_iff in Hp'. destruct Hp' as ((k1 & p1) & <- & Hk1). cbn [snd].
      assert (L : In (k1, p1) ld) by (eapply Permutation_in; [apply grouped_permutation | exact Hk1]).
      apply (law_in _ _ _ _ _ PrimRawStreamingAead_inj Lkd) in L. destruct L as (L1 & L2). exact (proj1 (Hother _ _ L1 L2)).
    - intros b hh b' Ho Hh. eapply decrypting_stream_no_key; eauto. }
  destruct K as ((rest & K1) & K2). split; [destruct W; [reflexivity | discriminate] |].
  destruct r as [z | x]; [left | right; exists x; tauto]. destruct K2 as [(_ & _ & []) | (-> & _)]. reflexivity.
Qed.
