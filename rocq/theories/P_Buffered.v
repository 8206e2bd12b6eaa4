(** C68, C69: the streams that the user gets. *)
From Coq Require Import Strings.Byte Strings.String List NArith ZArith Bool Lia.
From Verif Require Import M_Base M_Proto M_StreamTypes M_Prims M_PrimitiveSet M_Registry M_KeysetHandle
  M_Stream M_CcStream M_Buffered S_Keyset S_PrimitiveSet S_Stream S_CcStream S_Buffered L_Base L_Keyset L_Wrappers2
  L_Buffered5 X_Toy L_Toy X_Stream L_XStream X_Buffered L_XBuffered.
Import ListNotations.
Open Scope list_scope.
Open Scope Z_scope.

(** ** C68 *)
Theorem C68_close : forall reg h Q k what in_buffer out_buffer n cc cap enc ad X,
  dict_get pclass_eqb ClsStreamingAead (r_wrappers reg) = Some streaming_aead_wrapper ->
  handle_primitive reg h ClsStreamingAead = Ok Q ->
  In k (enabled_keys (kh_keyset h)) -> k_key_id k = ks_primary_key_id (kh_keyset h) ->
  key_provides reg ClsRawStreamingAead k (PrimRawStreamingAead (streaming_aead_cc_to_py what in_buffer out_buffer n cc)) ->
  cc_encrypts (can_raise X) cap enc cc ad ->
  forall e W0 size m calls w W r w' C, (0 < size)%Z ->
  writes X [] (new_encrypting_stream Q ad) (Ok e) W0 ->
  writer_history X size m e (bw_new e) W0 calls w W ->
  writes X W (bw_close m e w) (r, w') C ->
  match r with
  | Ok _ => Forall succeeded calls /\ enc (written calls) C
  | Err x => can_fail X cap (written calls) /\ is_tink_error x = true
  end.
Proof. exact encrypting_stream_close. Qed.
Print Assumptions C68_close.
Theorem C68_calls : forall reg h Q k what in_buffer out_buffer n cc cap enc ad X,
  dict_get pclass_eqb ClsStreamingAead (r_wrappers reg) = Some streaming_aead_wrapper ->
  handle_primitive reg h ClsStreamingAead = Ok Q ->
  In k (enabled_keys (kh_keyset h)) -> k_key_id k = ks_primary_key_id (kh_keyset h) ->
  key_provides reg ClsRawStreamingAead k (PrimRawStreamingAead (streaming_aead_cc_to_py what in_buffer out_buffer n cc)) ->
  cc_encrypts (can_raise X) cap enc cc ad ->
  forall e W0 size m calls w W, (0 < size)%Z ->
  writes X [] (new_encrypting_stream Q ad) (Ok e) W0 ->
  writer_history X size m e (bw_new e) W0 calls w W ->
  forall c r, In (c, r) calls -> succeeded (c, r) \/ exists x, r = Err x /\ can_fail X cap (written calls) /\ is_tink_error x = true.
Proof. exact encrypting_stream_calls. Qed.
Print Assumptions C68_calls.
Theorem C68_closed : forall X size n e w W r w' W',
  writes X W (bw_close n e w) (r, w') W' ->
  (forall b r2 w2 W2, writes X W' (bw_write size n e w' b) (r2, w2) W2 ->
     (exists m, r2 = Err (ValueError m)) /\ w2 = w' /\ W2 = W') /\
  (forall r2 w2 W2, writes X W' (bw_flush n e w') (r2, w2) W2 ->
     (exists m, r2 = Err (ValueError m)) /\ w2 = w' /\ W2 = W') /\
  (r = Ok tt -> forall r2 w2 W2, writes X W' (bw_close n e w') (r2, w2) W2 -> r2 = Ok tt /\ w2 = w' /\ W2 = W').
Proof. exact encrypting_stream_closed. Qed.
Print Assumptions C68_closed.

(** Written in pieces to a buffer of four bytes, with a flush in between. *)
Definition pieces : list writer_call := [WcWrite (blit "he"); WcWrite (blit "llo, w"); WcFlush; WcWrite []; WcWrite (blit "orld")].
Definition piece_answers : list writer_answer := [Ok (Some 2); Ok (Some 6); Ok None; Ok (Some 0); Ok (Some 4)].
Example C68_hypotheses_met :
  exists Q e W0 w W w',
  dict_get pclass_eqb ClsStreamingAead (r_wrappers stream_registry) = Some streaming_aead_wrapper /\
  handle_primitive stream_registry stream_handle ClsStreamingAead = Ok Q /\
  In stream_key (enabled_keys (kh_keyset stream_handle)) /\
  k_key_id stream_key = ks_primary_key_id (kh_keyset stream_handle) /\
  key_provides stream_registry ClsRawStreamingAead stream_key (PrimRawStreamingAead (toy_raw x61)) /\
  cc_encrypts (can_raise any_exception) 12 (toy_enc x61) (toy_cc x61) (blit "ad") /\
  writes any_exception [] (new_encrypting_stream Q (blit "ad")) (Ok e) W0 /\
  writer_history any_exception 4 30 e (bw_new e) W0 (combine pieces piece_answers) w W /\
  writes any_exception W (bw_close 30 e w) (Ok tt, w') (blit "ahello, world") /\
  written (combine pieces piece_answers) = blit "hello, world".
Proof.
  destruct (ok_run _ _ (handle_primitive stream_registry stream_handle ClsStreamingAead)
              (fun Q => write_run 4 30 (new_encrypting_stream Q (blit "ad")) pieces) (piece_answers, Ok tt, blit "ahello, world"))
    as (Q & HQ & He); [vmr |].
  destruct (write_run_ok any_exception _ _ _ _ _ _ _ He) as (e & W0 & w & W & w' & H1 & H2 & H3).
  exists Q, e, W0, w, W, w'.
  split; [vmr |]. split; [exact HQ |]. split; [vm_compute; tauto |]. split; [vmr |].
  split; [apply registry_primitive_ok; lazy -[toy_raw]; reflexivity |].
  split; [apply toy_encrypts |]. split; [exact H1 |]. split; [exact H2 |]. split; [exact H3 | vmr].
Qed.

(** ** C69 *)
Theorem C69_reads : forall reg h Q k what in_buffer out_buffer n cc ad Y F Fin C P,
  dict_get pclass_eqb ClsStreamingAead (r_wrappers reg) = Some streaming_aead_wrapper ->
  handle_primitive reg h ClsStreamingAead = Ok Q ->
  In k (enabled_keys (kh_keyset h)) ->
  key_provides reg ClsRawStreamingAead k (PrimRawStreamingAead (streaming_aead_cc_to_py what in_buffer out_buffer n cc)) ->
  cc_gives (raises Y) F Fin cc ad C P -> eof_is_clear what Y -> in_buffer <> [] ->
  (forall k' p', In k' (enabled_keys (kh_keyset h)) -> k' <> k ->
     key_provides reg ClsRawStreamingAead k' (PrimRawStreamingAead p') -> turns_down Y p' ad C) ->
  forall S (src : py_source S) fuel s b calls b', plays Y src C s 0 ->
  open_decrypting_stream src fuel Q s ad = Some (Ok b) ->
  reader_history (decrypting_call src fuel) b calls b' ->
  reads_as F Fin P calls.
Proof. exact decrypting_stream_handle. Qed.
Print Assumptions C69_reads.
Theorem C69_no_key : forall reg h Q ad Y C,
  dict_get pclass_eqb ClsStreamingAead (r_wrappers reg) = Some streaming_aead_wrapper ->
  handle_primitive reg h ClsStreamingAead = Ok Q ->
  (forall k' p', In k' (enabled_keys (kh_keyset h)) ->
     key_provides reg ClsRawStreamingAead k' (PrimRawStreamingAead p') -> turns_down Y p' ad C) ->
  forall S (src : py_source S) fuel s b calls b', plays Y src C s 0 ->
  open_decrypting_stream src fuel Q s ad = Some (Ok b) ->
  reader_history (decrypting_call src fuel) b calls b' ->
  reads_as True False [] calls.
Proof. exact decrypting_stream_no_key. Qed.
Print Assumptions C69_no_key.
Theorem C69_round_trip : forall reg he hd Qe Qd k what in_buffer out_buffer n cc cap enc ad X Y,
  dict_get pclass_eqb ClsStreamingAead (r_wrappers reg) = Some streaming_aead_wrapper ->
  handle_primitive reg he ClsStreamingAead = Ok Qe ->
  handle_primitive reg hd ClsStreamingAead = Ok Qd ->
  In k (enabled_keys (kh_keyset he)) -> k_key_id k = ks_primary_key_id (kh_keyset he) ->
  In k (enabled_keys (kh_keyset hd)) ->
  key_provides reg ClsRawStreamingAead k (PrimRawStreamingAead (streaming_aead_cc_to_py what in_buffer out_buffer n cc)) ->
  cc_encrypts (can_raise X) cap enc cc ad ->
  (forall P C, enc P C -> cc_decrypts (raises Y) cc ad C P) ->
  eof_is_clear what Y -> in_buffer <> [] ->
  forall e W0 size m calls w W w' C, (0 < size)%Z ->
  writes X [] (new_encrypting_stream Qe ad) (Ok e) W0 ->
  writer_history X size m e (bw_new e) W0 calls w W ->
  writes X W (bw_close m e w) (Ok tt, w') C ->
  (forall k' p', In k' (enabled_keys (kh_keyset hd)) -> k' <> k ->
     key_provides reg ClsRawStreamingAead k' (PrimRawStreamingAead p') -> turns_down Y p' ad C) ->
  forall S (src : py_source S) fuel s b reads_ b', plays Y src C s 0 ->
  open_decrypting_stream src fuel Qd s ad = Some (Ok b) ->
  reader_history (decrypting_call src fuel) b reads_ b' ->
  reads_as (raises Y) True (written calls) reads_.
Proof. exact user_streams_round_trip. Qed.
Print Assumptions C69_round_trip.

Definition some_reads : list reader_call :=
  [RcPeek; RcRead 0; RcReadline (-1); RcRead1 2; RcReadinto 3; RcReadline 1; RcRead (-7); RcRead (-1); RcRead 5; RcPeek].
Definition hello_answers : list read_result :=
  [Ok (Some (blit "h")); Ok (Some []); Ok (Some (blit "he" ++ [newline])); Ok (Some (blit "lo")); Ok (Some (blit ", w"));
   Ok (Some (blit "o")); Err (ValueError "read length must be non-negative or -1"); Ok (Some (blit "rld")); Ok (Some []); Ok (Some [])].
Definition hello_text : bytes := blit "he" ++ newline :: blit "lo, world".
Lemma rotated_prims : forall k' p', In k' (enabled_keys (kh_keyset stream_rotated)) ->
  key_provides stream_registry ClsRawStreamingAead k' (PrimRawStreamingAead p') ->
  exists h, p' = toy_raw h /\ In h [x61; x62; x64; x65; x66] /\ (k' <> stream_key -> h <> x61).
Proof.
  intros k' p' Hk Hp.
  assert (G : forall v st id pf h, key_provides stream_registry ClsRawStreamingAead (toy_key u_stream SYMMETRIC v st id pf)
                (PrimRawStreamingAead (toy_raw h)) ->
              key_provides stream_registry ClsRawStreamingAead (toy_key u_stream SYMMETRIC v st id pf) (PrimRawStreamingAead p') -> p' = toy_raw h).
  { intros v st id pf h G1 G2. pose proof (key_provides_fun _ _ _ _ _ G1 G2) as G. injection G as G. auto. }
  change (enabled_keys (kh_keyset stream_rotated)) with (ks_key (kh_keyset stream_rotated)) in Hk.
  cbn [kh_keyset stream_rotated toy_rotated ks_key In] in Hk.
  destruct Hk as [<- | [<- | [<- | [<- | [<- | []]]]]]; [set (h := x65) | set (h := x61) | set (h := x62) | set (h := x66) | set (h := x64)];
    (exists h; split; [refine (G _ _ _ _ h _ Hp); apply registry_primitive_ok; lazy -[toy_raw]; reflexivity |];
     split; [unfold h; cbn; tauto | try (intros _; discriminate)]).
  intros Hn. elim Hn. reflexivity.
Qed.
Lemma others_turn_down : forall k' p', In k' (enabled_keys (kh_keyset stream_rotated)) -> k' <> stream_key ->
  key_provides stream_registry ClsRawStreamingAead k' (PrimRawStreamingAead p') ->
  turns_down only_blocking p' (blit "ad") (x61 :: hello_text).
Proof.
  intros k' p' Hk Hn Hp. destruct (rotated_prims _ _ Hk Hp) as (h & -> & _ & Hh). apply toy_turns_down. intros P E. injection E as E.
  apply (Hh Hn). congruence.
Qed.
Example C69_hypotheses_met :
  exists Qd b b',
  handle_primitive stream_registry stream_rotated ClsStreamingAead = Ok Qd /\
  In stream_key (enabled_keys (kh_keyset stream_rotated)) /\
  cc_decrypts (raises only_blocking) (toy_cc x61) (blit "ad") (x61 :: hello_text) hello_text /\
  eof_is_clear toy_what only_blocking /\
  (forall k' p', In k' (enabled_keys (kh_keyset stream_rotated)) -> k' <> stream_key ->
     key_provides stream_registry ClsRawStreamingAead k' (PrimRawStreamingAead p') ->
     turns_down only_blocking p' (blit "ad") (x61 :: hello_text)) /\
  plays only_blocking (toy_source (x61 :: hello_text)) (x61 :: hello_text) (0, 0)%nat 0 /\
  open_decrypting_stream (toy_source (x61 :: hello_text)) 30 Qd (0, 0)%nat (blit "ad") = Some (Ok b) /\
  reader_history (decrypting_call (toy_source (x61 :: hello_text)) 30) b (combine some_reads hello_answers) b'.
Proof.
  destruct (ok_run _ _ (handle_primitive stream_registry stream_rotated ClsStreamingAead)
              (fun Q => read_run (toy_source (x61 :: hello_text)) 30
                          (open_decrypting_stream (toy_source (x61 :: hello_text)) 30 Q (0, 0)%nat (blit "ad")) some_reads) hello_answers)
    as (Qd & HQd & Hd); [vmr |].
  destruct (read_run_ok _ _ _ _ _ _ Hd) as (b & b' & H1 & H2).
  exists Qd, b, b'. split; [exact HQd |]. split; [vm_compute; tauto |]. split; [apply toy_decrypts; reflexivity |].
  split; [apply toy_clear |]. split; [exact others_turn_down |]. split; [apply toy_plays; cbn; lia |]. split; [exact H1 | exact H2].
Qed.
Example C69_no_key_hypotheses_met : exists Qd b b' e,
  dict_get pclass_eqb ClsStreamingAead (r_wrappers stream_registry) = Some streaming_aead_wrapper /\
  handle_primitive stream_registry stream_rotated ClsStreamingAead = Ok Qd /\
  (forall k' p', In k' (enabled_keys (kh_keyset stream_rotated)) ->
     key_provides stream_registry ClsRawStreamingAead k' (PrimRawStreamingAead p') ->
     turns_down only_blocking p' (blit "ad") (blit "zhello")) /\
  open_decrypting_stream (toy_source (blit "zhello")) 30 Qd (0, 0)%nat (blit "ad") = Some (Ok b) /\
  reader_history (decrypting_call (toy_source (blit "zhello")) 30) b [(RcRead 5, Err (TinkError e)); (RcRead 0, Ok (Some []))] b'.
Proof.
  destruct (ok_run _ _ (handle_primitive stream_registry stream_rotated ClsStreamingAead)
              (fun Q => read_run (toy_source (blit "zhello")) 30
                          (open_decrypting_stream (toy_source (blit "zhello")) 30 Q (0, 0)%nat (blit "ad")) [RcRead 5; RcRead 0])
              [Err (TinkError "No matching key found for the ciphertext in the stream"); Ok (Some [])])
    as (Qd & HQd & Hd); [vmr |].
  destruct (read_run_ok _ _ _ _ _ _ Hd) as (b & b' & H1 & H2). exists Qd, b, b'. eexists. split; [vmr |]. split; [exact HQd |].
  split; [| split; [exact H1 | exact H2]].
  intros k' p' Hk Hp. destruct (rotated_prims _ _ Hk Hp) as (h & -> & Hin & _). apply toy_turns_down. intros P E. injection E as E _. subst h.
  cbn in Hin. repeat (destruct Hin as [Hin | Hin]; [discriminate |]). destruct Hin.
Qed.
(** A ciphertext that was cut off: what is left can be read, then there is an error, not
    the end. *)
Example C69_cut_off_hypotheses_met :
  exists Qd b b' e1 e2,
  dict_get pclass_eqb ClsStreamingAead (r_wrappers fixed_registry) = Some streaming_aead_wrapper /\
  handle_primitive fixed_registry fixed_handle ClsStreamingAead = Ok Qd /\
  In fixed_key (enabled_keys (kh_keyset fixed_handle)) /\
  key_provides fixed_registry ClsRawStreamingAead fixed_key (PrimRawStreamingAead (fixed_raw 5)) /\
  cc_gives (raises only_blocking) (raises only_blocking \/ True) False (fixed_cc 5) (blit "ad") (blit "hel") (blit "hel") /\
  open_decrypting_stream (toy_source (blit "hel")) 30 Qd (0, 0)%nat (blit "ad") = Some (Ok b) /\
  reader_history (decrypting_call (toy_source (blit "hel")) 30) b
    [(RcRead 1, Ok (Some (blit "h"))); (RcRead (-1), Err (TinkError e1)); (RcRead 5, Err (TinkError e2))] b'.
Proof.
  destruct (ok_run _ _ (handle_primitive fixed_registry fixed_handle ClsStreamingAead)
              (fun Q => read_run (toy_source (blit "hel")) 30
                          (open_decrypting_stream (toy_source (blit "hel")) 30 Q (0, 0)%nat (blit "ad")) [RcRead 1; RcRead (-1); RcRead 5])
              [Ok (Some (blit "h")); Err (TinkError "cut off"); Err (TinkError "cut off")])
    as (Qd & HQd & Hd); [vmr |].
  destruct (read_run_ok _ _ _ _ _ _ Hd) as (b & b' & H1 & H2). exists Qd, b, b'. do 2 eexists.
  split; [vmr |]. split; [exact HQd |]. split; [vm_compute; tauto |].
  split; [apply registry_primitive_ok; lazy -[fixed_raw]; reflexivity |].
  split; [| split; [exact H1 | exact H2]].
  intros r i Hr. destruct (fixed_gives (raises only_blocking) 5 (blit "ad") (blit "hel") ltac:(cbn; lia) r i Hr) as (d & -> & J & J0 & J1 & J2).
  exists d. split; [reflexivity |]. exists J. split; [exact J0 |]. split; [| exact J2].
  intros st i0 p r st' i' Hj Hn. destruct (J1 _ _ _ _ _ _ Hj Hn) as (p' & Hp & Hj'). exists p'. split; [| exact Hj'].
  clear - Hp. inversion Hp as [? ? ? Hd | ? ? Hf Hl | ? ? ? He |]; subst; [constructor; exact Hd | discriminate Hf | constructor; tauto | constructor].
Qed.
