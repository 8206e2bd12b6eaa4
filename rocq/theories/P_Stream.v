(** C46-C51, C58: streams. *)
From Coq Require Import Strings.Byte Strings.String List NArith ZArith Bool Lia.
From Verif Require Import M_Base M_Proto M_StreamTypes M_Prims M_PrimitiveSet M_Registry M_KeysetHandle
  M_Stream M_CcStream M_RawFile S_Keyset S_PrimitiveSet S_Jwt S_Stream S_CcStream S_RawFile L_Base L_Keyset L_Wrappers2
  L_Stream L_Stream2 L_Stream3 L_Stream4 L_CcStream L_CcStream2 L_CcStream3 L_CcStream4 L_CcStream5 L_CcStream6 L_RawFile
  X_Toy L_Toy X_Stream L_XStream.
Import ListNotations.
Open Scope list_scope.
Open Scope Z_scope.

(** ** C46 *)

(** [logged src] is the source with a record of the bytes it returned: after any
    history, what was returned since the last rewind is a prefix of that record, the next
    read continues it, and the source is asked for more only after all of it. *)
Theorem C46_rewindable_replay : forall S (src : py_source S) fuel s r h r',
  rewindable_init (logged src) (s, []) = Ok r -> rw_history (logged src) fuel r h r' -> readalls_return h ->
  exists rest, since_rewind [] h ++ rest = snd (rw_input_stream r') /\
  forall size, 0 <= size -> exists x r'', rewindable_read (logged src) fuel r' size = Some (x, r'') /\
  match rest with
  | [] => x = unblocked (fst (src_read src (fst (rw_input_stream r')) size)) /\
          fst (rw_input_stream r'') = snd (src_read src (fst (rw_input_stream r')) size)
  | _ => x = Ok (Some (firstn (Z.to_nat size) rest)) /\ rw_input_stream r'' = rw_input_stream r'
  end.
Proof. exact rewindable_replay. Qed.
Print Assumptions C46_rewindable_replay.
Theorem C46_rewind_allowed : forall S (src : py_source S) fuel s r h r',
  rewindable_init (logged src) (s, []) = Ok r -> rw_history (logged src) fuel r h r' -> readalls_return h ->
  if existsb (fun o => match o with DisableRewind => true | _ => false end) (map fst h)
  then exists m, rewindable_rewind r' = Err (ValueError m)
  else exists r'', rewindable_rewind r' = Ok r''.
Proof. exact rewind_allowed. Qed.
Print Assumptions C46_rewind_allowed.

Definition hello_ops : list rw_op :=
  [Read 4; Read 3; Read 3; Rewind; Read 1; Read 9; Read 4; DisableRewind; Rewind; Read 9; Read 9; Read 9; Read 9].
Example C46_hypotheses_met :
  let src := logged (toy_source (blit "hello")) in
  exists r h r', rewindable_init src ((0, 0)%nat, []) = Ok r /\ rw_history src 20 r h r' /\ map fst h = hello_ops /\
    readalls_return h /\ since_rewind [] h = blit "hello" /\ In (Rewind, Ok None) h /\
    (exists e, In (Rewind, Err e) h).
Proof.
  cbv zeta. set (src := logged (toy_source (blit "hello"))).
  set (r := mk_rewindable ((0, 0)%nat, @nil byte) [] 0 true false : rewindable (nat * nat * bytes)).
  set (outs := match rw_run src 20 hello_ops r with Some (l, _) => l | None => [] end).
  set (r' := match rw_run src 20 hello_ops r with Some (_, r') => r' | None => r end).
  exists r, (combine hello_ops outs), r'.
  split; [reflexivity |]. split; [apply rw_run_ok; vmr |]. split; [vmr |].
  split. { intros size e H. vm_compute in H. repeat (destruct H as [H | H]; [discriminate |]). destruct H. }
  split; [vmr |]. split; [vm_compute; tauto |]. exists (ValueError "rewind is disabled"). vm_compute. tauto.
Qed.

(** Without "no read(-1) raised", bytes are lost: a file that holds abcd, a read(-1) that
    raises, and the next read returns cd. *)
Theorem C46_failed_readall_refuted : exists S (src : py_source S) s r r' e,
  plays any_exception src (blit "abcd") s 0 /\ rewindable_init src s = Ok r /\
  rw_history src 20 r [(Read (-1), Err e); (Read 2, Ok (Some (blit "cd")))] r'.
Proof.
  set (bad := fun t => if Nat.eqb t 1 then Some (OtherError 5) else None).
  set (src := bad_source (blit "abcd") bad).
  set (r := mk_rewindable (0, 0)%nat [] 0 true false : rewindable (nat * nat)).
  set (r' := match rw_run src 20 [Read (-1); Read 2] r with Some (_, r') => r' | None => r end).
  exists (nat * nat)%type, src, (0, 0)%nat, r, r', (OtherError 5).
  split; [| split; [reflexivity | apply (rw_run_ok _ src 20 [Read (-1); Read 2] r [Err (OtherError 5); Ok (Some (blit "cd"))] r'); vmr]].
  apply (plays_any (fun e => exists t, bad t = Some e)). apply bad_plays. cbn. lia.
Qed.

(** ** C47 *)

(** The streaming AEAD of a keyset: which keys it uses and in what order. *)
Theorem C47_streaming_handle_spec : forall reg h Q,
  dict_get pclass_eqb ClsStreamingAead (r_wrappers reg) = Some streaming_aead_wrapper ->
  handle_primitive reg h ClsStreamingAead = Ok Q ->
  exists l, keys_with PrimRawStreamingAead reg ClsRawStreamingAead (kh_keyset h) l /\
    (forall S (src : py_source S) fuel s ad, new_decrypting_stream src fuel Q s ad =
       dec_wrapper_init src fuel (map snd (grouped [] l)) s ad) /\
    (forall k p ad, is_primary (kh_keyset h) l k p -> new_encrypting_stream Q ad = rsa_new_raw_encrypting_stream p ad) /\
    ((forall k p, ~ is_primary (kh_keyset h) l k p) -> forall ad, exists e, is_tink_error e = true /\ new_encrypting_stream Q ad = WRet (Err e)).
Proof. exact streaming_handle_spec. Qed.
Print Assumptions C47_streaming_handle_spec.
(** Every answer is that of the stream of one key, which reads the file from its
    beginning, as if it were alone; [answered] spells it out. *)
Theorem C47_one_key : forall S X (src : py_source S) fuel C ad prims s w h size r w',
  plays X src C s 0 -> (forall k, In k prims -> creation_works X C ad k) ->
  dec_wrapper_init src fuel prims s ad = Some (Ok w) ->
  wrapper_history src fuel w (h ++ [(size, r)]) w' -> size <> 0 ->
  answered X C ad prims h size r.
Proof. exact decrypting_stream_one_key. Qed.
Print Assumptions C47_one_key.
Theorem C47_plaintext : forall S X (src : py_source S) fuel C ad before k after P s w h size r w',
  plays X src C s 0 -> (forall k', In k' before -> refuses X k' ad C) -> decrypts_to X k ad C P ->
  (forall k', In k' after -> creation_works X C ad k') ->
  dec_wrapper_init src fuel (before ++ k :: after) s ad = Some (Ok w) ->
  wrapper_history src fuel w (h ++ [(size, r)]) w' -> size <> 0 ->
  match r with
  | Ok (Some []) => data (proper h) = P
  | Ok (Some d) => exists rest, P = data (proper h) ++ d ++ rest
  | Ok None => True
  | Err _ => False
  end.
Proof. exact decrypting_stream_plaintext. Qed.
Print Assumptions C47_plaintext.
Theorem C47_refuses : forall S X (src : py_source S) fuel C ad prims s w h size r w',
  plays X src C s 0 -> (forall k, In k prims -> refuses X k ad C) ->
  dec_wrapper_init src fuel prims s ad = Some (Ok w) ->
  wrapper_history src fuel w (h ++ [(size, r)]) w' -> size <> 0 ->
  r = Ok None \/ tink_failure r.
Proof. exact decrypting_stream_refuses. Qed.
Print Assumptions C47_refuses.
(** The first close closes the source and passes its exception on; a stream that is
    closed stays closed and leaves the source alone. *)
Theorem C47_close : forall S (src : py_source S) fuel prims s ad w h1 w1 x w2,
  dec_wrapper_init src fuel prims s ad = Some (Ok w) ->
  call_history src fuel w h1 w1 -> ~ In (CallClose, Ok None) h1 ->
  dec_wrapper_close src w1 = (x, w2) ->
  src_close src (source_of w1) = (x, source_of w2) /\
  (x = Ok tt -> forall h2 w3, call_history src fuel w2 h2 w3 ->
     source_of w3 = source_of w2 /\ Forall (fun cx => closed_answer (fst cx) (snd cx)) h2).
Proof. exact decrypting_stream_close. Qed.
Print Assumptions C47_close.

Example C47_hypotheses_met :
  let C := blit "ahello" in let src := toy_source C in
  let before := [toy_raw x65; toy_raw x7a] in let k := toy_raw x61 in let after := [toy_raw x62] in
  plays only_blocking src C (0, 0)%nat 0 /\
  (forall k', In k' before -> refuses only_blocking k' (blit "ad") C) /\
  decrypts_to only_blocking k (blit "ad") C (blit "hello") /\
  (forall k', In k' (before ++ k :: after) -> creation_works only_blocking C (blit "ad") k') /\
  exists w h w', dec_wrapper_init src 30 (before ++ k :: after) (0, 0)%nat (blit "ad") = Some (Ok w) /\
    wrapper_history src 30 w (h ++ [(4, Ok (Some []))]) w' /\ data (proper h) = blit "hello".
Proof.
  cbv zeta. set (C := blit "ahello"). set (src := toy_source C).
  assert (Hr : forall b, b <> x61 -> refuses only_blocking (toy_raw b) (blit "ad") C).
  { intros b Hb. apply toy_raw_refuses. intros P E. injection E as E. congruence. }
  assert (Hd : decrypts_to only_blocking (toy_raw x61) (blit "ad") C (blit "hello")) by apply toy_raw_decrypts.
  split; [apply toy_plays; cbn; lia |]. split; [| split; [exact Hd | split]].
  - intros k' [<- | [<- | []]]; apply Hr; discriminate.
  - intros k' [<- | [<- | [<- | [<- | []]]]]; [apply Hr; discriminate | apply Hr; discriminate | apply Hd | apply Hr; discriminate].
  - set (prims := [toy_raw x65; toy_raw x7a] ++ toy_raw x61 :: [toy_raw x62]).
    destruct (decrypt_run_ok _ src 30 [3; 0; 2; -1; 4] (dec_wrapper_init src 30 prims (0, 0)%nat (blit "ad"))
                [Ok (Some (blit "h")); Ok (Some []); Ok (Some (blit "el")); Ok (Some (blit "lo")); Ok (Some [])])
      as (w & w' & Hw & Hh); [vmr |].
    exists w, [(3, Ok (Some (blit "h"))); (0, Ok (Some [])); (2, Ok (Some (blit "el"))); (-1, Ok (Some (blit "lo")))], w'.
    split; [exact Hw | split; [exact Hh | reflexivity]].
Qed.
Example C47_refuses_hypotheses_met :
  let C := blit "zhello" in let src := toy_source C in let prims := [toy_raw x61; toy_raw x62] in
  plays only_blocking src C (0, 0)%nat 0 /\
  (forall k, In k prims -> refuses only_blocking k (blit "ad") C) /\
  exists w w' r, dec_wrapper_init src 30 prims (0, 0)%nat (blit "ad") = Some (Ok w) /\
    wrapper_history src 30 w [(3, r)] w' /\ tink_failure r.
Proof.
  cbv zeta. split; [apply toy_plays; cbn; lia |]. split.
  - intros k' [<- | [<- | []]]; apply toy_raw_refuses; intros P E; discriminate.
  - destruct (decrypt_run_ok _ (toy_source (blit "zhello")) 30 [3] (dec_wrapper_init (toy_source (blit "zhello")) 30 [toy_raw x61; toy_raw x62] (0, 0)%nat (blit "ad"))
                [Err (TinkError "No matching key found for the ciphertext in the stream")])
      as (w & w' & Hw & Hh); [vmr |]. exists w, w', (Err (TinkError "No matching key found for the ciphertext in the stream")).
    split; [exact Hw |]. split; [exact Hh |]. eexists. split; reflexivity.
Qed.
Example C47_close_hypotheses_met :
  let src := toy_source (blit "ahello") in
  exists w w1 w2, dec_wrapper_init src 30 [toy_raw x61] (0, 0)%nat (blit "ad") = Some (Ok w) /\
    call_history src 30 w [(CallRead 2, Ok (Some (blit "h")))] w1 /\ dec_wrapper_close src w1 = (Ok tt, w2) /\
    call_history src 30 w2 [(CallRead 2, Err (ValueError "read on closed file.")); (CallClose, Ok None)] w2.
Proof.
  cbv zeta. set (src := toy_source (blit "ahello")).
  destruct (decrypt_run_ok _ src 30 [2] (dec_wrapper_init src 30 [toy_raw x61] (0, 0)%nat (blit "ad"))
              [Ok (Some (blit "h"))]) as (w & w1 & Hw & Hh); [vmr |].
  pose proof (init_agree src 30 _ _ _ _ Hw) as [Ha Ho].
  inversion Hh as [| ? ? ? w' ? ? H1 H2]; subst. inversion H2; subst.
  destruct (read_agree src 30 _ _ _ _ H1 Ha) as [Ha1 Ho1].
  destruct (dec_wrapper_close src w1) as [x w2] eqn:Ec.
  destruct (close_agree src _ _ _ Ec Ha1) as (_ & Hx & Hs & _).
  assert (x = Ok tt) by (rewrite Ho1, Ho in Hs; specialize (Hs eq_refl); destruct (source_of w1); injection Hs as <- _; reflexivity).
  subst x. exists w, w1, w2. split; [exact Hw |].
  split; [econstructor; [exact H1 | constructor] |]. split; [exact Ec |].
  assert (Hc : dw_closed w2 = true) by (apply Hx; reflexivity).
  eapply CH_read; [unfold dec_wrapper_read; rewrite Hc; reflexivity |].
  change (Ok None) with (match @Ok unit tt with Ok _ => @Ok (option bytes) None | Err e => Err e end).
  eapply CH_close; [unfold dec_wrapper_close; rewrite Hc; reflexivity | constructor].
Qed.
Example C47_handle_hypotheses_met :
  dict_get pclass_eqb ClsStreamingAead (r_wrappers stream_registry) = Some streaming_aead_wrapper /\
  exists Q, handle_primitive stream_registry stream_handle ClsStreamingAead = Ok Q.
Proof.
  split; [vmr |].
  assert (H : match handle_primitive stream_registry stream_handle ClsStreamingAead with Ok _ => true | Err _ => false end = true) by vmr.
  destruct (handle_primitive stream_registry stream_handle ClsStreamingAead) as [Q | e]; [eauto | discriminate].
Qed.

(** If the file object raises an exception during the first read, the key that can
    decrypt the stream is given up, and stays so although the file can be read again. *)
Definition fails_once (t : nat) : option exn := if Nat.eqb t 0 then Some (OtherError 5) else None.
Theorem C47_transient_error_refuted :
  let C := blit "ahello" in let src := bad_source C fails_once in
  plays any_exception src C (0, 0)%nat 0 /\ decrypts_to only_blocking (toy_raw x61) (blit "ad") C (blit "hello") /\
  exists w w' e1 e2,
  dec_wrapper_init src 30 [toy_raw x61; toy_raw x62] (0, 0)%nat (blit "ad") = Some (Ok w) /\
  wrapper_history src 30 w [(3, Err e1); (3, Err e2)] w' /\ is_tink_error e1 = true /\ is_tink_error e2 = true.
Proof.
  cbv zeta. set (C := blit "ahello"). set (src := bad_source C fails_once).
  split; [apply (plays_any (fun e => exists t, fails_once t = Some e)); apply bad_plays; cbn; lia |].
  split; [apply toy_raw_decrypts |].
  destruct (decrypt_run_ok _ src 30 [3; 3] (dec_wrapper_init src 30 [toy_raw x61; toy_raw x62] (0, 0)%nat (blit "ad"))
              [Err (TinkError "No matching key found for the ciphertext in the stream");
               Err (TinkError "No matching key found for the ciphertext in the stream")]) as (w & w' & Hw & Hh); [vmr |].
  exists w, w'. do 2 exists (TinkError "No matching key found for the ciphertext in the stream").
  split; [exact Hw | split; [exact Hh | split; reflexivity]].
Qed.
(** If the stream of a key cannot be made, the keys after it are not tried. *)
Theorem C47_creation_failure_refuted : exists broken : raw_streaming_aead,
  let C := blit "ahello" in let src := toy_source C in
  decrypts_to only_blocking (toy_raw x61) (blit "ad") C (blit "hello") /\
  exists e, dec_wrapper_init src 30 [broken; toy_raw x61] (0, 0)%nat (blit "ad") = Some (Err e).
Proof.
  exists (mk_raw_streaming_aead (fun _ => WRet (Err (TinkError "broken"))) (fun _ => RRet (Err (TinkError "broken")))).
  cbv zeta. split; [apply toy_raw_decrypts |]. exists (TinkError "broken"). reflexivity.
Qed.

(** ** C48 *)

(** [ireads]: the C++ program sees a stream as specified by tink/input_stream.h. *)
Theorem C48_input_stream : forall A what X C buffer (m : iio A) a s q, eof_is_clear what X -> buffer <> [] ->
  reads X C 0 (run_iio what m (new_input_stream buffer)) (a, s) q ->
  exists i, ireads (raises X) C (Open 0 0) m a i /\
    match i with Open p _ => is_position s = Z.of_nat p | Ended st => is_status s = Some st end.
Proof. exact input_stream_ok. Qed.
Print Assumptions C48_input_stream.
Theorem C48_consumed : forall what X C buffer ops outs s q, eof_is_clear what X -> buffer <> [] ->
  reads X C 0 (run_iio what (client ops) (new_input_stream buffer)) (outs, s) q ->
  length outs = length ops /\
  (is_status s = None -> consumed [] 0 (combine ops outs) = firstn (Z.to_nat (is_position s)) C /\
                         0 <= is_position s <= Z.of_nat (length C)) /\
  (In (StErr OutOfRange) outs -> ~ raises X -> consumed [] 0 (combine ops outs) = C).
Proof. exact input_stream_consumed. Qed.
Print Assumptions C48_consumed.

Example C48_hypotheses_met :
  let C := blit "ahello" in
  eof_is_clear toy_what only_blocking /\
  exists outs s q, reads only_blocking C 0
    (run_iio toy_what (client [Next; Next; Next; BackUp 1; Next; Next; Next; Next; BackUp 1; BackUp 7]) (new_input_stream [x00; x00; x00]))
    (outs, s) q /\ is_position s = 4 /\ is_status s = None.
Proof.
  cbv zeta. split; [apply toy_clear |]. set (C := blit "ahello").
  set (m := run_iio toy_what (client [Next; Next; Next; BackUp 1; Next; Next; Next; Next; BackUp 1; BackUp 7]) (new_input_stream [x00; x00; x00])).
  set (run := run_rio (fun s n => Some (src_read (toy_source C) s n)) m (0, 0)%nat).
  assert (H : match run with Some ((_, s), _) => (is_position s =? 4) && match is_status s with None => true | _ => false end | None => false end = true) by vmr.
  destruct run as [((outs & s) & s1) |] eqn:E; [| discriminate]. apply andb_true_iff in H. destruct H as (H1 & H2).
  destruct (toy_plays C 0 0 (Nat.le_0_l _)) as (at_ & H0 & Hat).
  destruct (run_rio_reads only_blocking (toy_source C) C at_ Hat _ _ _ _ _ _ H0 E) as (q & Hq & _).
  exists outs, s, q. split; [exact Hq |]. split; [apply Z.eqb_eq; exact H1 | destruct (is_status s); [discriminate | reflexivity]].
Qed.

(** If the text of another exception mentions EOFError, it is taken for the end of the
    file. *)
Theorem C48_eof_text_refuted :
  let what := fun e => match e with EOFError => "EOFError: "%string | _ => "OSError: caused by EOFError"%string end in
  exists s q, reads any_exception (blit "secret") 0 (run_iio what (client [Next]) (new_input_stream [x00; x00; x00]))
    ([StErr OutOfRange], s) q.
Proof.
  cbv zeta. eexists. exists 0%nat. cbn [client run_iio]. unfold input_next. cbn.
  eapply Reads_read; [apply (FR_error any_exception (blit "secret") 0 3 (OtherError 5) 0); [exact I | cbn; lia | reflexivity] |].
  cbn. apply Reads_ret.
Qed.

(** ** C49 *)

(** [owrites]: the C++ program sees a stream as specified by tink/output_stream.h. *)
Theorem C49_output_stream : forall A what X n buffer (m : oio A) a s W,
  writes X [] (run_oio what n m (new_output_stream buffer)) (a, s) W ->
  exists o, owrites (can_raise X) (OOpen [] 0) m a o /\ received W o /\
    match o with OOpen T _ => os_position s = Z.of_nat (length T) | _ => True end.
Proof. exact output_stream_ok. Qed.
Print Assumptions C49_output_stream.
(** A stream that passes on what is written. *)
Theorem C49_written_bytes_reach_file : forall what X n buffer bs C,
  encrypting_run X (raw_encrypting_stream what n pass_through (new_output_stream buffer))
    (res_init (raw_encrypting_stream what n pass_through (new_output_stream buffer))) [] bs C ->
  C = concat bs.
Proof. exact written_bytes_reach_file. Qed.
Print Assumptions C49_written_bytes_reach_file.
Theorem C49_destination_prefix : forall what X n buffer h s W,
  enc_history X (raw_encrypting_stream what n pass_through (new_output_stream buffer))
    (res_init (raw_encrypting_stream what n pass_through (new_output_stream buffer))) [] h s W ->
  (exists rest, W ++ rest = concat (map fst h)) /\
  forall r s' W', writes X W (res_close (raw_encrypting_stream what n pass_through (new_output_stream buffer)) s) (r, s') W' ->
  exists rest, W' ++ rest = concat (map fst h).
Proof. exact destination_prefix. Qed.
Print Assumptions C49_destination_prefix.
(** A stream that encrypts, and the write and close methods of the Python object. *)
Theorem C49_encrypting_stream : forall what X n in_buffer out_buffer cc ad cap enc e W bs C,
  cc_encrypts (can_raise X) cap enc cc ad ->
  writes X [] (rsa_new_raw_encrypting_stream (streaming_aead_cc_to_py what in_buffer out_buffer n cc) ad) (Ok e) W ->
  encrypting_run X e (res_init e) W bs C ->
  enc (concat bs) C.
Proof. exact raw_encrypting_stream_ok. Qed.
Print Assumptions C49_encrypting_stream.
Theorem C49_write_takes_all : forall what X n in_buffer out_buffer cc ad cap enc e W h s W' b r s' W'',
  cc_encrypts (can_raise X) cap enc cc ad ->
  writes X [] (rsa_new_raw_encrypting_stream (streaming_aead_cc_to_py what in_buffer out_buffer n cc) ad) (Ok e) W ->
  enc_history X e (res_init e) W h s W' -> (forall b x, ~ In (b, Err x) h) ->
  writes X W' (res_write e s b) (r, s') W'' ->
  match r with
  | Ok k => k = Z.of_nat (length b)
  | Err x => can_fail X cap (concat (map fst h) ++ b) /\ is_tink_error x = true
  end.
Proof. exact raw_write_all. Qed.
Print Assumptions C49_write_takes_all.
Theorem C49_closed : forall what X n e os s W b x s' W',
  (writes X W (res_write (raw_encrypting_stream what n e os) (true, s) b) (x, s') W' ->
     (exists m, x = Err (ValueError m)) /\ s' = (true, s) /\ W' = W) /\
  (forall r s' W', writes X W (res_close (raw_encrypting_stream what n e os) (true, s)) (r, s') W' ->
     r = Ok tt /\ s' = (true, s) /\ W' = W).
Proof. exact raw_closed. Qed.
Print Assumptions C49_closed.

Example C49_hypotheses_met :
  encrypting_run any_exception (raw_encrypting_stream toy_what 30 pass_through (new_output_stream [x00; x00; x00]))
    (res_init (raw_encrypting_stream toy_what 30 pass_through (new_output_stream [x00; x00; x00]))) []
    [blit "he"; []; blit "llo wor"; blit "ld"] (blit "hello world").
Proof. eapply (enc_run_ok _ _ _ _ 0%nat). vmr. Qed.
Example C49_encrypting_hypotheses_met :
  cc_encrypts (can_raise any_exception) 12 (toy_enc x61) (toy_cc x61) (blit "ad") /\
  exists e W, writes any_exception [] (rsa_new_raw_encrypting_stream (toy_raw x61) (blit "ad")) (Ok e) W /\
    encrypting_run any_exception e (res_init e) W [blit "hel"; blit "lo"] (blit "ahello").
Proof. split; [apply toy_encrypts | apply encrypt_run_ok; vmr]. Qed.

(** ** C50 *)

Theorem C50_failed_close_prefix : forall A what X n buffer (m : oio A) a s W r s' W',
  writes X [] (run_oio what n m (new_output_stream buffer)) (a, s) W ->
  writes X W (output_close what n s) (r, s') W' ->
  exists o, owrites (can_raise X) (OOpen [] 0) m a o /\
  match o with
  | OOpen T _ => match r with StOk _ => W' = T | StErr _ => can_raise X /\ exists rest, W' ++ rest = T end
  | OFailed T => (exists e, r = StErr e) /\ W' = W /\ exists rest, W' ++ rest = T
  | OClosed T => (exists e, r = StErr e) /\ W' = W
  | OUnspecified => True
  end.
Proof. exact failed_close_prefix. Qed.
Print Assumptions C50_failed_close_prefix.

(** The program of the examples: two bytes are written, and the stream is closed. *)
Definition write_ab : oio unit := ONext (fun _ => OStore 0 (blit "ab") (ORet tt)).
(** The file takes one byte and raises an exception. *)
Example C50_hypotheses_met : exists s W st s' W',
  writes any_exception [] (run_oio toy_what 30 write_ab (new_output_stream [x00; x00])) (tt, s) W /\
  writes any_exception W (output_close toy_what 30 s) (StErr st, s') W' /\ W' = blit "a".
Proof.
  eexists. exists []. eexists. eexists. exists (blit "a"). cbn [write_ab run_oio output_next].
  split; [cbn; apply Writes_ret |]. split; [| reflexivity]. unfold output_close. cbn.
  eapply Writes_write; [apply (FW_error any_exception (blit "ab") (OtherError 5) 1); [exact I | discriminate] |]. cbn. apply Writes_ret.
Qed.
(** Closing once more, as the destructor does, writes the whole buffer again. *)
Theorem C50_retry_refuted : exists st s, writes any_exception []
  (run_oio toy_what 30 (oio_bind write_ab (fun _ => OClose (fun r1 => OClose (fun r2 => ORet (r1, r2)))))
     (new_output_stream [x00; x00])) ((StErr st, StOk tt), s) (blit "aab").
Proof.
  eexists. eexists. cbn. unfold output_close. cbn.
  eapply Writes_write; [apply (FW_error any_exception (blit "ab") (OtherError 5) 1); [exact I | discriminate] |]. cbn.
  unfold output_close. cbn. eapply Writes_write; [apply (FW_some any_exception (blit "ab") 2); cbn; lia |]. cbn.
  apply (Writes_close _ _ _ (Ok tt)); [discriminate |]. cbn. apply Writes_ret.
Qed.

(** ** C51 *)

Theorem C51_read : forall S X (src : py_source S) what in_buffer out_buffer n cc ad C P s close f h op size r f',
  eof_is_clear what X -> in_buffer <> [] -> cc_decrypts (raises X) cc ad C P -> plays X src C s 0 ->
  new_raw_file src (streaming_aead_cc_to_py what in_buffer out_buffer n cc) s ad close = Some (Ok f) ->
  rf_history src f (h ++ [(op, r)]) f' -> never_closed h -> asked op = Some size ->
  match r with
  | Ok (Some b) => (b = [] -> file_data h = P) /\ exists rest, P = file_data h ++ b ++ rest /\
        (0 <= size -> Z.of_nat (length b) <= size) /\ (size < 0 -> rest = [])
  | Ok None => False
  | Err e => raises X /\ is_tink_error e = true
  end.
Proof. exact raw_file_plaintext. Qed.
Print Assumptions C51_read.
Theorem C51_closed : forall S (src : py_source S) f h1 h2 f', rf_history src f (h1 ++ (FClose, Ok None) :: h2) f' ->
  exists f1, rf_history src f (h1 ++ [(FClose, Ok None)]) f1 /\ rf_source f' = rf_source f1 /\
  forall op r, In (op, r) h2 ->
    match op with FClose => r = Ok None | _ => exists m, r = Err (ValueError m) end.
Proof. exact raw_file_closed. Qed.
Print Assumptions C51_closed.
(** read(0) does not return before the end of the data. *)
Theorem C51_read_zero : forall what X in_buffer out_buffer n cc ad C P h r,
  eof_is_clear what X -> ~ raises X -> in_buffer <> [] -> cc_decrypts (raises X) cc ad C P ->
  alone X C ad (streaming_aead_cc_to_py what in_buffer out_buffer n cc) (h ++ [(0, r)]) ->
  data h = P.
Proof. exact raw_read_zero. Qed.
Print Assumptions C51_read_zero.
(** In the terms of C47: *)
Theorem C51_decrypts_to : forall what X in_buffer out_buffer n cc ad C P,
  eof_is_clear what X -> ~ raises X -> in_buffer <> [] -> cc_decrypts (raises X) cc ad C P ->
  decrypts_to X (streaming_aead_cc_to_py what in_buffer out_buffer n cc) ad C P.
Proof. exact raw_decrypts_to. Qed.
Print Assumptions C51_decrypts_to.
Theorem C51_refuses : forall what X in_buffer out_buffer n cc ad C,
  eof_is_clear what X -> in_buffer <> [] -> cc_refuses (raises X) cc ad C ->
  refuses X (streaming_aead_cc_to_py what in_buffer out_buffer n cc) ad C.
Proof. exact raw_refuses. Qed.
Print Assumptions C51_refuses.

Example C51_hypotheses_met :
  let C := blit "ahello" in let src := toy_source C in
  eof_is_clear toy_what only_blocking /\ cc_decrypts (raises only_blocking) (toy_cc x61) (blit "ad") C (blit "hello") /\
  plays only_blocking src C (0, 0)%nat 0 /\
  exists f f', new_raw_file src (toy_raw x61) (0, 0)%nat (blit "ad") true = Some (Ok f) /\
    rf_history src f [(FRead 1, Ok (Some (blit "h"))); (FReadinto 2, Ok (Some (blit "el"))); (FRead (-1), Ok (Some (blit "lo")));
                      (FRead 3, Ok (Some [])); (FClose, Ok None); (FRead 1, Err (ValueError "read on closed file.")); (FClose, Ok None)] f'.
Proof.
  cbv zeta. set (C := blit "ahello"). set (src := toy_source C).
  split; [apply toy_clear |]. split; [apply toy_decrypts; reflexivity |]. split; [apply toy_plays; cbn; lia |].
  set (ops := [FRead 1; FReadinto 2; FRead (-1); FRead 3; FClose; FRead 1; FClose]).
  assert (H : match new_raw_file src (toy_raw x61) (0, 0)%nat (blit "ad") true with
              | Some (Ok f) => file_run src ops f
              | _ => None
              end = Some [Ok (Some (blit "h")); Ok (Some (blit "el")); Ok (Some (blit "lo")); Ok (Some []); Ok None;
                          Err (ValueError "read on closed file."); Ok None]) by vmr.
  destruct (new_raw_file src (toy_raw x61) (0, 0)%nat (blit "ad") true) as [[f | e] |]; try discriminate.
  destruct (file_run_ok _ _ _ _ _ H) as (f' & Hf). exists f, f'. split; [reflexivity | exact Hf].
Qed.
(** At the end of the data, read(0) returns. *)
Example C51_read_zero_hypotheses_met :
  alone only_blocking (blit "ahello") (blit "ad") (toy_raw x61) [(-1, Ok (Some (blit "hello"))); (0, Ok (Some []))].
Proof.
  apply (key_run_ok _ _ (toy_source (blit "ahello")) _ (0, 0)%nat _ _ [-1; 0] [Ok (Some (blit "hello")); Ok (Some [])]);
    [apply toy_plays; cbn; lia | vmr].
Qed.
Example C51_refuses_hypotheses_met : cc_refuses (raises only_blocking) (toy_cc x61) (blit "ad") (blit "zhello").
Proof. apply toy_refuses. intros P E. discriminate. Qed.

(** ** C58 *)

Theorem C58_streaming_round_trip : forall reg he hd Qe Qd k what in_buffer out_buffer n cc cap enc ad X Y,
  dict_get pclass_eqb ClsStreamingAead (r_wrappers reg) = Some streaming_aead_wrapper ->
  handle_primitive reg he ClsStreamingAead = Ok Qe ->
  handle_primitive reg hd ClsStreamingAead = Ok Qd ->
  In k (enabled_keys (kh_keyset he)) -> k_key_id k = ks_primary_key_id (kh_keyset he) ->
  In k (enabled_keys (kh_keyset hd)) ->
  key_provides reg ClsRawStreamingAead k (PrimRawStreamingAead (streaming_aead_cc_to_py what in_buffer out_buffer n cc)) ->
  cc_encrypts (can_raise X) cap enc cc ad ->
  (forall P C, enc P C -> cc_decrypts (raises Y) cc ad C P) ->
  eof_is_clear what Y -> ~ raises Y -> in_buffer <> [] ->
  forall e W bs C,
  writes X [] (new_encrypting_stream Qe ad) (Ok e) W -> encrypting_run X e (res_init e) W bs C ->
  (forall k' p', In k' (enabled_keys (kh_keyset hd)) -> k' <> k ->
     key_provides reg ClsRawStreamingAead k' (PrimRawStreamingAead p') -> refuses Y p' ad C) ->
  forall S (src : py_source S) fuel s w h size r w',
  plays Y src C s 0 -> new_decrypting_stream src fuel Qd s ad = Some (Ok w) ->
  wrapper_history src fuel w (h ++ [(size, r)]) w' -> size <> 0 ->
  match r with
  | Ok (Some []) => data (proper h) = concat bs
  | Ok (Some d) => exists rest, concat bs = data (proper h) ++ d ++ rest
  | Ok None => True
  | Err _ => False
  end.
Proof. exact streaming_round_trip. Qed.
Print Assumptions C58_streaming_round_trip.

Example C58_hypotheses_met :
  exists Qe Qd e W w h w',
  dict_get pclass_eqb ClsStreamingAead (r_wrappers stream_registry) = Some streaming_aead_wrapper /\
  handle_primitive stream_registry stream_handle ClsStreamingAead = Ok Qe /\
  handle_primitive stream_registry stream_rotated ClsStreamingAead = Ok Qd /\
  In stream_key (enabled_keys (kh_keyset stream_handle)) /\
  k_key_id stream_key = ks_primary_key_id (kh_keyset stream_handle) /\
  In stream_key (enabled_keys (kh_keyset stream_rotated)) /\
  key_provides stream_registry ClsRawStreamingAead stream_key (PrimRawStreamingAead (toy_raw x61)) /\
  writes any_exception [] (new_encrypting_stream Qe (blit "ad")) (Ok e) W /\
  encrypting_run any_exception e (res_init e) W [blit "hel"; blit "lo"] (blit "ahello") /\
  (forall k' p', In k' (enabled_keys (kh_keyset stream_rotated)) -> k' <> stream_key ->
     key_provides stream_registry ClsRawStreamingAead k' (PrimRawStreamingAead p') -> refuses only_blocking p' (blit "ad") (blit "ahello")) /\
  new_decrypting_stream (toy_source (blit "ahello")) 30 Qd (0, 0)%nat (blit "ad") = Some (Ok w) /\
  wrapper_history (toy_source (blit "ahello")) 30 w (h ++ [(4, Ok (Some []))]) w' /\ data (proper h) = blit "hello".
Proof.
  destruct (ok_run _ _ (handle_primitive stream_registry stream_handle ClsStreamingAead)
              (fun Q => encrypt_run (new_encrypting_stream Q (blit "ad")) [blit "hel"; blit "lo"]) (blit "ahello"))
    as (Qe & HQe & He); [vmr |].
  destruct (ok_run _ _ (handle_primitive stream_registry stream_rotated ClsStreamingAead)
              (fun Q => decrypt_run (toy_source (blit "ahello")) 30 [3; 0; 2; -1; 4]
                           (new_decrypting_stream (toy_source (blit "ahello")) 30 Q (0, 0)%nat (blit "ad")))
              [Ok (Some (blit "h")); Ok (Some []); Ok (Some (blit "el")); Ok (Some (blit "lo")); Ok (Some [])])
    as (Qd & HQd & Hd); [vmr |].
  destruct (encrypt_run_ok any_exception _ _ _ He) as (e & W & H1 & H2).
  destruct (decrypt_run_ok _ _ _ _ _ _ Hd) as (w & w' & H3 & H4).
  exists Qe, Qd, e, W, w, [(3, Ok (Some (blit "h"))); (0, Ok (Some [])); (2, Ok (Some (blit "el"))); (-1, Ok (Some (blit "lo")))], w'.
  split; [vmr |]. split; [exact HQe |]. split; [exact HQd |]. split; [vm_compute; tauto |]. split; [vmr |].
  split; [vm_compute; tauto |]. split; [apply registry_primitive_ok; lazy -[toy_raw]; reflexivity |].
  split; [exact H1 |]. split; [exact H2 |]. split; [| split; [exact H3 | split; [exact H4 | reflexivity]]].
  intros k' p' Hk Hn Hp.
  assert (K : exists h, p' = toy_raw h /\ h <> x61).
  { assert (G : forall v st id pf h, key_provides stream_registry ClsRawStreamingAead (toy_key u_stream SYMMETRIC v st id pf)
                  (PrimRawStreamingAead (toy_raw h)) ->
                key_provides stream_registry ClsRawStreamingAead (toy_key u_stream SYMMETRIC v st id pf) (PrimRawStreamingAead p') -> p' = toy_raw h).
    { intros v st id pf h G1 G2. pose proof (key_provides_fun _ _ _ _ _ G1 G2) as G. injection G as G. auto. }
    change (enabled_keys (kh_keyset stream_rotated)) with (ks_key (kh_keyset stream_rotated)) in Hk.
    cbn [kh_keyset stream_rotated toy_rotated ks_key In] in Hk.
    destruct Hk as [<- | [<- | [<- | [<- | [<- | []]]]]]; [set (h := x65) | elim Hn; reflexivity | set (h := x62) | set (h := x66) | set (h := x64)];
      (exists h; split; [refine (G _ _ _ _ h _ Hp); apply registry_primitive_ok; lazy -[toy_raw]; reflexivity | discriminate]). }
  destruct K as (h & -> & Hh). apply toy_raw_refuses. intros P E. injection E as E. congruence.
Qed.
