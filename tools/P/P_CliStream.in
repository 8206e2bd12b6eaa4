(** C70, C71: the streaming AEAD example. *)
From Coq Require Import Strings.Byte Strings.String List NArith ZArith Bool Lia.
From Verif Require Import M_Base M_Utf8 M_Proto M_StreamTypes M_Prims M_PrimitiveSet M_Registry M_KeysetHandle M_KeysetIO M_JsonKeyset
  M_Stream M_CcStream M_Buffered M_CcManagers M_Cli M_CliStream
  S_Keyset S_PrimitiveSet S_Wire S_Stream S_CcStream S_Buffered S_Config S_CcLaws S_Cli S_CliStream L_Base L_Keyset L_Wrappers2
  L_Buffered5 L_Cli5 L_CliStream L_CliStream2 X_Toy L_Toy X_Rt X_Stream L_XStream X_Buffered L_XBuffered X_Config X_CliStream
  P_JsonKeyset P_Config P_Cli P_Buffered.
Import ListNotations.
Open Scope string_scope.
Open Scope list_scope.

(** ** C70: encrypt_file and decrypt_file *)
@thm C70_encrypt encrypt_file_ok
@thm C70_decrypt decrypt_file_ok
@thm C70_no_key decrypt_file_no_key

(** In blocks of two bytes, to a file that takes at most two bytes at a time. *)
Example C70_encrypt_hypotheses_met : exists Q,
  dict_get pclass_eqb ClsStreamingAead (r_wrappers stream_registry) = Some streaming_aead_wrapper /\
  handle_primitive stream_registry stream_handle ClsStreamingAead = Ok Q /\
  In stream_key (enabled_keys (kh_keyset stream_handle)) /\
  k_key_id stream_key = ks_primary_key_id (kh_keyset stream_handle) /\
  key_provides stream_registry ClsRawStreamingAead stream_key (PrimRawStreamingAead (toy_raw x61)) /\
  cc_encrypts (can_raise any_exception) 12 (toy_enc x61) (toy_cc x61) (blit "ad") /\
  plays only_blocking opened_file (blit "hello") (blit "hello") 0 /\
  S_CcStream.writes any_exception [] (encrypt_file opened_file 2 30 Q (blit "ad") (blit "hello")) (Ok tt, []) (blit "ahello").
Proof.
  destruct (ok_run _ _ (handle_primitive stream_registry stream_handle ClsStreamingAead)
              (fun Q => match toy_run (encrypt_file opened_file 2 30 Q (blit "ad") (blit "hello")) 0 [] with Some (x, _, W) => Some (x, W) | None => None end)
              (Ok tt, [], blit "ahello")) as (Q & HQ & He); [vmr |].
  exists Q. split; [vmr |]. split; [exact HQ |]. split; [vm_compute; tauto |]. split; [vmr |].
  split; [apply registry_primitive_ok; lazy -[toy_raw]; reflexivity |].
  split; [apply toy_encrypts |]. split; [apply opened_file_plays |].
  destruct (toy_run (encrypt_file opened_file 2 30 Q (blit "ad") (blit "hello")) 0 []) as [((x & t) & W) |] eqn:E; [| discriminate].
  injection He as -> ->. eapply toy_run_ok. exact E.
Qed.
Example C70_decrypt_hypotheses_met : exists Q,
  handle_primitive stream_registry stream_rotated ClsStreamingAead = Ok Q /\
  In stream_key (enabled_keys (kh_keyset stream_rotated)) /\
  cc_decrypts (raises only_blocking) (toy_cc x61) (blit "ad") (x61 :: hello_text) hello_text /\
  (forall k' p', In k' (enabled_keys (kh_keyset stream_rotated)) -> k' <> stream_key ->
     key_provides stream_registry ClsRawStreamingAead k' (PrimRawStreamingAead p') ->
     turns_down only_blocking p' (blit "ad") (x61 :: hello_text)) /\
  usable opened_file /\ plays only_blocking opened_file (x61 :: hello_text) (x61 :: hello_text) 0 /\
  fills any_exception [] (decrypt_file opened_file 5 30 Q (blit "ad") (x61 :: hello_text)) (Ok 0%Z) hello_text.
Proof.
  destruct (ok_run _ _ (handle_primitive stream_registry stream_rotated ClsStreamingAead)
              (fun Q => run_on_file (decrypt_file opened_file 5 30 Q (blit "ad") (x61 :: hello_text)) []) (Ok 0%Z, hello_text)) as (Q & HQ & He); [vmr |].
  exists Q. split; [exact HQ |]. split; [vm_compute; tauto |]. split; [apply toy_decrypts; reflexivity |]. split; [exact others_turn_down |].
  split; [exact opened_file_usable |]. split; [apply opened_file_plays |]. apply run_on_file_fills. exact He.
Qed.
(** A ciphertext that was cut off: the front part is written, and the exit status is 1. *)
Example C70_cut_off_hypotheses_met : exists Q,
  handle_primitive fixed_registry fixed_handle ClsStreamingAead = Ok Q /\
  fills never [] (decrypt_file opened_file 2 30 Q (blit "ad") (blit "hel")) (Ok 1%Z) (blit "he").
Proof.
  destruct (ok_run _ _ (handle_primitive fixed_registry fixed_handle ClsStreamingAead)
              (fun Q => run_on_file (decrypt_file opened_file 2 30 Q (blit "ad") (blit "hel")) []) (Ok 1%Z, blit "he")) as (Q & HQ & He); [vmr |].
  exists Q. split; [exact HQ |]. apply run_on_file_fills. exact He.
Qed.
Example C70_no_key_hypotheses_met : exists Q,
  handle_primitive stream_registry stream_rotated ClsStreamingAead = Ok Q /\
  enabled_keys (kh_keyset stream_rotated) <> [] /\
  (forall k' p', In k' (enabled_keys (kh_keyset stream_rotated)) ->
     key_provides stream_registry ClsRawStreamingAead k' (PrimRawStreamingAead p') ->
     turns_down only_blocking p' (blit "ad") (blit "zhello")) /\
  fills never [] (decrypt_file opened_file 2 30 Q (blit "ad") (blit "zhello")) (Ok 1%Z) [].
Proof.
  destruct (ok_run _ _ (handle_primitive stream_registry stream_rotated ClsStreamingAead)
              (fun Q => run_on_file (decrypt_file opened_file 2 30 Q (blit "ad") (blit "zhello")) []) (Ok 1%Z, [])) as (Q & HQ & He); [vmr |].
  exists Q. split; [exact HQ |]. split; [vm_compute; discriminate |]. split; [| apply run_on_file_fills; exact He].
  intros k' p' Hk Hp. destruct (rotated_prims _ _ Hk Hp) as (h & -> & Hin & _). apply toy_turns_down. intros P E. injection E as E _. subst h.
  cbn in Hin. repeat (destruct Hin as [Hin | Hin]; [discriminate |]). destruct Hin.
Qed.

(** Not true: "when encrypt_file raises an exception, the output is not a complete
    ciphertext". The with statement closes the stream, and that ends the ciphertext
    properly. The input is "hello" and its second read raises. *)
Theorem C70_failed_encryption_is_incomplete_refuted : exists Q src e s' C P',
  handle_primitive stream_registry stream_handle ClsStreamingAead = Ok Q /\
  plays any_exception src (blit "hello") (0, 0)%nat 0 /\
  S_CcStream.writes never [] (encrypt_file src 1024 30 Q (blit "ad") (0, 0)%nat) (Err e, s') C /\
  toy_enc x61 P' C /\ front P' (blit "hello") /\ P' <> blit "hello".
Proof.
  set (src := bad_source (blit "hello") (fun t => if Nat.eqb t 1 then Some (OtherError 5) else None)).
  destruct (ok_run _ _ (handle_primitive stream_registry stream_handle ClsStreamingAead)
              (fun Q => run_on_file (encrypt_file src 1024 30 Q (blit "ad") (0, 0)%nat) [])
              (Err (OtherError 5), (2, 2)%nat, blit "ahe")) as (Q & HQ & He); [vmr |].
  exists Q, src, (OtherError 5), (2, 2)%nat, (blit "ahe"), (blit "he"). split; [exact HQ |].
  split; [| split; [apply run_on_file_writes; exact He | split; [reflexivity |]; split; [exists (blit "llo"); reflexivity | discriminate]]].
  exists (fun s p => fst s = p /\ (p <= 5)%nat). split; [split; [reflexivity | lia] |]. intros (q & t) p size (E & Hp). cbn [fst] in E. subst q.
  split; [exact Hp |]. unfold src. cbn [src_read bad_source]. destruct (Nat.eqb t 1); cbn [fst snd].
  - exists p. split; [constructor; [exact I | change (length (blit "hello")) with 5%nat; lia | auto] | auto].
  - set (d := piece size (skipn p (blit "hello"))). exists (p + length d)%nat.
    assert (L : (length d <= length (skipn p (blit "hello")))%nat) by (unfold d, piece; rewrite firstn_length; lia).
    rewrite skipn_length in L. change (length (blit "hello")) with 5%nat in L.
    split; [| split; [reflexivity | lia]].
    assert (F : firstn (length d) (skipn p (blit "hello")) = d).
    { unfold d, piece. rewrite firstn_length. set (m := if (size <? 0)%Z then 2%nat else Nat.min 2 (Z.to_nat size)).
      destruct (Nat.le_ge_cases m (length (skipn p (blit "hello")))) as [K | K].
      - rewrite Nat.min_l by exact K. reflexivity.
      - rewrite Nat.min_r by exact K. rewrite firstn_all, firstn_all2 by exact K. reflexivity. }
    destruct d as [| c d'] eqn:Ed.
    + rewrite Nat.add_0_r. constructor. unfold d, piece in Ed.
      assert (K : skipn p (blit "hello") = [] \/ (if (size <? 0)%Z then 2%nat else Nat.min 2 (Z.to_nat size)) = 0%nat).
      { destruct (skipn p (blit "hello")); [left; reflexivity | right]. destruct (if (size <? 0)%Z then 2%nat else Nat.min 2 (Z.to_nat size)); [reflexivity | discriminate Ed]. }
      destruct K as [K | K]; [left; apply (f_equal (@length _)) in K; rewrite skipn_length in K; change (length (blit "hello")) with 5%nat in *; cbn [length] in K; lia |].
      destruct (Z.ltb_spec size 0); [discriminate |]. right. lia.
    + constructor; [discriminate | | exact F]. destruct (Z.ltb_spec size 0) as [K | K]; [left; exact K | right].
      rewrite <- Ed. unfold d, piece. rewrite firstn_length. destruct (Z.ltb_spec size 0); [lia |]. lia.
Qed.
Print Assumptions C70_failed_encryption_is_incomplete_refuted.

(** Not true: "when decrypt_file returns, all of the plaintext has been written". The
    number that write() returns is not looked at; a file object that takes only a part
    (a raw one) loses the rest. *)
Theorem C70_raw_output_complete_refuted : exists Q W,
  handle_primitive stream_registry stream_rotated ClsStreamingAead = Ok Q /\
  fills never [] (decrypt_file opened_file 5 30 Q (blit "ad") (x61 :: hello_text)) (Ok 0%Z) hello_text /\
  S_CcStream.writes never [] (decrypt_file opened_file 5 30 Q (blit "ad") (x61 :: hello_text)) (Ok 0%Z) W /\ ~ front W hello_text.
Proof.
  destruct (ok_run _ _ (handle_primitive stream_registry stream_rotated ClsStreamingAead)
              (fun Q => match run_on_file (decrypt_file opened_file 5 30 Q (blit "ad") (x61 :: hello_text)) [],
                              toy_run (decrypt_file opened_file 5 30 Q (blit "ad") (x61 :: hello_text)) 1 [] with
                        | Some x, Some (r, _, W) => Some (x, r, W) | _, _ => None end) (Ok 0%Z, hello_text, Ok 0%Z, blit "he, "))
    as (Q & HQ & He); [vmr |].
  destruct (run_on_file (decrypt_file opened_file 5 30 Q (blit "ad") (x61 :: hello_text)) []) as [x |] eqn:E1; [| discriminate].
  destruct (toy_run (decrypt_file opened_file 5 30 Q (blit "ad") (x61 :: hello_text)) 1 []) as [((r & t) & W) |] eqn:E2; [| discriminate].
  injection He as -> -> ->. exists Q, (blit "he, "). split; [exact HQ |]. split; [apply run_on_file_fills; exact E1 |].
  split; [eapply toy_run_ok; exact E2 |]. intros (rest & E). vm_compute in E. discriminate.
Qed.
Print Assumptions C70_raw_output_complete_refuted.

(** ** C71: the program *)
@thm C71_effects streaming_cli_effects
@thm C71_encrypt streaming_encrypt_run
@thm C71_encrypt_no_primary streaming_encrypt_no_primary
@thm C71_decrypt streaming_decrypt_run
@thm C71_decrypt_damaged streaming_decrypt_damaged
@thm C71_decrypt_no_key streaming_decrypt_no_key
@thm C71_round_trip streaming_cli_round_trip
@thm C71_encrypt_in_place streaming_encrypt_in_place
@thm C71_decrypt_in_place streaming_decrypt_in_place

Definition file_of (ks : keyset) : bytes :=
  match json_proto_serialize toy_rt (mk_handle ks) SecretKeyAccessToken with
  | Ok t => match utf8_encode t with Some x => x | None => [] end
  | Err _ => []
  end.
Lemma file_of_holds : forall ks fs path, wf_keyset ks -> valid_keyset ks -> content fs path = Some (file_of ks) ->
  holds_keyset toy_rt fs path ks.
Proof.
  intros ks fs path Hw Hv H. destruct (written_keyset_holds toy_rt ks toy_limit Hw Hv) as (t & x & E1 & E2 & K).
  apply K. rewrite H. unfold file_of. rewrite E1, E2. reflexivity.
Qed.
(** Two keys; the primary key is the older or the newer one. *)
Definition key_a : key := stream_one "ka" 42 RAW.
Definition key_b : key := stream_one "kb" 43 TINK.
Definition two_keys (primary : N) : keyset := mk_keyset primary [key_b; key_a].
Definition two_prims : list (key * cc_streaming_aead) := [(key_b, toy_cc x62); (key_a, toy_cc x61)].
Lemma two_wf : forall id, (id < 100)%N -> wf_keyset (two_keys id).
Proof.
  intros id H. split; [unfold uint32_range, two_keys, ks_primary_key_id; lia |].
  intros k [<- | [<- | []]].
  - refine (proj2 (alone_wf "AesGcmHkdfStreamingKey" (blit "kb") SYMMETRIC 43 TINK _ _ _) _ (or_introl eq_refl)); [vm_compute; reflexivity | reflexivity |].
    unfold int32_range, TINK. lia.
  - refine (proj2 (alone_wf "AesGcmHkdfStreamingKey" (blit "ka") SYMMETRIC 42 RAW _ _ _) _ (or_introl eq_refl)); [vm_compute; reflexivity | reflexivity |].
    unfold int32_range, RAW. lia.
Qed.
Lemma two_valid : forall id, In id [42; 43]%N -> valid_keyset (two_keys id).
Proof. intros id [<- | [<- | []]]; apply validate_keyset_ok; vm_compute; reflexivity. Qed.
Lemma two_cc : forall id, In id [42; 43]%N -> cc_keyset ClsRawStreamingAead (cw_streaming stream_world) (two_keys id) two_prims.
Proof.
  intros id H. split; [apply two_valid; exact H |]. split.
  - split; [reflexivity |].
    constructor; [| constructor; [| constructor]]; (split; [eapply (checked_cc_key ClsRawStreamingAead StreamingAead "AesGcmHkdfStreamingKey" false);
      [left; reflexivity | intros [K | [K | []]]; discriminate | reflexivity | vm_compute; reflexivity] |]);
      (eexists; split; [reflexivity | reflexivity]).
  - constructor; [| constructor; [| constructor]]; [exists [x01; x00; x00; x00; x2b]; apply (tink_prefix x2b) | exists []; left; split; reflexivity].
Qed.
Lemma stream_ready : cc_ready stream_world StreamingAead.
Proof.
  split; [reflexivity |]. intros name c b Hin.
  cbn in Hin. repeat (destruct Hin as [Hin | Hin]; [injection Hin as <- <- <-; do 2 eexists; reflexivity |]). contradiction.
Qed.
Lemma two_finds : forall id mode input output fs data, In id [42; 43]%N -> content fs (ulit "keys") = Some (file_of (two_keys id)) ->
  content fs (ulit input) = Some data ->
  finds stream_world stream_env stream_os (stream_flags mode "keys" input output) fs (two_keys id) two_prims (blit "ad") data.
Proof.
  intros id mode input output fs data Hid Hk Hi. split; [exact stream_ready |]. split.
  { apply file_of_holds; [apply two_wf; destruct Hid as [<- | [<- | []]]; reflexivity | apply two_valid; exact Hid | exact Hk]. }
  split; [apply two_cc; exact Hid |]. split; [reflexivity |]. split; [exact Hi | reflexivity].
Qed.
Definition before : files := [(ulit "keys", file_of (two_keys 42)); (ulit "plain", blit "hello"); (ulit "x", blit "zzz")].
Definition after : files := [(ulit "keys", file_of (two_keys 43)); (ulit "cipher", blit "ahello"); (ulit "x", blit "zzz")].
Lemma some_run : forall A (r : option A) (f : A -> bool), match r with Some x => f x | None => false end = true ->
  exists x, r = Some x /\ f x = true.
Proof. intros A [x |] f H; [eauto | discriminate]. Qed.
Definition wrote (path : string) (x : bytes) (run : result Z * files) : bool := same_bytes (content (snd run) (ulit path)) (Some x).
(** The round trip, with the keyset rotated in between. *)
Example C71_round_trip_hypotheses_met : exists run run',
  finds stream_world stream_env stream_os (stream_flags Encrypt "keys" "plain" "cipher") before (two_keys 42) two_prims (blit "ad") (blit "hello") /\
  reads_files stream_env /\ is_primary (two_keys 42) two_prims key_a (toy_cc x61) /\
  cc_encrypts (can_raise never) 5 (toy_enc x61) (toy_cc x61) (blit "ad") /\ (length (blit "hello") <= 5)%nat /\
  (forall P C, toy_enc x61 P C -> cc_decrypts (raises never) (toy_cc x61) (blit "ad") C P) /\
  stream_run Encrypt "keys" "plain" "cipher" before = Some run /\
  content (snd run) (ulit "cipher") = Some (blit "ahello") /\
  finds stream_world stream_env stream_os (stream_flags Decrypt "keys" "cipher" "x") after (two_keys 43) two_prims (blit "ad") (blit "ahello") /\
  In (key_a, toy_cc x61) two_prims /\
  (forall k' q', In (k', q') two_prims -> k' <> key_a -> cc_refuses (raises never) q' (blit "ad") (blit "ahello")) /\
  stream_run Decrypt "keys" "cipher" "x" after = Some run' /\
  content (snd run') (ulit "x") = Some (blit "hello").
Proof.
  destruct (some_run _ (stream_run Encrypt "keys" "plain" "cipher" before) (wrote "cipher" (blit "ahello")) ltac:(vm_compute; reflexivity)) as (run & R1 & C1).
  destruct (some_run _ (stream_run Decrypt "keys" "cipher" "x" after) (wrote "x" (blit "hello")) ltac:(vm_compute; reflexivity)) as (run' & R2 & C2).
  assert (S : forall a b, same_bytes a (Some b) = true -> a = Some b) by (intros [a |] b E; [f_equal; apply bytes_eqb_spec; exact E | discriminate]).
  exists run, run'. split; [apply two_finds; [cbn; tauto | reflexivity | reflexivity] |]. split; [split; [reflexivity | discriminate] |].
  split; [split; [right; left; reflexivity | reflexivity] |]. split; [apply toy_encrypts |]. split; [cbn; lia |]. split; [intros P C E; apply toy_decrypts; exact E |].
  split; [exact R1 |]. split; [apply S; exact C1 |]. split; [apply two_finds; [cbn; tauto | reflexivity | reflexivity] |].
  split; [right; left; reflexivity |]. split; [| split; [exact R2 | apply S; exact C2]].
  intros k' q' [E | [E | []]] Hn; injection E as <- <-; [| congruence]. apply toy_refuses. intros P E. discriminate.
Qed.
(** Runs that go wrong: no key for the ciphertext; the same file as input and output,
    encrypting and decrypting; and no input. *)
Definition outcome (r : option (result Z * files)) (path : string) : option (Z * option bytes) :=
  match r with Some (x, fs) => Some (exit_status x, content fs (ulit path)) | None => None end.
Definition is_outcome (r : option (result Z * files)) (path : string) (z : Z) (x : bytes) : bool :=
  match outcome r path with Some (z', y) => Z.eqb z' z && same_bytes y (Some x) | None => false end.
Example C71_failures :
  is_outcome (stream_run Decrypt "keys" "plain" "x" before) "x" 1 [] &&
  is_outcome (stream_run Encrypt "keys" "plain" "plain" before) "plain" 0 (blit "a") &&
  is_outcome (stream_run Decrypt "keys" "cipher" "cipher" after) "cipher" 1 [] &&
  is_outcome (stream_run Encrypt "keys" "nothing" "x" before) "x" 1 (blit "zzz") &&
  is_outcome (stream_run Encrypt "x" "plain" "x" before) "x" 1 (blit "zzz") = true.
Proof. vm_compute. reflexivity. Qed.
Example C71_in_place_hypotheses_met :
  finds stream_world stream_env stream_os (stream_flags Encrypt "keys" "plain" "plain") before (two_keys 42) two_prims (blit "ad") (blit "hello") /\
  finds stream_world stream_env stream_os (stream_flags Decrypt "keys" "cipher" "cipher") after (two_keys 43) two_prims (blit "ad") (blit "ahello") /\
  two_prims <> [] /\ (forall k q, In (k, q) two_prims -> cc_refuses (raises never) q (blit "ad") []).
Proof.
  split; [apply two_finds; [cbn; tauto | reflexivity | reflexivity] |]. split; [apply two_finds; [cbn; tauto | reflexivity | reflexivity] |].
  split; [discriminate |]. intros k q [E | [E | []]]; injection E as <- <-; apply toy_refuses; intros P E; discriminate.
Qed.
(** A ciphertext that was cut off: the exit status is 1 and a part of it was written. *)
Definition cut_key : key := stream_one "f12345" 7 RAW.
Example C71_damaged_hypotheses_met :
  cc_keyset ClsRawStreamingAead (cw_streaming stream_world) (mk_keyset 7 [cut_key]) [(cut_key, fixed_cc 5)] /\
  cc_gives (raises never) True False (fixed_cc 5) (blit "ad") (blit "hel") (blit "hel") /\
  is_outcome (stream_run Decrypt "keys" "c" "x" [(ulit "keys", file_of (mk_keyset 7 [cut_key])); (ulit "c", blit "hel")]) "x" 1 [] = true.
Proof.
  split; [| split; [| vm_compute; reflexivity]].
  - apply (alone_cc _ ClsRawStreamingAead StreamingAead "AesGcmHkdfStreamingKey" false (blit "f12345") SYMMETRIC 7 RAW (cw_streaming stream_world) _ _
       (or_introl eq_refl) ltac:(intros [H | [H | []]]; discriminate) ltac:(vm_compute; reflexivity) ltac:(discriminate)
       (ex_intro _ [] (or_introl (conj eq_refl eq_refl))) eq_refl eq_refl).
  - intros r i Hr. destruct (fixed_gives (raises never) 5 (blit "ad") (blit "hel") ltac:(cbn; lia) r i Hr) as (d & -> & J & J0 & J1 & J2).
    exists d. split; [reflexivity |]. exists J. split; [exact J0 |]. split; [| exact J2].
    intros st i0 p r st' i' Hj Hn. destruct (J1 _ _ _ _ _ _ Hj Hn) as (p' & Hp & Hj'). exists p'. split; [| exact Hj'].
    clear - Hp. inversion Hp as [? ? ? Hd | ? ? Hf Hl | ? ? ? He |]; subst; [constructor; exact Hd | discriminate Hf | constructor; tauto | constructor].
Qed.
(** A keyset without a primary key: its only key says that it is public. *)
Definition public_key_a : key := mk_key (Some (mk_key_data (type_url "AesGcmHkdfStreamingKey") (blit "ka") ASYMMETRIC_PUBLIC)) ENABLED 42 RAW.
Definition no_primary : keyset := mk_keyset 7 [public_key_a].
Definition no_primary_files : files := [(ulit "keys", file_of no_primary); (ulit "plain", blit "hello"); (ulit "x", blit "zzz")].
Example C71_no_primary_hypotheses_met :
  finds stream_world stream_env stream_os (stream_flags Encrypt "keys" "plain" "x") no_primary_files no_primary [(public_key_a, toy_cc x61)]
    (blit "ad") (blit "hello") /\
  (forall k q, ~ is_primary no_primary [(public_key_a, toy_cc x61)] k q) /\
  is_outcome (stream_run Encrypt "keys" "plain" "x" no_primary_files) "x" 1 [] = true.
Proof.
  split; [| split; [| vm_compute; reflexivity]].
  - assert (V : valid_keyset no_primary) by (apply validate_keyset_ok; vm_compute; reflexivity).
    split; [exact stream_ready |]. split.
    { apply file_of_holds; [| exact V | reflexivity].
      split; [unfold uint32_range, no_primary, ks_primary_key_id; lia |]. intros k [<- | []].
      refine (proj2 (alone_wf "AesGcmHkdfStreamingKey" (blit "ka") ASYMMETRIC_PUBLIC 42 RAW _ _ _) _ (or_introl eq_refl)); [vm_compute; reflexivity | reflexivity |].
      unfold int32_range, RAW. lia. }
    split; [| split; [reflexivity |]; split; reflexivity].
    split; [exact V |]. split.
    + split; [reflexivity |]. constructor; [| constructor]. split; [eapply (checked_cc_key ClsRawStreamingAead StreamingAead "AesGcmHkdfStreamingKey" false);
        [left; reflexivity | intros [K | [K | []]]; discriminate | reflexivity | vm_compute; reflexivity] |].
      eexists; split; reflexivity.
    + constructor; [| constructor]. exists []. left. split; reflexivity.
  - intros k q ([E | []] & H). injection E as <- <-. discriminate H.
Qed.
