(** streaming_aead_cli.py as a program over files. *)
From Coq Require Import Strings.Byte Strings.String List NArith ZArith Bool Lia.
From Verif Require Import M_Base M_Utf8 M_Proto M_StreamTypes M_Prims M_PrimitiveSet M_Registry M_KeysetHandle M_JsonKeyset M_Stream M_CcStream
  M_Buffered M_CcManagers M_Cli M_CliStream
  L_Base S_Keyset S_Stream S_CcStream S_Buffered S_Config S_CcLaws S_Cli S_CliStream L_PrimitiveSet L_Keyset L_Wrappers L_Wrappers2 L_Stream3 L_CcStream2 L_CcStream3 L_CcStream4 L_CcStream5 L_Buffered4 L_Buffered5
  L_Config L_Config2 L_Config3 L_Config4 L_Cli L_Cli2 L_Cli3 L_CliStream L_Wrappers3.
Import ListNotations.
Open Scope string_scope.
Open Scope list_scope.
Open Scope Z_scope.

(** ** Regular files *)
Lemma run_on_file_fills : forall A X (m : wio A) W a W', run_on_file m W = Some (a, W') -> fills X W m a W'.
Proof.
  intros A X m. induction m as [x | d k IH | k IH |]; intros W a W' H; cbn [run_on_file] in H; [| | | discriminate].
  - injection H as <- <-. constructor.
  - apply Fills_write. apply IH. exact H.
  - eapply Fills_close; [| apply IH; exact H]. intros e E. discriminate.
Qed.
Lemma write_all : forall X d, file_write X d (Ok (Some (Z.of_nat (length d)))) d.
Proof. intros X d. pose proof (FW_some X d (Z.of_nat (length d)) ltac:(lia)) as H. rewrite Nat2Z.id, firstn_all in H. exact H. Qed.
Lemma run_on_file_writes : forall A X (m : wio A) W a W', run_on_file m W = Some (a, W') -> S_CcStream.writes X W m a W'.
Proof.
  intros A X m. induction m as [x | d k IH | k IH |]; intros W a W' H; cbn [run_on_file] in H; [| | | discriminate].
  - injection H as <- <-. constructor.
  - eapply Writes_write; [| apply IH; exact H]. unfold zlen. apply write_all.
  - eapply Writes_close; [| apply IH; exact H]. intros e E. discriminate.
Qed.

Lemma opened_file_plays : forall Y P, plays Y opened_file P P 0.
Proof.
  intros Y P. exists (fun s p => (p <= length P)%nat /\ s = skipn p P). split; [split; [lia | reflexivity] |].
  intros s p size (Hp & ->). split; [exact Hp |]. unfold opened_file. cbn [src_read].
  assert (Data : forall d rest, skipn p P = d ++ rest -> d <> [] -> size < 0 \/ Z.of_nat (length d) <= size ->
    exists p', file_read Y P p size (Ok (Some d)) p' /\ (p' <= length P)%nat /\ rest = skipn p' P).
  { intros d rest E Hd Hs. exists (p + length d)%nat.
    assert (Hl : length (skipn p P) = (length d + length rest)%nat) by (rewrite E; apply app_length). rewrite skipn_length in Hl.
    split; [| split; [lia |]].
    - constructor; [exact Hd | exact Hs |]. rewrite E. rewrite firstn_app, firstn_all, Nat.sub_diag, app_nil_r. reflexivity.
    - rewrite (Nat.add_comm p), <- L_Stream2.skipn_skipn, E. rewrite skipn_app, skipn_all, Nat.sub_diag. reflexivity. }
  assert (Empty : skipn p P = [] \/ size = 0 -> exists p', file_read Y P p size (Ok (Some [])) p' /\ (p' <= length P)%nat /\ skipn p P = skipn p' P).
  { intros E. exists p. split; [| auto]. constructor. destruct E as [E | E]; [left | right; exact E].
    apply (f_equal (@length _)) in E. rewrite skipn_length in E. cbn in E. lia. }
  destruct (Z.ltb_spec size 0) as [Hs | Hs]; cbn [fst snd].
  - destruct (skipn p P) as [| c rest] eqn:E.
    + destruct (Empty (or_introl eq_refl)) as (p' & K1 & K2 & K3). exists p'. auto.
    + destruct (Data (c :: rest) [] ltac:(rewrite app_nil_r; reflexivity) ltac:(discriminate) (or_introl Hs)) as (p' & K). exists p'. exact K.
  - pose proof (L_Buffered.ztake_zdrop size (skipn p P) Hs) as T. pose proof (L_Buffered.zlen_ztake size (skipn p P) Hs) as L.
    destruct (ztake size (skipn p P)) as [| c d] eqn:E.
    + assert (K : skipn p P = [] \/ size = 0).
      { unfold zlen in L. cbn in L. destruct (skipn p P); [left; reflexivity | right; cbn [length] in L; lia]. }
      destruct (Empty K) as (p' & K1 & K2 & K3). exists p'. split; [exact K1 |]. split; [exact K2 |]. rewrite <- K3. exact T.
    + destruct (Data (c :: d) (zdrop size (skipn p P))) as (p' & K).
      * symmetry. exact T.
      * discriminate.
      * right. unfold zlen in L. lia.
      * exists p'. exact K.
Qed.
Lemma opened_file_usable : usable opened_file.
Proof. split; reflexivity. Qed.

(** ** The keys *)
Lemma streaming_keys : forall w env r ks l, configured w env StreamingAead r -> cc_keyset ClsRawStreamingAead (cw_streaming w) ks l ->
  exists Q, handle_primitive r (mk_handle ks) ClsStreamingAead = Ok Q /\
    dict_get pclass_eqb ClsStreamingAead (r_wrappers r) = Some streaming_aead_wrapper /\
    (forall k, In k (enabled_keys ks) <-> exists q, In (k, q) l) /\
    (forall k q, In (k, q) l -> key_provides r ClsRawStreamingAead k
       (PrimRawStreamingAead (streaming_aead_cc_to_py (pe_what env) (pe_in_buffer env) (pe_out_buffer env) (pe_patience env) q))).
Proof.
  intros w env r ks l Hc (Hv & Hl & Hpf).
  assert (Hw : dict_get pclass_eqb ClsStreamingAead (r_wrappers r) = Some streaming_aead_wrapper)
    by (apply (configured_wrapper _ _ _ _ _ _ Hc); [cbn; tauto | reflexivity]).
  destruct (lift_keys w env StreamingAead r Hc ClsRawStreamingAead (cw_streaming w) PrimRawStreamingAead
    (fun q a => a = streaming_aead_cc_to_py (pe_what env) (pe_in_buffer env) (pe_out_buffer env) (pe_patience env) q)
    ltac:(one_package) ltac:(cbn; intuition discriminate)) with (ks := ks) (l := l) as (l' & Hkw & H2).
  { intros d x (m & H1 & H2). exists m. split; [exact H1 |]. destruct (cl_get_primitive m d) as [q | s]; [| exact H2].
    cbn [answers_with] in *. destruct H2 as (y & -> & ->). eexists. split; [reflexivity |]. eexists. split; reflexivity. }
  { exact Hl. }
  assert (HQ : exists x, handle_primitive r (mk_handle ks) ClsStreamingAead = Ok x).
  { apply (handle_primitive_iff_gen _ PrimRawStreamingAead r (mk_handle ks) _ streaming_aead_wrapper _ raw_streaming_inj (fun _ => eq_refl)
      (fun _ => eq_refl) Hw). split; [exact Hv |]. split; [exists l'; exact Hkw | exact Hpf]. }
  destruct HQ as (Q & HQ). exists Q. split; [exact HQ |]. split; [exact Hw |]. split.
  - intros k. rewrite <- (proj1 Hl). rewrite in_map_iff. split; [intros ((k' & q) & <- & Hi); exists q; exact Hi | intros (q & Hi); exists (k, q); auto].
  - intros k q Hi. destruct (L_Wrappers3.Forall2_in_l _ _ _ _ _ _ H2 Hi) as ((k' & p) & Hi' & Hk & Hp). cbn in Hk, Hp. subst k' p.
    destruct Hkw as (_ & F). rewrite Forall_forall in F. exact (F _ Hi').
Qed.

(** What is there to read once the output file has been opened. *)
Definition remains (f : crypt_flags) (data data' : bytes) : Prop :=
  (cf_input_path f <> cf_output_path f /\ data' = data) \/ (cf_input_path f = cf_output_path f /\ data' = []).

Section Runs.
  Variable w : cc_world.
  Variable env : py_env.
  Variable pb : pb_rt.
  Variable o : os.

  Lemma start_ok : forall f fs ks l ad data data', finds w env o f fs ks l ad data -> remains f data data' ->
    exists r Q, configured w env StreamingAead r /\ handle_primitive r (mk_handle ks) ClsStreamingAead = Ok Q /\
      streaming_aead_start w env pb o f fs = (Ok (inr (Q, ad, data')), store (cf_output_path f) [] fs).
  Proof.
    intros f fs ks l ad data data' (Hr & Hh & Hk & Hf & Hd & Ho) Hdata.
    destruct (registered_ok w env CallStreamingAead StreamingAead fs eq_refl ltac:(ready) I) as (r & Er & Hc).
    destruct (keyset_file_read w env pb fs _ ks Hh) as (t & Et & Ep).
    destruct (streaming_keys _ _ _ _ _ Hc Hk) as (Q & EQ & _). exists r, Q. split; [exact Hc |]. split; [exact EQ |].
    unfold streaming_aead_start. rewrite (flag_bytes_ok _ _ Hf).
    rewrite (next_ok _ _ _ _ ad fs fs eq_refl), (next_ok _ _ _ _ r fs fs Er), (next_ok _ _ _ _ t fs fs Et), Ep.
    cbn [or_leave]. rewrite EQ. cbn [or_leave]. rewrite (next_ok _ _ _ _ data fs fs (read_bytes_ok _ _ _ Hd)).
    assert (Et' : truncate o (cf_output_path f) fs = (Ok tt, store (cf_output_path f) [] fs)) by (unfold truncate; rewrite Ho; reflexivity).
    rewrite (next_ok _ _ _ _ tt fs _ Et').
    assert (Ec : content (store (cf_output_path f) [] fs) (cf_input_path f) = Some data').
    { destruct (changed_store (cf_output_path f) [] fs) as (K1 & K2). destruct Hdata as [(Hne & ->) | (He & ->)].
      - rewrite K2; assumption.
      - rewrite He. exact K1. }
    rewrite (next_ok _ _ _ _ _ _ _ (read_bytes_ok _ _ _ Ec)). reflexivity.
  Qed.

  Lemma never_raises : ~ can_raise never. Proof. intros (e & []). Qed.
  Lemma never_raises2 : ~ raises never. Proof. intros (e & [] & _). Qed.

  Lemma encrypt_run : forall n f fs ks l ad data data' run, finds w env o f fs ks l ad data -> remains f data data' ->
    cf_mode f = Encrypt -> streaming_aead_cli w env pb o n f fs = Some run ->
    (forall k q cap enc, is_primary ks l k q -> cc_encrypts (can_raise never) cap enc q ad -> (length data' <= cap)%nat ->
       exists C, enc data' C /\ S_Cli.writes run (cf_output_path f) C fs) /\
    ((forall k q, ~ is_primary ks l k q) -> empties run (cf_output_path f) fs).
  Proof.
    intros n f fs ks l ad data data' run Hf Hd Hm H. destruct (start_ok _ _ _ _ _ _ _ Hf Hd) as (r & Q & Hc & HQ & Es).
    destruct Hf as (_ & _ & Hk & _ & _ & Ho). destruct (streaming_keys _ _ _ _ _ Hc Hk) as (Q' & HQ' & Hw & Hen & Hp).
    rewrite HQ in HQ'. injection HQ' as <-.
    unfold streaming_aead_cli in H. rewrite Es, Hm in H.
    destruct (run_on_file _ []) as [(x & W) |] eqn:E; [| discriminate]. apply some_inj in H. subst run.
    apply (run_on_file_writes _ never) in E. apply writes_bind in E. destruct E as ((y & s') & W1 & E1 & E2).
    apply writes_ret in E2. destruct E2 as (-> & E2). symmetry in E2. subst W1. cbn [fst]. split.
    - intros k q cap enc (Hi & Hid) Hcc Hlen.
      pose proof (encrypt_file_ok r (mk_handle ks) Q k _ _ _ _ q cap enc ad never Hw HQ (proj2 (Hen k) (ex_intro _ q Hi)) Hid (Hp _ _ Hi) Hcc _ opened_file never data' data' BLOCK_SIZE n y s' W ltac:(reflexivity) (opened_file_plays _ _) E1) as K.
      destruct y as [u | ex].
      + exists W. split; [exact K |]. split; [reflexivity |]. cbn [snd]. apply changed_store2.
      + destruct K as [([K | K] & _) | ([[] | K] & _)]; [destruct (never_raises K) | lia |].
        destruct K as (_ & s1 & K). cbn in K. discriminate.
    - intros Hno. destruct (streaming_handle_spec _ _ _ Hw HQ) as (l2 & L1 & _ & _ & L2).
      cbn [kh_keyset] in L1, L2. destruct (L2) with (ad := ad) as (ex & He & En).
      { intros k p (Hi & Hid). assert (Hk2 : In k (enabled_keys ks)) by (rewrite <- (proj1 L1); apply in_map_iff; exists (k, p); auto).
        apply Hen in Hk2. destruct Hk2 as (q & Hq). exact (Hno k q (conj Hq Hid)). }
      unfold encrypt_file in E1. rewrite En in E1. cbn [wio_bind] in E1. apply writes_ret in E1. destruct E1 as (E1 & ->). injection E1 as -> ->.
      split; [cbn; reflexivity | cbn [snd]; apply changed_store2].
  Qed.

  Lemma decrypt_run : forall n f fs ks l ad data C run, finds w env o f fs ks l ad data -> remains f data C ->
    reads_files env -> cf_mode f = Decrypt -> streaming_aead_cli w env pb o n f fs = Some run ->
    (forall k q E Fin P, In (k, q) l -> cc_gives (raises never) E Fin q ad C P ->
       (forall k' q', In (k', q') l -> k' <> k -> cc_refuses (raises never) q' ad C) ->
       exists W, front W P /\ ((W = P /\ Fin /\ S_Cli.writes run (cf_output_path f) W fs) \/
                               (E /\ ends run 1 (cf_output_path f) W fs))) /\
    (l <> [] -> (forall k q, In (k, q) l -> cc_refuses (raises never) q ad C) -> empties run (cf_output_path f) fs).
  Proof.
    intros n f fs ks l ad data C run Hf Hd (He & Hb) Hm H. destruct (start_ok _ _ _ _ _ _ _ Hf Hd) as (r & Q & Hc & HQ & Es).
    destruct Hf as (_ & _ & Hk & _ & _ & Ho). destruct (streaming_keys _ _ _ _ _ Hc Hk) as (Q' & HQ' & Hw & Hen & Hp).
    rewrite HQ in HQ'. injection HQ' as <-.
    assert (Hclear : eof_is_clear (pe_what env) never) by (split; [exact He | intros e []]).
    assert (Down : forall k' q' p', In (k', q') l -> key_provides r ClsRawStreamingAead k' (PrimRawStreamingAead p') ->
      cc_refuses (raises never) q' ad C -> turns_down never p' ad C).
    { intros k' q' p' Hi Hp' Hr. rewrite (PrimRawStreamingAead_inj _ _ (key_provides_fun _ _ _ _ _ Hp' (Hp _ _ Hi))).
      apply raw_turns_down; assumption. }
    unfold streaming_aead_cli in H. rewrite Es, Hm in H.
    destruct (run_on_file _ []) as [(x & W) |] eqn:E; [| discriminate]. apply some_inj in H. subst run.
    apply (run_on_file_fills _ never) in E. split.
    - intros k q E' Fin P Hi Hg Hoth.
      pose proof (decrypt_file_ok r (mk_handle ks) Q k _ _ _ _ q ad never E' Fin C P Hw HQ (proj2 (Hen k) (ex_intro _ q Hi)) (Hp _ _ Hi) Hg Hclear Hb
        ltac:(intros k' p' K1 K2 K3; apply Hen in K1; destruct K1 as (q' & K1); eapply Down; eauto)
        _ opened_file never C BLOCK_SIZE n x W opened_file_usable ltac:(reflexivity) (opened_file_plays _ _) E) as (K1 & K2).
      exists W. split; [exact K1 |]. destruct x as [z | ex]; [| destruct K2 as ([] & _)].
      destruct K2 as [(-> & K3 & K4) | (-> & [K3 | (ex & [])])].
      + left. split; [exact K3 |]. split; [exact K4 |]. split; [reflexivity | cbn [snd]; apply changed_store2].
      + right. split; [exact K3 |]. split; [reflexivity | cbn [snd]; apply changed_store2].
    - intros Hne Hall.
      pose proof (decrypt_file_no_key r (mk_handle ks) Q ad never C Hw HQ) as K. cbn [kh_keyset] in K.
      destruct (K) with (S := bytes) (src := opened_file) (X := never) (s := C) (block := BLOCK_SIZE) (m := n) (r := x) (W := W) as (K1 & K2).
      + intros E1. destruct l as [| (k & q) l']; [congruence |]. assert (Hi : In k (enabled_keys ks)) by (apply Hen; exists q; left; reflexivity).
        rewrite E1 in Hi. destruct Hi.
      + intros k' p' L1 L2. apply Hen in L1. destruct L1 as (q' & L1). eapply Down; eauto.
      + exact opened_file_usable.
      + reflexivity.
      + apply opened_file_plays.
      + exact E.
      + subst W. destruct K2 as [-> | (ex & _ & [])]. split; [reflexivity | cbn [snd]; apply changed_store2].
  Qed.
End Runs.

(** ** The program *)

(** Encrypting. *)
Theorem streaming_encrypt_run : forall w env pb o n f fs ks l ad data k q cap enc run,
  finds w env o f fs ks l ad data -> cf_input_path f <> cf_output_path f -> cf_mode f = Encrypt ->
  is_primary ks l k q -> cc_encrypts (can_raise never) cap enc q ad -> (length data <= cap)%nat ->
  streaming_aead_cli w env pb o n f fs = Some run ->
  exists C, enc data C /\ S_Cli.writes run (cf_output_path f) C fs.
Proof.
  intros w env pb o n f fs ks l ad data k q cap enc run Hf Hne Hm Hp Hcc Hlen H.
  exact (proj1 (encrypt_run _ _ _ _ _ _ _ _ _ _ _ _ _ Hf (or_introl (conj Hne eq_refl)) Hm H) _ _ _ _ Hp Hcc Hlen).
Qed.
Theorem streaming_encrypt_no_primary : forall w env pb o n f fs ks l ad data run,
  finds w env o f fs ks l ad data -> cf_mode f = Encrypt -> (forall k q, ~ is_primary ks l k q) ->
  streaming_aead_cli w env pb o n f fs = Some run -> empties run (cf_output_path f) fs.
Proof.
  intros w env pb o n f fs ks l ad data run Hf Hm Hp H.
  destruct (list_eq_dec N.eq_dec (cf_input_path f) (cf_output_path f)) as [E | E].
  - exact (proj2 (encrypt_run _ _ _ _ _ _ _ _ _ _ _ _ _ Hf (or_intror (conj E eq_refl)) Hm H) Hp).
  - exact (proj2 (encrypt_run _ _ _ _ _ _ _ _ _ _ _ _ _ Hf (or_introl (conj E eq_refl)) Hm H) Hp).
Qed.

(** Decrypting what was written with one of the keys. *)
Theorem streaming_decrypt_run : forall w env pb o n f fs ks l ad C k q P run,
  finds w env o f fs ks l ad C -> reads_files env -> cf_input_path f <> cf_output_path f -> cf_mode f = Decrypt ->
  In (k, q) l -> cc_decrypts (raises never) q ad C P ->
  (forall k' q', In (k', q') l -> k' <> k -> cc_refuses (raises never) q' ad C) ->
  streaming_aead_cli w env pb o n f fs = Some run ->
  S_Cli.writes run (cf_output_path f) P fs.
Proof.
  intros w env pb o n f fs ks l ad C k q P run Hf Hr Hne Hm Hi Hg Ho H.
  destruct (proj1 (decrypt_run _ _ _ _ _ _ _ _ _ _ _ _ _ Hf (or_introl (conj Hne eq_refl)) Hr Hm H) _ _ _ _ _ Hi (cc_decrypts_gives _ _ _ _ _ Hg) Ho)
    as (W & _ & [(-> & _ & K) | (K & _)]); [exact K | destruct (never_raises2 K)].
Qed.
(** Decrypting what was cut off or altered. *)
Theorem streaming_decrypt_damaged : forall w env pb o n f fs ks l ad C k q E P run,
  finds w env o f fs ks l ad C -> reads_files env -> cf_input_path f <> cf_output_path f -> cf_mode f = Decrypt ->
  In (k, q) l -> cc_gives (raises never) E False q ad C P ->
  (forall k' q', In (k', q') l -> k' <> k -> cc_refuses (raises never) q' ad C) ->
  streaming_aead_cli w env pb o n f fs = Some run ->
  exists W, front W P /\ ends run 1%Z (cf_output_path f) W fs.
Proof.
  intros w env pb o n f fs ks l ad C k q E P run Hf Hr Hne Hm Hi Hg Ho H.
  destruct (proj1 (decrypt_run _ _ _ _ _ _ _ _ _ _ _ _ _ Hf (or_introl (conj Hne eq_refl)) Hr Hm H) _ _ _ _ _ Hi Hg Ho)
    as (W & K1 & [(_ & [] & _) | (_ & K2)]). exists W. auto.
Qed.
(** Decrypting with other keys, or with other associated data. *)
Theorem streaming_decrypt_no_key : forall w env pb o n f fs ks l ad C run,
  finds w env o f fs ks l ad C -> reads_files env -> cf_input_path f <> cf_output_path f -> cf_mode f = Decrypt ->
  l <> [] -> (forall k q, In (k, q) l -> cc_refuses (raises never) q ad C) ->
  streaming_aead_cli w env pb o n f fs = Some run -> empties run (cf_output_path f) fs.
Proof.
  intros w env pb o n f fs ks l ad C run Hf Hr Hne Hm Hl Ho H.
  exact (proj2 (decrypt_run _ _ _ _ _ _ _ _ _ _ _ _ _ Hf (or_introl (conj Hne eq_refl)) Hr Hm H) Hl Ho).
Qed.

(** The same path twice: the input is gone before it is read. *)
Theorem streaming_encrypt_in_place : forall w env pb o n f fs ks l ad data k q cap enc run,
  finds w env o f fs ks l ad data -> cf_input_path f = cf_output_path f -> cf_mode f = Encrypt ->
  is_primary ks l k q -> cc_encrypts (can_raise never) cap enc q ad ->
  streaming_aead_cli w env pb o n f fs = Some run ->
  exists C, enc [] C /\ S_Cli.writes run (cf_output_path f) C fs.
Proof.
  intros w env pb o n f fs ks l ad data k q cap enc run Hf He Hm Hp Hcc H.
  exact (proj1 (encrypt_run _ _ _ _ _ _ _ _ _ _ _ _ _ Hf (or_intror (conj He eq_refl)) Hm H) _ _ _ _ Hp Hcc (Nat.le_0_l cap)).
Qed.
Theorem streaming_decrypt_in_place : forall w env pb o n f fs ks l ad data run,
  finds w env o f fs ks l ad data -> reads_files env -> cf_input_path f = cf_output_path f -> cf_mode f = Decrypt ->
  l <> [] -> (forall k q, In (k, q) l -> cc_refuses (raises never) q ad []) ->
  streaming_aead_cli w env pb o n f fs = Some run -> empties run (cf_output_path f) fs.
Proof.
  intros w env pb o n f fs ks l ad data run Hf Hr He Hm Hl Ho H.
  exact (proj2 (decrypt_run _ _ _ _ _ _ _ _ _ _ _ _ _ Hf (or_intror (conj He eq_refl)) Hr Hm H) Hl Ho).
Qed.

(** Two runs; the keyset of the second may have been rotated. *)
Theorem streaming_cli_round_trip : forall w env pb o n f fs ks l ad data k q cap enc run C n' f' fs' ks' l' run',
  finds w env o f fs ks l ad data -> reads_files env ->
  cf_input_path f <> cf_output_path f -> cf_mode f = Encrypt ->
  is_primary ks l k q -> cc_encrypts (can_raise never) cap enc q ad -> (length data <= cap)%nat ->
  (forall P C, enc P C -> cc_decrypts (raises never) q ad C P) ->
  streaming_aead_cli w env pb o n f fs = Some run ->
  content (snd run) (cf_output_path f) = Some C -> finds w env o f' fs' ks' l' ad C ->
  cf_input_path f' <> cf_output_path f' -> cf_mode f' = Decrypt -> In (k, q) l' ->
  (forall k' q', In (k', q') l' -> k' <> k -> cc_refuses (raises never) q' ad C) ->
  streaming_aead_cli w env pb o n' f' fs' = Some run' ->
  fst run = Ok 0%Z /\ S_Cli.writes run' (cf_output_path f') data fs'.
Proof.
  intros w env pb o n f fs ks l ad data k q cap enc run C n' f' fs' ks' l' run' Hf Hr Hne Hm Hp Hcc Hlen Hdec H Hin Hf' Hne' Hm' Hi' Ho H'.
  destruct (streaming_encrypt_run _ _ _ _ _ _ _ _ _ _ _ _ _ _ _ _ Hf Hne Hm Hp Hcc Hlen H) as (C' & HC & (K1 & K2 & K3)).
  split; [exact K1 |]. rewrite K2 in Hin. apply some_inj in Hin. subst C'.
  exact (streaming_decrypt_run _ _ _ _ _ _ _ _ _ _ _ _ _ _ _ Hf' Hr Hne' Hm' Hi' (Hdec _ _ HC) Ho H').
Qed.

(** ** Every run *)
Lemma start_cases : forall w env pb o f fs x fs', streaming_aead_start w env pb o f fs = (x, fs') ->
  (fs' = fs /\ ((exists e, x = Err e) \/ x = Ok (inl 1))) \/
  (fs' = store (cf_output_path f) [] fs /\ content fs (cf_input_path f) <> None /\ forall z, x <> Ok (inl z)).
Proof.
  intros w env pb o f fs x fs' H. unfold streaming_aead_start in H.
  assert (At : forall A (m : io A) (k : A -> io (Z + prim * bytes * bytes)), snd (m fs) = fs ->
    next m k fs = (x, fs') -> (exists a, fst (m fs) = Ok a /\ k a fs = (x, fs')) \/ (fs' = fs /\ exists e, x = Err e)).
  { intros A m k Hs K. unfold next in K. destruct (m fs) as ([a | e] & fs1); cbn [fst snd] in *; subst fs1; [left; eauto | right; injection K as <- <-; eauto]. }
  assert (Lv : forall A (r : result A) (k : A -> io (Z + prim * bytes * bytes)),
    or_leave r k fs = (x, fs') -> (exists a, k a fs = (x, fs')) \/ (fs' = fs /\ ((exists e, x = Err e) \/ x = Ok (inl 1)))).
  { intros A [a | e] k K; unfold or_leave in K; [left; eauto | right].
    destruct (is_tink_error e); unfold ret, attempt in K; injection K as <- <-; eauto. }
  apply At in H; [| reflexivity]. destruct H as [(ad & _ & H) | (-> & H)]; [| auto].
  apply At in H. 2:{ unfold registered_by. destruct (perform (setup_action w env 0 CallStreamingAead) empty_registry) as (reg & [u | e]); reflexivity. }
  destruct H as [(reg & _ & H) | (-> & H)]; [| auto].
  apply At in H. 2:{ unfold read_text, read_bytes, next. destruct (content fs (cf_keyset_path f)) as [t |]; [| reflexivity]. destruct (utf8_decode t); reflexivity. }
  destruct H as [(text & _ & H) | (-> & H)]; [| auto].
  apply Lv in H. destruct H as [(h & H) | (-> & H)]; [| auto].
  apply Lv in H. destruct H as [(Q & H) | (-> & H)]; [| auto].
  apply At in H. 2:{ unfold read_bytes. destruct (content fs (cf_input_path f)); reflexivity. }
  destruct H as [(data & Ei & H) | (-> & H)]; [| auto].
  assert (Hi : content fs (cf_input_path f) <> None) by (intros E; unfold read_bytes in Ei; rewrite E in Ei; discriminate).
  destruct (may_write o (cf_output_path f)) eqn:Em.
  2:{ unfold next, truncate in H. rewrite Em in H. injection H as <- <-. left. eauto. }
  right. unfold truncate, next in H. rewrite Em in H. unfold read_bytes in H.
  destruct (content (store (cf_output_path f) [] fs) (cf_input_path f)); injection H as <- <-; (split; [reflexivity |]); (split; [exact Hi | intros z; discriminate]).
Qed.
Lemma decrypt_file_status : forall S (src : py_source S) X block n Q ad s z W, fills X [] (decrypt_file src block n Q ad s) (Ok z) W -> z = 0 \/ z = 1.
Proof.
  intros S src X block n Q ad s z W H. unfold decrypt_file in H.
  assert (G : forall y : result unit, match y with Ok _ => Ok 0 | Err ex => if is_tink_error ex then Ok 1 else Err ex end = Ok z -> z = 0 \/ z = 1).
  { intros [u | ex] E; [injection E as <-; auto |]. destruct (is_tink_error ex); [injection E as <-; auto | discriminate]. }
  destruct (open_decrypting_stream src n Q s ad) as [[b | x] |]; [| | inversion H].
  - apply fills_bind in H. destruct H as (y & W1 & _ & H). apply fills_ret in H. destruct H as (H & _). symmetry in H. apply G in H. exact H.
  - apply fills_ret in H. destruct H as (H & _). symmetry in H. apply (G (Err x)) in H. exact H.
Qed.

(** No run touches another file than the output file; it is touched only once the input
    file has been opened; and a run that leaves it alone has failed. *)
Theorem streaming_cli_effects : forall w env pb o n f fs run, streaming_aead_cli w env pb o n f fs = Some run ->
  (S_Cli.fails run fs \/ (content fs (cf_input_path f) <> None /\ exists W, changed_to (cf_output_path f) W fs (snd run))) /\
  (exit_status (fst run) = 0%Z \/ exit_status (fst run) = 1%Z).
Proof.
  intros w env pb o n f fs run H. unfold streaming_aead_cli in H. destruct (streaming_aead_start w env pb o f fs) as (x & fs') eqn:Es.
  destruct (start_cases _ _ _ _ _ _ _ _ Es) as [(-> & [(e & ->) | ->]) | (-> & Hi & Hx)].
  - apply some_inj in H. subst run. split; [left; split; [reflexivity | apply same_refl] | right; reflexivity].
  - apply some_inj in H. subst run. split; [left; split; [reflexivity | apply same_refl] | right; reflexivity].
  - destruct x as [[z | ((Q & ad) & data)] | e].
    + destruct (Hx z eq_refl).
    + destruct (run_on_file _ []) as [(x & W) |] eqn:E; [| discriminate]. apply some_inj in H. subst run.
      split; [right; split; [exact Hi |]; exists W; cbn [snd]; apply changed_store2 |]. cbn [fst].
      destruct (cf_mode f).
      * apply (run_on_file_fills _ never) in E. apply fills_bind in E. destruct E as (y & W1 & _ & E). apply fills_ret in E. destruct E as (-> & _).
        destruct (fst y); [left | right]; reflexivity.
      * apply (run_on_file_fills _ never) in E. destruct x as [z | e]; [| right; reflexivity]. cbn [exit_status]. exact (decrypt_file_status _ _ _ _ _ _ _ _ _ _ E).
    + apply some_inj in H. subst run. split; [right; split; [exact Hi |]; exists []; cbn [snd]; apply changed_store | right; reflexivity].
Qed.
