(** C87: the example programs and envelope encryption with symmetric keys of the C++ library. *)
From Coq Require Import Strings.Byte Strings.String List NArith ZArith Bool Lia.
From Verif Require Import M_Base M_Utf8 M_Proto M_Wire M_ProtoMsg M_KeyFormats M_Prims M_PrimitiveSet M_Registry M_KeysetHandle M_Wrappers M_Kms M_StreamTypes M_CcStream M_CcManagers
  M_Templates M_Json M_JsonKeyset M_KeysetStream M_Cli M_Walkthrough M_CcAes M_CcStreamKeys M_CcModes M_CcSymmetric M_CcSymKeys S_Keyset S_Wrappers S_Wire S_Kms S_Json S_JsonKeyset S_Handle S_Config S_CcLaws
  S_Cli S_Walkthrough S_CcAes S_CcStreamKeys S_CcModes S_CcSymmetric S_CcSymKeys S_CcSymHandles S_CcSymPrograms
  L_Base L_Keyset L_PrimitiveSet L_Cli5 L_CcSymHandles4 L_CcSymPrograms L_CcSymPrograms2 L_CcSymPrograms3
  X_Toy L_Toy X_Rt X_Config X_CliStream X_CcSymmetric X_CcSymKeys P_JsonKeyset P_Cli P_CcSymmetric P_CcSymKeys P_CcSymHandles.
Import ListNotations.
Open Scope string_scope.
Open Scope list_scope.
Open Scope nat_scope.

@thm C87_basic_programs sym_basic_programs
@thm C87_aead_cli sym_aead_cli
@thm C87_cleartext_cli sym_cleartext_cli
@thm C87_encrypted_cli sym_encrypted_cli
@thm C87_daead_cli sym_daead_cli
@thm C87_mac_cli sym_mac_cli
@thm C87_aead_rotation sym_files_rotation
@thm C87_daead_rotation sym_daead_files_rotation
@thm C87_mac_rotation sym_mac_files_rotation
@thm C87_cleartext_pipeline sym_cleartext_pipeline
@thm C87_encrypted_pipeline sym_encrypted_pipeline
@thm C87_walkthrough sym_walkthrough
@thm C87_envelope envelope_of_templates
@thm C87_envelope_handle sym_envelope_handle
@thm C87_envelope_cli sym_envelope_cli
@thm C87_gcs_cli sym_gcs_cli

(** The hypotheses are met: keyset files of the small library, *)
Lemma toy_ks_wf : forall n l, (n < 2 ^ 32)%N ->
  forallb (fun x => checked_key (fst x) && (k_key_id (fst x) <? 2 ^ 32)%N && Z.leb 0 (k_output_prefix_type (fst x)) && Z.leb (k_output_prefix_type (fst x)) 10
    && Z.eqb (k_status (fst x)) ENABLED && match k_key_data_opt (fst x) with Some _ => true | None => false end) l = true ->
  wf_keyset (toy_ks n l).
Proof.
  intros n l Hn H. split; [exact Hn |]. intros k Hk. cbn [toy_ks ks_key] in Hk. apply in_map_iff in Hk. destruct Hk as (x & <- & Hx).
  rewrite forallb_forall in H. specialize (H x Hx). rewrite !andb_true_iff in H. destruct H as (((((C & I) & P1) & P2) & St) & Sd).
  apply N.ltb_lt in I. apply Z.leb_le in P1, P2. apply Z.eqb_eq in St. split; [| split; [| split]].
  - intros d Hd. unfold checked_key, k_key_data in C. rewrite Hd in C. rewrite !andb_true_iff in C. destruct C as (((H1 & H2) & H3) & H4).
    split; [intros c Hc; left; rewrite forallb_forall in H1; apply N.ltb_lt, H1, Hc | split; [apply Z.leb_le, H3 | apply Z.ltb_lt, H4]].
  - rewrite St. unfold int32_range, ENABLED. lia.
  - exact I.
  - unfold int32_range. lia.
Qed.
Example C87_files_met : exists x y z,
  (forall fs path, content fs path = Some x -> holds_keyset toy_rt fs path (toy_ks 42 toy_aead_keys)) /\
  (forall fs path, content fs path = Some y -> holds_keyset toy_rt fs path (toy_ks 42 toy_daead_keys)) /\
  (forall fs path, content fs path = Some z -> holds_keyset toy_rt fs path (toy_ks 42 toy_mac_keys)).
Proof.
  assert (L : forall n l, (n < 2 ^ 32)%N -> wf_keyset (toy_ks n l) -> valid_keyset (toy_ks n l) ->
    exists x, forall fs path, content fs path = Some x -> holds_keyset toy_rt fs path (toy_ks n l)).
  { intros n l _ W V. destruct (written_keyset_holds toy_rt _ toy_limit W V) as (t & x & _ & _ & X). exists x. exact X. }
  destruct (L 42%N toy_aead_keys eq_refl) as (x & X); [apply toy_ks_wf; vm_compute; reflexivity | apply validate_keyset_ok; vm_compute; reflexivity |].
  destruct (L 42%N toy_daead_keys eq_refl) as (y & Y); [apply toy_ks_wf; vm_compute; reflexivity | apply validate_keyset_ok; vm_compute; reflexivity |].
  destruct (L 42%N toy_mac_keys eq_refl) as (z & Z); [apply toy_ks_wf; vm_compute; reflexivity | apply validate_keyset_ok; vm_compute; reflexivity |].
  exists x, y, z. auto.
Qed.
(** and a remote AEAD with a process whose registry has the package. *)
Definition toy_remote : aead :=
  mk_aead (fun _ x ad => if (N.of_nat (length x) <? 1024)%N then Ok (x07 :: x) else Err (TinkError "too long"))
    (fun c ad => match c with
                 | x07 :: x => if (N.of_nat (length x) <? 1024)%N then Ok x else Err (TinkError "too long")
                 | _ => Err (TinkError "no ciphertext")
                 end).
Definition envelope_client : kms_client := mk_kms_client 1%N (fun u => str_eqb u (ulit "kms://key")) (fun _ => Ok toy_remote).
Definition envelope_env : py_env := mk_py_env sym_registry 0%N [envelope_client] (pe_what stream_env) [x00] [x00] 30 toy_rt.
Definition envelope_registry : registry := fst (setup_run sym_toy_world envelope_env 0 sym_calls empty_registry).
Lemma envelope_configured : configured sym_toy_world envelope_env Aead envelope_registry.
Proof.
  exists sym_calls, (snd (setup_run sym_toy_world envelope_env 0 sym_calls empty_registry)), CallAead. split; [| split; [cbn; tauto | reflexivity]].
  split; [unfold envelope_registry; destruct (setup_run _ _ _ _ _); reflexivity |].
  split; [| intros c [<- | [<- | [<- | [<- | []]]]]; exact I].
  intros c q Hc Hq. apply (sym_world_ready _ _ _ _ toy_sym_world).
  destruct Hc as [<- | [<- | [<- | [<- | []]]]]; cbn in Hq; subst q; cbn; tauto.
Qed.
Example C87_envelope_met :
  configured sym_toy_world stream_env Aead (pe_registry envelope_env) /\ configured sym_toy_world envelope_env Aead envelope_registry /\
  Forall (fun x => match snd x with Ok t => usable_envelope_uri (ulit "kms://key") t | Err _ => False end) aead_templates /\
  kms_gives (pe_clients envelope_env) (ulit "kms://key") (Ok toy_remote) /\
  (forall edek x, aead_decrypt toy_remote edek [] = Ok x -> (N.of_nat (length x) < 2 ^ 30)%N) /\
  (forall edek, tink_total (aead_decrypt toy_remote edek [])) /\ kms_round_trip toy_remote /\
  (forall r x, (N.of_nat (length x) < 1024)%N -> exists edek, aead_encrypt toy_remote r x [] = Ok edek /\ (N.of_nat (length edek) < 2 ^ 32)%N).
Proof.
  split; [apply sym_configured; cbn; tauto |]. split; [exact envelope_configured |]. split; [| split; [| split; [| split; [| split]]]].
  - assert (L : forall t, (N.of_nat (length (serialize_kek (mk_kms_envelope_aead_key 0 (Some (mk_kms_envelope_aead_key_format (ulit "kms://key") (Some t)))))) <? 2 ^ 31)%N = true ->
      usable_envelope_uri (ulit "kms://key") t).
    { intros t H. split; [| apply N.ltb_lt, H]. assert (V : forallb (fun c => (c <? 55296)%N) (ulit "kms://key") = true) by (vm_compute; reflexivity).
      intros c Hc. left. rewrite forallb_forall in V. apply N.ltb_lt, V, Hc. }
    unfold aead_templates. repeat apply Forall_cons; try apply Forall_nil; cbn [snd];
      match goal with |- match ?x with _ => _ end => let y := eval vm_compute in x in change x with y; cbn iota end;
      apply L; vm_compute; reflexivity.
  - exists envelope_client. split; [| reflexivity]. exists [], []. cbn. intuition.
  - intros edek x H. cbn [toy_remote aead_decrypt] in H. destruct edek as [| c e]; [discriminate |].
    destruct c; try discriminate. destruct (N.of_nat (length e) <? 1024)%N eqn:B; [| discriminate]. injection H as <-.
    apply N.ltb_lt in B. change (2 ^ 30)%N with 1073741824%N. lia.
  - intros edek. cbn [toy_remote aead_decrypt]. destruct edek as [| c e]; [exact eq_refl |].
    destruct c; try exact eq_refl. destruct (_ <? _)%N; exact eq_refl || exact I.
  - intros r m c H. cbn [toy_remote aead_encrypt aead_decrypt] in *. destruct (N.of_nat (length m) <? 1024)%N eqn:B; [| discriminate].
    injection H as <-. rewrite B. reflexivity.
  - intros r x H. cbn [toy_remote aead_encrypt]. apply N.ltb_lt in H. rewrite H. eexists. split; [reflexivity |].
    apply N.ltb_lt in H. cbn [length]. change (2 ^ 32)%N with 4294967296%N. lia.
Qed.
(** A run: a file encrypted and decrypted with envelope encryption. *)
Definition env_flags (mode : crypt_mode) (input output : string) : crypt_flags := mk_crypt_flags mode (p "") (p input) (p output) (Some (p "ad")).
Definition env_run (mode : crypt_mode) (input output : string) : io Z :=
  envelope_cli sym_toy_world envelope_env everywhere (Ok toy_remote) 0%N 5%N (env_flags mode input output).
Definition env_disk : files := snd (env_run Encrypt "plain" "cipher" [(p "plain", blit "hello")]).
Example C87_envelope_runs :
  exited (fst (env_run Encrypt "plain" "cipher" [(p "plain", blit "hello")])) 0 &&
  same_bytes (content (snd (env_run Decrypt "cipher" "back" env_disk)) (p "back")) (Some (blit "hello")) &&
  same_bytes (option_map (firstn 5) (content env_disk (p "cipher"))) (Some [x00; x00; x00; x23; x07]) &&
  exited (fst (env_run Decrypt "plain" "back" env_disk)) 1 = true.
Proof. vm_compute. reflexivity. Qed.
