(** C86: AEAD, deterministic AEAD, MAC and PRF as users of Python see them. *)
From Coq Require Import Strings.Byte Strings.String List NArith ZArith Bool Lia.
From Verif Require Import M_Base M_Utf8 M_Proto M_Wire M_ProtoMsg M_KeyFormats M_Prims M_PrimitiveSet M_Registry M_KeysetHandle M_Wrappers M_StreamTypes M_CcStream M_CcManagers
  M_Templates M_CcAes M_CcStreamKeys M_CcModes M_CcSymmetric M_CcSymKeys S_Keyset S_Wrappers S_Wire S_Config S_CcLaws S_CcAes S_CcStreamKeys S_CcModes S_CcSymmetric
  S_CcSymKeys S_CcSymHandles L_Base L_Keyset L_PrimitiveSet L_CcSymHandles L_CcSymHandles2 L_CcSymHandles3 L_CcSymHandles4
  X_Toy L_Toy X_Config X_CliStream X_CcSymmetric X_CcSymKeys P_Cli P_CcSymmetric P_CcSymKeys.
Import ListNotations.
Open Scope string_scope.
Open Scope list_scope.
Open Scope nat_scope.

@thm C86_set_up sym_world_ready
@thm C86_aead aead_handle_works
@thm C86_daead daead_handle_works
@thm C86_mac mac_handle_works
@thm C86_prf prf_handle_works
@thm C86_aead_carries_over aead_carries_over
@thm C86_aead_rotation sym_aead_rotation
@thm C86_daead_carries_over daead_carries_over
@thm C86_daead_rotation sym_daead_rotation
@thm C86_mac_rotation sym_mac_rotation
@thm C86_aead_sizes aead_ciphertext_length
@thm C86_daead_sizes daead_ciphertext_length
@thm C86_format_determines asks_alike
@thm C86_new_aead_handle new_aead_handle
@thm C86_new_daead_handle new_daead_handle
@thm C86_new_mac_handle new_mac_handle
@thm C86_new_prf_handle new_prf_handle

(** The hypotheses are met by the small library and its keysets. *)
Lemma toy_sym_world : sym_world sym_toy toy_draw sym_toy_world.
Proof. split; [reflexivity |]. repeat apply conj; intros url m H; exact H. Qed.
Definition sym_calls : list setup_call := [CallAead; CallDaead; CallMac; CallPrf].
Definition sym_registry : registry := fst (setup_run sym_toy_world stream_env 0 sym_calls empty_registry).
Lemma sym_configured : forall p, In p [Aead; Daead; Mac; Prf] -> configured sym_toy_world stream_env p sym_registry.
Proof.
  intros p Hp.
  assert (R : reached sym_toy_world stream_env sym_calls sym_registry (snd (setup_run sym_toy_world stream_env 0 sym_calls empty_registry))).
  { split; [unfold sym_registry; destruct (setup_run _ _ _ _ _); reflexivity |].
    split; [| intros c [<- | [<- | [<- | [<- | []]]]]; exact I].
    intros c q Hc Hq. apply (sym_world_ready _ _ _ _ toy_sym_world).
    destruct Hc as [<- | [<- | [<- | [<- | []]]]]; cbn in Hq; subst q; cbn; tauto. }
  destruct Hp as [<- | [<- | [<- | [<- | []]]]];
    [exists sym_calls, (snd (setup_run sym_toy_world stream_env 0 sym_calls empty_registry)), CallAead |
     exists sym_calls, (snd (setup_run sym_toy_world stream_env 0 sym_calls empty_registry)), CallDaead |
     exists sym_calls, (snd (setup_run sym_toy_world stream_env 0 sym_calls empty_registry)), CallMac |
     exists sym_calls, (snd (setup_run sym_toy_world stream_env 0 sym_calls empty_registry)), CallPrf];
    (split; [exact R |]); (split; [cbn; tauto | reflexivity]).
Qed.
Lemma toy_key_ok : forall k id prefix, In k toy_keys -> checked_key (sym_k k id prefix) = true ->
  (prefix = RAW \/ ((prefix = TINK \/ prefix = LEGACY \/ prefix = CRUNCHY) /\ (id < 2 ^ 32)%N)) ->
  wf_key_data (sym_data k) /\ proto_size (serialize_key_data (sym_data k)) /\ is_key (sym_data k) k /\ usable k /\
  exists p, has_prefix prefix id p.
Proof.
  intros k id prefix Hk H Hp. unfold checked_key in H. rewrite !andb_true_iff in H. destruct H as (((H1 & H2) & H3) & H4).
  pose proof C85_hypotheses_met as F. rewrite Forall_forall in F. destruct (F k Hk) as (K & U).
  split; [split; [intros x Hx; left; rewrite forallb_forall in H1; apply N.ltb_lt, H1, Hx | split; [apply Z.leb_le, H3 | apply Z.ltb_lt, H4]] |].
  split; [apply N.ltb_lt, H2 |]. split; [exact K |]. split; [exact U |]. apply has_prefix_exists. exact Hp.
Qed.
Ltac toy_key := match goal with |- context [sym_k ?k ?id ?p] =>
    let H := fresh in
    pose proof (toy_key_ok k id p ltac:(cbn; tauto) ltac:(vm_compute; reflexivity) ltac:(cbn; intuition (reflexivity || discriminate))) as H;
    destruct H as (A & B & C & D & E); do 3 (split; [assumption |]); split; [reflexivity |]; split; assumption end.
Ltac toy_keyset := split; [apply validate_keyset_ok; vm_compute; reflexivity |]; split; [reflexivity |];
  repeat apply Forall_cons; try apply Forall_nil; cbn [fst snd]; toy_key.
Example C86_hypotheses_met :
  sym_world sym_toy toy_draw sym_toy_world /\ crypto_laws sym_toy /\ random_law toy_draw /\
  (forall p, In p [Aead; Daead; Mac; Prf] -> configured sym_toy_world stream_env p sym_registry) /\
  sym_keyset for_aead (toy_ks 42 toy_aead_keys) toy_aead_keys /\ sym_keyset for_aead (toy_ks 43 toy_aead_keys) toy_aead_keys /\
  sym_keyset for_daead (toy_ks 42 toy_daead_keys) toy_daead_keys /\ sym_keyset for_mac (toy_ks 42 toy_mac_keys) toy_mac_keys /\
  sym_keyset for_prf (toy_ks 43 toy_prf_keys) toy_prf_keys /\ Forall (fun x => k_output_prefix_type (fst x) = RAW) toy_prf_keys /\
  is_primary (toy_ks 42 toy_aead_keys) toy_aead_keys (sym_k toy_eax 42 TINK) toy_eax /\
  tells_apart (sym_k toy_eax 42 TINK) toy_eax toy_aead_keys.
Proof.
  split; [exact toy_sym_world |]. split; [exact sym_toy_laws |]. split; [exact C85_random_law_met |]. split; [exact sym_configured |].
  split; [toy_keyset |]. split; [toy_keyset |]. split; [toy_keyset |]. split; [toy_keyset |]. split; [toy_keyset |].
  split; [repeat constructor |]. split; [split; [left; reflexivity | reflexivity] |]. split; [discriminate |].
  intros k' sk' [E | [E | [E | []]]]; injection E as <- <-; (split; [discriminate |]); (reflexivity || discriminate).
Qed.
(** A run: encrypted under the first keyset, decrypted after another key became the primary
    key; tags and PRF outputs. *)
Definition aead_of (primary : N) : option aead :=
  match handle_primitive sym_registry (mk_handle (toy_ks primary toy_aead_keys)) ClsAead with Ok (PrimAead a) => Some a | _ => None end.
Definition is_ok (x : result bytes) (y : bytes) : bool := match x with Ok z => bytes_eqb z y | Err _ => false end.
Definition is_err {A} (x : result A) : bool := match x with Ok _ => false | Err _ => true end.
Definition moves (from to : N) : bool :=
  match aead_of from, aead_of to with
  | Some a, Some b =>
      match aead_encrypt a 5%N (blit "hello") (blit "ad") with
      | Ok C => is_ok (aead_decrypt b C (blit "ad")) (blit "hello") && is_err (aead_decrypt b C (blit "da")) && is_err (aead_decrypt b (x00 :: C) (blit "ad"))
      | Err _ => false
      end
  | _, _ => false
  end.
Example C86_aead_runs : moves 42 43 && moves 43 44 && moves 44 42 = true.
Proof. vm_compute. reflexivity. Qed.
Definition tags : bool :=
  match handle_primitive sym_registry (mk_handle (toy_ks 42 toy_mac_keys)) ClsMac with
  | Ok (PrimMac a) =>
      match mac_compute a (blit "data") with
      | Ok T => match mac_verify a T (blit "data") with Ok _ => true | Err _ => false end && is_err (mac_verify a T (blit "date")) && Nat.eqb (length T) 25
      | Err _ => false
      end
  | _ => false
  end.
Example C86_mac_runs : tags = true.
Proof. vm_compute. reflexivity. Qed.
Definition outputs : bool :=
  match handle_primitive sym_registry (mk_handle (toy_ks 42 toy_prf_keys)) ClsPrfSet with
  | Ok (PrimPrfSet pid all (Ok (PrimPrf f))) =>
      match prf_compute f (blit "data") 28, prf_compute f (blit "data") 10 with
      | Ok y, Ok z => Nat.eqb (length y) 28 && bytes_eqb (firstn 10 y) z && is_err (prf_compute f (blit "data") 29) && Nat.eqb (length all) 2
      | _, _ => false
      end
  | _ => false
  end.
Example C86_prf_runs : outputs = true.
Proof. vm_compute. reflexivity. Qed.
(** Some templates, AES128_EAX and AES128_GCM_RAW among them. *)
Definition template_runs (x : string * result key_template) : bool :=
  match snd x with
  | Ok t =>
      match generate_new sym_registry 9%N [77%N] t with
      | Some (Ok h) =>
          match handle_primitive sym_registry h ClsAead with
          | Ok (PrimAead a) =>
              match aead_encrypt a 5%N (blit "hello") (blit "ad") with Ok C => is_ok (aead_decrypt a C (blit "ad")) (blit "hello") | Err _ => false end
          | _ => false
          end
      | _ => false
      end
  | Err _ => false
  end.
Example C86_templates_run : forallb template_runs (firstn 1 aead_templates ++ firstn 2 (skipn 5 aead_templates)) = true.
Proof. vm_compute. reflexivity. Qed.
