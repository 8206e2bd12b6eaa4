(** C87: the example programs and envelope encryption with symmetric keys of the C++ library. *)
From Coq Require Import Strings.Byte Strings.String List NArith ZArith Bool Lia.
From Verif Require Import M_Base M_Utf8 M_Proto M_Wire M_ProtoMsg M_KeyFormats M_Prims M_PrimitiveSet M_Registry M_KeysetHandle M_Wrappers M_Kms M_StreamTypes M_CcStream M_CcManagers
  M_Templates M_Json M_JsonKeyset M_KeysetStream M_Cli M_Walkthrough M_CcAes M_CcStreamKeys M_CcModes M_CcSymmetric M_CcSymKeys S_Keyset S_Wrappers S_Wire S_Kms S_Json S_JsonKeyset S_Handle S_Config S_CcLaws
  S_Cli S_Walkthrough S_CcAes S_CcStreamKeys S_CcModes S_CcSymmetric S_CcSymKeys S_CcSymHandles S_CcSymPrograms
  L_Base L_Keyset L_PrimitiveSet L_Cli5 L_CcSymHandles4 L_CcSymPrograms L_CcSymPrograms2 L_CcSymPrograms3
  X_Toy L_Toy X_Rt X_Config X_CliStream X_CcSymmetric X_CcSymKeys P_JsonKeyset P_Cli P_CcSymmetric P_CcSymKeys P_CcSymHandles.
Import ListNotations.
Open Scope string_scope.
Open Scope list_scope.
Open Scope nat_scope.

Theorem C87_basic_programs : forall lib random w env pb l r xs, sym_world lib random w -> crypto_laws lib -> random_law random ->
  reached w env l r xs -> python_digit_limit (pe_rt env) ->
  (forall rnd, snd (aead_basic w env pb (N.of_nat (length l)) r rnd) = Ok tt) /\
  snd (deterministic_aead_basic w env pb (N.of_nat (length l)) r) = Ok tt /\
  snd (mac_basic w env pb (N.of_nat (length l)) r) = Ok tt.
Proof. exact sym_basic_programs. Qed.
Print Assumptions C87_basic_programs.
Theorem C87_aead_cli : forall lib random w env pb o rnd f fs ks l ad data, sym_world lib random w -> crypto_laws lib -> random_law random ->
  holds_keyset (pe_rt env) fs (cf_keyset_path f) ks -> sym_keyset for_aead ks l ->
  flag_is (cf_associated_data f) ad -> content fs (cf_input_path f) = Some data -> may_write o (cf_output_path f) = true ->
  crypts_file lib random ks l (cf_mode f) rnd data ad (aead_cli w env pb o rnd f fs) (cf_output_path f) fs.
Proof. exact sym_aead_cli. Qed.
Print Assumptions C87_aead_cli.
Theorem C87_cleartext_cli : forall lib random w env pb o rnd f fs ks l data, sym_world lib random w -> crypto_laws lib -> random_law random ->
  holds_keyset (pe_rt env) fs (cf_keyset_path f) ks -> sym_keyset for_aead ks l ->
  content fs (cf_input_path f) = Some data -> may_write o (cf_output_path f) = true ->
  crypts_file lib random ks l (cf_mode f) rnd data (blit "envelope_example") (cleartext_keyset_crypt w env pb o rnd f fs) (cf_output_path f) fs.
Proof. exact sym_cleartext_cli. Qed.
Print Assumptions C87_cleartext_cli.
Theorem C87_encrypted_cli : forall lib random w env pb o a keyset_ad rnd f fs ks l ad data, sym_world lib random w -> crypto_laws lib -> random_law random ->
  holds_encrypted_keyset (pe_rt env) fs (cf_keyset_path f) a keyset_ad ks -> sym_keyset for_aead ks l ->
  flag_is (cf_associated_data f) ad -> content fs (cf_input_path f) = Some data -> may_write o (cf_output_path f) = true ->
  crypts_file lib random ks l (cf_mode f) rnd data ad (encrypted_keyset_crypt w env pb o (Ok a) keyset_ad rnd f fs) (cf_output_path f) fs.
Proof. exact sym_encrypted_cli. Qed.
Print Assumptions C87_encrypted_cli.
Theorem C87_daead_cli : forall lib random w env pb o f fs ks l ad data, sym_world lib random w -> crypto_laws lib ->
  holds_keyset (pe_rt env) fs (cf_keyset_path f) ks -> sym_keyset for_daead ks l ->
  flag_is (cf_associated_data f) ad -> content fs (cf_input_path f) = Some data -> may_write o (cf_output_path f) = true ->
  daead_crypts_file lib ks l (cf_mode f) data ad (deterministic_aead_cli w env pb o f fs) (cf_output_path f) fs.
Proof. exact sym_daead_cli. Qed.
Print Assumptions C87_daead_cli.
Theorem C87_mac_cli : forall lib random w env pb o f fs ks l data, sym_world lib random w -> crypto_laws lib ->
  holds_keyset (pe_rt env) fs (tf_keyset_path f) ks -> sym_keyset for_mac ks l -> content fs (tf_data_path f) = Some data ->
  (tf_mode f = Produce -> may_write o (tf_tag_path f) = true ->
   writes_tag lib ks l data (mac_cli w env pb o f fs) (tf_tag_path f) fs) /\
  (tf_mode f = Verify -> forall x, content fs (tf_tag_path f) = Some x ->
   decides (mac_cli w env pb o f fs) (exists T, tag_text T x /\ tag_of lib l T data) fs).
Proof. exact sym_mac_cli. Qed.
Print Assumptions C87_mac_cli.
Theorem C87_aead_rotation : forall lib random w env pb o rnd f fs ks l ad data k sk w2 env2 pb2 o2 random2, sym_world lib random w -> crypto_laws lib -> random_law random ->
  holds_keyset (pe_rt env) fs (cf_keyset_path f) ks -> sym_keyset for_aead ks l -> is_primary ks l k sk -> admits sk data ad ->
  cf_mode f = Encrypt -> flag_is (cf_associated_data f) ad -> content fs (cf_input_path f) = Some data -> may_write o (cf_output_path f) = true ->
  sym_world lib random2 w2 -> random_law random2 ->
  fst (aead_cli w env pb o rnd f fs) = Ok 0%Z /\
  forall rnd2 g fs2 ks2 l2 k2, cf_mode g = Decrypt -> holds_keyset (pe_rt env2) fs2 (cf_keyset_path g) ks2 -> sym_keyset for_aead ks2 l2 ->
    In (k2, sk) l2 -> k_key_id k2 = k_key_id k -> k_output_prefix_type k2 = k_output_prefix_type k -> tells_apart k2 sk l2 ->
    flag_is (cf_associated_data g) ad ->
    content fs2 (cf_input_path g) = content (snd (aead_cli w env pb o rnd f fs)) (cf_output_path f) ->
    may_write o2 (cf_output_path g) = true ->
    writes (aead_cli w2 env2 pb2 o2 rnd2 g fs2) (cf_output_path g) data fs2.
Proof. exact sym_files_rotation. Qed.
Print Assumptions C87_aead_rotation.
Theorem C87_daead_rotation : forall lib random w env pb o f fs ks l ad data k sk w2 env2 pb2 o2 random2, sym_world lib random w -> crypto_laws lib ->
  holds_keyset (pe_rt env) fs (cf_keyset_path f) ks -> sym_keyset for_daead ks l -> is_primary ks l k sk ->
  cf_mode f = Encrypt -> flag_is (cf_associated_data f) ad -> content fs (cf_input_path f) = Some data -> may_write o (cf_output_path f) = true ->
  sym_world lib random2 w2 ->
  fst (deterministic_aead_cli w env pb o f fs) = Ok 0%Z /\
  forall g fs2 ks2 l2 k2, cf_mode g = Decrypt -> holds_keyset (pe_rt env2) fs2 (cf_keyset_path g) ks2 -> sym_keyset for_daead ks2 l2 ->
    In (k2, sk) l2 -> k_key_id k2 = k_key_id k -> k_output_prefix_type k2 = k_output_prefix_type k -> tells_apart k2 sk l2 ->
    flag_is (cf_associated_data g) ad ->
    content fs2 (cf_input_path g) = content (snd (deterministic_aead_cli w env pb o f fs)) (cf_output_path f) ->
    may_write o2 (cf_output_path g) = true ->
    writes (deterministic_aead_cli w2 env2 pb2 o2 g fs2) (cf_output_path g) data fs2.
Proof. exact sym_daead_files_rotation. Qed.
Print Assumptions C87_daead_rotation.
Theorem C87_mac_rotation : forall lib random w env pb o f fs ks l data k sk w2 env2 pb2 o2 random2, sym_world lib random w -> crypto_laws lib ->
  holds_keyset (pe_rt env) fs (tf_keyset_path f) ks -> sym_keyset for_mac ks l -> is_primary ks l k sk ->
  tf_mode f = Produce -> content fs (tf_data_path f) = Some data -> may_write o (tf_tag_path f) = true ->
  sym_world lib random2 w2 ->
  fst (mac_cli w env pb o f fs) = Ok 0%Z /\
  forall g fs2 ks2 l2 k2, tf_mode g = Verify -> holds_keyset (pe_rt env2) fs2 (tf_keyset_path g) ks2 -> sym_keyset for_mac ks2 l2 ->
    In (k2, sk) l2 -> k_key_id k2 = k_key_id k -> k_output_prefix_type k2 = k_output_prefix_type k ->
    content fs2 (tf_data_path g) = Some data ->
    content fs2 (tf_tag_path g) = content (snd (mac_cli w env pb o f fs)) (tf_tag_path f) ->
    fst (mac_cli w2 env2 pb2 o2 g fs2) = Ok 0%Z.
Proof. exact sym_mac_files_rotation. Qed.
Print Assumptions C87_mac_rotation.
Theorem C87_cleartext_pipeline : forall lib random w env pb o rnd0 raw draws path, sym_world lib random w -> crypto_laws lib -> random_law random ->
  python_digit_limit (pe_rt env) -> may_write o path = true ->
  exists generate ks, cleartext_keyset_generate w env o rnd0 (raw :: draws) path = Some generate /\ made_keyset random rnd0 raw ks /\
  forall fs0, fst (generate fs0) = Ok 0%Z /\ holds_keyset (pe_rt env) (snd (generate fs0)) path ks /\
  forall rnd f fs data, cf_mode f = Encrypt ->
    content fs (cf_keyset_path f) = content (snd (generate fs0)) path ->
    content fs (cf_input_path f) = Some data -> may_write o (cf_output_path f) = true ->
    aead_sizes data (blit "envelope_example") ->
    fst (cleartext_keyset_crypt w env pb o rnd f fs) = Ok 0%Z /\
    forall rnd' g fs', cf_mode g = Decrypt ->
      content fs' (cf_keyset_path g) = content (snd (generate fs0)) path ->
      content fs' (cf_input_path g) = content (snd (cleartext_keyset_crypt w env pb o rnd f fs)) (cf_output_path f) ->
      may_write o (cf_output_path g) = true ->
      writes (cleartext_keyset_crypt w env pb o rnd' g fs') (cf_output_path g) data fs'.
Proof. exact sym_cleartext_pipeline. Qed.
Print Assumptions C87_cleartext_pipeline.
Theorem C87_encrypted_pipeline : forall lib random w env pb o a keyset_ad rnd0 rnd1 raw draws path, sym_world lib random w -> crypto_laws lib -> random_law random ->
  python_digit_limit (pe_rt env) -> may_write o path = true ->
  (forall pt, exists ct, aead_encrypt a rnd1 pt keyset_ad = Ok ct /\ ct <> [] /\ aead_decrypt a ct keyset_ad = Ok pt) ->
  exists generate ks, encrypted_keyset_generate w env o (Ok a) keyset_ad rnd0 rnd1 (raw :: draws) path = Some generate /\ made_keyset random rnd0 raw ks /\
  forall fs0, fst (generate fs0) = Ok 0%Z /\ holds_encrypted_keyset (pe_rt env) (snd (generate fs0)) path a keyset_ad ks /\
  forall rnd f fs ad data, cf_mode f = Encrypt ->
    content fs (cf_keyset_path f) = content (snd (generate fs0)) path -> flag_is (cf_associated_data f) ad ->
    content fs (cf_input_path f) = Some data -> may_write o (cf_output_path f) = true ->
    aead_sizes data ad ->
    fst (encrypted_keyset_crypt w env pb o (Ok a) keyset_ad rnd f fs) = Ok 0%Z /\
    forall rnd' g fs', cf_mode g = Decrypt ->
      content fs' (cf_keyset_path g) = content (snd (generate fs0)) path -> flag_is (cf_associated_data g) ad ->
      content fs' (cf_input_path g) = content (snd (encrypted_keyset_crypt w env pb o (Ok a) keyset_ad rnd f fs)) (cf_output_path f) ->
      may_write o (cf_output_path g) = true ->
      writes (encrypted_keyset_crypt w env pb o (Ok a) keyset_ad rnd' g fs') (cf_output_path g) data fs'.
Proof. exact sym_encrypted_pipeline. Qed.
Print Assumptions C87_encrypted_pipeline.
Theorem C87_walkthrough : forall lib random1 w1 env1 reg1 random2 w2 env2 reg2 random3 w3 env3 reg3 rt pb uri ad
  rnd raw draws rnd1 rnd1' raw1 draws1 remote1 st rnd2 raw2 draws2 remote2 rnd3 raw3 draws3 remote3 pt pad rndE,
  crypto_laws lib ->
  sym_world lib random1 w1 -> random_law random1 -> configured w1 env1 Aead reg1 ->
  sym_world lib random2 w2 -> random_law random2 -> configured w2 env2 Aead reg2 ->
  sym_world lib random3 w3 -> random_law random3 -> configured w3 env3 Aead reg3 ->
  usable_uri uri -> python_digit_limit rt -> aead_sizes pt pad ->
  kms_gives (pe_clients env1) uri (Ok remote1) -> kms_gives (pe_clients env2) uri (Ok remote2) -> kms_gives (pe_clients env3) uri (Ok remote3) ->
  (forall x, exists ct, aead_encrypt remote1 rnd1' x ad = Ok ct /\ ct <> [] /\
     aead_decrypt remote1 ct ad = Ok x /\ aead_decrypt remote2 ct ad = Ok x /\ aead_decrypt remote3 ct ad = Ok x) ->
  exists h t ct', CreateAead128GcmKeyset reg1 rnd (raw :: draws) = Some (Ok h) /\ made_keyset random1 rnd raw (kh_keyset h) /\
    WriteEncryptedKeyset reg1 rt rnd1 rnd1' (raw1 :: draws1) h memory_stream uri ad st = Some (Ok tt, st ++ t) /\
    LoadEncryptedKeyset reg2 rt pb rnd2 (raw2 :: draws2) t uri ad = Some (Ok h) /\
    AeadEncrypt reg2 h rndE pt pad = Ok ct' /\
    LoadEncryptedKeyset reg3 rt pb rnd3 (raw3 :: draws3) t uri ad = Some (Ok h) /\
    AeadDecrypt reg3 h ct' pad = Ok pt.
Proof. exact sym_walkthrough. Qed.
Print Assumptions C87_walkthrough.
Theorem C87_envelope : forall lib random w env r name t r0 remote, sym_world lib random w -> crypto_laws lib -> random_law random ->
  configured w env Aead r -> In (name, Ok t) aead_templates ->
  exists e, new_kms_envelope_aead r r0 t remote = Ok e /\ envelope_works lib random t remote e.
Proof. exact envelope_of_templates. Qed.
Print Assumptions C87_envelope.
Theorem C87_envelope_handle : forall lib random w env env' reg name t rnd raw draws uri, sym_world lib random w -> crypto_laws lib -> random_law random ->
  configured w env Aead reg -> configured w env' Aead (pe_registry env) -> In (name, Ok t) aead_templates -> usable_envelope_uri uri t ->
  exists h, new_keyset_handle reg rnd (raw :: draws) (create_kms_envelope_aead_key_template uri t) = Some (Ok h) /\
    (forall remote, kms_gives (pe_clients env) uri (Ok remote) ->
       exists a e, handle_primitive reg h ClsAead = Ok (PrimAead a) /\ stands_for a e /\ envelope_works lib random t remote e) /\
    (forall x, kms_gives (pe_clients env) uri (Err x) -> handle_primitive reg h ClsAead = Err x) /\
    (no_kms (pe_clients env) uri -> raises_tink (handle_primitive reg h ClsAead)).
Proof. exact sym_envelope_handle. Qed.
Print Assumptions C87_envelope_handle.
Theorem C87_envelope_cli : forall lib random w env o remote t, sym_world lib random w -> crypto_laws lib -> random_law random ->
  create_aes_gcm 32 TINK = Ok t ->
  exists e, envelope_works lib random t remote e /\
  forall r0 rnd f fs ad data, flag_is (cf_associated_data f) ad -> content fs (cf_input_path f) = Some data -> may_write o (cf_output_path f) = true ->
    stores (envelope_cli w env o (Ok remote) r0 rnd f fs) (cf_output_path f)
      (match cf_mode f with Encrypt => aead_encrypt e rnd data ad | Decrypt => aead_decrypt e data ad end) fs.
Proof. exact sym_envelope_cli. Qed.
Print Assumptions C87_envelope_cli.
Theorem C87_gcs_cli : forall lib random w env o remote t, sym_world lib random w -> crypto_laws lib -> random_law random ->
  create_aes_gcm 32 TINK = Ok t ->
  exists e, envelope_works lib random t remote e /\
  forall r0 rnd local path ad b n bs fs, blob_path path b n -> utf8_encode path = Some ad ->
    (forall data, content fs local = Some data ->
       let '(x, fs', bs') := gcs_envelope_cli w env o (Ok remote) (Ok tt) r0 rnd Encrypt local path bs fs in
       fs' = fs /\ match aead_encrypt e rnd data ad with
                   | Ok C => x = Ok 0%Z /\ uploaded b n C bs bs'
                   | Err _ => exit_status x = 1%Z /\ bs' = bs
                   end) /\
    (forall C, blob bs b n = Some C -> may_write o local = true ->
       let '(x, fs', bs') := gcs_envelope_cli w env o (Ok remote) (Ok tt) r0 rnd Decrypt local path bs fs in
       bs' = bs /\ stores_or_empties (x, fs') local (aead_decrypt e C ad) fs).
Proof. exact sym_gcs_cli. Qed.
Print Assumptions C87_gcs_cli.

(** The hypotheses are met: keyset files of the small library, *)
Lemma toy_ks_wf : forall n l, (n < 2 ^ 32)%N ->
  forallb (fun x => checked_key (fst x) && (k_key_id (fst x) <? 2 ^ 32)%N && Z.leb 0 (k_output_prefix_type (fst x)) && Z.leb (k_output_prefix_type (fst x)) 10
    && Z.eqb (k_status (fst x)) ENABLED && match k_key_data_opt (fst x) with Some _ => true | None => false end) l = true ->
  wf_keyset (toy_ks n l).
Proof.
  intros n l Hn H. split; [exact Hn |]. intros k Hk. cbn [toy_ks ks_key] in Hk. apply in_map_iff in Hk. destruct Hk as (x & <- & Hx).
  rewrite forallb_forall in H. specialize (H x Hx). rewrite !andb_true_iff in H. destruct H as (((((C & I) & P1) & P2) & St) & Sd).
  apply N.ltb_lt in I. apply Z.leb_le in P1, P2. apply Z.eqb_eq in St. split; [| split; [| split]].
  - intros d Hd. unfold checked_key, k_key_data in C. rewrite Hd in C. rewrite !andb_true_iff in C. destruct C as (((H1 & H2) & H3) & H4).
    split; [intros c Hc; left; rewrite forallb_forall in H1; apply N.ltb_lt, H1, Hc | split; [apply Z.leb_le, H3 | apply Z.ltb_lt, H4]].
  - rewrite St. unfold int32_range, ENABLED. lia.
  - exact I.
  - unfold int32_range. lia.
Qed.
Example C87_files_met : exists x y z,
  (forall fs path, content fs path = Some x -> holds_keyset toy_rt fs path (toy_ks 42 toy_aead_keys)) /\
  (forall fs path, content fs path = Some y -> holds_keyset toy_rt fs path (toy_ks 42 toy_daead_keys)) /\
  (forall fs path, content fs path = Some z -> holds_keyset toy_rt fs path (toy_ks 42 toy_mac_keys)).
Proof.
  assert (L : forall n l, (n < 2 ^ 32)%N -> wf_keyset (toy_ks n l) -> valid_keyset (toy_ks n l) ->
    exists x, forall fs path, content fs path = Some x -> holds_keyset toy_rt fs path (toy_ks n l)).
  { intros n l _ W V. destruct (written_keyset_holds toy_rt _ toy_limit W V) as (t & x & _ & _ & X). exists x. exact X. }
  destruct (L 42%N toy_aead_keys eq_refl) as (x & X); [apply toy_ks_wf; vm_compute; reflexivity | apply validate_keyset_ok; vm_compute; reflexivity |].
  destruct (L 42%N toy_daead_keys eq_refl) as (y & Y); [apply toy_ks_wf; vm_compute; reflexivity | apply validate_keyset_ok; vm_compute; reflexivity |].
  destruct (L 42%N toy_mac_keys eq_refl) as (z & Z); [apply toy_ks_wf; vm_compute; reflexivity | apply validate_keyset_ok; vm_compute; reflexivity |].
  exists x, y, z. auto.
Qed.
(** and a remote AEAD with a process whose registry has the package. *)
Definition toy_remote : aead :=
  mk_aead (fun _ x ad => if (N.of_nat (length x) <? 1024)%N then Ok (x07 :: x) else Err (TinkError "too long"))
    (fun c ad => match c with
                 | x07 :: x => if (N.of_nat (length x) <? 1024)%N then Ok x else Err (TinkError "too long")
                 | _ => Err (TinkError "no ciphertext")
                 end).
Definition envelope_client : kms_client := mk_kms_client 1%N (fun u => str_eqb u (ulit "kms://key")) (fun _ => Ok toy_remote).
Definition envelope_env : py_env := mk_py_env sym_registry 0%N [envelope_client] (pe_what stream_env) [x00] [x00] 30 toy_rt.
Definition envelope_registry : registry := fst (setup_run sym_toy_world envelope_env 0 sym_calls empty_registry).
Lemma envelope_configured : configured sym_toy_world envelope_env Aead envelope_registry.
Proof.
  exists sym_calls, (snd (setup_run sym_toy_world envelope_env 0 sym_calls empty_registry)), CallAead. split; [| split; [cbn; tauto | reflexivity]].
  split; [unfold envelope_registry; destruct (setup_run _ _ _ _ _); reflexivity |].
  split; [| intros c [<- | [<- | [<- | [<- | []]]]]; exact I].
  intros c q Hc Hq. apply (sym_world_ready _ _ _ _ toy_sym_world).
  destruct Hc as [<- | [<- | [<- | [<- | []]]]]; cbn in Hq; subst q; cbn; tauto.
Qed.
Example C87_envelope_met :
  configured sym_toy_world stream_env Aead (pe_registry envelope_env) /\ configured sym_toy_world envelope_env Aead envelope_registry /\
  Forall (fun x => match snd x with Ok t => usable_envelope_uri (ulit "kms://key") t | Err _ => False end) aead_templates /\
  kms_gives (pe_clients envelope_env) (ulit "kms://key") (Ok toy_remote) /\
  (forall edek x, aead_decrypt toy_remote edek [] = Ok x -> (N.of_nat (length x) < 2 ^ 30)%N) /\
  (forall edek, tink_total (aead_decrypt toy_remote edek [])) /\ kms_round_trip toy_remote /\
  (forall r x, (N.of_nat (length x) < 1024)%N -> exists edek, aead_encrypt toy_remote r x [] = Ok edek /\ (N.of_nat (length edek) < 2 ^ 32)%N).
Proof.
  split; [apply sym_configured; cbn; tauto |]. split; [exact envelope_configured |]. split; [| split; [| split; [| split; [| split]]]].
  - assert (L : forall t, (N.of_nat (length (serialize_kek (mk_kms_envelope_aead_key 0 (Some (mk_kms_envelope_aead_key_format (ulit "kms://key") (Some t)))))) <? 2 ^ 31)%N = true ->
      usable_envelope_uri (ulit "kms://key") t).
    { intros t H. split; [| apply N.ltb_lt, H]. assert (V : forallb (fun c => (c <? 55296)%N) (ulit "kms://key") = true) by (vm_compute; reflexivity).
      intros c Hc. left. rewrite forallb_forall in V. apply N.ltb_lt, V, Hc. }
    unfold aead_templates. repeat apply Forall_cons; try apply Forall_nil; cbn [snd];
      match goal with |- match ?x with _ => _ end => let y := eval vm_compute in x in change x with y; cbn iota end;
      apply L; vm_compute; reflexivity.
  - exists envelope_client. split; [| reflexivity]. exists [], []. cbn. intuition.
  - intros edek x H. cbn [toy_remote aead_decrypt] in H. destruct edek as [| c e]; [discriminate |].
    destruct c; try discriminate. destruct (N.of_nat (length e) <? 1024)%N eqn:B; [| discriminate]. injection H as <-.
    apply N.ltb_lt in B. change (2 ^ 30)%N with 1073741824%N. lia.
  - intros edek. cbn [toy_remote aead_decrypt]. destruct edek as [| c e]; [exact eq_refl |].
    destruct c; try exact eq_refl. destruct (_ <? _)%N; exact eq_refl || exact I.
  - intros r m c H. cbn [toy_remote aead_encrypt aead_decrypt] in *. destruct (N.of_nat (length m) <? 1024)%N eqn:B; [| discriminate].
    injection H as <-. rewrite B. reflexivity.
  - intros r x H. cbn [toy_remote aead_encrypt]. apply N.ltb_lt in H. rewrite H. eexists. split; [reflexivity |].
    apply N.ltb_lt in H. cbn [length]. change (2 ^ 32)%N with 4294967296%N. lia.
Qed.
(** A run: a file encrypted and decrypted with envelope encryption. *)
Definition env_flags (mode : crypt_mode) (input output : string) : crypt_flags := mk_crypt_flags mode (p "") (p input) (p output) (Some (p "ad")).
Definition env_run (mode : crypt_mode) (input output : string) : io Z :=
  envelope_cli sym_toy_world envelope_env everywhere (Ok toy_remote) 0%N 5%N (env_flags mode input output).
Definition env_disk : files := snd (env_run Encrypt "plain" "cipher" [(p "plain", blit "hello")]).
Example C87_envelope_runs :
  exited (fst (env_run Encrypt "plain" "cipher" [(p "plain", blit "hello")])) 0 &&
  same_bytes (content (snd (env_run Decrypt "cipher" "back" env_disk)) (p "back")) (Some (blit "hello")) &&
  same_bytes (option_map (firstn 5) (content env_disk (p "cipher"))) (Some [x00; x00; x00; x23; x07]) &&
  exited (fst (env_run Decrypt "plain" "back" env_disk)) 1 = true.
Proof. vm_compute. reflexivity. Qed.
