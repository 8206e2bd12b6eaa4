(** Proofs: envelope encryption with the symmetric keys of the C++ library. *)
From Coq Require Import Strings.Byte Strings.String List NArith ZArith Bool Lia.
From Verif Require Import M_Base M_Utf8 M_Proto M_Wire M_ProtoMsg M_KeyFormats M_Prims M_PrimitiveSet M_Registry M_KeysetHandle M_Wrappers M_Kms M_StreamTypes M_CcStream M_CcManagers
  M_Templates M_Json M_JsonKeyset M_KeysetStream M_Cli M_Walkthrough M_CcAes M_CcStreamKeys M_CcModes M_CcSymmetric M_CcSymKeys S_Keyset S_Wrappers S_Wire S_Kms S_Json S_JsonKeyset S_Config S_CcLaws
  S_Cli S_Walkthrough S_CcAes S_CcStreamKeys S_CcModes S_CcSymmetric S_CcSymKeys S_CcSymHandles S_CcSymPrograms
  L_Base L_Registry L_Wire L_PrimitiveSet L_Keyset L_Wrappers L_Wrappers2 L_Wrappers3 L_Handle L_Config L_Config2 L_Config3 L_Config4 L_Kms L_Cli3 L_Cli4 L_Cli5 L_Cli6 L_Walkthrough
  L_CcStreamKeys L_CcSymKeys L_CcSymKeys2 L_CcSymHandles L_CcSymHandles2 L_CcSymHandles3 L_CcSymHandles4 L_CcSymPrograms L_CcSymPrograms2.
Import ListNotations.
Open Scope string_scope.
Open Scope list_scope.
Open Scope nat_scope.

(** ** Data encryption keys *)
Lemma aead_key_type : forall k, for_aead k = true -> In (sk_name k, ClsAead, false) (key_types Aead).
Proof. intros []; intros X; try discriminate X; cbn; tauto. Qed.
Lemma aead_dek_type : forall k, for_aead k = true -> In (type_url (sk_name k)) dek_types.
Proof. intros []; intros X; try discriminate X; cbn [sk_name dek_types map In]; unfold type_url; repeat ((left; reflexivity) || right). Qed.
Lemma dek_generated : forall lib random w env r name t rnd, sym_world lib random w -> random_law random ->
  configured w env Aead r -> In (name, Ok t) aead_templates ->
  exists d sk, (forall d', generates r rnd t d' <-> d' = d) /\ kd_type_url d = kt_type_url t /\ kd_key_material_type d = SYMMETRIC /\
    is_key d sk /\ for_aead sk = true /\ asks_for_key (kt_type_url t) (kt_value t) sk /\ usable sk /\ chosen random rnd sk /\
    wf_key_data d /\ proto_size (serialize_key_data d) /\ (N.of_nat (length (kd_value d)) < 1024)%N.
Proof.
  intros lib random w env r name t rnd (_ & HW & _) RL HC Hin.
  destruct (template_found _ _ _ _ (proj1 symmetric_templates) Hin) as (sk0 & pt & IT & A0 & U0 & R0 & EP).
  assert (F0 : for_aead sk0 = true).
  { clear - IT. assert (T : Forall (fun x => for_aead (snd (fst x)) = true) aead_template_keys) by (repeat apply Forall_cons; try apply Forall_nil; reflexivity).
    rewrite Forall_forall in T. exact (T _ IT). }
  destruct (proj1 (new_key_accepted lib random _ rnd _ _ A0 U0 R0) F0) as (m & d & M & ND).
  destruct (aead_template_sizes _ _ _ _ _ _ _ RL Hin M ND) as (W1 & W2 & W3 & W4 & W5 & W6).
  destruct (aead_new_key _ _ _ _ _ _ _ M ND RL) as (D1 & D2 & sk & F & A & U & R & CH & K). specialize (K W4).
  assert (HR : registry_new_key_data r rnd t = Ok d).
  { pose proof A as (EU & _). assert (CF : cc_functions w ClsAead (kt_type_url t) = Some (cl_key_type m, cl_new_key_data m, cl_public_key_data m))
      by (cbn [cc_functions]; rewrite (HW _ _ M); reflexivity). rewrite EU in CF.
    pose proof (configured_new_key _ _ _ _ _ _ _ _ _ _ rnd t HC (aead_key_type _ F) CF EU W1 W2) as Q. rewrite ND in Q. apply Q.
    intros d' E. injection E as <-. split; assumption. }
  exists d, sk. split; [| auto 14]. intros d'. rewrite <- new_key_data_generates, HR. split; [intros E; injection E as <-; reflexivity | intros ->; reflexivity].
Qed.
(** What the registry makes of a key of one of these types *)
Lemma dek_primitive : forall lib random w env r d k0, sym_world lib random w -> configured w env Aead r ->
  for_aead k0 = true -> kd_type_url d = type_url (sk_name k0) -> wf_key_data d -> proto_size (serialize_key_data d) ->
  (forall sk, for_aead sk = true -> is_key d sk -> usable sk -> exists q a, aead_object lib random sk = StOk q /\
     registry_primitive r d ClsAead = Ok (PrimAead a) /\ presents_aead q (PrimAead a)) /\
  (forall p, registry_primitive r d ClsAead = Ok p -> exists sk, for_aead sk = true /\ is_key d sk /\ usable sk) /\
  tink_total (registry_primitive r d ClsAead).
Proof.
  intros lib random w env r d k0 (_ & HW & _) HC F0 EU W S.
  assert (A : primitive_from_cc w env ClsAead d (registry_primitive r d ClsAead))
    by (apply (configured_primitive w env Aead r (sk_name k0) ClsAead false); try assumption; [cbn; intuition discriminate | exact (aead_key_type _ F0)]).
  cbn [primitive_from_cc] in A. destruct A as (m & M & A).
  assert (M' : aead_managers lib random (kd_type_url d) = Some m).
  { assert (X : exists m', aead_managers lib random (kd_type_url d) = Some m').
    { rewrite EU. destruct (proj1 (proj2 (aead_family lib random)) k0 F0) as (t & kind & IN & MG & K').
      exists (key_manager_impl random t). unfold aead_managers. apply find_manager_some; [exact (proj1 (aead_family lib random)) |].
      exists t. split; [exact IN |]. split; [| reflexivity]. rewrite (proj1 (mg_name _ _ _ MG k0 K')). reflexivity. }
    destruct X as (m' & X). rewrite X. f_equal. apply HW in X. congruence. }
  split; [| split].
  - intros sk F K U. destruct (proj1 (usable_keys_work lib random _ U) F) as (q & O). exists q.
    destruct (proj2 (aead_key_primitive lib random d q)) as (m' & X & G); [exists sk; auto |]. rewrite M' in X. injection X as <-.
    rewrite G in A. destruct A as (y & Ey & (a & -> & P)). exists a. split; [exact O |]. split; [exact Ey |]. exists a. auto.
  - intros p Hp. destruct (cl_get_primitive m d) as [q | s] eqn:G; [| destruct A as (e & E & _); congruence].
    destruct (proj1 (aead_key_primitive lib random d q)) as (sk & F & K & U & _); [exists m; auto |]. exists sk. auto.
  - destruct (cl_get_primitive m d) as [q | s]; [destruct A as (y & -> & _); exact I | apply raises_total, A].
Qed.
Lemma answers_ok : forall A (x : result A) s v, answers x s -> (x = Ok v <-> s = StOk v).
Proof.
  intros A x s v H. destruct s as [v' | e]; cbn [answers] in H.
  - subst x. split; intros E; injection E as ->; reflexivity.
  - destruct H as (e' & -> & _). split; discriminate.
Qed.
Lemma answers_total : forall A (x : result A) s, answers x s -> tink_total x.
Proof. intros A x s H. destruct s; cbn [answers] in H; [subst x; exact I | apply raises_total, H]. Qed.
Lemma ciphertext_for_aead : forall lib sk nonce ad P C, aead_ciphertext lib sk nonce ad P C -> for_aead sk = true.
Proof. intros lib [] nonce ad P C X; try contradiction X; reflexivity. Qed.

(** ** Envelope encryption *)
Theorem envelope_of_templates : forall lib random w env r name t r0 remote, sym_world lib random w -> crypto_laws lib -> random_law random ->
  configured w env Aead r -> In (name, Ok t) aead_templates ->
  exists e, new_kms_envelope_aead r r0 t remote = Ok e /\ envelope_works lib random t remote e.
Proof.
  intros lib random w env r name t r0 remote SW CL RL HC Hin.
  assert (EX : exists e, new_kms_envelope_aead r r0 t remote = Ok e).
  { destruct (dek_generated _ _ _ _ _ _ _ r0 SW RL HC Hin) as (d & sk & G & _ & _ & _ & F & (EU & _) & _).
    apply envelope_constructor. split; [rewrite EU; exact (aead_dek_type _ F) |]. exists d. apply G. reflexivity. }
  destruct EX as (e & HE). exists e. split; [exact HE |].
  pose proof (new_envelope_fields _ _ _ _ _ HE) as FE.
  destruct (dek_generated _ _ _ _ _ _ _ r0 SW RL HC Hin) as (d0 & sk0 & _ & _ & _ & _ & F0 & (EU0 & _) & _ & _ & (W0 & _) & _).
  assert (TU : exists k0, for_aead k0 = true /\ kt_type_url t = type_url (sk_name k0)) by (exists sk0; auto).
  (* keys that the remote returns *)
  assert (DEK : forall x, (N.of_nat (length x) < 2 ^ 30)%N ->
    wf_key_data (mk_key_data (kt_type_url t) x SYMMETRIC) /\ proto_size (serialize_key_data (mk_key_data (kt_type_url t) x SYMMETRIC))).
  { intros x L. split.
    - destruct (dek_generated _ _ _ _ _ _ _ r0 SW RL HC Hin) as (d & sk & _ & E1 & E2 & _ & _ & _ & _ & _ & (X & Y) & _).
      split; cbn [kd_type_url kd_key_material_type]; [rewrite <- E1; exact X | rewrite <- E2; exact Y].
    - unfold proto_size. pose proof (key_data_len (mk_key_data (kt_type_url t) x SYMMETRIC)) as B. cbn [kd_type_url kd_value] in B.
      assert (LU : length (kt_type_url t) <= 100).
      { destruct TU as (k0 & F & ->). destruct k0; try discriminate F; apply Nat.leb_le; vm_compute; reflexivity. }
      change (2 ^ 30)%N with 1073741824%N in L. change (2 ^ 31)%N with 2147483648%N. lia. }
  assert (PR : forall d, kd_type_url d = kt_type_url t -> wf_key_data d -> proto_size (serialize_key_data d) -> forall sk, for_aead sk = true -> is_key d sk -> usable sk ->
    exists q a, aead_object lib random sk = StOk q /\ registry_primitive r d ClsAead = Ok (PrimAead a) /\ presents_aead q (PrimAead a)).
  { intros d E W S. destruct TU as (k0 & F & TU). rewrite TU in E. exact (proj1 (dek_primitive _ _ _ _ _ _ k0 SW HC F E W S)). }
  split; [| split; [| split; [| split]]].
  - intros rnd r1 r2 r3 P ad C CS EC. rewrite FE in EC. cbn [aead_encrypt] in EC. apply envelope_encrypt_sound in EC.
    destruct EC as (r1' & r2' & r3' & dek & p & edek & body & CS' & G & DP & E1 & E2 & LY). rewrite CS in CS'. injection CS' as <- <- <-.
    destruct (dek_generated _ _ _ _ _ _ _ r1 SW RL HC Hin) as (d & sk & GD & D1 & D2 & K & F & A & U & CH & W & S & SV).
    apply GD in G. subst dek. apply registry_primitive_provides in DP. destruct (PR d D1 W S sk F K U) as (q & a & O & RP & (a' & Ea & A1 & A2)).
    injection Ea as <-. rewrite DP in RP. injection RP as ->. cbn [call_encrypt] in E1. apply (answers_ok _ _ _ _ (A1 _ _ _)) in E1.
    apply (aead_object_encrypts lib random sk q CL RL U F O) in E1. exists d, sk, edek, body. auto 10.
  - intros rnd P ad AD HR. rewrite FE. cbn [aead_encrypt]. unfold envelope_encrypt. destruct (coins_split rnd) as ((r1 & r2) & r3).
    destruct (dek_generated _ _ _ _ _ _ _ r1 SW RL HC Hin) as (d & sk & GD & D1 & D2 & K & F & A & U & CH & W & S & SV).
    rewrite (proj2 (new_key_data_generates r r1 t d)) by (apply GD; reflexivity). cbn [bind].
    destruct (PR d D1 W S sk F K U) as (q & a & O & -> & (a' & Ea & A1 & A2)). injection Ea as <-. cbn [bind call_encrypt].
    destruct (proj2 (aead_object_encrypts lib random sk q CL RL U F O r2 P ad) (AD sk A U)) as (body & EB).
    rewrite (proj2 (answers_ok _ _ _ body (A1 r2 P ad)) EB). cbn [bind]. destruct (HR r3 (kd_value d) SV) as (edek & -> & LE). cbn [bind].
    unfold pack_be32. destruct (_ <? _)%N eqn:B; [eexists; reflexivity |]. apply N.ltb_ge in B. change (2 ^ 32)%N with 4294967296%N in LE. lia.
  - intros SM C ad P. rewrite (envelope_decrypt_iff _ _ _ _ _ HE). split.
    + intros (edek & body & x & p & LY & DR & DP & ED). apply registry_primitive_provides in DP. destruct (DEK x (SM _ _ DR)) as (W & S).
      set (d := mk_key_data (kt_type_url t) x SYMMETRIC) in *. destruct TU as (k0 & F0' & TU).
      destruct (dek_primitive lib random w env r d k0 SW HC F0' TU W S) as (_ & Q & _). destruct (Q p DP) as (sk & F & K & U).
      destruct (PR d eq_refl W S sk F K U) as (q & a & O & RP & (a' & Ea & A1 & A2)). injection Ea as <-. rewrite DP in RP. injection RP as ->.
      cbn [call_decrypt] in ED. apply (answers_ok _ _ _ _ (A2 _ _)) in ED. apply (aead_object_decrypts lib random sk q CL U F O) in ED.
      destruct ED as (nonce & X). exists edek, body, x, sk, nonce. auto.
    + intros (edek & body & x & sk & nonce & LY & DR & K & U & X). pose proof (ciphertext_for_aead _ _ _ _ _ _ X) as F. destruct (DEK x (SM _ _ DR)) as (W & S).
      destruct (PR (mk_key_data (kt_type_url t) x SYMMETRIC) eq_refl W S sk F K U) as (q & a & O & RP & (a' & Ea & A1 & A2)). injection Ea as <-.
      exists edek, body, x, (PrimAead a). split; [exact LY |]. split; [exact DR |]. split; [apply registry_primitive_provides, RP |].
      cbn [call_decrypt]. apply (answers_ok _ _ _ _ (A2 _ _)). apply (aead_object_decrypts lib random sk q CL U F O). exists nonce. exact X.
  - intros TR SM C ad. rewrite FE. cbn [aead_decrypt]. destruct (layout_or_short C) as [(edek & body & LY) | TS].
    + rewrite (envelope_decrypt_layout _ _ _ _ _ _ _ LY). specialize (TR edek). destruct (aead_decrypt remote edek []) as [x | err] eqn:DR; [| exact TR]. cbn [bind].
      destruct (DEK x (SM _ _ DR)) as (W & S). destruct TU as (k0 & F0' & TU).
      destruct (dek_primitive lib random w env r (mk_key_data (kt_type_url t) x SYMMETRIC) k0 SW HC F0' TU W S) as (_ & Q & T).
      destruct (registry_primitive r (mk_key_data (kt_type_url t) x SYMMETRIC) ClsAead) as [p | err] eqn:RP; [| exact T]. cbn [bind].
      destruct (Q p eq_refl) as (sk & F & K & U). destruct (PR (mk_key_data (kt_type_url t) x SYMMETRIC) eq_refl W S sk F K U) as (q & a & O & RP' & (a' & Ea & A1 & A2)). injection Ea as <-.
      rewrite RP in RP'. injection RP' as ->. exact (answers_total _ _ _ (A2 body ad)).
    + apply raises_total, envelope_decrypt_short, TS.
  - intros KR. refine (envelope_round_trip r r0 t remote e HE KR _). intros r' dek G.
    destruct (dek_generated _ _ _ _ _ _ _ r' SW RL HC Hin) as (d & sk & GD & D1 & D2 & K & F & A & U & CH & W & S & SV).
    apply GD in G. subst dek. split; [exact D1 |]. split; [exact D2 |]. intros p DP r2 m ad c EC. apply registry_primitive_provides in DP.
    destruct (PR d D1 W S sk F K U) as (q & a & O & RP & (a' & Ea & A1 & A2)). injection Ea as <-. rewrite DP in RP. injection RP as ->.
    cbn [call_encrypt call_decrypt] in *. apply (answers_ok _ _ _ _ (A1 _ _ _)) in EC. apply (answers_ok _ _ _ _ (A2 _ _)).
    exact (proj2 (proj2 (object_round_trip lib random sk q CL RL U F O) _ _ _ _ EC)).
Qed.
Lemma gcm_makes_data_keys : forall lib random w, sym_world lib random w -> crypto_laws lib -> random_law random ->
  exists m, cw_aead w (type_url "AesGcmKey") = Some m /\ makes_data_keys m.
Proof.
  intros lib random w SW CL RL.
  destruct (gcm_key_made lib random w 0%N aes256_gcm_format 32 SW CL RL (or_intror (or_introl eq_refl))) as (m & _ & _ & M & _).
  exists m. split; [exact M |]. intros rnd.
  destruct (gcm_key_made lib random w rnd aes256_gcm_format 32 SW CL RL (or_intror (or_introl eq_refl)))
    as (m' & d & q & M' & ND & D1 & D2 & W & S & _ & K & _ & U & G & O). rewrite M in M'. injection M' as <-.
  exists d. do 5 (split; [assumption |]). intros q' G'. rewrite G in G'. injection G' as <-.
  intros r' x ad c EC. exact (proj2 (proj2 (object_round_trip lib random _ q CL RL U eq_refl O) _ _ _ _ EC)).
Qed.
(** ** Programs with envelope encryption *)
Lemma aes256_gcm_in : forall t, create_aes_gcm 32 TINK = Ok t -> In ("AES256_GCM", Ok t) aead_templates.
Proof.
  intros t <-. unfold aead_templates. repeat first [left; reflexivity | right].
Qed.
Theorem sym_envelope_cli : forall lib random w env o remote t, sym_world lib random w -> crypto_laws lib -> random_law random ->
  create_aes_gcm 32 TINK = Ok t ->
  exists e, envelope_works lib random t remote e /\
  forall r0 rnd f fs ad data, flag_is (cf_associated_data f) ad -> content fs (cf_input_path f) = Some data -> may_write o (cf_output_path f) = true ->
    stores (envelope_cli w env o (Ok remote) r0 rnd f fs) (cf_output_path f)
      (match cf_mode f with Encrypt => aead_encrypt e rnd data ad | Decrypt => aead_decrypt e data ad end) fs.
Proof.
  intros lib random w env o remote t SW CL RL Ht. pose proof (sym_world_ready _ _ _ Aead SW ltac:(cbn; tauto)) as RD.
  destruct (setup_done w env CallAead Aead eq_refl ltac:(ready) I) as (r & Er & Hc).
  destruct (envelope_of_templates lib random w env r _ t 0%N remote SW CL RL Hc (aes256_gcm_in t Ht)) as (e & He & EW).
  exists e. split; [exact EW |]. intros r0 rnd f fs ad data Hf Hd Ho.
  destruct (envelope_of_templates lib random w env r _ t r0 remote SW CL RL Hc (aes256_gcm_in t Ht)) as (e' & He' & _).
  assert (e' = e) by (apply new_envelope_fields in He, He'; congruence). subst e'.
  assert (Er' : registered_by w env CallAead fs = (Ok r, fs)) by (unfold registered_by; rewrite Er; reflexivity).
  unfold envelope_cli. rewrite (flag_bytes_ok _ _ Hf).
  rewrite (next_ok _ _ _ _ ad fs fs eq_refl), (next_ok _ _ _ _ r fs fs Er'). unfold aes256_gcm_envelope. rewrite Ht. cbn [bind]. rewrite He'. cbn [or_return_1].
  rewrite (next_ok _ _ _ _ data fs fs (read_bytes_ok _ _ _ Hd)). apply stores_ok, Ho.
Qed.
Theorem sym_gcs_cli : forall lib random w env o remote t, sym_world lib random w -> crypto_laws lib -> random_law random ->
  create_aes_gcm 32 TINK = Ok t ->
  exists e, envelope_works lib random t remote e /\
  forall r0 rnd local path ad b n bs fs, blob_path path b n -> utf8_encode path = Some ad ->
    (forall data, content fs local = Some data ->
       let '(x, fs', bs') := gcs_envelope_cli w env o (Ok remote) (Ok tt) r0 rnd Encrypt local path bs fs in
       fs' = fs /\ match aead_encrypt e rnd data ad with
                   | Ok C => x = Ok 0%Z /\ uploaded b n C bs bs'
                   | Err _ => exit_status x = 1%Z /\ bs' = bs
                   end) /\
    (forall C, blob bs b n = Some C -> may_write o local = true ->
       let '(x, fs', bs') := gcs_envelope_cli w env o (Ok remote) (Ok tt) r0 rnd Decrypt local path bs fs in
       bs' = bs /\ stores_or_empties (x, fs') local (aead_decrypt e C ad) fs).
Proof.
  intros lib random w env o remote t SW CL RL Ht. pose proof (sym_world_ready _ _ _ Aead SW ltac:(cbn; tauto)) as RD.
  destruct (setup_done w env CallAead Aead eq_refl ltac:(ready) I) as (r & Er & Hc).
  destruct (envelope_of_templates lib random w env r _ t 0%N remote SW CL RL Hc (aes256_gcm_in t Ht)) as (e & He & EW).
  exists e. split; [exact EW |]. intros r0 rnd local path ad b n bs fs Hp Hu.
  destruct (envelope_of_templates lib random w env r _ t r0 remote SW CL RL Hc (aes256_gcm_in t Ht)) as (e' & He' & _).
  assert (e' = e) by (apply new_envelope_fields in He, He'; congruence). subst e'.
  apply blob_path_spec in Hp. unfold gcs_envelope_cli, aes256_gcm_envelope. rewrite Er, Ht. cbn [bind]. rewrite He', Hp, Hu. split.
  - intros data Hd. rewrite (next_ok _ _ _ _ data fs fs (read_bytes_ok _ _ _ Hd)). unfold attempt.
    destruct (aead_encrypt e rnd data ad) as [C | x]; (split; [reflexivity |]); [| auto]. split; [reflexivity |].
    unfold uploaded, blob. split; [apply dict_get_set_same, blob_eqb_spec |].
    intros b' n' Hne. apply dict_get_set_other; [apply blob_eqb_spec | exact Hne].
  - intros C HC Ho. unfold blob in HC. rewrite HC.
    pose proof (stores_or_empties_ok o local (aead_decrypt e C ad) fs Ho) as S. unfold returned_none.
    match goal with |- context [next ?a ?b fs] => change (stores_or_empties (next a b fs) local (aead_decrypt e C ad) fs) in S; destruct (next a b fs) as (x & fs') end.
    split; [reflexivity | exact S].
Qed.
(** ** Handles of keys of envelope encryption *)
Theorem sym_envelope_handle : forall lib random w env env' reg name t rnd raw draws uri, sym_world lib random w -> crypto_laws lib -> random_law random ->
  configured w env Aead reg -> configured w env' Aead (pe_registry env) -> In (name, Ok t) aead_templates -> usable_envelope_uri uri t ->
  exists h, new_keyset_handle reg rnd (raw :: draws) (create_kms_envelope_aead_key_template uri t) = Some (Ok h) /\
    (forall remote, kms_gives (pe_clients env) uri (Ok remote) ->
       exists a e, handle_primitive reg h ClsAead = Ok (PrimAead a) /\ stands_for a e /\ envelope_works lib random t remote e) /\
    (forall x, kms_gives (pe_clients env) uri (Err x) -> handle_primitive reg h ClsAead = Err x) /\
    (no_kms (pe_clients env) uri -> raises_tink (handle_primitive reg h ClsAead)).
Proof.
  intros lib random w env env' reg name t rnd raw draws uri SW CL RL Hc Hc' Hin [Hu Hs].
  assert (Hi : In (type_url "KmsEnvelopeAeadKey") (S_Config.type_urls Aead)) by (cbn; tauto).
  destruct (configured_manager _ _ _ _ _ Hc Hi) as (km & Hm & Hb).
  assert (K : exists n, km = kms_envelope_aead_key_manager n 43 (pe_registry env) (pe_coins env) (pe_clients env)).
  { clear - Hb. remember (type_url "KmsEnvelopeAeadKey") as u eqn:Eu. destruct Hb; try discriminate Eu; eauto.
    all: exfalso; match goal with H : In _ _ |- _ => cbn in H;
      repeat (destruct H as [H | H]; [injection H; intros; subst; discriminate Eu |]); exact H end. }
  destruct K as (n & ->). clear Hb.
  assert (Hw : dict_get pclass_eqb ClsAead (r_wrappers reg) = Some aead_wrapper)
    by (apply (configured_wrapper _ _ _ _ _ _ Hc); [cbn; tauto | reflexivity]).
  assert (WT : wf_key_template t /\ In (kt_type_url t) dek_types).
  { destruct (template_found _ _ _ _ (proj1 symmetric_templates) Hin) as (sk0 & pt & IT & A0 & U0 & R0 & EP).
    assert (F0 : for_aead sk0 = true).
    { clear - IT. assert (T : Forall (fun x => for_aead (snd (fst x)) = true) aead_template_keys) by (repeat apply Forall_cons; try apply Forall_nil; reflexivity).
      rewrite Forall_forall in T. exact (T _ IT). }
    destruct (proj1 (new_key_accepted lib random _ 0%N _ _ A0 U0 R0) F0) as (m & d & M & ND).
    destruct (aead_template_sizes _ _ _ _ _ _ _ RL Hin M ND) as (W1 & _). split; [exact W1 |]. rewrite (proj1 A0). exact (aead_dek_type _ F0). }
  destruct WT as (WT & DT).
  destruct (kms_envelope_template_key uri t (pe_clients env) (pe_registry env) (pe_coins env) Hu WT DT Hs) as (d & Hd & _ & _).
  assert (Hwf : wf_kef (mk_kms_envelope_aead_key_format uri (Some t))).
  { split; [exact Hu |]. cbn. intros t' E. apply some_inj in E. subst t'. exact WT. }
  assert (Ed : d = mk_key_data KMS_ENVELOPE_AEAD_KEY_TYPE_URL
    (serialize_kek (mk_kms_envelope_aead_key 0 (Some (mk_kms_envelope_aead_key_format uri (Some t))))) REMOTE).
  { unfold kms_envelope_aead_new_key_data, create_kms_envelope_aead_key_template in Hd. cbn [kt_type_url kt_value] in Hd.
    rewrite str_eqb_refl in Hd. cbn [negb] in Hd. unfold parse_kef in Hd. rewrite kef_merge in Hd; [| exact Hwf |].
    2: { apply size_part with (n := 2%N) (2 := Hs). unfold fields_of_kek. cbn. left. reflexivity. }
    cbn [from_string bind] in Hd. unfold kef_dek_template in Hd. cbn [kef_dek_template_opt] in Hd.
    apply is_supported_iff in DT. rewrite DT in Hd. cbn [negb] in Hd. apply ok_inj in Hd. symmetry. exact Hd. }
  assert (P : registry_primitive reg d ClsAead =
    (client <- kms_client_from_uri (pe_clients env) uri ;; remote <- kc_get_aead client uri ;;
     a <- new_kms_envelope_aead (pe_registry env) (pe_coins env) t remote ;; Ok (PrimAead a))).
  { destruct (registry_primitive_spec reg d ClsAead) as [H _]. subst d. cbn [kd_type_url] in H.
    rewrite (H _ _ Hm eq_refl). cbn [kms_envelope_aead_key_manager km_primitive]. unfold kms_envelope_aead_primitive.
    cbn [kd_type_url kd_value]. rewrite str_eqb_refl. cbn [negb].
    rewrite kek_round_trip; [| exact Hwf | reflexivity | exact Hs]. reflexivity. }
  assert (N : new_keyset_handle reg rnd (raw :: draws) (create_kms_envelope_aead_key_template uri t) =
    Some (Ok (mk_handle (remote_key d (1 + raw mod 2147483647))))).
  { unfold new_keyset_handle, generate_new.
    destruct (registry_new_key_data_spec reg rnd (create_kms_envelope_aead_key_template uri t)) as [H _].
    cbn [create_kms_envelope_aead_key_template kt_type_url] in H. rewrite (H _ Hm).
    cbn [kms_envelope_aead_key_manager km_new_key_data].
    change (mk_key_template KMS_ENVELOPE_AEAD_KEY_TYPE_URL (serialize_kef (mk_kms_envelope_aead_key_format uri (Some t))) RAW)
      with (create_kms_envelope_aead_key_template uri t). rewrite Hd.
    assert (Hid : generate_unused_key_id (raw :: draws) (mk_keyset 0 []) = Some (1 + raw mod 2147483647)%N)
      by reflexivity.
    rewrite Hid. f_equal. cbn [create_kms_envelope_aead_key_template kt_output_prefix_type].
    apply create_ok. split; [apply (single_valid d _ RAW); discriminate | reflexivity]. }
  exists (mk_handle (remote_key d (1 + raw mod 2147483647))). split; [exact N |].
  rewrite remote_handle; [| exact Hw |].
  2: { intros p. rewrite P. intros H. apply bind_ok in H. destruct H as (c & _ & H). apply bind_ok in H.
       destruct H as (x & _ & H). apply bind_ok in H. destruct H as (a & _ & H). apply ok_inj in H. subst p. reflexivity. }
  rewrite P. split; [| split].
  - intros remote (c & Hf & Hg). apply kms_from_uri_first in Hf. rewrite Hf. cbn [bind]. rewrite Hg. cbn [bind].
    destruct (envelope_of_templates lib random w env' (pe_registry env) name t (pe_coins env) remote SW CL RL Hc' Hin) as (e & -> & EW). cbn [bind].
    eexists. exists e. split; [reflexivity |]. split; [apply raw_stands_for | exact EW].
  - intros x (c & Hf & Hg). apply kms_from_uri_first in Hf. rewrite Hf. cbn [bind]. rewrite Hg. reflexivity.
  - intros Hn. destruct (no_first _ _ Hn) as (x & -> & Hx). exists x. auto.
Qed.
