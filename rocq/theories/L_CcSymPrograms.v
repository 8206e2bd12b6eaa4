(** Proofs: the example programs for AEAD, deterministic AEAD and MAC with symmetric keys. *)
From Coq Require Import Strings.Byte Strings.String List NArith ZArith Bool Lia.
From Verif Require Import M_Base M_Utf8 M_Proto M_Wire M_ProtoMsg M_KeyFormats M_Prims M_PrimitiveSet M_Registry M_KeysetHandle M_Wrappers M_StreamTypes M_CcStream M_CcManagers
  M_Templates M_Json M_JsonKeyset M_Cli M_Walkthrough M_CcAes M_CcStreamKeys M_CcModes M_CcSymmetric M_CcSymKeys S_Keyset S_Wrappers S_Wire S_Json S_Config S_CcLaws S_Cli S_Basic
  S_CcAes S_CcStreamKeys S_CcModes S_CcSymmetric S_CcSymKeys S_CcSymHandles S_CcSymPrograms
  L_Base L_Registry L_Wire L_PrimitiveSet L_Keyset L_Wrappers L_Wrappers2 L_Wrappers3 L_Handle L_Config L_Config2 L_Config3 L_Config4 L_Cli3 L_Cli4 L_Cli5 L_Basic
  L_CcStreamKeys L_CcSymKeys L_CcSymKeys2 L_CcSymHandles L_CcSymHandles2 L_CcSymHandles3 L_CcSymHandles4.
Import ListNotations.
Open Scope string_scope.
Open Scope list_scope.
Open Scope nat_scope.

(** ** Outcomes *)
Lemma aead_keyset_made : forall lib random w ks l, sym_world lib random w -> sym_keyset for_aead ks l ->
  exists l', cc_keyset ClsAead (cw_aead w) ks l' /\ Forall2 (made_by (aead_object lib random)) l l'.
Proof.
  intros lib random w ks l (_ & HW & _) KS.
  exact (sym_cc_keyset _ ClsAead (cw_aead w) (aead_managers lib random) for_aead (aead_object lib random) Aead
    (aead_key_primitive lib random) (fun k U => proj1 (usable_keys_work lib random k U)) HW
    ltac:(cbn; intuition discriminate) ltac:(intros []; intros X; try discriminate X; cbn; tauto) ks l KS).
Qed.
Lemma daead_keyset_made : forall lib random w ks l, sym_world lib random w -> sym_keyset for_daead ks l ->
  exists l', cc_keyset ClsDaead (cw_daead w) ks l' /\ Forall2 (made_by (daead_object lib)) l l'.
Proof.
  intros lib random w ks l (_ & _ & HW & _) KS.
  exact (sym_cc_keyset _ ClsDaead (cw_daead w) (daead_managers lib random) for_daead (daead_object lib) Daead
    (daead_key_primitive lib random) (fun k U => proj1 (proj2 (usable_keys_work lib random k U))) HW
    ltac:(cbn; intuition discriminate) ltac:(intros []; intros X; try discriminate X; cbn; tauto) ks l KS).
Qed.
Lemma mac_keyset_made : forall lib random w ks l, sym_world lib random w -> sym_keyset for_mac ks l ->
  exists l', cc_keyset ClsMac (cw_mac w) ks l' /\ Forall2 (made_by (mac_object lib)) l l'.
Proof.
  intros lib random w ks l (_ & _ & _ & HW & _) KS.
  exact (sym_cc_keyset _ ClsMac (cw_mac w) (mac_managers lib random) for_mac (mac_object lib) Mac
    (mac_key_primitive lib random) (fun k U => proj1 (proj2 (proj2 (usable_keys_work lib random k U)))) HW
    ltac:(cbn; intuition discriminate) ltac:(intros []; intros X; try discriminate X; cbn; tauto) ks l KS).
Qed.
Lemma no_primary_made : forall P (obj : sym_key -> st_or P) ks l l', Forall2 (made_by obj) l l' ->
  (forall k sk, ~ is_primary ks l k sk) -> forall k q, ~ is_primary ks l' k q.
Proof. intros P obj ks l l' F2 NP k q (I & PI). destruct (made_by_r _ _ _ _ _ _ F2 I) as (sk & I' & _). exact (NP k sk (conj I' PI)). Qed.

Lemma aead_ciphertext_nonempty : forall lib sk nonce ad P c, crypto_laws lib -> usable sk -> aead_ciphertext lib sk nonce ad P c -> c <> [].
Proof.
  intros lib sk nonce ad P c CL U X. pose proof (aead_ciphertext_length _ _ _ _ _ _ CL U X) as LX. intros ->.
  assert (0 < overhead sk) by (unfold overhead; destruct sk; try contradiction; cbn [usable nonce_size] in *; try lia; destruct U as (_ & U & _); lia).
  cbn in LX. lia.
Qed.
Lemma encrypt_outcome : forall lib random c (lookup : pystr -> option (cc_lib_manager cc_aead)) ks l l' rnd P ad y, crypto_laws lib -> random_law random ->
  sym_keyset for_aead ks l -> cc_keyset c lookup ks l' -> Forall2 (made_by (aead_object lib random)) l l' ->
  aead_outcome ks l' Encrypt rnd P ad y ->
  (forall k sk, is_primary ks l k sk ->
     (forall C, y = Ok C <-> exists c, stamped k C c /\ aead_ciphertext lib sk (random rnd (Z.of_nat (nonce_size sk))) ad P c) /\
     (admits sk P ad -> exists C, y = Ok C)) /\
  ((forall k sk, ~ is_primary ks l k sk) -> raises_tink y).
Proof.
  intros lib random c lookup ks l l' rnd P ad y CL RL KS CK F2 (E & N). split.
  - intros k sk (I & PI). destruct (keyset_key _ _ _ _ _ KS I) as (U & FA). destruct (made_by_l _ _ _ _ _ _ F2 I) as (q & I' & O).
    pose proof (E k q (conj I' PI)) as PF. destruct (prefixed_stamped _ _ _ PF) as (_ & PS).
    destruct (aead_object_encrypts lib random sk q CL RL U FA O rnd P ad) as (X & Y). split.
    + intros C. rewrite PS. split; intros (x & A & B); exists x; (split; [exact B || (apply X; exact B) | exact A || (apply X; exact A)]).
    + intros Z. destruct (Y Z) as (x & Ec). destruct PF as (p & Hp & A). rewrite Ec in A. cbn in A. exists (p ++ x). exact A.
  - intros NP. apply N. exact (no_primary_made _ _ _ _ _ F2 NP).
Qed.
Lemma decrypt_outcome : forall lib random c (lookup : pystr -> option (cc_lib_manager cc_aead)) ks l l' rnd C ad y, crypto_laws lib ->
  sym_keyset for_aead ks l -> cc_keyset c lookup ks l' -> Forall2 (made_by (aead_object lib random)) l l' ->
  aead_outcome ks l' Decrypt rnd C ad y ->
  (exists P, opens lib l C ad P /\ y = Ok P) \/ ((forall P, ~ opens lib l C ad P) /\ exists e, y = Err e).
Proof.
  intros lib random c lookup ks l l' rnd C ad y CL KS CK F2 FS. cbn [aead_outcome] in FS.
  destruct (keys_tried _ _ _ _ ks l' (fun _ q body => ca_decrypt q body ad) C y CK FS) as (_ & D1 & D2).
  destruct y as [P | e]; [left | right].
  - exists P. split; [| reflexivity]. destruct (D1 P eq_refl) as (k & q & body & I & R & ED).
    destruct (made_by_r _ _ _ _ _ _ F2 I) as (sk & I' & O). destruct (keyset_key _ _ _ _ _ KS I') as (U & FA).
    apply (aead_object_decrypts lib random sk q CL U FA O) in ED. destruct ED as (nonce & X). exists k, sk, nonce, body.
    split; [exact I' |]. split; [apply reaches_stamped, R | exact X].
  - split; [| exists e; reflexivity]. intros P (k & sk & nonce & x & I & S & X).
    destruct (keyset_key _ _ _ _ _ KS I) as (U & FA). destruct (made_by_l _ _ _ _ _ _ F2 I) as (q & I' & O).
    destruct (D2 k q x P I') as (v & EV); [| | discriminate EV].
    + apply (stamped_reaches _ _ _ S), (aead_ciphertext_nonempty _ _ _ _ _ _ CL U X).
    + apply (aead_object_decrypts lib random sk q CL U FA O). exists nonce. exact X.
Qed.
Lemma daead_encrypt_outcome : forall lib c (lookup : pystr -> option (cc_lib_manager cc_daead)) ks l l' P ad y, crypto_laws lib ->
  sym_keyset for_daead ks l -> cc_keyset c lookup ks l' -> Forall2 (made_by (daead_object lib)) l l' ->
  daead_outcome ks l' Encrypt P ad y ->
  (forall k sk, is_primary ks l k sk -> exists C c, stamped k C c /\ daead_ciphertext lib sk ad P c /\ y = Ok C) /\
  ((forall k sk, ~ is_primary ks l k sk) -> raises_tink y).
Proof.
  intros lib c lookup ks l l' P ad y CL KS CK F2 (E & N). split.
  - intros k sk (I & PI). destruct (keyset_key _ _ _ _ _ KS I) as (U & FA). destruct (made_by_l _ _ _ _ _ _ F2 I) as (q & I' & O).
    pose proof (E k q (conj I' PI)) as PF. destruct (daead_object_encrypts lib sk q CL FA O P ad) as (X & x & Ec).
    destruct PF as (p & Hp & A). rewrite Ec in A. cbn in A. exists (p ++ x), x.
    split; [exists p; auto |]. split; [apply X, Ec | exact A].
  - intros NP. apply N. exact (no_primary_made _ _ _ _ _ F2 NP).
Qed.
Lemma daead_decrypt_outcome : forall lib c (lookup : pystr -> option (cc_lib_manager cc_daead)) ks l l' C ad y, crypto_laws lib ->
  sym_keyset for_daead ks l -> cc_keyset c lookup ks l' -> Forall2 (made_by (daead_object lib)) l l' ->
  daead_outcome ks l' Decrypt C ad y ->
  (exists P, daead_opens lib l C ad P /\ y = Ok P) \/ ((forall P, ~ daead_opens lib l C ad P) /\ exists e, y = Err e).
Proof.
  intros lib c lookup ks l l' C ad y CL KS CK F2 FS. cbn [daead_outcome] in FS.
  destruct (keys_tried _ _ _ _ ks l' (fun _ q body => cda_decrypt q body ad) C y CK FS) as (_ & D1 & D2).
  destruct y as [P | e]; [left | right].
  - exists P. split; [| reflexivity]. destruct (D1 P eq_refl) as (k & q & body & I & R & ED).
    destruct (made_by_r _ _ _ _ _ _ F2 I) as (sk & I' & O). destruct (keyset_key _ _ _ _ _ KS I') as (U & FA).
    apply (daead_object_decrypts lib sk q CL FA O) in ED. exists k, sk, body.
    split; [exact I' |]. split; [apply reaches_stamped, R | exact ED].
  - split; [| exists e; reflexivity]. intros P (k & sk & x & I & S & X).
    destruct (keyset_key _ _ _ _ _ KS I) as (U & FA). destruct (made_by_l _ _ _ _ _ _ F2 I) as (q & I' & O).
    destruct (D2 k q x P I') as (v & EV); [| | discriminate EV].
    + apply (stamped_reaches _ _ _ S). pose proof (daead_ciphertext_length _ _ _ _ _ CL U X) as LX. intros ->. cbn in LX. lia.
    + apply (daead_object_decrypts lib sk q CL FA O). exact X.
Qed.
Lemma mac_compute_outcome : forall lib c (lookup : pystr -> option (cc_lib_manager cc_mac)) ks l l' data y, crypto_laws lib ->
  sym_keyset for_mac ks l -> cc_keyset c lookup ks l' -> Forall2 (made_by (mac_object lib)) l l' ->
  (forall k q, is_primary ks l' k q -> prefixed k (cm_compute q (legacy_data k data)) y) ->
  ((forall k q, ~ is_primary ks l' k q) -> raises_tink y) ->
  (forall k sk, is_primary ks l k sk -> exists T t, stamped k T t /\ mac_tag lib sk (legacy_data k data) t /\ y = Ok T) /\
  ((forall k sk, ~ is_primary ks l k sk) -> raises_tink y).
Proof.
  intros lib c lookup ks l l' data y CL KS CK F2 E N. split.
  - intros k sk (I & PI). destruct (keyset_key _ _ _ _ _ KS I) as (U & FA). destruct (made_by_l _ _ _ _ _ _ F2 I) as (q & I' & O).
    pose proof (E k q (conj I' PI)) as PF. destruct (mac_object_works lib sk q CL U FA O (legacy_data k data)) as (X & (x & Ec) & _).
    destruct PF as (p & Hp & A). rewrite Ec in A. cbn in A. exists (p ++ x), x.
    split; [exists p; auto |]. split; [apply X, Ec | exact A].
  - intros NP. apply N. exact (no_primary_made _ _ _ _ _ F2 NP).
Qed.
Lemma mac_accepts_tag : forall lib c (lookup : pystr -> option (cc_lib_manager cc_mac)) ks l l' T data, crypto_laws lib ->
  sym_keyset for_mac ks l -> cc_keyset c lookup ks l' -> Forall2 (made_by (mac_object lib)) l l' ->
  mac_accepts l' T data <-> tag_of lib l T data.
Proof.
  intros lib c lookup ks l l' T data CL KS CK F2. split.
  - intros (_ & k & q & body & I & R & ED).
    destruct (made_by_r _ _ _ _ _ _ F2 I) as (sk & I' & O). destruct (keyset_key _ _ _ _ _ KS I') as (U & FA).
    destruct (mac_object_works lib sk q CL U FA O (legacy_data k data)) as (_ & _ & V & _). exists k, sk, body.
    split; [exact I' |]. split; [apply reaches_stamped, R | apply V, ED].
  - intros (k & sk & t & I & S & X). destruct (keyset_key _ _ _ _ _ KS I) as (U & FA). destruct (made_by_l _ _ _ _ _ _ F2 I) as (q & I' & O).
    destruct (mac_object_works lib sk q CL U FA O (legacy_data k data)) as (_ & _ & V & LT). pose proof (LT t X) as LX.
    split; [destruct S as (p & _ & ->); rewrite app_length; lia |]. exists k, q, t. split; [exact I' |].
    split; [| apply V, X]. apply (stamped_reaches _ _ _ S). intros ->. cbn in LX. lia.
Qed.

(** ** Files *)
Lemma writes_fun : forall run out x x' fs, writes run out x fs -> writes run out x' fs -> x = x'.
Proof. intros run out x x' fs (_ & E & _) (_ & E' & _). congruence. Qed.
Lemma writes_not_fails : forall run out x fs, writes run out x fs -> ~ fails run fs.
Proof. intros run out x fs (E & _) (E' & _). rewrite E in E'. discriminate E'. Qed.
Lemma crypts_file_ok : forall lib random c (lookup : pystr -> option (cc_lib_manager cc_aead)) ks l l' mode rnd data ad y run out fs, crypto_laws lib -> random_law random ->
  sym_keyset for_aead ks l -> cc_keyset c lookup ks l' -> Forall2 (made_by (aead_object lib random)) l l' ->
  aead_outcome ks l' mode rnd data ad y -> stores run out y fs -> crypts_file lib random ks l mode rnd data ad run out fs.
Proof.
  intros lib random c lookup ks l l' mode rnd data ad y run out fs CL RL KS CK F2 O S. destruct mode; cbn [crypts_file].
  - destruct (encrypt_outcome _ _ _ _ _ _ _ _ _ _ _ CL RL KS CK F2 O) as (E & N). split; [| split].
    + intros k sk PR. destruct (E k sk PR) as (E1 & E2). split.
      * intros C. rewrite <- E1. split.
        -- intros W. destruct y as [x | e]; cbn [stores] in S; [rewrite (writes_fun _ _ _ _ _ W S); reflexivity | destruct (writes_not_fails _ _ _ _ W S)].
        -- intros ->. exact S.
      * intros A. destruct (E2 A) as (C & ->). exists C. exact S.
    + destruct y as [x | e]; [left; exists x; exact S | right; exact S].
    + intros NP. destruct (N NP) as (e & -> & _). exact S.
  - destruct (decrypt_outcome _ _ _ _ _ _ _ _ _ _ _ CL KS CK F2 O) as [(P & X & ->) | (X & e & ->)]; [left | right].
    + exists P. auto.
    + auto.
Qed.
Lemma daead_crypts_file_ok : forall lib c (lookup : pystr -> option (cc_lib_manager cc_daead)) ks l l' mode data ad y run out fs, crypto_laws lib ->
  sym_keyset for_daead ks l -> cc_keyset c lookup ks l' -> Forall2 (made_by (daead_object lib)) l l' ->
  daead_outcome ks l' mode data ad y -> stores run out y fs -> daead_crypts_file lib ks l mode data ad run out fs.
Proof.
  intros lib c lookup ks l l' mode data ad y run out fs CL KS CK F2 O S. destruct mode; cbn [daead_crypts_file].
  - destruct (daead_encrypt_outcome _ _ _ _ _ _ _ _ _ CL KS CK F2 O) as (E & N). split.
    + intros k sk PR. destruct (E k sk PR) as (C & x & A & B & ->). exists C, x. auto.
    + intros NP. destruct (N NP) as (e & -> & _). exact S.
  - destruct (daead_decrypt_outcome _ _ _ _ _ _ _ _ _ CL KS CK F2 O) as [(P & X & ->) | (X & e & ->)]; [left | right].
    + exists P. auto.
    + auto.
Qed.

Theorem sym_aead_cli : forall lib random w env pb o rnd f fs ks l ad data, sym_world lib random w -> crypto_laws lib -> random_law random ->
  holds_keyset (pe_rt env) fs (cf_keyset_path f) ks -> sym_keyset for_aead ks l ->
  flag_is (cf_associated_data f) ad -> content fs (cf_input_path f) = Some data -> may_write o (cf_output_path f) = true ->
  crypts_file lib random ks l (cf_mode f) rnd data ad (aead_cli w env pb o rnd f fs) (cf_output_path f) fs.
Proof.
  intros lib random w env pb o rnd f fs ks l ad data SW CL RL HK KS HF HD HO.
  destruct (aead_keyset_made _ _ _ _ _ SW KS) as (l' & CK & F2).
  destruct (aead_cli_spec w env pb o rnd f fs ks l' ad data (sym_world_ready _ _ _ Aead SW ltac:(cbn; tauto)) HK CK HF HD HO) as (y & O & S).
  exact (crypts_file_ok _ _ _ _ _ _ _ _ _ _ _ _ _ _ _ CL RL KS CK F2 O S).
Qed.
Theorem sym_cleartext_cli : forall lib random w env pb o rnd f fs ks l data, sym_world lib random w -> crypto_laws lib -> random_law random ->
  holds_keyset (pe_rt env) fs (cf_keyset_path f) ks -> sym_keyset for_aead ks l ->
  content fs (cf_input_path f) = Some data -> may_write o (cf_output_path f) = true ->
  crypts_file lib random ks l (cf_mode f) rnd data (blit "envelope_example") (cleartext_keyset_crypt w env pb o rnd f fs) (cf_output_path f) fs.
Proof.
  intros lib random w env pb o rnd f fs ks l data SW CL RL HK KS HD HO.
  destruct (aead_keyset_made _ _ _ _ _ SW KS) as (l' & CK & F2).
  destruct (cleartext_cli_spec w env pb o rnd f fs ks l' data (sym_world_ready _ _ _ Aead SW ltac:(cbn; tauto)) HK CK HD HO) as (y & O & S).
  exact (crypts_file_ok _ _ _ _ _ _ _ _ _ _ _ _ _ _ _ CL RL KS CK F2 O S).
Qed.
Theorem sym_encrypted_cli : forall lib random w env pb o a keyset_ad rnd f fs ks l ad data, sym_world lib random w -> crypto_laws lib -> random_law random ->
  holds_encrypted_keyset (pe_rt env) fs (cf_keyset_path f) a keyset_ad ks -> sym_keyset for_aead ks l ->
  flag_is (cf_associated_data f) ad -> content fs (cf_input_path f) = Some data -> may_write o (cf_output_path f) = true ->
  crypts_file lib random ks l (cf_mode f) rnd data ad (encrypted_keyset_crypt w env pb o (Ok a) keyset_ad rnd f fs) (cf_output_path f) fs.
Proof.
  intros lib random w env pb o a keyset_ad rnd f fs ks l ad data SW CL RL HK KS HF HD HO.
  destruct (aead_keyset_made _ _ _ _ _ SW KS) as (l' & CK & F2).
  destruct (encrypted_cli_spec w env pb o a keyset_ad rnd f fs ks l' ad data (sym_world_ready _ _ _ Aead SW ltac:(cbn; tauto)) HK CK HF HD HO) as (y & O & S).
  exact (crypts_file_ok _ _ _ _ _ _ _ _ _ _ _ _ _ _ _ CL RL KS CK F2 O S).
Qed.
Theorem sym_daead_cli : forall lib random w env pb o f fs ks l ad data, sym_world lib random w -> crypto_laws lib ->
  holds_keyset (pe_rt env) fs (cf_keyset_path f) ks -> sym_keyset for_daead ks l ->
  flag_is (cf_associated_data f) ad -> content fs (cf_input_path f) = Some data -> may_write o (cf_output_path f) = true ->
  daead_crypts_file lib ks l (cf_mode f) data ad (deterministic_aead_cli w env pb o f fs) (cf_output_path f) fs.
Proof.
  intros lib random w env pb o f fs ks l ad data SW CL HK KS HF HD HO.
  destruct (daead_keyset_made _ _ _ _ _ SW KS) as (l' & CK & F2).
  destruct (daead_cli_spec w env pb o f fs ks l' ad data (sym_world_ready _ _ _ Daead SW ltac:(cbn; tauto)) HK CK HF HD HO) as (y & O & S).
  exact (daead_crypts_file_ok _ _ _ _ _ _ _ _ _ _ _ _ _ CL KS CK F2 O S).
Qed.
Theorem sym_mac_cli : forall lib random w env pb o f fs ks l data, sym_world lib random w -> crypto_laws lib ->
  holds_keyset (pe_rt env) fs (tf_keyset_path f) ks -> sym_keyset for_mac ks l -> content fs (tf_data_path f) = Some data ->
  (tf_mode f = Produce -> may_write o (tf_tag_path f) = true ->
   writes_tag lib ks l data (mac_cli w env pb o f fs) (tf_tag_path f) fs) /\
  (tf_mode f = Verify -> forall x, content fs (tf_tag_path f) = Some x ->
   decides (mac_cli w env pb o f fs) (exists T, tag_text T x /\ tag_of lib l T data) fs).
Proof.
  intros lib random w env pb o f fs ks l data SW CL HK KS HD.
  destruct (mac_keyset_made _ _ _ _ _ SW KS) as (l' & CK & F2). pose proof (sym_world_ready _ _ _ Mac SW ltac:(cbn; tauto)) as R. split.
  - intros M HO. destruct (mac_cli_compute_spec w env pb o f fs ks l' data R M HK CK HD HO) as (y & E & N & S).
    destruct (mac_compute_outcome _ _ _ _ _ _ _ _ CL KS CK F2 E N) as (E' & N'). split.
    + intros k sk PR. destruct (E' k sk PR) as (T & t & A & B & ->). destruct S as (x & X1 & X2 & X3). exists T, t, x. auto.
    + intros NP. destruct (N' NP) as (e & -> & _). exact S.
  - intros M x HX. eapply decides_iff; [| exact (mac_cli_verify_spec w env pb o f fs ks l' data x R M HK CK HD HX)].
    split; intros (T & A & B); exists T; (split; [exact A |]); apply (mac_accepts_tag _ _ _ _ _ _ _ _ CL KS CK F2); exact B.
Qed.

(** ** From one run to another, with another keyset *)
Theorem sym_files_rotation : forall lib random w env pb o rnd f fs ks l ad data k sk w2 env2 pb2 o2 random2, sym_world lib random w -> crypto_laws lib -> random_law random ->
  holds_keyset (pe_rt env) fs (cf_keyset_path f) ks -> sym_keyset for_aead ks l -> is_primary ks l k sk -> admits sk data ad ->
  cf_mode f = Encrypt -> flag_is (cf_associated_data f) ad -> content fs (cf_input_path f) = Some data -> may_write o (cf_output_path f) = true ->
  sym_world lib random2 w2 -> random_law random2 ->
  fst (aead_cli w env pb o rnd f fs) = Ok 0%Z /\
  forall rnd2 g fs2 ks2 l2 k2, cf_mode g = Decrypt -> holds_keyset (pe_rt env2) fs2 (cf_keyset_path g) ks2 -> sym_keyset for_aead ks2 l2 ->
    In (k2, sk) l2 -> k_key_id k2 = k_key_id k -> k_output_prefix_type k2 = k_output_prefix_type k -> tells_apart k2 sk l2 ->
    flag_is (cf_associated_data g) ad ->
    content fs2 (cf_input_path g) = content (snd (aead_cli w env pb o rnd f fs)) (cf_output_path f) ->
    may_write o2 (cf_output_path g) = true ->
    writes (aead_cli w2 env2 pb2 o2 rnd2 g fs2) (cf_output_path g) data fs2.
Proof.
  intros lib random w env pb o rnd f fs ks l ad data k sk w2 env2 pb2 o2 random2 SW CL RL HK KS PR AD M HF HD HO SW2 RL2.
  pose proof (sym_aead_cli _ _ _ env pb o rnd f _ _ _ _ _ SW CL RL HK KS HF HD HO) as E. rewrite M in E. destruct E as (E & _).
  destruct (E k sk PR) as (E1 & E2). destruct (E2 AD) as (C & W). pose proof W as (W1 & W2 & _). split; [exact W1 |].
  intros rnd2 g fs2 ks2 l2 k2 M2 HK2 KS2 I EI ET TA HF2 HD2 HO2. rewrite W2 in HD2.
  pose proof (sym_aead_cli _ _ _ env2 pb2 o2 rnd2 g _ _ _ _ _ SW2 CL RL2 HK2 KS2 HF2 HD2 HO2) as D. rewrite M2 in D.
  apply E1 in W. destruct W as (c & S & X). pose proof (same_stamp _ _ _ _ ET EI S) as S'.
  destruct D as [(P & OP & D) | (NO & _)].
  - rewrite <- (aead_unambiguous _ _ _ _ _ _ _ _ _ _ CL KS2 TA (proj1 (keyset_key _ _ _ _ _ KS2 I)) S' X P OP). exact D.
  - destruct (NO data). exists k2, sk. do 2 eexists. split; [exact I |]. split; [exact S' | exact X].
Qed.
Theorem sym_daead_files_rotation : forall lib random w env pb o f fs ks l ad data k sk w2 env2 pb2 o2 random2, sym_world lib random w -> crypto_laws lib ->
  holds_keyset (pe_rt env) fs (cf_keyset_path f) ks -> sym_keyset for_daead ks l -> is_primary ks l k sk ->
  cf_mode f = Encrypt -> flag_is (cf_associated_data f) ad -> content fs (cf_input_path f) = Some data -> may_write o (cf_output_path f) = true ->
  sym_world lib random2 w2 ->
  fst (deterministic_aead_cli w env pb o f fs) = Ok 0%Z /\
  forall g fs2 ks2 l2 k2, cf_mode g = Decrypt -> holds_keyset (pe_rt env2) fs2 (cf_keyset_path g) ks2 -> sym_keyset for_daead ks2 l2 ->
    In (k2, sk) l2 -> k_key_id k2 = k_key_id k -> k_output_prefix_type k2 = k_output_prefix_type k -> tells_apart k2 sk l2 ->
    flag_is (cf_associated_data g) ad ->
    content fs2 (cf_input_path g) = content (snd (deterministic_aead_cli w env pb o f fs)) (cf_output_path f) ->
    may_write o2 (cf_output_path g) = true ->
    writes (deterministic_aead_cli w2 env2 pb2 o2 g fs2) (cf_output_path g) data fs2.
Proof.
  intros lib random w env pb o f fs ks l ad data k sk w2 env2 pb2 o2 random2 SW CL HK KS PR M HF HD HO SW2.
  pose proof (sym_daead_cli _ _ _ env pb o f _ _ _ _ _ SW CL HK KS HF HD HO) as E. rewrite M in E. destruct E as (E & _).
  destruct (E k sk PR) as (C & c & S & X & W1 & W2 & _). split; [exact W1 |].
  intros g fs2 ks2 l2 k2 M2 HK2 KS2 I EI ET TA HF2 HD2 HO2. rewrite W2 in HD2.
  pose proof (sym_daead_cli _ _ _ env2 pb2 o2 g _ _ _ _ _ SW2 CL HK2 KS2 HF2 HD2 HO2) as D. rewrite M2 in D.
  pose proof (same_stamp _ _ _ _ ET EI S) as S'.
  destruct D as [(P & OP & D) | (NO & _)].
  - rewrite <- (daead_unambiguous _ _ _ _ _ _ _ _ _ CL KS2 TA (proj1 (keyset_key _ _ _ _ _ KS2 I)) S' X P OP). exact D.
  - destruct (NO data). exists k2, sk, c. auto.
Qed.
Theorem sym_mac_files_rotation : forall lib random w env pb o f fs ks l data k sk w2 env2 pb2 o2 random2, sym_world lib random w -> crypto_laws lib ->
  holds_keyset (pe_rt env) fs (tf_keyset_path f) ks -> sym_keyset for_mac ks l -> is_primary ks l k sk ->
  tf_mode f = Produce -> content fs (tf_data_path f) = Some data -> may_write o (tf_tag_path f) = true ->
  sym_world lib random2 w2 ->
  fst (mac_cli w env pb o f fs) = Ok 0%Z /\
  forall g fs2 ks2 l2 k2, tf_mode g = Verify -> holds_keyset (pe_rt env2) fs2 (tf_keyset_path g) ks2 -> sym_keyset for_mac ks2 l2 ->
    In (k2, sk) l2 -> k_key_id k2 = k_key_id k -> k_output_prefix_type k2 = k_output_prefix_type k ->
    content fs2 (tf_data_path g) = Some data ->
    content fs2 (tf_tag_path g) = content (snd (mac_cli w env pb o f fs)) (tf_tag_path f) ->
    fst (mac_cli w2 env2 pb2 o2 g fs2) = Ok 0%Z.
Proof.
  intros lib random w env pb o f fs ks l data k sk w2 env2 pb2 o2 random2 SW CL HK KS PR M HD HO SW2.
  destruct (proj1 (sym_mac_cli _ _ _ env pb o f _ _ _ _ SW CL HK KS HD) M HO) as (E & _).
  destruct (E k sk PR) as (T & t & x & S & X & HX & _ & W1 & W2 & _). split; [exact W1 |].
  intros g fs2 ks2 l2 k2 M2 HK2 KS2 I EI ET HD2 HT. rewrite W2 in HT.
  destruct (proj2 (sym_mac_cli _ _ _ env2 pb2 o2 g _ _ _ _ SW2 CL HK2 KS2 HD2) M2 x HT) as (_ & _ & V). apply V.
  exists T. split; [apply digits_tag, HX |]. exists k2, sk, t. split; [exact I |]. split; [exact (same_stamp _ _ _ _ ET EI S) |].
  unfold legacy_data in *. rewrite ET. exact X.
Qed.
