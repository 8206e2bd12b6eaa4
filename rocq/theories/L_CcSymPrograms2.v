(** Proofs: new AES-GCM keys, the *_basic.py examples, and the example programs that make
    keysets, with symmetric keys. *)
From Coq Require Import Strings.Byte Strings.String List NArith ZArith Bool Lia.
From Verif Require Import M_Base M_Utf8 M_Proto M_Wire M_ProtoMsg M_KeyFormats M_Prims M_PrimitiveSet M_Registry M_KeysetHandle M_Wrappers M_StreamTypes M_CcStream M_CcManagers
  M_Templates M_Json M_JsonKeyset M_KeysetStream M_Cli M_Walkthrough M_CcAes M_CcStreamKeys M_CcModes M_CcSymmetric M_CcSymKeys S_Keyset S_Wrappers S_Wire S_Json S_JsonKeyset S_Config S_CcLaws S_Cli S_Basic
  S_Walkthrough S_CcAes S_CcStreamKeys S_CcModes S_CcSymmetric S_CcSymKeys S_CcSymHandles S_CcSymPrograms
  L_Base L_Registry L_Wire L_PrimitiveSet L_Keyset L_Wrappers L_Wrappers2 L_Wrappers3 L_Handle L_Config L_Config2 L_Config3 L_Config4 L_Cli3 L_Cli4 L_Cli5 L_Basic L_Walkthrough
  L_CcStreamKeys L_CcSymKeys L_CcSymKeys2 L_CcSymHandles L_CcSymHandles2 L_CcSymHandles3 L_CcSymHandles4 L_CcSymPrograms.
From Verif Require L_Jwk3.
Import ListNotations.
Open Scope string_scope.
Open Scope list_scope.
Open Scope nat_scope.

(** ** Sizes *)
Lemma key_data_len : forall d, length (serialize_key_data d) <= 60 + 4 * length (kd_type_url d) + length (kd_value d).
Proof.
  intros [u v z]. unfold serialize_key_data, fields_of_key_data. cbn [kd_type_url kd_value kd_key_material_type].
  rewrite !encode_fields_app, !app_length. pose proof (L_Jwk3.string_len 1 u). pose proof (L_Jwk3.bytes_len 2 v). pose proof (L_Jwk3.enum_len 3 z). lia.
Qed.
Lemma one_key_len : forall d id, length (serialize_keyset (one_key d id)) <= 200 + 4 * length (kd_type_url d) + length (kd_value d).
Proof.
  intros d id. unfold serialize_keyset, fields_of_keyset, one_key. cbn [ks_primary_key_id ks_key map]. rewrite !encode_fields_app, !app_length.
  pose proof (L_Jwk3.uint32_len 1 id). pose proof (L_Jwk3.encode_len 2 (serialize_key (mk_key (Some d) ENABLED id TINK))) as A.
  assert (B : length (serialize_key (mk_key (Some d) ENABLED id TINK)) <= 140 + 4 * length (kd_type_url d) + length (kd_value d)).
  { unfold serialize_key, fields_of_key. cbn [k_key_data_opt k_status k_key_id k_output_prefix_type]. rewrite !encode_fields_app, !app_length.
    pose proof (L_Jwk3.enum_len 2 ENABLED). pose proof (L_Jwk3.uint32_len 3 id). pose proof (L_Jwk3.enum_len 4 TINK).
    pose proof (L_Jwk3.encode_len 1 (serialize_key_data d)). pose proof (key_data_len d). lia. }
  lia.
Qed.

(** ** AES-GCM keys *)
Definition gcm_sizes : list (bytes * nat) := [(aes128_gcm_format, 16); (aes256_gcm_format, 32)].
Lemma gcm_key_made : forall lib random w rnd fmt n, sym_world lib random w -> crypto_laws lib -> random_law random -> In (fmt, n) gcm_sizes ->
  exists m d q, cw_aead w (type_url "AesGcmKey") = Some m /\ cl_new_key_data m rnd fmt = StOk d /\
    kd_type_url d = type_url "AesGcmKey" /\ kd_key_material_type d = SYMMETRIC /\ wf_key_data d /\ proto_size (serialize_key_data d) /\
    length (kd_value d) <= 100 /\
    is_key d (GcmKey (random (2 * rnd)%N (Z.of_nat n))) /\ length (random (2 * rnd)%N (Z.of_nat n)) = n /\ usable (GcmKey (random (2 * rnd)%N (Z.of_nat n))) /\
    cl_get_primitive m d = StOk q /\ aead_object lib random (GcmKey (random (2 * rnd)%N (Z.of_nat n))) = StOk q.
Proof.
  intros lib random w rnd fmt n (_ & HW & _) CL RL I.
  assert (LR : length (random (2 * rnd)%N (Z.of_nat n)) = n) by (pose proof (RL (2 * rnd)%N (Z.of_nat n) ltac:(lia)); lia).
  set (key := random (2 * rnd)%N (Z.of_nat n)) in *.
  assert (U : usable (GcmKey key)) by (cbn [usable]; rewrite LR; destruct I as [I | [I | []]]; injection I as <- <-; cbn; auto).
  assert (A : asks_for_key (type_url "AesGcmKey") fmt (GcmKey key)).
  { split; [reflexivity |]. destruct I as [I | [I | []]]; injection I as <- <-; (eexists; split; [vm_compute; reflexivity |]);
      (constructor; [| constructor]); unfold has; cbn [fst snd size_of]; rewrite LR; vm_compute; reflexivity. }
  destruct (proj1 (new_key_accepted lib random _ rnd fmt _ A U Logic.I) eq_refl) as (m & d & M & ND).
  destruct (aead_new_key lib random _ rnd fmt m d M ND RL) as (D1 & D2 & sk & F & A' & U' & _ & CH & K).
  assert (SF : exists t, kt_type_url t = type_url "AesGcmKey" /\ kt_value t = fmt /\ exists name, In (name, Ok t) aead_templates).
  { destruct I as [I | [I | []]]; injection I as <- <-; eexists (mk_key_template _ _ TINK); (split; [reflexivity |]); (split; [reflexivity |]);
      [exists "AES128_GCM" | exists "AES256_GCM"]; vm_compute; tauto. }
  destruct SF as (t & E1 & E2 & name & Hin).
  destruct (aead_template_sizes name t lib random rnd m d RL Hin) as (_ & _ & W1 & W2 & W3 & _); [rewrite E1; exact M | rewrite E2; exact ND |].
  assert (ES : sk = GcmKey key).
  { pose proof (asks_alike _ _ _ _ A A' U U') as (N & _ & L). destruct sk as [| x | | | | | | | | |]; try discriminate N. f_equal.
    cbn [material map] in L. injection L as L. pose proof (CH 0 x eq_refl) as EX. rewrite EX, <- L, LR. unfold key. f_equal. lia. }
  subst sk. exists m, d. specialize (K W2). destruct (proj1 (usable_keys_work lib random _ U) eq_refl) as (q & O). exists q.
  split; [exact (HW _ _ M) |]. do 5 (split; [assumption |]). split.
  { clear - RL ND M I. unfold aead_managers in M. apply find_manager_some in M; [| exact (proj1 (aead_family lib random))].
    destruct M as (t & IT & UT & ->). cbn [In] in IT. repeat destruct IT as [<- | IT]; try contradiction IT; try (vm_compute in UT; discriminate UT). clear UT.
    destruct I as [I | [I | []]]; injection I as <- <-;
      cbn [key_manager_impl cl_new_key_data kt_format kt_validate_key_format kt_create_key kt_key kt_name aes_gcm_key_manager] in ND;
      match type of ND with context [parse_message ?f ?x] => let y := eval vm_compute in (parse_message f x) in change (parse_message f x) with y in ND end;
      cbv beta iota in ND;
      try match type of ND with (match ?c with _ => _ end) = _ => let y := eval vm_compute in c in change c with y in ND end;
      cbv beta iota in ND; injection ND as <-;
      repeat match goal with |- context [num_at ?fs ?m ?q] => let z := eval vm_compute in (num_at fs m q) in change (num_at fs m q) with z end;
      draw random RL; apply Nat.leb_le; vm_compute; reflexivity. }
  do 3 (split; [assumption |]). split; [| exact O].
  destruct (proj2 (aead_key_primitive lib random d q)) as (m' & M' & G); [exists (GcmKey key); auto |]. rewrite D1, M in M'. injection M' as <-. exact G.
Qed.
Lemma object_round_trip : forall lib random sk q, crypto_laws lib -> random_law random -> usable sk -> for_aead sk = true -> aead_object lib random sk = StOk q ->
  (forall rnd P ad, admits sk P ad -> exists c, ca_encrypt q rnd P ad = StOk c) /\
  (forall rnd P ad c, ca_encrypt q rnd P ad = StOk c -> c <> [] /\ ca_decrypt q c ad = StOk P).
Proof.
  intros lib random sk q CL RL U F O. split.
  - intros rnd P ad A. exact (proj2 (aead_object_encrypts lib random sk q CL RL U F O rnd P ad) A).
  - intros rnd P ad c E. apply (aead_object_encrypts lib random sk q CL RL U F O rnd P ad) in E.
    split; [exact (aead_ciphertext_nonempty _ _ _ _ _ _ CL U E) |]. apply (aead_object_decrypts lib random sk q CL U F O). eexists. exact E.
Qed.

(** ** The *_basic.py examples *)
Definition basic_gcm_key : sym_key := GcmKey (skipn 2 (kd_value aead_basic_key)).
Definition basic_siv_key : sym_key := SivKey (skipn 2 (kd_value daead_basic_key)).
Definition basic_hmac_key : sym_key := HmacMacKey M_CcAes.SHA256 16 (skipn 8 (kd_value mac_basic_key)).
Ltac plain_key :=
  split; [reflexivity |]; eexists; (split; [vm_compute; reflexivity |]); repeat apply Forall_cons; try apply Forall_nil;
  unfold has; cbn [fst snd count]; try (exists 3%Z; split; [| cbn; auto]); vm_compute; reflexivity.
Lemma basic_keys : is_key aead_basic_key basic_gcm_key /\ is_key daead_basic_key basic_siv_key /\ is_key mac_basic_key basic_hmac_key.
Proof. split; [plain_key | split; plain_key]. Qed.
Lemma basic_usable : usable basic_gcm_key /\ usable basic_siv_key /\ usable basic_hmac_key.
Proof.
  split; [| split]; unfold basic_gcm_key, basic_siv_key, basic_hmac_key; cbn [usable].
  - right. left. vm_compute. reflexivity.
  - vm_compute. reflexivity.
  - split; [apply Nat.leb_le; vm_compute; reflexivity | cbn; lia].
Qed.
Theorem sym_basic_programs : forall lib random w env pb l r xs, sym_world lib random w -> crypto_laws lib -> random_law random ->
  reached w env l r xs -> python_digit_limit (pe_rt env) ->
  (forall rnd, snd (aead_basic w env pb (N.of_nat (length l)) r rnd) = Ok tt) /\
  snd (deterministic_aead_basic w env pb (N.of_nat (length l)) r) = Ok tt /\
  snd (mac_basic w env pb (N.of_nat (length l)) r) = Ok tt.
Proof.
  intros lib random w env pb l r xs SW CL RL RE HL. pose proof SW as (_ & WA & WD & WM & _).
  destruct basic_keys as (K1 & K2 & K3). destruct basic_usable as (U1 & U2 & U3). split; [| split].
  - intros rnd. destruct (proj1 (usable_keys_work lib random _ U1) eq_refl) as (q & O).
    destruct (proj2 (aead_key_primitive lib random aead_basic_key q)) as (m & M & G); [exists basic_gcm_key; auto |].
    destruct (aead_basic_spec w env pb l r xs rnd m q RE (sym_world_ready _ _ _ Aead SW ltac:(cbn; tauto)) HL (WA _ _ M) G) as (_ & E).
    destruct (object_round_trip lib random _ q CL RL U1 eq_refl O) as (R1 & R2).
    destruct (R1 rnd (blit "msg") (blit "associated_data")) as (c & Ec); [split; vm_compute; [discriminate | reflexivity] |].
    destruct (R2 _ _ _ _ Ec) as (N & D). unfold ends_as in E. rewrite Ec in E. destruct c as [| b c]; [contradiction |]. rewrite D in E. apply E. reflexivity.
  - destruct (proj1 (proj2 (usable_keys_work lib random _ U2)) eq_refl) as (q & O).
    destruct (proj2 (daead_key_primitive lib random daead_basic_key q)) as (m & M & G); [exists basic_siv_key; auto |].
    destruct (deterministic_aead_basic_spec w env pb l r xs m q RE (sym_world_ready _ _ _ Daead SW ltac:(cbn; tauto)) HL (WD _ _ M) G) as (_ & E).
    destruct (daead_object_encrypts lib basic_siv_key q CL eq_refl O (blit "msg") (blit "associated_data")) as (X & c & Ec). pose proof (proj1 (X c) Ec) as XC.
    pose proof (daead_ciphertext_length _ _ _ _ _ CL U2 XC) as LC. pose proof (proj2 (daead_object_decrypts lib basic_siv_key q CL eq_refl O c _ _) XC) as D.
    unfold ends_as in E. rewrite Ec in E. destruct c as [| b c]; [cbn in LC; lia |]. rewrite D in E. apply E. reflexivity.
  - destruct (proj1 (proj2 (proj2 (usable_keys_work lib random _ U3))) eq_refl) as (q & O).
    destruct (proj2 (mac_key_primitive lib random mac_basic_key q)) as (m & M & G); [exists basic_hmac_key; auto |].
    destruct (mac_basic_spec w env pb l r xs m q RE (sym_world_ready _ _ _ Mac SW ltac:(cbn; tauto)) HL (WM _ _ M) G) as (_ & E).
    destruct (mac_object_works lib basic_hmac_key q CL U3 eq_refl O (blit "data")) as (X & (t & Et) & V & LT). pose proof (proj1 (X t) Et) as XT. pose proof (LT t XT) as LX.
    unfold ends_checked in E. rewrite Et in E. destruct t as [| b t]; [cbn in LX; lia |]. apply E. constructor; [apply V, XT | constructor].
Qed.

(** ** Programs that make keysets *)
Lemma one_sym_key : forall d id sk, wf_key_data d -> proto_size (serialize_key_data d) -> is_key d sk -> for_aead sk = true -> usable sk -> uint32_range id ->
  sym_keyset for_aead (one_key d id) [(mk_key (Some d) ENABLED id TINK, sk)].
Proof.
  intros d id sk W S K F U R. split; [apply one_key_valid |]. split; [reflexivity |]. constructor; [| constructor].
  cbn [fst snd k_key_data k_key_data_opt k_output_prefix_type k_key_id]. do 5 (split; [assumption |]). apply has_prefix_exists. right. auto.
Qed.
Theorem sym_cleartext_pipeline : forall lib random w env pb o rnd0 raw draws path, sym_world lib random w -> crypto_laws lib -> random_law random ->
  python_digit_limit (pe_rt env) -> may_write o path = true ->
  exists generate ks, cleartext_keyset_generate w env o rnd0 (raw :: draws) path = Some generate /\ made_keyset random rnd0 raw ks /\
  forall fs0, fst (generate fs0) = Ok 0%Z /\ holds_keyset (pe_rt env) (snd (generate fs0)) path ks /\
  forall rnd f fs data, cf_mode f = Encrypt ->
    content fs (cf_keyset_path f) = content (snd (generate fs0)) path ->
    content fs (cf_input_path f) = Some data -> may_write o (cf_output_path f) = true ->
    aead_sizes data (blit "envelope_example") ->
    fst (cleartext_keyset_crypt w env pb o rnd f fs) = Ok 0%Z /\
    forall rnd' g fs', cf_mode g = Decrypt ->
      content fs' (cf_keyset_path g) = content (snd (generate fs0)) path ->
      content fs' (cf_input_path g) = content (snd (cleartext_keyset_crypt w env pb o rnd f fs)) (cf_output_path f) ->
      may_write o (cf_output_path g) = true ->
      writes (cleartext_keyset_crypt w env pb o rnd' g fs') (cf_output_path g) data fs'.
Proof.
  intros lib random w env pb o rnd0 raw draws path SW CL RL HL HO. pose proof (sym_world_ready _ _ _ Aead SW ltac:(cbn; tauto)) as R.
  destruct (gcm_key_made lib random w rnd0 aes128_gcm_format 16 SW CL RL (or_introl eq_refl)) as (m & d & q & M & ND & D1 & D2 & W & S & _ & K & _ & U & G & O).
  destruct (object_round_trip lib random _ q CL RL U eq_refl O) as (R1 & R2).
  destruct (cleartext_pipeline w env pb o rnd0 raw draws path m d q R HL M ND D1 W S G (fun rnd data c => R2 rnd data _ c) HO) as (gen & EG & H).
  destruct (cleartext_generate_spec w env o rnd0 raw draws path m R HL M) as (gen' & EG' & H'); [intros d' E; rewrite ND in E; injection E as <-; auto | exact HO |].
  rewrite EG in EG'. injection EG' as <-. rewrite ND in H'.
  exists gen, (one_key d (1 + raw mod 2147483647)). split; [exact EG |]. split.
  { exists d. split; [reflexivity |]. apply one_sym_key; try assumption; [reflexivity | apply drawn_id_range]. }
  intros fs0. destruct (H fs0) as (H1 & H2). destruct (H' fs0) as (_ & H3). split; [exact H1 |]. split; [exact H3 |].
  intros rnd f fs data Mo C1 C2 C3 SZ. destruct (R1 rnd data (blit "envelope_example") SZ) as (c & Ec).
  exact (H2 rnd f fs data c Mo C1 C2 C3 Ec).
Qed.
Theorem sym_encrypted_pipeline : forall lib random w env pb o a keyset_ad rnd0 rnd1 raw draws path, sym_world lib random w -> crypto_laws lib -> random_law random ->
  python_digit_limit (pe_rt env) -> may_write o path = true ->
  (forall pt, exists ct, aead_encrypt a rnd1 pt keyset_ad = Ok ct /\ ct <> [] /\ aead_decrypt a ct keyset_ad = Ok pt) ->
  exists generate ks, encrypted_keyset_generate w env o (Ok a) keyset_ad rnd0 rnd1 (raw :: draws) path = Some generate /\ made_keyset random rnd0 raw ks /\
  forall fs0, fst (generate fs0) = Ok 0%Z /\ holds_encrypted_keyset (pe_rt env) (snd (generate fs0)) path a keyset_ad ks /\
  forall rnd f fs ad data, cf_mode f = Encrypt ->
    content fs (cf_keyset_path f) = content (snd (generate fs0)) path -> flag_is (cf_associated_data f) ad ->
    content fs (cf_input_path f) = Some data -> may_write o (cf_output_path f) = true ->
    aead_sizes data ad ->
    fst (encrypted_keyset_crypt w env pb o (Ok a) keyset_ad rnd f fs) = Ok 0%Z /\
    forall rnd' g fs', cf_mode g = Decrypt ->
      content fs' (cf_keyset_path g) = content (snd (generate fs0)) path -> flag_is (cf_associated_data g) ad ->
      content fs' (cf_input_path g) = content (snd (encrypted_keyset_crypt w env pb o (Ok a) keyset_ad rnd f fs)) (cf_output_path f) ->
      may_write o (cf_output_path g) = true ->
      writes (encrypted_keyset_crypt w env pb o (Ok a) keyset_ad rnd' g fs') (cf_output_path g) data fs'.
Proof.
  intros lib random w env pb o a keyset_ad rnd0 rnd1 raw draws path SW CL RL HL HO HA. pose proof (sym_world_ready _ _ _ Aead SW ltac:(cbn; tauto)) as R.
  destruct (gcm_key_made lib random w rnd0 aes128_gcm_format 16 SW CL RL (or_introl eq_refl)) as (m & d & q & M & ND & D1 & D2 & W & S & LV & K & _ & U & G & O).
  destruct (object_round_trip lib random _ q CL RL U eq_refl O) as (R1 & R2).
  set (ks := one_key d (1 + raw mod 2147483647)).
  assert (PK : parse_keyset (serialize_keyset ks) = Some ks).
  { apply keyset_round_trip; [apply one_key_wf; [exact W | apply drawn_id_range] |]. unfold proto_size.
    pose proof (one_key_len d (1 + raw mod 2147483647)) as L. fold ks in L. rewrite D1 in L.
    assert (LU : length (type_url "AesGcmKey") <= 100) by (apply Nat.leb_le; vm_compute; reflexivity).
    change (2 ^ 31)%N with 2147483648%N. lia. }
  assert (NE : forall pt ct, aead_encrypt a rnd1 pt keyset_ad = Ok ct -> ct <> [])
    by (intros pt ct E; destruct (HA pt) as (ct' & E' & N & _); congruence).
  destruct (HA (serialize_keyset ks)) as (ct & E1 & _ & E2).
  destruct (encrypted_pipeline w env pb o a keyset_ad rnd0 rnd1 raw draws path m d q ct (serialize_keyset ks) R HL M ND D1 W S G R2 NE E1 E2 PK HO) as (gen & EG & H).
  destruct (encrypted_generate_spec w env o a keyset_ad rnd0 rnd1 raw draws path m R HL M) as (gen' & EG' & H');
    [intros d' E; rewrite ND in E; injection E as <-; auto | exact NE | exact HO |].
  rewrite EG in EG'. injection EG' as <-. rewrite ND in H'. exists gen, ks. split; [exact EG |]. split.
  { exists d. split; [reflexivity |]. apply one_sym_key; try assumption; [reflexivity | apply drawn_id_range]. }
  intros fs0. destruct (H fs0) as (H1 & H2). split; [exact H1 |]. split.
  { destruct (H' fs0) as [(_ & _ & X) | (X & _)]; [exact X | destruct (X _ _ E1 E2 PK)]. }
  intros rnd f fs ad data Mo C1 HF C2 C3 SZ. destruct (R1 rnd data ad SZ) as (c & Ec).
  exact (H2 rnd f fs ad data c Mo C1 HF C2 C3 Ec).
Qed.
Theorem sym_walkthrough : forall lib random1 w1 env1 reg1 random2 w2 env2 reg2 random3 w3 env3 reg3 rt pb uri ad
  rnd raw draws rnd1 rnd1' raw1 draws1 remote1 st rnd2 raw2 draws2 remote2 rnd3 raw3 draws3 remote3 pt pad rndE,
  crypto_laws lib ->
  sym_world lib random1 w1 -> random_law random1 -> configured w1 env1 Aead reg1 ->
  sym_world lib random2 w2 -> random_law random2 -> configured w2 env2 Aead reg2 ->
  sym_world lib random3 w3 -> random_law random3 -> configured w3 env3 Aead reg3 ->
  usable_uri uri -> python_digit_limit rt -> aead_sizes pt pad ->
  kms_gives (pe_clients env1) uri (Ok remote1) -> kms_gives (pe_clients env2) uri (Ok remote2) -> kms_gives (pe_clients env3) uri (Ok remote3) ->
  (forall x, exists ct, aead_encrypt remote1 rnd1' x ad = Ok ct /\ ct <> [] /\
     aead_decrypt remote1 ct ad = Ok x /\ aead_decrypt remote2 ct ad = Ok x /\ aead_decrypt remote3 ct ad = Ok x) ->
  exists h t ct', CreateAead128GcmKeyset reg1 rnd (raw :: draws) = Some (Ok h) /\ made_keyset random1 rnd raw (kh_keyset h) /\
    WriteEncryptedKeyset reg1 rt rnd1 rnd1' (raw1 :: draws1) h memory_stream uri ad st = Some (Ok tt, st ++ t) /\
    LoadEncryptedKeyset reg2 rt pb rnd2 (raw2 :: draws2) t uri ad = Some (Ok h) /\
    AeadEncrypt reg2 h rndE pt pad = Ok ct' /\
    LoadEncryptedKeyset reg3 rt pb rnd3 (raw3 :: draws3) t uri ad = Some (Ok h) /\
    AeadDecrypt reg3 h ct' pad = Ok pt.
Proof.
  intros lib random1 w1 env1 reg1 random2 w2 env2 reg2 random3 w3 env3 reg3 rt pb uri ad
    rnd raw draws rnd1 rnd1' raw1 draws1 remote1 st rnd2 raw2 draws2 remote2 rnd3 raw3 draws3 remote3 pt pad rndE
    CL SW1 RL1 C1 SW2 RL2 C2 SW3 RL3 C3 HU HL SZ K1 K2 K3 HA.
  destruct (gcm_key_made lib random1 w1 rnd aes128_gcm_format 16 SW1 CL RL1 (or_introl eq_refl)) as (m1 & d & q1 & M1 & ND & D1 & D2 & W & S & LV & K & LK & U & G & O).
  assert (OTHER : forall random w, sym_world lib random w -> exists m q, cw_aead w (type_url "AesGcmKey") = Some m /\ cl_get_primitive m d = StOk q /\
    aead_object lib random (GcmKey (random1 (2 * rnd)%N (Z.of_nat 16))) = StOk q).
  { intros random w (_ & HW & _). destruct (proj1 (usable_keys_work lib random _ U) eq_refl) as (q & O').
    destruct (proj2 (aead_key_primitive lib random d q)) as (m & M & G'); [exists (GcmKey (random1 (2 * rnd)%N (Z.of_nat 16))); auto |].
    rewrite D1 in M. exists m, q. auto. }
  destruct (OTHER random2 w2 SW2) as (m2 & q2 & M2 & G2 & O2). destruct (OTHER random3 w3 SW3) as (m3 & q3 & M3 & G3 & O3).
  assert (PS : proto_size (serialize_keyset (one_key d (1 + raw mod 2147483647)))).
  { unfold proto_size. pose proof (one_key_len d (1 + raw mod 2147483647)) as L. rewrite D1 in L.
    assert (LU : length (type_url "AesGcmKey") <= 100) by (apply Nat.leb_le; vm_compute; reflexivity).
    change (2 ^ 31)%N with 2147483648%N. lia. }
  destruct (HA (serialize_keyset (one_key d (1 + raw mod 2147483647)))) as (ct & E1 & NE & E2 & E3 & E4).
  destruct (object_round_trip lib random2 _ q2 CL RL2 U eq_refl O2) as (R1 & R2). destruct (R1 rndE pt pad SZ) as (c & Ec).
  destruct (R2 _ _ _ _ Ec) as (NC & _).
  assert (DC : ca_decrypt q3 c pad = StOk pt).
  { apply (aead_object_decrypts lib random3 _ q3 CL U eq_refl O3). apply (aead_object_encrypts lib random2 _ q2 CL RL2 U eq_refl O2) in Ec. eexists. exact Ec. }
  destruct (walkthrough_pipeline w1 env1 reg1 m1 w2 env2 reg2 m2 q2 w3 env3 reg3 m3 q3 rt pb uri ad
    rnd raw draws d rnd1 rnd1' raw1 draws1 remote1 st rnd2 raw2 draws2 remote2 rnd3 raw3 draws3 remote3 pt pad rndE c ct
    C1 C2 C3 HU HL M1 ND W D1 PS S K1 K2 K3 E1 NE E2 E3 E4 M2 G2 M3 G3 Ec NC DC) as (h & t & ct' & H1 & H2 & H3 & H4 & H5 & H6).
  exists h, t, ct'. split; [exact H1 |]. split; [| auto].
  destruct (create_keyset_spec w1 env1 reg1 m1 rnd raw draws C1 M1) as (made & EM & HM); [intros d' E; rewrite ND in E; injection E as <-; auto |].
  rewrite ND in HM. subst made. rewrite H1 in EM. injection EM as ->. cbn [kh_keyset].
  exists d. split; [reflexivity |]. apply one_sym_key; try assumption; [reflexivity | apply drawn_id_range].
Qed.
