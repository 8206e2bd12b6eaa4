(** C97: hybrid encryption with keysets of ECIES keys and HPKE keys, and the example programs
    that use them. *)
From Coq Require Import Strings.Byte Strings.String List NArith ZArith Bool Lia.
From Verif Require Import M_Base M_Utf8 M_Proto M_Wire M_ProtoMsg M_KeyFormats M_Prims M_PrimitiveSet M_Registry M_KeysetHandle M_Wrappers M_StreamTypes M_CcStream M_CcManagers
  M_Templates M_Json M_JsonKeyset M_KeysetStream M_Cli M_Walkthrough M_CcAes M_CcStreamKeys M_CcModes M_CcSymmetric M_CcSymKeys M_CcEcies M_CcEciesKeys M_CcHpke S_Keyset S_Handle S_Wrappers S_Wire S_Json S_JsonKeyset S_Config S_Cli S_Walkthrough S_Basic
  S_CcLaws S_CcAes S_CcStreamKeys S_CcModes S_CcSymmetric
  S_CcSymKeys S_CcSymHandles S_CcEcies S_CcEciesKeys S_CcEciesHandles S_CcHpke S_CcHpkeHandles S_CcHybrid L_Base L_Keyset L_PrimitiveSet L_Cli5 L_CcSymHandles3 L_CcEciesKeys L_CcEciesKeys2 L_CcEciesHandles L_CcEciesHandles2 L_CcEciesHandles3
  L_CcModes L_CcHpke L_CcHpke2 L_CcHpkeHandles L_CcHpkeHandles2 L_CcHybrid L_CcHybrid2
  X_Toy L_Toy X_Rt X_Config X_CliStream X_CcSymmetric X_CcSymKeys X_CcEcies X_CcHpke P_JsonKeyset.
Import ListNotations.
Open Scope string_scope.
Open Scope list_scope.
Open Scope nat_scope.

Theorem C97_encrypt : forall ec lib random hc w env r ks l, ecies_world ec lib random w -> hpke_world ec hc w -> ec_laws ec lib -> crypto_laws lib -> random_law random -> hpke_laws ec hc ->
  configured w env Hybrid r -> hybrid_keyset is_any_public (good_any_public ec) ks l ->
  exists a, handle_primitive r (mk_handle ks) ClsHybridEncrypt = Ok (PrimHybridEncrypt a) /\ any_encrypt_works ec lib random hc ks l a.
Proof. exact any_encrypt_handle. Qed.
Print Assumptions C97_encrypt.
Theorem C97_decrypt : forall ec lib random hc w env r ks l, ecies_world ec lib random w -> hpke_world ec hc w -> ec_laws ec lib -> crypto_laws lib -> hpke_laws ec hc ->
  configured w env Hybrid r -> hybrid_keyset is_any_private (good_any_private ec) ks l ->
  exists a, handle_primitive r (mk_handle ks) ClsHybridDecrypt = Ok (PrimHybridDecrypt a) /\ any_decrypt_works ec lib hc l a.
Proof. exact any_decrypt_handle. Qed.
Print Assumptions C97_decrypt.
Theorem C97_round_trip : forall ec lib random hc ks l a ks2 l2 a2 k k2 q rnd P info, ec_laws ec lib -> crypto_laws lib -> hpke_laws ec hc ->
  any_encrypt_works ec lib random hc ks l a -> is_primary ks l k (any_public_of q) -> hybrid_keyset is_any_private (good_any_private ec) ks2 l2 -> any_decrypt_works ec lib hc l2 a2 ->
  In (k2, q) l2 -> k_key_id k2 = k_key_id k -> k_output_prefix_type k2 = k_output_prefix_type k ->
  (any_admits (any_public_of q) P -> exists C, he_encrypt a rnd P info = Ok C) /\
  forall C, he_encrypt a rnd P info = Ok C ->
    (exists P', hd_decrypt a2 C info = Ok P' /\ any_opens ec lib hc l2 C info P') /\
    ((forall P', any_opens ec lib hc l2 C info P' -> P' = P) -> hd_decrypt a2 C info = Ok P) /\
    (any_told_apart k2 q l2 -> hd_decrypt a2 C info = Ok P).
Proof. exact any_carries_over. Qed.
Print Assumptions C97_round_trip.
Theorem C97_public_handle : forall ec lib random hc w env r ks l, ecies_world ec lib random w -> hpke_world ec hc w -> ec_laws ec lib -> configured w env Hybrid r ->
  valid_keyset ks -> all_any_private ks l -> (forall k, In k (ks_key ks) -> k_output_prefix_type k <> UNKNOWN_PREFIX /\ k_status k <> UNKNOWN_STATUS) ->
  (forall k q, In (k, q) l -> any_public_fits ec lib random hc k q) ->
  exists ph l', public_keyset_handle r (mk_handle ks) = Ok ph /\ ks_primary_key_id (kh_keyset ph) = ks_primary_key_id ks /\
    map fst l' = ks_key (kh_keyset ph) /\ Forall2 any_public_half l l' /\ Forall (fun y => kd_key_material_type (k_key_data (fst y)) = ASYMMETRIC_PUBLIC) l' /\
    (hybrid_keyset is_any_private (good_any_private ec) ks (enabled_of l) -> hybrid_keyset is_any_public (good_any_public ec) (kh_keyset ph) (enabled_of l')).
Proof. exact any_public_handle. Qed.
Print Assumptions C97_public_handle.
Theorem C97_cli_encrypt : forall ec lib random hc w env pb o rnd f fs ks l info data, hybrid_library ec lib random hc w -> ec_laws ec lib -> crypto_laws lib -> random_law random -> hpke_laws ec hc ->
  cf_mode f = Encrypt -> holds_keyset (pe_rt env) fs (cf_keyset_path f) ks -> hybrid_keyset is_any_public (good_any_public ec) ks l ->
  flag_is (cf_associated_data f) info -> content fs (cf_input_path f) = Some data -> may_write o (cf_output_path f) = true ->
  hybrid_encrypts_file ec lib random hc ks l rnd data info (hybrid_cli w env pb o rnd f fs) (cf_output_path f) fs.
Proof. exact any_hybrid_cli_encrypt. Qed.
Print Assumptions C97_cli_encrypt.
Theorem C97_cli_decrypt : forall ec lib random hc w env pb o rnd f fs ks l info data, hybrid_library ec lib random hc w -> ec_laws ec lib -> crypto_laws lib -> hpke_laws ec hc ->
  cf_mode f = Decrypt -> holds_keyset (pe_rt env) fs (cf_keyset_path f) ks -> hybrid_keyset is_any_private (good_any_private ec) ks l ->
  flag_is (cf_associated_data f) info -> content fs (cf_input_path f) = Some data -> may_write o (cf_output_path f) = true ->
  hybrid_decrypts_file ec lib hc l data info (hybrid_cli w env pb o rnd f fs) (cf_output_path f) fs.
Proof. exact any_hybrid_cli_decrypt. Qed.
Print Assumptions C97_cli_decrypt.
Theorem C97_cli_files : forall ec lib random hc w env pb o rnd f fs ks l info data k q w2 env2 pb2 o2 random2,
  hybrid_library ec lib random hc w -> ec_laws ec lib -> crypto_laws lib -> random_law random -> hpke_laws ec hc ->
  holds_keyset (pe_rt env) fs (cf_keyset_path f) ks -> hybrid_keyset is_any_public (good_any_public ec) ks l -> is_primary ks l k (any_public_of q) -> good_any_private ec q -> any_admits (any_public_of q) data ->
  cf_mode f = Encrypt -> flag_is (cf_associated_data f) info -> content fs (cf_input_path f) = Some data -> may_write o (cf_output_path f) = true ->
  hybrid_library ec lib random2 hc w2 ->
  fst (hybrid_cli w env pb o rnd f fs) = Ok 0%Z /\
  forall rnd2 g fs2 ks2 l2 k2, cf_mode g = Decrypt -> holds_keyset (pe_rt env2) fs2 (cf_keyset_path g) ks2 -> hybrid_keyset is_any_private (good_any_private ec) ks2 l2 ->
    In (k2, q) l2 -> k_key_id k2 = k_key_id k -> k_output_prefix_type k2 = k_output_prefix_type k -> any_told_apart k2 q l2 ->
    flag_is (cf_associated_data g) info ->
    content fs2 (cf_input_path g) = content (snd (hybrid_cli w env pb o rnd f fs)) (cf_output_path f) ->
    may_write o2 (cf_output_path g) = true ->
    writes (hybrid_cli w2 env2 pb2 o2 rnd2 g fs2) (cf_output_path g) data fs2.
Proof. exact any_hybrid_files. Qed.
Print Assumptions C97_cli_files.
Theorem C97_basic : forall ec lib random hc w env pb l r xs rnd, hybrid_library ec lib random hc w -> ec_laws ec lib -> hpke_laws ec hc ->
  x25519_public ec (skipn 46 (kd_value hybrid_basic_private_key)) = skipn 10 (kd_value hybrid_basic_public_key) ->
  reached w env l r xs -> python_digit_limit (pe_rt env) ->
  snd (hybrid_basic w env pb (N.of_nat (length l)) r rnd) = Ok tt.
Proof. exact hybrid_basic_program. Qed.
Print Assumptions C97_basic.

(** The hypotheses are met by the small library and a keyset with a key of each kind. In this
    library the public key of hybrid_basic.py belongs to its private key, as it does in X25519. *)
Definition basic_public_of (a : bytes) : bytes :=
  if bytes_eqb a (skipn 46 (kd_value hybrid_basic_private_key)) then skipn 10 (kd_value hybrid_basic_public_key) else toy_public a.
Lemma basic_public_size : forall a, length a = 32 -> length (basic_public_of a) = 32 /\ forallb (fun y => Byte.eqb y x00) (basic_public_of a) = false.
Proof.
  intros a H. unfold basic_public_of. destruct (bytes_eqb _ _); [vm_compute; split; reflexivity |]. split; [unfold toy_public; rewrite map_length; exact H | exact (public_nonzero a H)].
Qed.
Definition basic_ec : ec_crypto := mk_ec_crypto (ec_on_curve toy_ec) (ec_decompress toy_ec) (ec_generate_key toy_ec) (ec_generator toy_ec) (ec_point_mul toy_ec) (x25519_generate toy_ec)
  basic_public_of (fun a b => if forallb (fun y => Byte.eqb y x00) b then None else Some (xor_all (basic_public_of a) b)) (evp_hkdf toy_ec).
Lemma basic_ec_laws : ec_laws basic_ec sym_toy.
Proof.
  destruct toy_ec_laws. constructor; try assumption.
  - intros a H. exact (proj1 (basic_public_size a H)).
  - intros a b A B. cbn [x25519_public x25519_derive basic_ec]. rewrite (proj2 (basic_public_size a A)), (proj2 (basic_public_size b B)).
    eexists. split; [reflexivity |]. rewrite xor_all_comm. reflexivity.
Qed.
Definition basic_hpke : hpke_crypto := mk_hpke_crypto bytes
  (fun a pk info rnd => if Nat.eqb (length pk) 32 then Some (be_bytes 32 rnd, toy_header a pk (be_bytes 32 rnd) info) else None)
  (fun sk => Nat.eqb (length sk) 32)
  (fun a sk enc info => Some (toy_header a (x25519_public basic_ec sk) enc info))
  (fun ctx P _ => Some (ctx ++ P))
  (fun ctx c _ => if bytes_eqb (firstn (length ctx) c) ctx then Some (skipn (length ctx) c) else None).
Lemma basic_hpke_laws : hpke_laws basic_ec basic_hpke.
Proof.
  constructor.
  - intros sk. apply Nat.eqb_eq.
  - intros a pk info rnd enc ctx. cbn [basic_hpke hpke_setup_sender]. destruct (Nat.eqb (length pk) 32); [| discriminate]. intros E. apply (f_equal (fun o => match o with Some (e, _) => e | None => [] end)) in E. cbv beta iota in E. rewrite <- E. apply L_CcModes.be_bytes_length.
  - intros a sk info rnd L. cbn [basic_hpke hpke_setup_sender]. rewrite (law_x25519_public _ _ basic_ec_laws sk L). do 2 eexists. reflexivity.
  - intros. eexists. reflexivity.
  - intros a sk info rnd enc ctx P c L S X. cbn [basic_hpke hpke_setup_sender hpke_setup_recipient hpke_seal hpke_open] in *. rewrite (law_x25519_public _ _ basic_ec_laws sk L) in S. cbn [Nat.eqb] in S.
    assert (E1 := f_equal (fun o => match o with Some (e, _) => e | None => [] end) S). assert (E2 := f_equal (fun o => match o with Some (_, h) => h | None => [] end) S). cbv beta iota in E1, E2.
    apply (f_equal (fun o => match o with Some h => h | None => [] end)) in X. cbv beta iota in X. rewrite <- X, <- E1. eexists. split; [reflexivity |]. rewrite E2. apply toy_open.
Qed.
Definition idle {P} (url : pystr) : cc_lib_manager P := mk_cc_lib_manager url (fun _ => StErr Undefined) (fun _ _ => StErr Undefined) None.
Definition hybrid_world : cc_world :=
  mk_cc_world (StOk tt) (StOk tt) (StOk tt) (cw_aead sym_toy_world) (cw_daead sym_toy_world)
    (fun url => if str_eqb url (type_url "EciesAeadHkdfPrivateKey") then Some (ecies_private_key_manager basic_ec sym_toy toy_draw)
                else if str_eqb url (type_url "HpkePrivateKey") then Some (hpke_private_key_manager basic_ec basic_hpke) else Some (idle url))
    (fun url => if str_eqb url (type_url "EciesAeadHkdfPublicKey") then Some (ecies_public_key_manager basic_ec sym_toy toy_draw)
                else if str_eqb url (type_url "HpkePublicKey") then Some (hpke_public_key_manager basic_hpke) else Some (idle url))
    (cw_mac sym_toy_world) (cw_prf sym_toy_world) (cw_sign sym_toy_world) (cw_verify sym_toy_world) (cw_streaming sym_toy_world).
Lemma toy_library : hybrid_library basic_ec sym_toy toy_draw basic_hpke hybrid_world.
Proof. split; [split; reflexivity |]. split; [split; reflexivity |]. split; reflexivity. Qed.
Definition hybrid_registry : registry := fst (setup_run hybrid_world stream_env 0 [CallHybrid] empty_registry).
Lemma hybrid_configured : configured hybrid_world stream_env Hybrid hybrid_registry.
Proof.
  exists [CallHybrid], (snd (setup_run hybrid_world stream_env 0 [CallHybrid] empty_registry)), CallHybrid. split; [| split; [left; reflexivity | reflexivity]].
  split; [unfold hybrid_registry; destruct (setup_run _ _ _ _ _); reflexivity |]. split; [| intros c [<- | []]; exact I].
  intros c q [<- | []] Hq. cbn in Hq. subst q. exact (hybrid_library_ready _ _ _ _ _ toy_library).
Qed.
Lemma toy_random : random_law toy_draw.
Proof. intros rnd size H. unfold toy_draw. rewrite repeat_length. lia. Qed.
Definition made (m : cc_lib_manager cc_hybrid_decrypt) (n : nat) (rnd : coins) : key_data :=
  match nth_error hybrid_templates n with
  | Some (_, Ok t) => match cl_new_key_data m rnd (kt_value t) with StOk d => d | _ => mk_key_data [] [] 0 end
  | _ => mk_key_data [] [] 0
  end.
Definition made_ecies : key_data := made (ecies_private_key_manager basic_ec sym_toy toy_draw) 0 5%N.
Definition made_hpke : key_data := made (hpke_private_key_manager basic_ec basic_hpke) 4 6%N.
Lemma ecies_is_made : exists q, is_private made_ecies q /\ good_private basic_ec q /\ kd_key_material_type made_ecies = ASYMMETRIC_PRIVATE /\
  wf_key_data made_ecies /\ proto_size (serialize_key_data made_ecies) /\ forall k, k_key_data k = made_ecies -> public_fits basic_ec sym_toy toy_draw k.
Proof.
  assert (H0 : exists name t, nth_error hybrid_templates 0 = Some (name, Ok t) /\ kt_type_url t = type_url "EciesAeadHkdfPrivateKey") by (do 2 eexists; split; [vm_compute; reflexivity | reflexivity]).
  destruct H0 as (name & t & E & U). destruct (ecies_template_found name t (nth_error_In _ _ E) U) as (I4 & p & _ & A & PR & _). rewrite U in A.
  destruct (ecies_new_key basic_ec sym_toy toy_draw 5%N _ _ basic_ec_laws A) as (d & ND & _ & MT & H). destruct (ecies_template_sizes _ _ _ name t 5%N d I4 ND) as ((_ & _ & W & S & S' & _) & PF).
  assert (M : made_ecies = d) by (unfold made_ecies, made; rewrite E, ND; reflexivity). rewrite M. destruct (H S) as (s & X & Y & K & _ & KP).
  exists (mk_ecies_private (mk_ecies_public p X Y) s). split; [exact K |]. split; [split; assumption |]. auto.
Qed.
Lemma hpke_is_made : exists q, is_hpke_private made_hpke q /\ good_hpke_private basic_ec q /\ kd_key_material_type made_hpke = ASYMMETRIC_PRIVATE /\ suite_stated (hpub_suite (hprv_public q)) /\
  wf_key_data made_hpke /\ proto_size (serialize_key_data made_hpke) /\ forall k, k_key_data k = made_hpke -> hpke_public_fits basic_ec basic_hpke k.
Proof.
  assert (H0 : exists name t, nth_error hybrid_templates 4 = Some (name, Ok t) /\ kt_type_url t = type_url "HpkePrivateKey") by (do 2 eexists; split; [vm_compute; reflexivity | reflexivity]).
  destruct H0 as (name & t & E & U). destruct (hpke_template_found name t (nth_error_In _ _ E) U) as (I4 & p & a & b & _ & A & W & _). rewrite U in A.
  destruct (hpke_new_key basic_ec sym_toy basic_hpke 6%N _ _ basic_ec_laws A (works_made p a W)) as (d & ND & _ & MT & H). destruct (hpke_template_sizes _ _ _ name t 6%N d basic_ec_laws I4 ND) as ((_ & _ & WD & S & S' & _) & PF).
  assert (M : made_hpke = d) by (unfold made_hpke, made; rewrite E, ND; reflexivity). rewrite M. destruct (H S) as (s & X & K & F).
  exists (mk_hpke_private (mk_hpke_public p X) s). split; [exact K |]. split; [split; [exists a; exact W | exact (fresh_pair_hpke _ _ p 6%N s X a basic_ec_laws W F)] |]. split; [exact MT |]. split; [exact (made_stated p (works_made p a W)) |]. auto.
Qed.
Definition key_a : key := mk_key (Some made_ecies) ENABLED 42 TINK.
Definition key_b : key := mk_key (Some made_hpke) ENABLED 43 CRUNCHY.
Definition both (n : N) : keyset := mk_keyset n [key_a; key_b].
Lemma both_met : exists qa qb, let l := [(key_a, EciesPrivate qa); (key_b, HpkePrivate qb)] in
  any_told_apart key_a (EciesPrivate qa) l /\ any_told_apart key_b (HpkePrivate qb) l /\
  forall n, In n [42%N; 43%N] -> valid_keyset (both n) /\ all_any_private (both n) l /\ hybrid_keyset is_any_private (good_any_private basic_ec) (both n) l /\ enabled_of l = l /\
    (forall k, In k (ks_key (both n)) -> k_output_prefix_type k <> UNKNOWN_PREFIX /\ k_status k <> UNKNOWN_STATUS) /\
    (forall k q, In (k, q) l -> any_public_fits basic_ec sym_toy toy_draw basic_hpke k q).
Proof.
  destruct ecies_is_made as (qa & A1 & A2 & A3 & A4 & A5 & A6). destruct hpke_is_made as (qb & B1 & B2 & B3 & B7 & B4 & B5 & B6). exists qa, qb. cbv zeta.
  assert (PA : exists p, has_prefix TINK 42 p) by (apply has_prefix_exists; right; split; [auto | reflexivity]).
  assert (PB : exists p, has_prefix CRUNCHY 43 p) by (apply has_prefix_exists; right; split; [auto | reflexivity]).
  split; [right; split; [discriminate |]; intros k q [E | [E | []]]; injection E as <- <-; (split; [discriminate |]); (reflexivity || discriminate) |].
  split; [right; split; [discriminate |]; intros k q [E | [E | []]]; injection E as <- <-; (split; [discriminate |]); (reflexivity || discriminate) |].
  intros n Hn. assert (V : valid_keyset (both n)) by (apply validate_keyset_ok; destruct Hn as [<- | [<- | []]]; vm_compute; reflexivity).
  split; [exact V |]. split; [| split; [| split; [reflexivity |]; split]].
  - split; [reflexivity |]. repeat apply Forall_cons; [| | apply Forall_nil]; cbn [fst snd key_a key_b k_key_data k_key_data_opt is_any_private]; repeat (split; [assumption |]); first [exact I | assumption].
  - split; [exact V |]. split; [reflexivity |]. repeat apply Forall_cons; [| | apply Forall_nil]; cbn [fst snd key_a key_b k_key_data k_key_data_opt k_output_prefix_type k_key_id is_any_private good_any_private]; repeat (split; [assumption |]); assumption.
  - intros k [<- | [<- | []]]; split; discriminate.
  - intros k q [E | [E | []]]; injection E as <- <-; cbn [any_public_fits]; [apply A6 | apply B6]; reflexivity.
Qed.
Example C97_hypotheses_met :
  hybrid_library basic_ec sym_toy toy_draw basic_hpke hybrid_world /\ ec_laws basic_ec sym_toy /\ crypto_laws sym_toy /\ random_law toy_draw /\ hpke_laws basic_ec basic_hpke /\
  configured hybrid_world stream_env Hybrid hybrid_registry /\
  x25519_public basic_ec (skipn 46 (kd_value hybrid_basic_private_key)) = skipn 10 (kd_value hybrid_basic_public_key) /\
  exists qa qb ph l', let l := [(key_a, EciesPrivate qa); (key_b, HpkePrivate qb)] in
    hybrid_keyset is_any_private (good_any_private basic_ec) (both 43) l /\ any_told_apart key_b (HpkePrivate qb) l /\
    public_keyset_handle hybrid_registry (mk_handle (both 43)) = Ok ph /\ Forall2 any_public_half l l' /\ hybrid_keyset is_any_public (good_any_public basic_ec) (kh_keyset ph) l' /\
    exists k', is_primary (kh_keyset ph) l' k' (any_public_of (HpkePrivate qb)) /\ k_key_id k' = 43%N /\ k_output_prefix_type k' = CRUNCHY.
Proof.
  split; [exact toy_library |]. split; [exact basic_ec_laws |]. split; [exact sym_toy_laws |]. split; [exact toy_random |]. split; [exact basic_hpke_laws |]. split; [exact hybrid_configured |]. split; [vm_compute; reflexivity |].
  destruct both_met as (qa & qb & TA & TB & H). destruct (H 43%N (or_intror (or_introl eq_refl))) as (V & AL & KS & EO & KN & PF).
  destruct (any_public_handle basic_ec sym_toy toy_draw basic_hpke hybrid_world stream_env hybrid_registry _ _ (proj1 toy_library) (proj1 (proj2 toy_library)) basic_ec_laws hybrid_configured V AL KN PF) as (ph & l' & E & PI & _ & F2 & _ & HH).
  rewrite EO in HH. specialize (HH KS). exists qa, qb, ph, l'. cbv zeta. split; [exact KS |]. split; [exact TB |]. split; [exact E |]. split; [exact F2 |].
  inversion F2 as [| x1 y1 t1 t2 HA F3]. subst. inversion F3 as [| x2 y2 t3 t4 HB F4]. subst. inversion F4. subst. destruct y1 as (k1 & q1), y2 as (k2 & q2). destruct HA as (S1 & _). destruct HB as (S2 & I2 & T2 & _ & Q2). cbn [fst snd] in *. subst q2.
  unfold enabled_of in HH. cbn [filter fst] in HH. rewrite S1, S2 in HH. split; [exact HH |]. exists k2. split; [split; [right; left; reflexivity | rewrite I2, PI; reflexivity] |]. auto.
Qed.
(** A run: encrypted for the public keyset, decrypted with the private keyset after the
    primary key changed *)
Definition is_ok (x : result bytes) (y : bytes) : bool := match x with Ok z => bytes_eqb z y | Err _ => false end.
Definition is_err {A} (x : result A) : bool := match x with Ok _ => false | Err _ => true end.
Definition runs (from to : N) : bool :=
  match public_keyset_handle hybrid_registry (mk_handle (both from)) with
  | Ok ph =>
      match handle_primitive hybrid_registry ph ClsHybridEncrypt, handle_primitive hybrid_registry (mk_handle (both to)) ClsHybridDecrypt with
      | Ok (PrimHybridEncrypt e), Ok (PrimHybridDecrypt d) =>
          match he_encrypt e 9%N (blit "hello") (blit "info") with
          | Ok C => is_ok (hd_decrypt d C (blit "info")) (blit "hello") && is_err (hd_decrypt d C (blit "other")) && is_err (hd_decrypt d (x00 :: C) (blit "info"))
          | _ => false
          end
      | _, _ => false
      end
  | _ => false
  end%bool.
Example C97_runs : (runs 42 43 && runs 43 42)%bool = true.
Proof. vm_compute. reflexivity. Qed.
(** The files of the program: the public keyset in one file, the private keyset in another. *)
Definition disk (keys input : bytes) : files := [(ulit "keys", keys); (ulit "in", input)].
Definition cli_flags (mode : crypt_mode) : crypt_flags := mk_crypt_flags mode (ulit "keys") (ulit "in") (ulit "out") (Some (ulit "info")).
Definition anywhere : os := mk_os (fun _ => true).
Definition fits_json (ks : keyset) : bool :=
  ((ks_primary_key_id ks <? 2 ^ 32)%N && forallb (fun k => (k_key_id k <? 2 ^ 32)%N && Z.leb 0 (k_output_prefix_type k) && Z.leb (k_output_prefix_type k) 10 && Z.eqb (k_status k) ENABLED &&
    match k_key_data_opt k with
    | Some d => forallb (fun c => (c <? 55296)%N) (kd_type_url d) && Z.leb 0 (kd_key_material_type d) && Z.leb (kd_key_material_type d) 10
    | None => true
    end) (ks_key ks))%bool.
Lemma fits_json_wf : forall ks, fits_json ks = true -> wf_keyset ks.
Proof.
  intros ks H. unfold fits_json in H. rewrite andb_true_iff, forallb_forall in H. destruct H as (Hn & H). apply N.ltb_lt in Hn. split; [exact Hn |]. intros k Hk. specialize (H k Hk).
  rewrite !andb_true_iff in H. destruct H as ((((I & P1) & P2) & St) & D). apply N.ltb_lt in I. apply Z.leb_le in P1, P2. apply Z.eqb_eq in St. split; [| split; [| split]].
  - intros d Hd. rewrite Hd in D. rewrite !andb_true_iff in D. destruct D as ((D1 & D2) & D3). apply Z.leb_le in D2, D3.
    split; [intros c Hc; left; rewrite forallb_forall in D1; apply N.ltb_lt, D1, Hc | unfold int32_range; lia].
  - rewrite St. unfold int32_range, ENABLED. lia.
  - exact I.
  - unfold int32_range. lia.
Qed.
Example C97_files_met : exists public_file private_file,
  fst (hybrid_cli hybrid_world stream_env new_pb anywhere 9%N (cli_flags Encrypt) (disk public_file (blit "hello"))) = Ok 0%Z /\
  forall C, content (snd (hybrid_cli hybrid_world stream_env new_pb anywhere 9%N (cli_flags Encrypt) (disk public_file (blit "hello")))) (ulit "out") = Some C ->
    writes (hybrid_cli hybrid_world stream_env new_pb anywhere 0%N (cli_flags Decrypt) (disk private_file C)) (ulit "out") (blit "hello") (disk private_file C).
Proof.
  destruct both_met as (qa & qb & TA & TB & H). destruct (H 43%N (or_intror (or_introl eq_refl))) as (V & AL & KS & EO & KN & PF). destruct (H 42%N (or_introl eq_refl)) as (V2 & _ & KS2 & _).
  destruct C97_hypotheses_met as (_ & EL & CL & RL & HL & HC & _).
  destruct (any_public_handle basic_ec sym_toy toy_draw basic_hpke hybrid_world stream_env hybrid_registry _ _ (proj1 toy_library) (proj1 (proj2 toy_library)) EL HC V AL KN PF) as (ph & l' & E & PI & _ & F2 & _ & HH).
  rewrite EO in HH. specialize (HH KS).
  assert (WP : wf_keyset (kh_keyset ph)).
  { apply fits_json_wf. assert (X : match public_keyset_handle hybrid_registry (mk_handle (both 43)) with Ok h => fits_json (kh_keyset h) | Err _ => false end = true) by (vm_compute; reflexivity). rewrite E in X. exact X. }
  destruct (written_keyset_holds toy_rt (kh_keyset ph) toy_limit WP (proj1 HH)) as (_ & x & _ & _ & X).
  destruct (written_keyset_holds toy_rt (both 42) toy_limit ltac:(apply fits_json_wf; vm_compute; reflexivity) V2) as (_ & y & _ & _ & Y).
  exists x, y.
  inversion F2 as [| x1 y1 t1 t2 HA F3]. subst. inversion F3 as [| x2 y2 t3 t4 HB F4]. subst. inversion F4. subst. destruct y1 as (k1 & q1), y2 as (k2 & q2). destruct HA as (S1 & _). destruct HB as (S2 & I2 & T2 & _ & Q2). cbn [fst snd] in *. subst q2.
  unfold enabled_of in HH. cbn [filter fst] in HH. rewrite S1, S2 in HH.
  pose proof (hybrid_key _ _ _ _ _ _ _ KS (or_intror (or_introl eq_refl))) as (_ & G).
  destruct (any_hybrid_files basic_ec sym_toy toy_draw basic_hpke hybrid_world stream_env new_pb anywhere 9%N (cli_flags Encrypt) (disk x (blit "hello")) (kh_keyset ph) _ (blit "info") (blit "hello") k2 (HpkePrivate qb)
    hybrid_world stream_env new_pb anywhere toy_draw toy_library EL CL RL HL (X (disk x (blit "hello")) (ulit "keys") eq_refl) HH (conj (or_intror (or_introl eq_refl)) (eq_trans I2 (eq_sym PI))) G
    ltac:(vm_compute; discriminate) eq_refl eq_refl eq_refl eq_refl toy_library) as (R1 & R2).
  split; [exact R1 |]. intros C HCC.
  apply (R2 0%N (cli_flags Decrypt) (disk y C) (both 42) _ key_b eq_refl (Y (disk y C) (ulit "keys") eq_refl) KS2 (or_intror (or_introl eq_refl)) (eq_sym I2) (eq_sym T2) TB eq_refl); [| reflexivity].
  symmetry. exact HCC.
Qed.
(** The program of hybrid_basic.py in this library: started in a new process it runs to its end. *)
Example C97_basic_met : reached hybrid_world stream_env [] empty_registry [] /\ python_digit_limit (pe_rt stream_env) /\
  snd (hybrid_basic hybrid_world stream_env new_pb 0%N empty_registry 9%N) = Ok tt.
Proof.
  assert (R : reached hybrid_world stream_env [] empty_registry []) by (split; [reflexivity |]; split; intros c; [intros q |]; intros []).
  split; [exact R |]. split; [exact toy_limit |].
  refine (hybrid_basic_program basic_ec sym_toy toy_draw basic_hpke hybrid_world stream_env new_pb [] empty_registry [] 9%N toy_library basic_ec_laws basic_hpke_laws _ R toy_limit).
  vm_compute. reflexivity.
Qed.
