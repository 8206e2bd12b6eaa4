(** C98: the example programs for digital signatures. *)
From Coq Require Import Strings.Byte Strings.String List NArith ZArith Bool Lia.
From Verif Require Import M_Base M_Utf8 M_Proto M_Wire M_ProtoMsg M_KeyFormats M_Prims M_PrimitiveSet M_Registry M_KeysetHandle M_Wrappers M_StreamTypes M_CcStream M_CcManagers
  M_Templates M_Json M_JsonKeyset M_KeysetStream M_Cli M_Walkthrough M_CcAes M_CcStreamKeys M_CcModes M_CcSymmetric M_CcSymKeys M_CcEcies M_CcEciesKeys M_CcSignatures S_Keyset S_Handle S_Wrappers S_Wire S_Json S_JsonKeyset S_Config S_Cli S_Walkthrough S_Basic
  S_CcLaws S_CcAes S_CcStreamKeys S_CcModes S_CcSymmetric
  S_CcSymKeys S_CcSymHandles S_CcEcies S_CcEciesKeys S_CcSignatures S_CcSigHandles S_CcSigPrograms L_Base L_Keyset L_PrimitiveSet L_Cli5 L_CcSymHandles3 L_CcSigPrograms
  X_Toy L_Toy X_Rt X_Config X_CliStream X_CcSymmetric X_CcSymKeys X_CcEcies X_CcSignatures P_JsonKeyset P_CcSigHandles.
Import ListNotations.
Open Scope string_scope.
Open Scope list_scope.
Open Scope nat_scope.

Theorem C98_cli_sign : forall ec sg self_test w env pb o rnd f fs ks l data, sig_library ec sg self_test w -> sig_laws ec sg -> tf_mode f = Produce ->
  holds_keyset (pe_rt env) fs (tf_keyset_path f) ks -> sig_keyset is_sig_private (good_private ec sg) ks l ->
  content fs (tf_data_path f) = Some data -> may_write o (tf_tag_path f) = true ->
  signs_file sg ks l rnd data (signature_cli w env pb o rnd f fs) (tf_tag_path f) fs.
Proof. exact sig_cli_sign. Qed.
Print Assumptions C98_cli_sign.
Theorem C98_cli_verify : forall ec sg self_test w env pb o rnd f fs ks l data x, sig_library ec sg self_test w -> sig_laws ec sg -> rsa_sizes sg -> tf_mode f = Verify ->
  holds_keyset (pe_rt env) fs (tf_keyset_path f) ks -> sig_keyset is_sig_public (good_public ec) ks l ->
  content fs (tf_data_path f) = Some data -> content fs (tf_tag_path f) = Some x ->
  decides (signature_cli w env pb o rnd f fs) (exists T, tag_text T x /\ signature_for sg l T data) fs.
Proof. exact sig_cli_verify. Qed.
Print Assumptions C98_cli_verify.
Theorem C98_cli_files : forall ec sg self_test w env pb o rnd f fs ks l data k q self_test2 w2 env2 pb2 o2, sig_library ec sg self_test w -> sig_laws ec sg -> rsa_sizes sg ->
  holds_keyset (pe_rt env) fs (tf_keyset_path f) ks -> sig_keyset is_sig_private (good_private ec sg) ks l -> is_primary ks l k q -> matching ec sg q ->
  tf_mode f = Produce -> content fs (tf_data_path f) = Some data -> may_write o (tf_tag_path f) = true -> sig_library ec sg self_test2 w2 ->
  fst (signature_cli w env pb o rnd f fs) = Ok 0%Z /\
  forall rnd2 g fs2 ks2 l2 k2, tf_mode g = Verify -> holds_keyset (pe_rt env2) fs2 (tf_keyset_path g) ks2 -> sig_keyset is_sig_public (good_public ec) ks2 l2 ->
    In (k2, public_of q) l2 -> k_key_id k2 = k_key_id k -> k_output_prefix_type k2 = k_output_prefix_type k ->
    content fs2 (tf_data_path g) = Some data ->
    content fs2 (tf_tag_path g) = content (snd (signature_cli w env pb o rnd f fs)) (tf_tag_path f) ->
    fst (signature_cli w2 env2 pb2 o2 rnd2 g fs2) = Ok 0%Z.
Proof. exact sig_cli_files. Qed.
Print Assumptions C98_cli_files.
Theorem C98_basic : forall ec sg self_test w env pb l r xs rnd, sig_library ec sg self_test w -> sig_laws ec sg -> rsa_sizes sg ->
  good_private ec sg basic_sig_private -> matching ec sg basic_sig_private ->
  reached w env l r xs -> python_digit_limit (pe_rt env) ->
  snd (signature_basic w env pb (N.of_nat (length l)) r rnd) = Ok tt.
Proof. exact signature_basic_program. Qed.
Print Assumptions C98_basic.

(** The hypotheses are met by the small library and the keyset of C92 with an ECDSA key and an
    Ed25519 key. One run of the program signs with the private keyset, another run verifies
    with the public keyset; a run with other data answers with exit status 1. *)
Lemma toy_library : sig_library toy_ec toy_sig 1%N signature_world.
Proof. split; [exact toy_sig_world | reflexivity]. Qed.
Definition disk (keys data tag : bytes) : files := [(ulit "keys", keys); (ulit "data", data); (ulit "tag", tag)].
Definition cli_flags (mode : tag_mode) : tag_flags := mk_tag_flags mode (ulit "keys") (ulit "data") (ulit "tag").
Definition anywhere : os := mk_os (fun _ => true).
Definition fits_json (ks : keyset) : bool :=
  ((ks_primary_key_id ks <? 2 ^ 32)%N && forallb (fun k => (k_key_id k <? 2 ^ 32)%N && Z.leb 0 (k_output_prefix_type k) && Z.leb (k_output_prefix_type k) 10 && Z.eqb (k_status k) ENABLED &&
    match k_key_data_opt k with
    | Some d => forallb (fun c => (c <? 55296)%N) (kd_type_url d) && Z.leb 0 (kd_key_material_type d) && Z.leb (kd_key_material_type d) 10
    | None => true
    end) (ks_key ks))%bool.
Lemma fits_json_wf : forall ks, fits_json ks = true -> wf_keyset ks.
Proof.
  intros ks H. unfold fits_json in H. rewrite andb_true_iff, forallb_forall in H. destruct H as (Hn & H). apply N.ltb_lt in Hn. split; [exact Hn |]. intros k Hk. specialize (H k Hk).
  rewrite !andb_true_iff in H. destruct H as ((((I & P1) & P2) & St) & D). apply N.ltb_lt in I. apply Z.leb_le in P1, P2. apply Z.eqb_eq in St. split; [| split; [| split]].
  - intros d Hd. rewrite Hd in D. rewrite !andb_true_iff in D. destruct D as ((D1 & D2) & D3). apply Z.leb_le in D2, D3.
    split; [intros c Hc; left; rewrite forallb_forall in D1; apply N.ltb_lt, D1, Hc | unfold int32_range; lia].
  - rewrite St. unfold int32_range, ENABLED. lia.
  - exact I.
  - unfold int32_range. lia.
Qed.
Example C98_files_met : exists private_file public_file,
  let signed := signature_cli signature_world stream_env new_pb anywhere 9%N (cli_flags Produce) (disk private_file (blit "hello") []) in
  fst signed = Ok 0%Z /\
  forall T, content (snd signed) (ulit "tag") = Some T ->
    fst (signature_cli signature_world stream_env new_pb anywhere 0%N (cli_flags Verify) (disk public_file (blit "hello") T)) = Ok 0%Z.
Proof.
  destruct C92_hypotheses_met as (_ & _ & SL & RS & HC & qa & qb & V & AL & KS & EO & MA & MB & PR & KN & PF & ph & l' & E & F2 & KP & k' & I' & EI & ET).
  assert (WP : wf_keyset (kh_keyset ph)).
  { apply fits_json_wf. assert (X : match public_keyset_handle signature_registry (mk_handle (mk_keyset 43 [key_a; key_b])) with Ok h => fits_json (kh_keyset h) | Err _ => false end = true) by (vm_compute; reflexivity). rewrite E in X. exact X. }
  destruct (written_keyset_holds toy_rt (mk_keyset 43 [key_a; key_b]) toy_limit ltac:(apply fits_json_wf; vm_compute; reflexivity) V) as (_ & x & _ & _ & X).
  destruct (written_keyset_holds toy_rt (kh_keyset ph) toy_limit WP (proj1 KP)) as (_ & y & _ & _ & Y).
  exists x, y. cbv zeta.
  destruct (sig_cli_files toy_ec toy_sig 1%N signature_world stream_env new_pb anywhere 9%N (cli_flags Produce) (disk x (blit "hello") []) _ _ (blit "hello") key_b qb 1%N signature_world stream_env new_pb anywhere
    toy_library SL RS (X (disk x (blit "hello") []) (ulit "keys") eq_refl) KS PR MB eq_refl eq_refl eq_refl toy_library) as (R1 & R2).
  split; [exact R1 |]. intros T HT.
  apply (R2 0%N (cli_flags Verify) (disk y (blit "hello") T) (kh_keyset ph) _ k' eq_refl (Y (disk y (blit "hello") T) (ulit "keys") eq_refl) KP I' EI ET eq_refl). symmetry. exact HT.
Qed.
(** The same, run *)
Definition keyset_bytes (ks : keyset) : bytes := match text_value (write_json toy_rt (keyset_json ks) []) with Ok t => match utf8_encode t with Some x => x | None => [] end | Err _ => [] end.
Definition exits (run : result Z * files) (z : Z) : bool := match fst run with Ok y => Z.eqb y z | Err _ => false end.
Example C98_runs :
  match public_keyset_handle signature_registry (mk_handle (mk_keyset 43 [key_a; key_b])) with
  | Ok ph =>
      let signed := signature_cli signature_world stream_env new_pb anywhere 9%N (cli_flags Produce) (disk (keyset_bytes (mk_keyset 43 [key_a; key_b])) (blit "hello") []) in
      match content (snd signed) (ulit "tag") with
      | Some T =>
          exits signed 0 &&
          exits (signature_cli signature_world stream_env new_pb anywhere 0%N (cli_flags Verify) (disk (keyset_bytes (kh_keyset ph)) (blit "hello") T)) 0 &&
          exits (signature_cli signature_world stream_env new_pb anywhere 0%N (cli_flags Verify) (disk (keyset_bytes (kh_keyset ph)) (blit "jello") T)) 1 &&
          exits (signature_cli signature_world stream_env new_pb anywhere 0%N (cli_flags Verify) (disk (keyset_bytes (kh_keyset ph)) (blit "hello") (x30 :: T))) 1
      | None => false
      end
  | Err _ => false
  end%bool = true.
Proof. vm_compute. reflexivity. Qed.

(** A small library in which the key written in signature_basic.py is a key, as it is in P-256 *)
Definition basic_secret : N := num (skipn 80 (kd_value signature_basic_private_key)).
Definition basic_point : N * N := (num (firstn 32 (skipn 10 (kd_value signature_basic_public_key))), num (skipn 44 (kd_value signature_basic_public_key))).
Definition basic_ec : ec_crypto := mk_ec_crypto (fun c Q => ec_on_curve toy_ec c Q || ((fst Q =? fst basic_point) && (snd Q =? snd basic_point))%N)%bool (ec_decompress toy_ec) (ec_generate_key toy_ec) (ec_generator toy_ec)
  (fun c d Q => if (d =? basic_secret)%N then Some basic_point else ec_point_mul toy_ec c d Q) (x25519_generate toy_ec) (x25519_public toy_ec) (x25519_derive toy_ec) (evp_hkdf toy_ec).
Definition basic_sig : sig_crypto := mk_sig_crypto (evp_digest toy_sig)
  (fun c d => (d =? basic_secret)%N || ec_private_ok toy_sig c d)%bool
  (fun c d rnd x => if (d =? basic_secret)%N then Some (first_number x + 1, 7)%N else ecdsa_do_sign toy_sig c d rnd x)
  (fun c Q x rs => if (fst Q =? fst basic_point)%N then ((fst rs =? first_number x + 1) && (snd rs =? 7))%N%bool else ecdsa_do_verify toy_sig c Q x rs)
  (ed25519_generate toy_sig) (ed25519_public toy_sig) (ed25519_sign toy_sig) (ed25519_verify toy_sig) (rsa_check toy_sig) (rsa_generate toy_sig) (rsa_sign toy_sig) (rsa_verify toy_sig)
  (pss_add toy_sig) (pss_verify toy_sig) (rsa_private_encrypt toy_sig) (rsa_public_decrypt toy_sig).
Lemma basic_sig_laws : sig_laws basic_ec basic_sig.
Proof.
  assert (B : forall c, nist c -> (257 < 256 ^ N.of_nat (coordinate_size c))%N) by (intros c [<- | [<- | [<- | []]]]; reflexivity).
  assert (FN : forall x, (first_number x < 256)%N) by (intros [| b x]; [reflexivity | destruct b; reflexivity]).
  destruct toy_sig_laws as [L1 L2 L3 L4 L5 L6 L7 L8 L9 L10 L11 L12 L13]. constructor; try assumption.
  - intros c d rnd x N H. cbn [ec_private_ok ecdsa_do_sign basic_sig] in *. destruct (d =? basic_secret)%N; [| exact (L2 c d rnd x N H)]. specialize (B c N). specialize (FN x). do 2 eexists. split; [reflexivity |]. lia.
  - intros c Q x r s N H. cbn [ecdsa_do_verify basic_sig fst snd] in H. destruct (fst Q =? fst basic_point)%N; [| exact (L3 c Q x r s N H)]. apply andb_prop in H. destruct H as (H1 & H2). apply N.eqb_eq in H1, H2. specialize (B c N). specialize (FN x). lia.
  - intros c d Q rnd x rs N P M S. cbn [ec_private_ok ecdsa_do_sign ecdsa_do_verify basic_sig ec_point_mul ec_generator basic_ec] in *. destruct (d =? basic_secret)%N.
    + apply (f_equal (fun o => match o with Some a => a | None => Q end)) in M. cbv beta iota in M. subst Q. rewrite N.eqb_refl. injection S as <-. cbn [fst snd]. rewrite N.eqb_refl. reflexivity.
    + destruct (N.eqb_spec (fst Q) (fst basic_point)) as [E | _]; [| exact (L4 c d Q rnd x rs N P M S)]. exfalso. cbn [ec_point_mul ec_generator toy_ec] in M. apply toy_mul_generator in M. destruct M as [(_ & ->) | (_ & ->)]; vm_compute in E; discriminate E.
  - intros c rnd N. cbn [ec_private_ok basic_sig]. apply orb_true_iff. right. exact (L5 c rnd N).
Qed.
Definition basic_world : cc_world :=
  let find {P} (m : sig_kind -> cc_lib_manager P) suffix url :=
    if str_eqb url (type_url ("Ecdsa" ++ suffix)) then Some (m Ecdsa) else if str_eqb url (type_url ("Ed25519" ++ suffix)) then Some (m Ed25519) else
    if str_eqb url (type_url ("RsaSsaPkcs1" ++ suffix)) then Some (m Pkcs1) else if str_eqb url (type_url ("RsaSsaPss" ++ suffix)) then Some (m Pss) else None in
  mk_cc_world (StOk tt) (StOk tt) (StOk tt) (cw_aead sym_toy_world) (cw_daead sym_toy_world) (cw_hybrid_decrypt sym_toy_world) (cw_hybrid_encrypt sym_toy_world)
    (cw_mac sym_toy_world) (cw_prf sym_toy_world) (find (sign_manager basic_ec basic_sig 1%N) "PrivateKey") (find (verify_manager basic_ec basic_sig) "PublicKey") (cw_streaming sym_toy_world).
Example C98_basic_met : sig_library basic_ec basic_sig 1%N basic_world /\ good_private basic_ec basic_sig basic_sig_private /\ matching basic_ec basic_sig basic_sig_private /\
  reached basic_world stream_env [] empty_registry [] /\ python_digit_limit (pe_rt stream_env) /\
  snd (signature_basic basic_world stream_env new_pb 0%N empty_registry 9%N) = Ok tt.
Proof.
  assert (LI : sig_library basic_ec basic_sig 1%N basic_world) by (split; [intros []; split; reflexivity | reflexivity]).
  assert (RS : rsa_sizes basic_sig) by (destruct toy_rsa_sizes; constructor; assumption).
  assert (G : good_private basic_ec basic_sig basic_sig_private) by (split; [split; [cbn; tauto | vm_compute; reflexivity] | vm_compute; reflexivity]).
  assert (M : matching basic_ec basic_sig basic_sig_private) by (vm_compute; reflexivity).
  assert (R : reached basic_world stream_env [] empty_registry []) by (split; [reflexivity |]; split; intros c; [intros q |]; intros []).
  do 5 (split; [assumption || exact toy_limit |]).
  exact (signature_basic_program basic_ec basic_sig 1%N basic_world stream_env new_pb [] empty_registry [] 9%N LI basic_sig_laws RS G M R toy_limit).
Qed.
