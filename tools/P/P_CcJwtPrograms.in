(** C99: the JWT example programs: a token is signed, the JWK set is published, the token is
    verified. *)
From Coq Require Import Strings.Byte Strings.String List NArith ZArith Bool Lia.
From Verif Require Import M_Base M_Utf8 M_Proto M_Wire M_ProtoMsg M_KeyFormats M_JwtTypes M_Prims M_PrimitiveSet M_Registry M_KeysetHandle M_Wrappers M_Json M_JwtKeys M_Jwk M_StreamTypes M_CcStream M_CcManagers
  M_Templates M_JsonKeyset M_KeysetStream M_Cli M_CcAes M_CcStreamKeys M_CcModes M_CcSymmetric M_CcSymKeys M_CcEcies M_CcEciesKeys M_CcSignatures M_CcJwt
  S_Keyset S_Handle S_Wrappers S_Wire S_Json S_JsonKeyset S_Jwt S_JwtKeys S_Jwk S_Config S_Cli S_CliJwt S_CcLaws S_CcAes S_CcStreamKeys S_CcModes S_CcSymmetric
  S_CcSymKeys S_CcSymHandles S_CcEcies S_CcEciesKeys S_CcSignatures S_CcSigHandles S_CcJwt S_CcJwtHandles S_CcJwtPrograms L_Base L_Keyset L_PrimitiveSet L_Jwt L_Jwt3 L_Jwt5 L_Cli L_Cli5 L_Cli7 L_CcSymHandles3
  L_CcJwt L_CcJwt2 L_CcJwtHandles L_CcJwtPrograms
  X_Toy L_Toy X_Rt X_Jwt X_Config X_CliStream X_CcSymmetric X_CcSymKeys X_CcEcies X_CcSignatures P_JsonKeyset P_CcJwtHandles P_CcSigPrograms.
Import ListNotations.
Open Scope string_scope.
Open Scope list_scope.
Open Scope nat_scope.

@thm C99_jwk_verifies_the_same jwk_same_signatures
@thm C99_sign cc_jwt_sign_cli
@thm C99_publish cc_jwk_cli
@thm C99_verify cc_jwt_verify_cli
@thm C99_files cc_jwt_files

(** The hypotheses are met by the small library and the keyset of C94 with an ES256 key and an
    RS256 key, which is the primary key. *)
Lemma toy_jwt_library : jwt_library sym_toy toy_draw toy_ec toy_sig 1%N jwt_toy_world.
Proof. split; [exact toy_jwt_world | reflexivity]. Qed.
Definition home (keys : bytes) : files := [(ulit "keys", keys)].
Definition received (jwk token : bytes) : files := [(ulit "set", jwk); (ulit "jwt", token)].
Definition sign_run (keys : bytes) : result Z * files := jwt_sign_cli jwt_toy_world stream_env new_pb anywhere 9%N 1700000000123456 (ulit "keys") (ulit "shop") (ulit "token") (home keys).
Definition publish_run (keys : bytes) : result Z * files := jwt_generate_public_jwk_set jwt_toy_world stream_env new_pb anywhere (ulit "keys") (ulit "jwk") (home keys).
Definition verify_run (draws : list (list N)) (clock : Z) (audience : string) (jwk token : bytes) : option (result Z * files) :=
  jwt_verify_cli jwt_toy_world stream_env draws clock (ulit "set") (ulit audience) (ulit "jwt") (received jwk token).
Definition private_ks : keyset := mk_keyset 53 [es_a; rs_b].
Definition is_public (ks : keyset) : bool := forallb (fun k => Z.eqb (kd_key_material_type (k_key_data k)) ASYMMETRIC_PUBLIC) (ks_key ks).
Lemma is_public_publishable : forall ks, is_public ks = true -> publishable ks.
Proof.
  intros ks H. unfold is_public in H. rewrite forallb_forall in H. split.
  - intros (k & I & S). apply H, Z.eqb_eq in I. rewrite I in S. vm_compute in S. intuition discriminate.
  - intros k I. apply filter_In in I. apply Z.eqb_eq, H, I.
Qed.
Example C99_files_met : exists private_file public_file token jwk,
  writes (sign_run private_file) (ulit "token") token (home private_file) /\
  writes (publish_run public_file) (ulit "jwk") jwk (home public_file) /\
  (exists draws run, verify_run draws 1700000099999999 "shop" jwk token = Some run) /\
  (forall draws run, verify_run draws 1700000099999999 "shop" jwk token = Some run -> fst run = Ok 0%Z).
Proof.
  destruct C94_world_met as (_ & _ & _ & _ & SL & _ & Hc & Hf & _).
  destruct C94_signature_hypotheses_met as (qa & qb & V & AL & KS & _ & MA & MB & PR & _ & _ & ph & l' & E & F2 & KP & k' & I' & EI & ET).
  assert (X : match public_keyset_handle jwt_toy_registry (mk_handle private_ks) with
    | Ok h => fits_json (kh_keyset h) && is_public (kh_keyset h) && Nat.ltb (length (serialize_keyset (kh_keyset h))) 1000 && Nat.eqb (length (enabled_keys (kh_keyset h))) 2 &&
        match from_public_keyset_handle toy_rt h with Ok t => Nat.ltb (length t) 2000 | Err _ => false end
    | Err _ => false end%bool = true) by (vm_compute; reflexivity).
  unfold private_ks in X. rewrite E in X. rewrite !andb_true_iff in X. destruct X as ((((WP & PU) & SZ) & L2) & LT). apply fits_json_wf in WP. apply is_public_publishable in PU. apply short_size in SZ. apply Nat.eqb_eq in L2.
  destruct (written_keyset_holds toy_rt private_ks toy_limit ltac:(apply fits_json_wf; vm_compute; reflexivity) V) as (_ & x1 & _ & _ & W1).
  destruct (written_keyset_holds toy_rt (kh_keyset ph) toy_limit WP (proj1 KP)) as (_ & x2 & _ & _ & W2).
  assert (KI : kid_of rs_b None) by (left; split; reflexivity).
  assert (Hval : valid_unicode (ulit "shop")) by (apply Forall_forall; intros c Hi; vm_compute in Hi; lia).
  assert (Hnow : (0 <= 1700000000123456 + 100000000 <= max_timestamp * 1000000)%Z) by (vm_compute; split; congruence).
  destruct (cc_jwt_sign_cli _ _ toy_ec toy_sig 1%N jwt_toy_world stream_env new_pb anywhere 9%N 1700000000123456 (ulit "keys") (ulit "shop") (ulit "token") (home x1) private_ks _ rs_b qb None
    toy_jwt_library SL Hc toy_limit (W1 (home x1) (ulit "keys") eq_refl) KS PR KI (or_intror eq_refl) Hval Hnow eq_refl) as (r & tok & _ & _ & xt & Ext & Hwt).
  destruct (jwk_cli_run jwt_toy_world stream_env new_pb anywhere (ulit "keys") (ulit "jwk") (home x2) (kh_keyset ph)
    (jwt_library_ready _ _ _ _ _ _ toy_jwt_library) Hc (W2 (home x2) (ulit "keys") eq_refl) SZ eq_refl) as [(text & Ej & Hg & _ & (xj & Exj & Hwj)) | (_ & F)].
  2:{ exfalso. destruct (cc_jwk_cli _ _ toy_ec toy_sig 1%N jwt_toy_world stream_env new_pb anywhere (ulit "keys") (ulit "jwk") (home x2) (kh_keyset ph) _
    toy_jwt_library Hc (W2 (home x2) (ulit "keys") eq_refl) SZ eq_refl KP PU) as (text & _ & (xj & _ & (E' & _))). destruct F as (F & _). rewrite E' in F. discriminate. }
  assert (Hlen : (N.of_nat (length xj) < 2 ^ 23)%N).
  { rewrite (ascii_length _ _ (proj1 (graphic_plain _ Hg)) Exj). destruct ph as [ks]. change (from_public_keyset_handle toy_rt (mk_handle ks) = Ok text) in Ej. rewrite Ej in LT. apply Nat.ltb_lt in LT. change (2 ^ 23)%N with 8388608%N. lia. }
  assert (Hcj : copied (publish_run x2) (ulit "jwk") (received xj xt) (ulit "set")) by (symmetry; apply (proj2 Hwj)).
  assert (Hct : copied (sign_run x1) (ulit "token") (received xj xt) (ulit "jwt")) by (symmetry; apply (proj2 Hwt)).
  exists x1, x2, xt, xj. split; [exact Hwt |]. split; [exact Hwj |]. split.
  - apply (jwt_verify_cli_ends jwt_toy_world stream_env new_pb anywhere (ulit "keys") (ulit "jwk") (home x2) (kh_keyset ph) 1700000099999999
      (ulit "set") (ulit "shop") (ulit "jwt") (received xj xt) xj [7; 9]%N (jwt_library_ready _ _ _ _ _ _ toy_jwt_library) Hc (W2 (home x2) (ulit "keys") eq_refl) SZ eq_refl
      (proj1 Hwj) Hcj eq_refl Hlen).
    + intros Z. rewrite Z in L2. discriminate L2.
    + rewrite L2. reflexivity.
    + constructor; [intros [Z | []]; discriminate |]. constructor; [intros [] | constructor].
    + constructor; [lia |]. constructor; [lia | constructor].
  - intros draws run Hr.
    refine (cc_jwt_files _ _ toy_ec toy_sig 1%N jwt_toy_world stream_env new_pb anywhere 9%N 1700000000123456 (ulit "keys") (ulit "shop") (ulit "token") (home x1) private_ks _ rs_b qb None
      (ulit "keys") (ulit "jwk") (home x2) (kh_keyset ph) l' k' draws 1700000099999999 (ulit "set") (ulit "jwt") (received xj xt) xj run
      toy_jwt_library SL Hc toy_limit Hf (W1 (home x1) (ulit "keys") eq_refl) KS PR MB KI (or_intror eq_refl) Hval Hnow eq_refl
      (W2 (home x2) (ulit "keys") eq_refl) SZ eq_refl KP PU I' EI ET Hct Hcj eq_refl Hlen _ eq_refl Hr).
    vm_compute. split; congruence.
Qed.
(** The same, run; the token is refused after the expiration, and for another audience. *)
Definition exit_status (run : option (result Z * files)) (z : Z) : bool := match run with Some r => exits r z | None => false end.
Definition refused (run : option (result Z * files)) : bool := match run with Some r => negb (exits r 0) | None => false end.
Example C99_runs :
  match public_keyset_handle jwt_toy_registry (mk_handle private_ks) with
  | Ok ph =>
      let signed := sign_run (keyset_bytes private_ks) in
      let published := publish_run (keyset_bytes (kh_keyset ph)) in
      match content (snd signed) (ulit "token"), content (snd published) (ulit "jwk") with
      | Some token, Some jwk =>
          exits signed 0 && exits published 0 &&
          exit_status (verify_run [[7]; [9]]%N 1700000099999999 "shop" jwk token) 0 &&
          refused (verify_run [[7]; [9]]%N 1700000100000000 "shop" jwk token) &&
          refused (verify_run [[7]; [9]]%N 1700000099999999 "bank" jwk token) &&
          refused (verify_run [[7]; [9]]%N 1700000099999999 "shop" jwk (token ++ [x41]))
      | _, _ => false
      end
  | Err _ => false
  end%bool = true.
Proof. vm_compute. reflexivity. Qed.
