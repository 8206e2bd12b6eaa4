(** C100: JWK sets of keysets of JWT signature keys, over the C++ keys: the JWK set of a public
    keyset is made, a handle is made of it, and tokens are verified with that handle. *)
From Coq Require Import Strings.Byte Strings.String List NArith ZArith Bool Lia.
From Verif Require Import M_Base M_Utf8 M_Proto M_Wire M_ProtoMsg M_KeyFormats M_JwtTypes M_Prims M_PrimitiveSet M_Registry M_KeysetHandle M_Wrappers M_Json M_RawJwt M_JwtValidator M_JwtKeys M_Jwk M_StreamTypes M_CcStream M_CcManagers
  M_Templates M_JsonKeyset M_KeysetStream M_Cli M_CcAes M_CcStreamKeys M_CcModes M_CcSymmetric M_CcSymKeys M_CcEcies M_CcEciesKeys M_CcSignatures M_CcJwt
  S_Keyset S_Handle S_Wrappers S_Wire S_Json S_JsonKeyset S_Jwt S_JwtKeys S_Jwk S_Config S_Cli S_CliJwt S_CcLaws S_CcAes S_CcStreamKeys S_CcModes S_CcSymmetric
  S_CcSymKeys S_CcSymHandles S_CcEcies S_CcEciesKeys S_CcSignatures S_CcSigHandles S_CcJwt S_CcJwtHandles S_CcJwtPrograms S_CcJwk L_Base L_Keyset L_PrimitiveSet L_Jwt L_Jwt3 L_Jwt5 L_Jwt8 L_Cli L_Cli5 L_Cli7 L_CcSymHandles3
  L_CcJwt L_CcJwt2 L_CcJwtHandles L_CcJwtPrograms L_CcJwk
  X_Toy L_Toy X_Rt X_Jwt X_Config X_CliStream X_CcSymmetric X_CcSymKeys X_CcEcies X_CcSignatures P_JsonKeyset P_CcJwtHandles P_CcSigPrograms P_CcJwtPrograms.
Import ListNotations.
Open Scope string_scope.
Open Scope list_scope.
Open Scope nat_scope.

@thm C100_exported jwk_set_exported
@thm C100_imported jwk_set_imported
@thm C100_imports jwk_set_imports
@thm C100_verifies jwk_handle_works
@thm C100_keeps jwk_set_keeps
@thm C100_adds_nothing jwk_set_adds_nothing
@thm C100_circle jwk_set_circle

(** The hypotheses are met by the small library and the keyset of C94 with an ES256 key and an
    RS256 key: its JWK set is exported, the keys of it are imported under the ids 7 and 9, and
    tokens of the private keyset are verified with them. *)
Example C100_met : exists ph s text draws h' a,
  public_keyset_handle jwt_toy_registry (mk_handle private_ks) = Ok ph /\ from_public_keyset_handle toy_rt ph = Ok text /\
  to_public_keyset_handle toy_rt draws text = Some (Ok h') /\ map k_key_id (ks_key (kh_keyset h')) = [7; 9]%N /\
  handle_primitive jwt_toy_registry (mk_handle private_ks) ClsJwtSign = Ok (PrimJwtSign s) /\
  handle_primitive jwt_toy_registry h' ClsJwtVerify = Ok (PrimJwtVerify a) /\
  exists token, js_sign s 9%N toy_jwt = Ok token /\
    forall clock v, accepts toy_rt clock v toy_jwt -> representable (current_time v clock - jv_clock_skew v)%Z -> representable (current_time v clock + jv_clock_skew v)%Z ->
      jv_verify a clock token v = Ok (mk_verified_jwt toy_jwt).
Proof.
  destruct C94_world_met as (HW & _ & _ & _ & SL & _ & Hc & Hf & _ & HC).
  destruct C94_signature_hypotheses_met as (qa & qb & V & AL & KS & EN & MA & MB & PR & KN & PF & ph & l' & E & F2 & KP & _).
  assert (X : match public_keyset_handle jwt_toy_registry (mk_handle private_ks) with
    | Ok h => fits_json (kh_keyset h) && Nat.ltb (length (serialize_keyset (kh_keyset h))) 1000 &&
        match from_public_keyset_handle toy_rt h with Ok t => Nat.ltb (length t) 2000 | Err _ => false end
    | Err _ => false end%bool = true) by (vm_compute; reflexivity).
  rewrite <- EN in KS, PR.
  destruct (jwk_set_circle _ _ toy_ec toy_sig 1%N jwt_toy_world stream_env jwt_toy_registry private_ks _ rs_b qb HW SL Hc Hf HC V
    ltac:(apply fits_json_wf; vm_compute; reflexivity) AL KN PF KS PR MB ltac:(discriminate)) as (ph' & s & E' & ES & C).
  unfold private_ks in E'. rewrite E in E'. apply ok_inj in E'. subst ph'. unfold private_ks in X. rewrite E in X. rewrite !andb_true_iff in X. destruct X as ((WP & SZ) & LT). apply fits_json_wf in WP. apply short_size in SZ.
  destruct (C SZ) as (text & ET & D). change (pe_rt stream_env) with toy_rt in *. rewrite ET in LT. apply Nat.ltb_lt in LT.
  assert (St : small_text text) by (unfold small_text; change (2 ^ 23)%N with 8388608%N; lia).
  assert (LL : length l' = 2) by (clear - F2; repeat match goal with H : Forall2 _ _ _ |- _ => inversion H; clear H; subst end; reflexivity).
  destruct ph as [pks]. cbn [kh_keyset] in *.
  destruct (jwk_set_imports toy_ec toy_rt pks l' text [7; 9]%N Hc WP SZ KP) as (draws & h' & EI & ID); [intros ->; discriminate LL | exact ET | exact St | rewrite LL; reflexivity | | |].
  { constructor; [intros [Z | []]; discriminate |]. constructor; [intros [] | constructor]. }
  { constructor; [lia |]. constructor; [lia | constructor]. }
  destruct (D draws h' St EI) as (a & EA & T). destruct (T 9%N toy_jwt toy_ordinary toy_well_typed) as (token & TK & VF).
  exists (mk_handle pks), s, text, draws, h', a. repeat (split; [assumption |]). exists token. split; [exact TK |]. intros clock v. exact (VF clock v toy_jwt toy_same).
Qed.
(** The same, run with each of the keys as the primary key; a changed token is refused. *)
Definition jwk_runs (primary : N) : bool :=
  match public_keyset_handle jwt_toy_registry (mk_handle (mk_keyset primary [es_a; rs_b])), handle_primitive jwt_toy_registry (mk_handle (mk_keyset primary [es_a; rs_b])) ClsJwtSign with
  | Ok ph, Ok (PrimJwtSign s) =>
      match from_public_keyset_handle toy_rt ph, js_sign s 9%N toy_jwt with
      | Ok text, Ok token =>
          match to_public_keyset_handle toy_rt [[7]; [9]]%N text with
          | Some (Ok h') =>
              match handle_primitive jwt_toy_registry h' ClsJwtVerify with
              | Ok (PrimJwtVerify a) => verified (jv_verify a 0 token toy_validator) && is_err (jv_verify a 0 (token ++ ulit "A")%list toy_validator)
              | _ => false
              end
          | _ => false
          end
      | _, _ => false
      end
  | _, _ => false
  end%bool.
Example C100_runs : (jwk_runs 52 && jwk_runs 53)%bool = true.
Proof. vm_compute. reflexivity. Qed.
