(** C66: verifiers made of published JWK sets. *)
From Coq Require Import Strings.Byte Strings.String List NArith ZArith Bool Lia.
From Verif Require Import M_Base L_Base M_Proto M_Wire M_Prims M_PrimitiveSet M_Registry M_KeysetHandle M_KeysetIO
  M_JwtTypes M_Json M_JwtPrims M_JwtKeys M_JwtWrappers M_JwtRegister M_Base64 M_RawJwt M_JwtValidator
  S_Json S_Base64 S_Wire S_Keyset S_Jwt S_JwtKeys M_Jwk S_Jwk
  L_Keyset L_Jwt L_Jwt3 L_Jwt8 L_JwkVerify X_Toy L_Toy X_Rt X_Jwt P_Keyset P_Jwt P_Jwk.
Import ListNotations.
Open Scope string_scope.
Open Scope list_scope.

(** What the verifier of the JWK set of a keyset accepts. *)
Theorem C66_accepts_exactly : forall rt ccv reg h vf text draws h' vf',
  dict_get pclass_eqb ClsJwtVerify (r_wrappers reg) = Some jwt_verify_wrapper ->
  jwt_verify_registry rt ccv reg ->
  float_codec rt -> wf_keyset (kh_keyset h) -> proto_size (serialize_keyset (kh_keyset h)) ->
  from_public_keyset_handle rt h = Ok text -> small_text text ->
  to_public_keyset_handle rt draws text = Some (Ok h') ->
  handle_primitive reg h ClsJwtVerify = Ok (PrimJwtVerify vf) ->
  handle_primitive reg h' ClsJwtVerify = Ok (PrimJwtVerify vf') ->
  (forall k alg ck cc tag signed, In k (enabled_keys (kh_keyset h')) -> jwt_verify_key ccv k alg ck cc ->
     tink_total (use_tink_errors (verify cc tag signed))) ->
  (forall k k' alg ck ck' cc cc', In k (enabled_keys (kh_keyset h)) -> In k' (enabled_keys (kh_keyset h')) ->
     imported_as k k' -> jwt_verify_key ccv k alg ck cc -> jwt_verify_key ccv k' alg ck' cc' ->
     forall tag signed, verify cc tag signed = Ok tt <-> verify cc' tag signed = Ok tt) ->
  forall clock token v r, float_times_ok rt ->
  representable (current_time v clock - jv_clock_skew v) ->
  representable (current_time v clock + jv_clock_skew v) ->
  (jv_verify vf' clock token v = Ok (mk_verified_jwt r) <->
   exists k alg ck cc tink_kid, In k (enabled_keys (kh_keyset h)) /\ jwt_verify_key ccv k alg ck cc /\
     kid_of k tink_kid /\
     token_accepted rt alg None (match tink_kid with Some t => Some t | None => ck end) (verify cc) clock v token r).
Proof. exact jwk_verifier_iff. Qed.
Print Assumptions C66_accepts_exactly.

(** It accepts what the verifier of the keyset accepts, and, of the tokens that name a key,
    nothing else. *)
Theorem C66_keeps : forall rt ccv reg h vf text draws h' vf',
  dict_get pclass_eqb ClsJwtVerify (r_wrappers reg) = Some jwt_verify_wrapper ->
  jwt_verify_registry rt ccv reg ->
  float_codec rt -> wf_keyset (kh_keyset h) -> proto_size (serialize_keyset (kh_keyset h)) ->
  from_public_keyset_handle rt h = Ok text -> small_text text ->
  to_public_keyset_handle rt draws text = Some (Ok h') ->
  handle_primitive reg h ClsJwtVerify = Ok (PrimJwtVerify vf) ->
  handle_primitive reg h' ClsJwtVerify = Ok (PrimJwtVerify vf') ->
  (forall k alg ck cc tag signed, In k (enabled_keys (kh_keyset h)) \/ In k (enabled_keys (kh_keyset h')) ->
     jwt_verify_key ccv k alg ck cc -> tink_total (use_tink_errors (verify cc tag signed))) ->
  (forall k k' alg ck ck' cc cc', In k (enabled_keys (kh_keyset h)) -> In k' (enabled_keys (kh_keyset h')) ->
     imported_as k k' -> jwt_verify_key ccv k alg ck cc -> jwt_verify_key ccv k' alg ck' cc' ->
     forall tag signed, verify cc tag signed = Ok tt <-> verify cc' tag signed = Ok tt) ->
  forall clock token v r, float_times_ok rt ->
  representable (current_time v clock - jv_clock_skew v) ->
  representable (current_time v clock + jv_clock_skew v) ->
  jv_verify vf clock token v = Ok r -> jv_verify vf' clock token v = Ok r.
Proof. exact jwk_verifier_keeps. Qed.
Print Assumptions C66_keeps.
Theorem C66_adds_only_no_kid : forall rt ccv reg h vf text draws h' vf',
  dict_get pclass_eqb ClsJwtVerify (r_wrappers reg) = Some jwt_verify_wrapper ->
  jwt_verify_registry rt ccv reg ->
  float_codec rt -> wf_keyset (kh_keyset h) -> proto_size (serialize_keyset (kh_keyset h)) ->
  from_public_keyset_handle rt h = Ok text -> small_text text ->
  to_public_keyset_handle rt draws text = Some (Ok h') ->
  handle_primitive reg h ClsJwtVerify = Ok (PrimJwtVerify vf) ->
  handle_primitive reg h' ClsJwtVerify = Ok (PrimJwtVerify vf') ->
  (forall k alg ck cc tag signed, In k (enabled_keys (kh_keyset h)) \/ In k (enabled_keys (kh_keyset h')) ->
     jwt_verify_key ccv k alg ck cc -> tink_total (use_tink_errors (verify cc tag signed))) ->
  (forall k k' alg ck ck' cc cc', In k (enabled_keys (kh_keyset h)) -> In k' (enabled_keys (kh_keyset h')) ->
     imported_as k k' -> jwt_verify_key ccv k alg ck cc -> jwt_verify_key ccv k' alg ck' cc' ->
     forall tag signed, verify cc tag signed = Ok tt <-> verify cc' tag signed = Ok tt) ->
  (forall k alg ck cc, In k (enabled_keys (kh_keyset h)) -> jwt_verify_key ccv k alg ck cc ->
     k_output_prefix_type k = TINK -> ck = None) ->
  forall clock token v r, float_times_ok rt ->
  representable (current_time v clock - jv_clock_skew v) ->
  representable (current_time v clock + jv_clock_skew v) ->
  (exists signed header payload tag hd kid, compact_parts token signed header payload tag /\
     document rt (JDict hd) header /\ In (ulit "kid", kid) hd) ->
  jv_verify vf' clock token v = Ok r -> jv_verify vf clock token v = Ok r.
Proof. exact jwk_verifier_adds_no_kid. Qed.
Print Assumptions C66_adds_only_no_kid.

(** Sign with the private keyset, publish the JWK set, verify with the JWK set. *)
Theorem C66_publish : forall rt ccv reg h vf text draws h' vf',
  dict_get pclass_eqb ClsJwtVerify (r_wrappers reg) = Some jwt_verify_wrapper ->
  jwt_verify_registry rt ccv reg ->
  float_codec rt -> wf_keyset (kh_keyset h) -> proto_size (serialize_keyset (kh_keyset h)) ->
  from_public_keyset_handle rt h = Ok text -> small_text text ->
  to_public_keyset_handle rt draws text = Some (Ok h') ->
  handle_primitive reg h ClsJwtVerify = Ok (PrimJwtVerify vf) ->
  handle_primitive reg h' ClsJwtVerify = Ok (PrimJwtVerify vf') ->
  (forall k alg ck cc tag signed, In k (enabled_keys (kh_keyset h)) \/ In k (enabled_keys (kh_keyset h')) ->
     jwt_verify_key ccv k alg ck cc -> tink_total (use_tink_errors (verify cc tag signed))) ->
  (forall k k' alg ck ck' cc cc', In k (enabled_keys (kh_keyset h)) -> In k' (enabled_keys (kh_keyset h')) ->
     imported_as k k' -> jwt_verify_key ccv k alg ck cc -> jwt_verify_key ccv k' alg ck' cc' ->
     forall tag signed, verify cc tag signed = Ok tt <-> verify cc' tag signed = Ok tt) ->
  forall ccs reg_s hs s k alg ck cc k' cc' rnd,
  dict_get pclass_eqb ClsJwtSign (r_wrappers reg_s) = Some jwt_sign_wrapper ->
  jwt_sign_registry rt ccs reg_s -> handle_primitive reg_s hs ClsJwtSign = Ok (PrimJwtSign s) ->
  In k (enabled_keys (kh_keyset hs)) -> k_key_id k = ks_primary_key_id (kh_keyset hs) ->
  jwt_sign_key ccs k alg ck cc ->
  In k' (enabled_keys (kh_keyset h)) -> jwt_verify_key ccv k' alg ck cc' ->
  k_key_id k' = k_key_id k -> k_output_prefix_type k' = k_output_prefix_type k ->
  (forall data tag, sign cc rnd data = Ok tag -> verify cc' tag data = Ok tt) ->
  forall clock token v r r', float_times_ok rt -> ordinary_jwt rt r -> well_typed r ->
  representable (current_time v clock - jv_clock_skew v) ->
  representable (current_time v clock + jv_clock_skew v) ->
  js_sign s rnd r = Ok token -> same_but_empty_type r r' -> accepts rt clock v r' ->
  jv_verify vf' clock token v = Ok (mk_verified_jwt r').
Proof. exact jwk_publish. Qed.
Print Assumptions C66_publish.

(** ** The hypotheses can be met *)

(** The public keyset of the examples of C36: a TINK key and a RAW key with a custom kid. *)
Definition published : pystr :=
  match from_public_keyset_handle toy_rt toy_verify_handle with Ok t => t | Err _ => [] end.
Definition fetched : keyset_handle :=
  mk_handle (mk_keyset 12
    [jwt_key "JwtEcdsaPublicKey" (toy_public 2 "sign-key2" (Some "AAAABg")) ENABLED 11 RAW;
     jwt_key "JwtEcdsaPublicKey" (toy_public 1 "sign-key" (Some "abc")) ENABLED 12 RAW]).
Definition fetched_jv : jwt_verify := the_jwt_verify (handle_primitive toy_jwt_registry fetched ClsJwtVerify).

Lemma the_jwt_verify_ok : forall r,
  match r with Ok (PrimJwtVerify _) => true | _ => false end = true -> r = Ok (PrimJwtVerify (the_jwt_verify r)).
Proof. intros [[]|] H; try discriminate. reflexivity. Qed.
Lemma toy_verify_wf : wf_keyset (kh_keyset toy_verify_handle).
Proof.
  split; [vmr |]. intros k [<- | [<- | []]]; cbn [k_key_data_opt toy_v1 toy_v2 toy_verify_key];
    (split; [intros d E; apply some_inj in E; subst d; split;
               [apply (url_valid "JwtEcdsaPublicKey"); cbn [In]; tauto | vm_compute; split; congruence]
            | repeat split; vm_compute; congruence]).
Qed.

(** The C++ verifiers of a key and of the key made of its JWK accept the same signatures. *)
Lemma fetched_same : forall k k' alg ck ck' cc cc',
  In k (enabled_keys (kh_keyset toy_verify_handle)) -> In k' (enabled_keys (kh_keyset fetched)) ->
  imported_as k k' -> jwt_verify_key toy_ccv k alg ck cc -> jwt_verify_key toy_ccv k' alg ck' cc' ->
  forall tag signed, verify cc tag signed = Ok tt <-> verify cc' tag signed = Ok tt.
Proof.
  intros k k' alg ck ck' cc cc' Hk Hk' Himp (f & t & m & Hf & _ & _ & _ & _ & E) (f' & t' & m' & Hf' & _ & _ & _ & _ & E').
  cbn [cc_primitive toy_ccv toy_cc_verify] in E, E'. apply ok_inj in E, E'. subst cc cc'. cbn [verify].
  assert (X : toy_public_material parse_jwt_public_key (serialize_key_data (k_key_data k))
            = toy_public_material parse_jwt_public_key (serialize_key_data (k_key_data k'))).
  { destruct Himp as (m0 & kid & type & Hm & _ & _ & (_ & _ & value & Hv & Hd)).
    destruct Hk as [<- | [<- | []]]; destruct Hk' as [<- | [<- | []]]; try (vm_compute; reflexivity);
      exfalso; vm_compute in Hm; apply some_inj in Hm; subst m0; vm_compute in Hd; apply some_inj in Hd;
      injection Hd as _ <-; vm_compute in Hv; discriminate. }
  intros tag signed. rewrite X. reflexivity.
Qed.

Example C66_hypotheses_met :
  from_public_keyset_handle toy_rt toy_verify_handle = Ok published /\ small_text published /\
  to_public_keyset_handle toy_rt [[10]; [11]]%N published = Some (Ok fetched) /\
  handle_primitive toy_jwt_registry fetched ClsJwtVerify = Ok (PrimJwtVerify fetched_jv) /\
  wf_keyset (kh_keyset toy_verify_handle) /\ proto_size (serialize_keyset (kh_keyset toy_verify_handle)).
Proof.
  split; [vmr |]. split; [vmr |]. split; [vmr |]. split; [apply the_jwt_verify_ok; vmr |]. split; [exact toy_verify_wf | vmr].
Qed.

(** The theorems at work: the token of the examples of C36, made by the private keyset. *)
Example C66_example : jv_verify fetched_jv 0 toy_signed (toy_v 0) = Ok (mk_verified_jwt toy_jwt).
Proof.
  destruct toy_world as (_ & _ & W & _ & _ & R & Hc & Hf & _ & Ht).
  destruct C66_hypotheses_met as (He & Hs & Hi & Hh & Hw & Hz).
  destruct toy_handles as (_ & _ & _ & Hv).
  destruct toy_round_trip_hypotheses as (_ & _ & _ & _ & R1 & R2).
  apply (C66_keeps toy_rt toy_ccv toy_jwt_registry toy_verify_handle toy_jv published [[10]; [11]]%N fetched fetched_jv
    W R Hc Hw Hz He Hs Hi Hv Hh).
  - intros k alg ck cc tag signed _. apply Ht.
  - exact fetched_same.
  - exact Hf.
  - exact R1.
  - exact R2.
  - exact (proj2 toy_signature_round_trip).
Qed.

(** ** Limits *)

(** The verifier of the JWK set accepts more: a token without kid is refused by a keyset with
    a TINK key and accepted by its JWK set. *)
Definition no_kid_token : pystr :=
  let signed := base64_encode (blit "{""alg"":""ES384""}") ++ blit "." ++ base64_encode (blit "{""iss"":""me"",""exp"":1000000000,""aud"":[""a"",""b""]}") in
  map Byte.to_N (signed ++ blit "." ++ base64_encode (toy_jwt_tag (blit "sign-key2") signed)).
Theorem C66_adds_nothing_refuted : exists token r,
  raises_tink (jv_verify toy_jv 0 token (toy_v 0)) /\ jv_verify fetched_jv 0 token (toy_v 0) = Ok r.
Proof.
  exists no_kid_token. eexists. split; [apply some_error; vm_compute; reflexivity | vm_compute; reflexivity].
Qed.
Print Assumptions C66_adds_nothing_refuted.

(** A TINK key with a custom kid accepts no token at all; its JWK set accepts tokens with the
    kid of the key. *)
Definition two_kids_handle : keyset_handle := mk_handle (mk_keyset 6 [toy_verify_key 2 "sign-key2" (Some "other") 6 TINK]).
Definition two_kids_fetched : keyset_handle :=
  mk_handle (mk_keyset 11 [jwt_key "JwtEcdsaPublicKey" (toy_public 2 "sign-key2" (Some "AAAABg")) ENABLED 11 RAW]).
Definition kid_token : pystr :=
  let signed := base64_encode (blit "{""alg"":""ES384"",""kid"":""AAAABg""}") ++ blit "." ++ base64_encode (blit "{""iss"":""me"",""exp"":1000000000,""aud"":[""a"",""b""]}") in
  map Byte.to_N (signed ++ blit "." ++ base64_encode (toy_jwt_tag (blit "sign-key2") signed)).
Definition two_kids_text : pystr :=
  match from_public_keyset_handle toy_rt two_kids_handle with Ok t => t | Err _ => [] end.
Definition two_kids_jv : jwt_verify := the_jwt_verify (handle_primitive toy_jwt_registry two_kids_handle ClsJwtVerify).
Definition two_kids_jv' : jwt_verify := the_jwt_verify (handle_primitive toy_jwt_registry two_kids_fetched ClsJwtVerify).
Theorem C66_two_kids_refuted : exists r,
  from_public_keyset_handle toy_rt two_kids_handle = Ok two_kids_text /\
  to_public_keyset_handle toy_rt [[10]]%N two_kids_text = Some (Ok two_kids_fetched) /\
  handle_primitive toy_jwt_registry two_kids_handle ClsJwtVerify = Ok (PrimJwtVerify two_kids_jv) /\
  handle_primitive toy_jwt_registry two_kids_fetched ClsJwtVerify = Ok (PrimJwtVerify two_kids_jv') /\
  raises_tink (jv_verify two_kids_jv 0 kid_token (toy_v 0)) /\
  jv_verify two_kids_jv' 0 kid_token (toy_v 0) = Ok r.
Proof.
  eexists. split; [vmr |]. split; [vmr |]. split; [apply the_jwt_verify_ok; vmr |].
  split; [apply the_jwt_verify_ok; vmr |].
  split; [apply some_error; vm_compute; reflexivity | vm_compute; reflexivity].
Qed.
Print Assumptions C66_two_kids_refuted.
