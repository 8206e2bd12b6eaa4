(** Specification of the JWT example programs: keys of the C++ library, the claims of the
    token and what the verifying program expects. *)
From Coq Require Import Strings.Byte Strings.String List NArith ZArith Bool.
From Verif Require Import M_Base M_Utf8 M_Proto M_Wire M_Prims M_Registry M_JwtTypes M_JwtKeys M_Json M_CcStream M_CcManagers M_Cli
  S_Keyset S_Handle S_Wire S_Json S_Jwt S_JwtKeys S_Jwk S_Config S_CcLaws S_Cli.
Import ListNotations.
Open Scope string_scope.
Open Scope list_scope.

(** [k] is a key of one of the [types], with algorithm [alg], custom kid [ck] and the
    primitive [q] of the C++ library. *)
Definition cc_jwt_key {P} (lookup : pystr -> option (cc_lib_manager P)) (types : list (string * string))
    (parse : bytes -> option jwt_public_key) (k : key) (alg : pystr) (ck : option pystr) (q : P) : Prop :=
  wf_key_data (k_key_data k) /\ proto_size (serialize_key_data (k_key_data k)) /\
  exists family type message m,
    In (family, type) types /\ kd_type_url (k_key_data k) = type_url type /\
    parse (kd_value (k_key_data k)) = Some message /\
    names_algorithm family (jpk_algorithm message) alg /\ ck = jpk_custom_kid message /\
    lookup (type_url type) = Some m /\ cl_get_primitive m (k_key_data k) = StOk q.
Definition cc_jwt_sign_key (w : cc_world) : key -> pystr -> option pystr -> cc_signer -> Prop :=
  cc_jwt_key (cw_sign w)
    [("ES", "JwtEcdsaPrivateKey"); ("RS", "JwtRsaSsaPkcs1PrivateKey"); ("PS", "JwtRsaSsaPssPrivateKey")]
    parse_jwt_private_key.
Definition cc_jwt_verify_key (w : cc_world) : key -> pystr -> option pystr -> cc_verifier -> Prop :=
  cc_jwt_key (cw_verify w)
    [("ES", "JwtEcdsaPublicKey"); ("RS", "JwtRsaSsaPkcs1PublicKey"); ("PS", "JwtRsaSsaPssPublicKey")]
    parse_jwt_public_key.

(** All enabled keys are JWT signature keys. *)
Definition jwt_sign_keyset (w : cc_world) (ks : keyset) : Prop :=
  forall k, In k (enabled_keys ks) -> raw_or_tink k /\ exists alg ck q, cc_jwt_sign_key w k alg ck q.
Definition jwt_verify_keyset (w : cc_world) (ks : keyset) : Prop :=
  forall k, In k (enabled_keys ks) -> raw_or_tink k /\ exists alg ck q, cc_jwt_verify_key w k alg ck q.

(** The file is this text, in UTF-8. *)
Definition holds_text (fs : files) (path t : pystr) : Prop :=
  exists x, content fs path = Some x /\ utf8_encode t = Some x.
(** A run with exit status 0 that wrote the text [t] to [out] and nothing else. *)
Definition writes_text (run : result Z * files) (out t : pystr) (fs : files) : Prop :=
  exists x, utf8_encode t = Some x /\ writes run out x fs.

(** The claims that the signing program puts in its token: the audience and the time
    [expiration] (in microseconds), and no others. *)
Definition signed_claims (audience : pystr) (expiration : Z) (r : raw_jwt) : Prop :=
  rj_type_header r = None /\
  exists s, whole_seconds expiration s /\
    forall n v, In (n, v) (rj_payload r) <->
      (n = ulit "aud" /\ v = JList [JStr audience]) \/ (n = ulit "exp" /\ v = JInt s).

(** What the verifying program expects of a token. *)
Definition expects (audience : pystr) : jwt_validator :=
  mk_jwt_validator None None (Some audience) false false false false false 0 None.

(** The verifier that the C++ library makes of the key of a JWK accepts what it accepts
    with the key that the JWK was made of. *)
Definition jwk_verifies_the_same (w : cc_world) (ks : keyset) : Prop :=
  forall k k' alg ck q, In k (enabled_keys ks) -> imported_as k k' ->
    wf_key_data (k_key_data k') -> proto_size (serialize_key_data (k_key_data k')) ->
    cc_jwt_verify_key w k alg ck q ->
    exists ck' q', cc_jwt_verify_key w k' alg ck' q' /\
      forall tag data, cv_verify q tag data = StOk tt <-> cv_verify q' tag data = StOk tt.

(** A key of [ks] accepts the token. The kid of a TINK key is in its JWK, so it is
    compared with the token's kid only if the token has one. *)
Definition published_key_accepts (rt : py_rt) (w : cc_world) (ks : keyset) (clock : Z) (audience token : pystr) : Prop :=
  exists k alg ck q tink_kid r, In k (enabled_keys ks) /\ cc_jwt_verify_key w k alg ck q /\ kid_of k tink_kid /\
    token_accepted rt alg None (match tink_kid with Some t => Some t | None => ck end)
      (fun tag data => of_status (cv_verify q tag data)) clock (expects audience) token r.

(** The keyset can be published: no secret key in it, and the enabled keys are public. *)
Definition publishable (ks : keyset) : Prop :=
  ~ has_secret ks /\
  forall k, In k (enabled_keys ks) -> kd_key_material_type (k_key_data k) = ASYMMETRIC_PUBLIC.
(** The text is the JWK set of the enabled keys, in keyset order. *)
Definition jwk_set_text (rt : py_rt) (ks : keyset) (text : pystr) : Prop :=
  exists docs, json_text rt (JDict [(ulit "keys", JList docs)]) text /\
    Forall2 (fun k doc => exists m kid, exported_jwk k m kid doc) (enabled_keys ks) docs.
(** [path'] in [fs] is what the run left at [path]. *)
Definition copied (run : result Z * files) (path : pystr) (fs : files) (path' : pystr) : Prop :=
  content fs path' = content (snd run) path.
