(** Specification of the JWT example programs, in terms of the keys of S_CcJwt, of signatures,
    and of the tokens of S_CcJwtHandles. *)
From Coq Require Import Strings.Byte Strings.String List NArith ZArith Bool.
From Verif Require Import M_Base M_Proto M_Wire M_JwtTypes M_Prims M_Registry M_Json M_CcStream M_CcManagers M_CcAes M_CcModes M_CcSymmetric M_CcEcies M_CcSignatures M_CcJwt M_Cli
  S_Keyset S_Json S_Jwt S_Config S_Cli S_CliJwt S_CcAes S_CcEcies S_CcSignatures S_CcSigHandles S_CcJwt S_CcJwtHandles.
Import ListNotations.
Open Scope string_scope.
Open Scope list_scope.
Open Scope nat_scope.

(** The C++ library has the JWT key managers, and its JWT configuration can be registered. *)
Definition jwt_library (lib : crypto) (random : coins -> Z -> bytes) (ec : ec_crypto) (sg : sig_crypto) (self_test : coins) (w : cc_world) : Prop :=
  jwt_world lib random ec sg self_test w /\ cw_jwt_config w = StOk tt.
Definition jwt_private_keyset (ec : ec_crypto) (sg : sig_crypto) : keyset -> list (key * jwt_private) -> Prop :=
  jwt_keyset is_jwt_private (fun q => good_private ec sg (private_scheme q)).
Definition jwt_public_keyset (ec : ec_crypto) : keyset -> list (key * jwt_public) -> Prop :=
  jwt_keyset is_jwt_public (fun q => good_public ec (scheme q)).

(** The run writes a token with the audience and the expiration, signed with [q]. *)
Definition signs_token (rt : py_rt) (sg : sig_crypto) (rnd : coins) (kid : option pystr) (q : jwt_private) (audience : pystr) (expiration : Z)
    (run : result Z * files) (out : pystr) (fs : files) : Prop :=
  exists r token, signed_claims audience expiration r /\
    token_for rt (jwt_alg (jwt_public_of q)) kid (jwt_kid (jwt_public_of q)) (fun signed tag => signature_of sg (private_scheme q) rnd signed tag) r token /\
    writes_text run out token fs.
(** The token is valid for one of the keys. The kid of a TINK key is in its JWK, so it is
    compared with the token's kid only if the token has one. *)
Definition valid_for_published (rt : py_rt) (sg : sig_crypto) (l : list (key * jwt_public)) (clock : Z) (audience token : pystr) : Prop :=
  exists k q tink_kid r, In (k, q) l /\ kid_of k tink_kid /\
    token_valid rt (jwt_alg q) None (match tink_kid with Some t => Some t | None => jwt_kid q end)
      (fun signed tag => valid_signature sg (scheme q) signed tag) clock (expects audience) token r.
