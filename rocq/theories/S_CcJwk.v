(** Specification of JWK sets of JWT keysets, in terms of the keys of S_CcJwt and of the tokens
    of S_CcJwtHandles. *)
From Coq Require Import Strings.Byte Strings.String List NArith ZArith Bool.
From Verif Require Import M_Base M_Proto M_Wire M_JwtTypes M_Prims M_Registry M_KeysetHandle M_Json M_RawJwt M_CcStream M_CcManagers M_CcAes M_CcModes M_CcSymmetric M_CcEcies M_CcSignatures M_CcJwt
  S_Keyset S_Json S_Jwt S_Wire S_Config S_CcAes S_CcEcies S_CcSignatures S_CcSigHandles S_CcJwt S_CcJwtHandles S_CcJwtPrograms.
Import ListNotations.
Open Scope string_scope.
Open Scope list_scope.
Open Scope nat_scope.

(** The same key with another kid *)
Definition under_kid (q : jwt_public) (kid : option pystr) : jwt_public :=
  match q with EsPublic h X Y _ => EsPublic h X Y kid | RsPublic h n e _ => RsPublic h n e kid | PsPublic h n e _ => PsPublic h n e kid end.
(** The kid in the JWK of a key: that of the key id for TINK keys, the custom kid, if any, for
    RAW keys *)
Definition kid_in_jwk (k : key) (q : jwt_public) (kid : option pystr) : Prop :=
  exists tink_kid, kid_of k tink_kid /\ kid = match tink_kid with Some t => Some t | None => jwt_kid q end.
(** [y] is the key that is made of the JWK of [x]. *)
Definition published_as (x y : key * jwt_public) : Prop :=
  k_status (fst y) = ENABLED /\ k_output_prefix_type (fst y) = RAW /\ is_jwt_public (k_key_data (fst y)) (snd y) /\
  exists kid, kid_in_jwk (fst x) (snd x) kid /\ snd y = under_kid (snd x) kid.
(** What a verifier made of the JWK set of the keys accepts: the kid of the JWK is compared with
    that of the token if the token has one. *)
Definition jwk_verify_works (rt : py_rt) (sg : sig_crypto) (l : list (key * jwt_public)) (a : jwt_verify) : Prop :=
  (forall clock v token r, representable (current_time v clock - jv_clock_skew v)%Z -> representable (current_time v clock + jv_clock_skew v)%Z ->
     (jv_verify a clock token v = Ok (mk_verified_jwt r) <->
      exists k q kid, In (k, q) l /\ kid_in_jwk k q kid /\
        token_valid rt (jwt_alg q) None kid (fun signed tag => valid_signature sg (scheme q) signed tag) clock v token r)) /\
  (forall clock v token, (forall k q signed header payload tag, In (k, q) l -> compact_parts token signed header payload tag -> ~ valid_signature sg (scheme q) signed tag) ->
     raises_tink (jv_verify a clock token v)).
(** The token names a key in its header. *)
Definition names_key (rt : py_rt) (token : pystr) : Prop :=
  exists signed header payload tag h kid, compact_parts token signed header payload tag /\ document rt (JDict h) header /\ In (ulit "kid", kid) h.
