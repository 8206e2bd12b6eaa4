(** Specification of JSON Web Key sets (RFC 7517, 7518) and of the Tink keys they stand
    for. Independent of the converter of M_Jwk.v: of the model only the types of JSON
    values, keys and keysets, and the wire format of the JWT public keys are used. *)
From Coq Require Import Strings.Byte Strings.String List NArith ZArith Bool.
From Verif Require Import M_Base M_Proto M_JwtTypes M_Json M_JwtKeys S_Json S_Base64 S_Jwt S_JwtKeys.
Import ListNotations.
Open Scope string_scope.
Open Scope list_scope.

(** The member [name] of the object [doc]; if the name is repeated the last one is
    meant. *)
Definition member (doc : json) (name : string) (v : json) : Prop :=
  exists l1 l2, doc = JDict (l1 ++ (ulit name, v) :: l2) /\ ~ In (ulit name) (map fst l2).
Definition has_member (doc : json) (name : string) : Prop := exists v, member doc name v.

(** The text [t] is unpadded base64url of [x]. *)
Definition base64url (x : bytes) (t : pystr) : Prop :=
  exists s, t = map Byte.to_N s /\ base64_text url_alphabet x s.
(** The same, with any value of the unused bits of the last character. *)
Definition base64url_loose (x : bytes) (t : pystr) : Prop :=
  exists s, t = map Byte.to_N s /\ base64_text_loose url_alphabet x s.

(** The families of JWT public keys: prefix of the algorithm name; "kty"; type of the
    Tink key; the names of its two numbers; the members that only private keys have. *)
Definition jwk_families : list (string * string * string * string * string * list string) :=
  [("ES", "EC", "JwtEcdsaPublicKey", "x", "y", ["d"]);
   ("RS", "RSA", "JwtRsaSsaPkcs1PublicKey", "n", "e", ["p"; "q"; "dp"; "dq"; "d"; "qi"]);
   ("PS", "RSA", "JwtRsaSsaPssPublicKey", "n", "e", ["p"; "q"; "dp"; "dq"; "d"; "qi"])].
Definition jwk_curves : list (pystr * pystr) :=
  [(ulit "ES256", ulit "P-256"); (ulit "ES384", ulit "P-384"); (ulit "ES512", ulit "P-521")].

(** [doc] is a JWK for the public JWT key [m] of type [type]. *)
Definition public_jwk (doc : json) (type : string) (m : jwt_public_key) : Prop :=
  exists family kty first second private alg,
    In (family, kty, type, first, second, private) jwk_families /\
    member doc "alg" (JStr alg) /\ names_algorithm family (jpk_algorithm m) alg /\
    member doc "kty" (JStr (ulit kty)) /\
    (family = "ES" -> exists c, In (alg, c) jwk_curves /\ member doc "crv" (JStr c)) /\
    (forall v, member doc "use" v -> v = JStr (ulit "sig")) /\
    (forall v, member doc "key_ops" v -> v = JList [JStr (ulit "verify")]) /\
    (forall p, In p private -> ~ has_member doc p) /\
    (exists t, member doc first (JStr t) /\ base64url_loose (jpk_3 m) t) /\
    (exists t, member doc second (JStr t) /\ base64url_loose (jpk_4 m) t) /\
    match jpk_custom_kid m with
    | Some kid => member doc "kid" (JStr kid) /\ valid_unicode kid
    | None => ~ has_member doc "kid"
    end /\
    jpk_version m = 0%N.

(** [k] is an enabled key with no output prefix that holds the public key [m]. *)
Definition holds_public_key (k : key) (type : string) (m : jwt_public_key) : Prop :=
  k_status k = ENABLED /\ k_output_prefix_type k = RAW /\
  exists value, parse_jwt_public_key value = Some m /\
    k_key_data_opt k =
      Some (mk_key_data (ulit ("type.googleapis.com/google.crypto.tink." ++ type)) value
              ASYMMETRIC_PUBLIC).

(** The keyset made of a JWK set: one key for each JWK in the same order, with distinct
    ids, the last one primary. *)
Definition keyset_of_jwks (docs : list json) (ks : keyset) : Prop :=
  Forall2 (fun doc k => exists type m, public_jwk doc type m /\ holds_public_key k type m)
    docs (ks_key ks) /\
  NoDup (map k_key_id (ks_key ks)) /\
  Forall (fun k => (1 <= k_key_id k <= 2147483647)%N) (ks_key ks) /\
  exists before k, ks_key ks = before ++ [k] /\ ks_primary_key_id ks = k_key_id k.

(** A JWK whose members have the JSON types that RFC 7517 and 7518 give them. *)
Definition typed_jwk (doc : json) : Prop :=
  (exists l, doc = JDict l) /\
  (forall v, member doc "alg" v -> exists x, v = JStr x) /\
  (forall v, member doc "key_ops" v -> exists l, v = JList l) /\
  (forall v, member doc "kid" v -> exists x, v = JStr x /\ valid_unicode x) /\
  (forall family kty type first second private name,
     In (family, kty, type, first, second, private) jwk_families ->
     member doc "kty" (JStr (ulit kty)) -> name = first \/ name = second ->
     exists x, member doc name (JStr x) /\ valid_unicode x).

(** The JWK of a key: the members, in order, with nothing else. [kid] is the encoded
    key id for keys with a Tink prefix and the custom kid, if any, for the others. *)
Definition exported_kid (k : key) (m : jwt_public_key) (kid : option pystr) : Prop :=
  exists tink_kid, kid_of k tink_kid /\
    kid = match tink_kid with Some t => Some t | None => jpk_custom_kid m end.
Definition exported_jwk (k : key) (m : jwt_public_key) (kid : option pystr) (doc : json) : Prop :=
  kd_key_material_type (k_key_data k) = ASYMMETRIC_PUBLIC /\
  parse_jwt_public_key (kd_value (k_key_data k)) = Some m /\
  exported_kid k m kid /\
  exists family kty type first second private alg t1 t2,
    In (family, kty, type, first, second, private) jwk_families /\
    kd_type_url (k_key_data k) = ulit ("type.googleapis.com/google.crypto.tink." ++ type) /\
    names_algorithm family (jpk_algorithm m) alg /\
    base64url (jpk_3 m) t1 /\ base64url (jpk_4 m) t2 /\
    exists crv, (family = "ES" /\ (exists c, In (alg, c) jwk_curves /\ crv = [(ulit "crv", JStr c)]) \/
                 family <> "ES" /\ crv = []) /\
    doc = JDict ([(ulit "kty", JStr (ulit kty))] ++ crv ++
                 [(ulit first, JStr t1); (ulit second, JStr t2); (ulit "use", JStr (ulit "sig"));
                  (ulit "alg", JStr alg); (ulit "key_ops", JList [JStr (ulit "verify")])] ++
                 match kid with Some x => [(ulit "kid", JStr x)] | None => [] end).

Definition is_enabled (k : key) : bool := (k_status k =? ENABLED)%Z.

(** [k'] holds the public key of [k], with its kid: of the parts of the key only the version
    (which becomes 0), the id and the output prefix (replaced by the kid) may differ. *)
Definition imported_as (k k' : key) : Prop :=
  exists m kid type,
    parse_jwt_public_key (kd_value (k_key_data k)) = Some m /\ exported_kid k m kid /\
    kd_type_url (k_key_data k) = ulit ("type.googleapis.com/google.crypto.tink." ++ type) /\
    holds_public_key k' type
      (mk_jwt_public_key 0 (jpk_algorithm m) (jpk_3 m) (jpk_4 m) kid).

(** A JWK that is not a public verification key of a supported algorithm. *)
Definition bad_jwk (j : json) : Prop :=
  (forall alg, member j "alg" (JStr alg) ->
     ~ In alg (map ulit ["ES256"; "ES384"; "ES512"; "RS256"; "RS384"; "RS512"; "PS256"; "PS384"; "PS512"])) \/
  has_member j "d" \/
  (member j "kty" (JStr (ulit "RSA")) /\ exists p, In p ["p"; "q"; "dp"; "dq"; "qi"] /\ has_member j p) \/
  (exists v, member j "use" v /\ v <> JStr (ulit "sig")) \/
  (exists v, member j "key_ops" v /\ v <> JList [JStr (ulit "verify")]) \/
  (exists alg, member j "alg" (JStr alg) /\
     (In alg (map ulit ["RS256"; "RS384"; "RS512"; "PS256"; "PS384"; "PS512"]) /\
        ~ member j "kty" (JStr (ulit "RSA")) \/
      In alg (map ulit ["ES256"; "ES384"; "ES512"]) /\ ~ member j "kty" (JStr (ulit "EC")))) \/
  (exists alg crv, In (alg, crv) jwk_curves /\ member j "alg" (JStr alg) /\ ~ member j "crv" (JStr crv)).

(** Documents of less than 8 MiB (larger ones could make keysets over the 2 GiB limit of
    protobuf messages). *)
Definition small_text (text : pystr) : Prop := (N.of_nat (length text) < 2 ^ 23)%N.
