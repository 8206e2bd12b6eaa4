(** Specification of the JWT keys of the C++ library: what they say, and the schemes they are
    for (RFC 7518, 3.1-3.5). *)
From Coq Require Import Strings.Byte Strings.String List NArith ZArith Bool.
From Verif Require Import M_Base M_Proto M_Wire M_ProtoMsg M_KeyFormats M_Prims M_StreamTypes M_CcStream M_CcManagers M_CcAes
  M_CcStreamKeys M_CcModes M_CcSymmetric M_CcSymKeys M_CcEcies M_CcSignatures M_CcJwt
  S_Config S_CcAes S_CcStreamKeys S_CcModes S_CcSymmetric S_CcSymKeys S_CcSymHandles S_CcEcies S_CcEciesKeys S_CcSignatures.
Import ListNotations.
Open Scope string_scope.
Open Scope list_scope.
Open Scope nat_scope.

(** The numbers of the algorithms with 256, 384 and 512 bits, in every family *)
Definition jwt_algorithm (h : hash_type) (z : Z) : Prop := In (h, z) [(M_CcAes.SHA256, 1); (M_CcAes.SHA384, 2); (M_CcAes.SHA512, 3)]%Z.
Definition jwt_curve (h : hash_type) : curve_type := match h with M_CcAes.SHA256 => P256 | M_CcAes.SHA384 => P384 | _ => P521 end.

(** ** Keys, with their custom kid *)
Inductive jwt_public :=
| EsPublic (h : hash_type) (X Y : bytes) (kid : option pystr)
| RsPublic (h : hash_type) (n e : bytes) (kid : option pystr)
| PsPublic (h : hash_type) (n e : bytes) (kid : option pystr).
Inductive jwt_private :=
| EsPrivate (h : hash_type) (X Y d : bytes) (kid : option pystr)
| RsPrivate (h : hash_type) (n e : bytes) (t : rsa_secret) (kid : option pystr)
| PsPrivate (h : hash_type) (n e : bytes) (t : rsa_secret) (kid : option pystr).
Definition jwt_public_of (k : jwt_private) : jwt_public :=
  match k with EsPrivate h X Y _ kid => EsPublic h X Y kid | RsPrivate h n e _ kid => RsPublic h n e kid | PsPrivate h n e _ kid => PsPublic h n e kid end.
(** The schemes: ECDSA with the concatenation of R and S; RSASSA-PKCS1-v1_5; RSASSA-PSS with
    the hash for MGF1 too and with a salt of its size *)
Definition scheme (k : jwt_public) : sig_public :=
  match k with
  | EsPublic h X Y _ => EcdsaPublic (jwt_curve h) h EncIeee X Y
  | RsPublic h n e _ => Pkcs1Public h n e
  | PsPublic h n e _ => PssPublic h h (Z.of_nat (hash_size h)) n e
  end.
Definition private_scheme (k : jwt_private) : sig_private :=
  match k with
  | EsPrivate h X Y d _ => EcdsaPrivate (jwt_curve h) h EncIeee X Y d
  | RsPrivate h n e t _ => Pkcs1Private h n e t
  | PsPrivate h n e t _ => PssPrivate h h (Z.of_nat (hash_size h)) n e t
  end.
Definition jwt_hash (k : jwt_public) : hash_type := match k with EsPublic h _ _ _ | RsPublic h _ _ _ | PsPublic h _ _ _ => h end.
Definition jwt_kid (k : jwt_public) : option pystr := match k with EsPublic _ _ _ kid | RsPublic _ _ _ kid | PsPublic _ _ _ kid => kid end.
Definition public_family (k : jwt_public) : jwt_family := match k with EsPublic _ _ _ _ => ES | RsPublic _ _ _ _ => RS | PsPublic _ _ _ _ => PS end.
Definition private_family (k : jwt_private) : jwt_family := public_family (jwt_public_of k).
Definition family_name (f : jwt_family) : string := match f with ES => "JwtEcdsa" | RS => "JwtRsaSsaPkcs1" | PS => "JwtRsaSsaPss" end.
Definition jwt_public_schema (f : jwt_family) : schema := match f with ES => JwtEcdsaPublicKey | _ => JwtRsaPublicKey end.
Definition jwt_private_schema (f : jwt_family) : schema := match f with ES => JwtEcdsaPrivateKey | _ => JwtRsaPrivateKey end.
Definition jwt_format_schema (f : jwt_family) : schema :=
  match f with ES => JwtEcdsaKeyFormat | RS => JwtRsaSsaPkcs1KeyFormat | PS => JwtRsaSsaPssKeyFormat end.

(** How they are written *)
Definition kid_at (fs : schema) (m : message) (path : list string) (kid : option pystr) : Prop :=
  match kid with
  | None => has_at fs m (path ++ ["custom_kid"]) = false
  | Some v => has_at fs m (path ++ ["custom_kid"]) = true /\ text fs m (path ++ ["custom_kid"; "value"]) v
  end.
Definition jwt_public_at (fs : schema) (m : message) (path : list string) (k : jwt_public) : Prop :=
  number fs m (path ++ ["version"]) 0%Z /\
  (exists z, number fs m (path ++ ["algorithm"]) z /\ jwt_algorithm (jwt_hash k) z) /\
  kid_at fs m path (jwt_kid k) /\
  match k with
  | EsPublic _ X Y _ => octets fs m (path ++ ["x"]) X /\ octets fs m (path ++ ["y"]) Y
  | RsPublic _ n e _ | PsPublic _ n e _ => octets fs m (path ++ ["n"]) n /\ octets fs m (path ++ ["e"]) e
  end.
Definition jwt_secret_at (fs : schema) (m : message) (k : jwt_private) : Prop :=
  match k with
  | EsPrivate _ _ _ d _ => octets fs m ["key_value"] d
  | RsPrivate _ _ _ t _ | PsPrivate _ _ _ t _ => rsa_secret_at fs m t
  end.
(** The key data [d] is the key [k]. *)
Definition is_jwt_public (d : key_data) (k : jwt_public) : Prop :=
  let fs := jwt_public_schema (public_family k) in
  kd_type_url d = type_url (family_name (public_family k) ++ "PublicKey") /\
  exists m, parse_message fs (kd_value d) = Some m /\ jwt_public_at fs m [] k.
Definition is_jwt_private (d : key_data) (k : jwt_private) : Prop :=
  let fs := jwt_private_schema (private_family k) in
  kd_type_url d = type_url (family_name (private_family k) ++ "PrivateKey") /\
  exists m, parse_message fs (kd_value d) = Some m /\ number fs m ["version"] 0%Z /\
    jwt_public_at fs m ["public_key"] (jwt_public_of k) /\ jwt_secret_at fs m k.

(** ** New keys *)
Inductive jwt_format := EsFormat (h : hash_type) | RsFormat (h : hash_type) (bits : Z) (e : bytes) | PsFormat (h : hash_type) (bits : Z) (e : bytes).
Definition jwt_format_family (f : jwt_format) : jwt_family := match f with EsFormat _ => ES | RsFormat _ _ _ => RS | PsFormat _ _ _ => PS end.
Definition jwt_format_hash (f : jwt_format) : hash_type := match f with EsFormat h | RsFormat h _ _ | PsFormat h _ _ => h end.
Definition format_scheme (f : jwt_format) : sig_format :=
  match f with
  | EsFormat h => EcdsaFormat (jwt_curve h) h EncIeee
  | RsFormat h bits e => Pkcs1Format h bits e
  | PsFormat h bits e => PssFormat h h (Z.of_nat (hash_size h)) bits e
  end.
Definition asks_for_jwt (url : pystr) (x : bytes) (f : jwt_format) : Prop :=
  let fs := jwt_format_schema (jwt_format_family f) in
  url = type_url (family_name (jwt_format_family f) ++ "PrivateKey") /\
  exists m, parse_message fs x = Some m /\ (exists z, number fs m ["algorithm"] z /\ jwt_algorithm (jwt_format_hash f) z) /\
  match f with
  | EsFormat _ => True
  | RsFormat _ bits e | PsFormat _ bits e => number fs m ["modulus_size_in_bits"] bits /\ octets fs m ["public_exponent"] e
  end.
(** A modulus of at least 2048 bits and an exponent; the sizes for which keys are made *)
Definition jwt_format_ok (f : jwt_format) : Prop :=
  match f with EsFormat _ => True | RsFormat _ bits e | PsFormat _ bits e => (2048 <= bits)%Z /\ exponent_ok (num e) end.
Definition jwt_format_size_ok (f : jwt_format) : Prop :=
  match f with EsFormat _ => True | RsFormat _ bits _ | PsFormat _ bits _ => (bits <= 16384)%Z end.
(** The key chosen with [rnd]; it has no custom kid *)
Definition fresh_jwt (ec : ec_crypto) (sg : sig_crypto) (f : jwt_format) (rnd : coins) (k : jwt_private) : Prop :=
  private_family k = jwt_format_family f /\ jwt_kid (jwt_public_of k) = None /\ fresh_sig ec sg (format_scheme f) rnd (private_scheme k).

(** ** HMAC keys *)
Record jwt_hmac_secret := mk_jwt_hmac_secret { hs_hash : hash_type; hs_value : bytes; hs_kid : option pystr }.
Definition is_jwt_hmac (d : key_data) (k : jwt_hmac_secret) : Prop :=
  kd_type_url d = type_url "JwtHmacKey" /\
  exists m, parse_message JwtHmacKey (kd_value d) = Some m /\ number JwtHmacKey m ["version"] 0%Z /\
    (exists z, number JwtHmacKey m ["algorithm"] z /\ jwt_algorithm (hs_hash k) z) /\
    octets JwtHmacKey m ["key_value"] (hs_value k) /\ kid_at JwtHmacKey m [] (hs_kid k).
(** RFC 7518, 3.2: a key of the same size as the hash output or larger MUST be used. *)
Definition jwt_hmac_ok (k : jwt_hmac_secret) : Prop := hash_size (hs_hash k) <= length (hs_value k).
Definition asks_for_jwt_hmac (x : bytes) (h : hash_type) (size : Z) : Prop :=
  exists m, parse_message JwtHmacKeyFormat x = Some m /\ (exists z, number JwtHmacKeyFormat m ["algorithm"] z /\ jwt_algorithm h z) /\
    number JwtHmacKeyFormat m ["key_size"] size.

(** ** The predefined templates *)
Inductive jwt_kind := HsKind (h : hash_type) (size : Z) | SigKind (f : jwt_format).
Definition jwt_template_formats : list (string * jwt_kind) :=
  let both (name : string) (k : jwt_kind) := [((name ++ "_template")%string, k); (("raw_" ++ name ++ "_template")%string, k)] in
  let F4 := [x01; x00; x01] in
  both "jwt_hs256" (HsKind M_CcAes.SHA256 32) ++ both "jwt_hs384" (HsKind M_CcAes.SHA384 48) ++ both "jwt_hs512" (HsKind M_CcAes.SHA512 64) ++
  both "jwt_es256" (SigKind (EsFormat M_CcAes.SHA256)) ++ both "jwt_es384" (SigKind (EsFormat M_CcAes.SHA384)) ++ both "jwt_es512" (SigKind (EsFormat M_CcAes.SHA512)) ++
  both "jwt_rs256_2048_f4" (SigKind (RsFormat M_CcAes.SHA256 2048 F4)) ++ both "jwt_rs256_3072_f4" (SigKind (RsFormat M_CcAes.SHA256 3072 F4)) ++
  both "jwt_rs384_3072_f4" (SigKind (RsFormat M_CcAes.SHA384 3072 F4)) ++ both "jwt_rs512_4096_f4" (SigKind (RsFormat M_CcAes.SHA512 4096 F4)) ++
  both "jwt_ps256_2048_f4" (SigKind (PsFormat M_CcAes.SHA256 2048 F4)) ++ both "jwt_ps256_3072_f4" (SigKind (PsFormat M_CcAes.SHA256 3072 F4)) ++
  both "jwt_ps384_3072_f4" (SigKind (PsFormat M_CcAes.SHA384 3072 F4)) ++ both "jwt_ps512_4096_f4" (SigKind (PsFormat M_CcAes.SHA512 4096 F4)).
Definition jwt_template_asks (x : string * result key_template) (y : string * jwt_kind) : Prop :=
  fst x = fst y /\ exists t, snd x = Ok t /\
  match snd y with
  | HsKind h size => kt_type_url t = type_url "JwtHmacKey" /\ asks_for_jwt_hmac (kt_value t) h size /\ (Z.of_nat (hash_size h) <= size)%Z
  | SigKind f => asks_for_jwt (kt_type_url t) (kt_value t) f /\ jwt_format_ok f /\ jwt_format_size_ok f
  end /\ kt_output_prefix_type t = (if String.prefix "raw_" (fst y) then RAW else TINK).
