(** Specification of digital signatures: the laws of the schemes, what keys say, which keys
    can be used, and what signatures look like. *)
From Coq Require Import Strings.Byte Strings.String List NArith ZArith Bool.
From Verif Require Import M_Base M_Proto M_Wire M_ProtoMsg M_KeyFormats M_Prims M_StreamTypes M_CcStream M_CcManagers M_CcAes
  M_CcStreamKeys M_CcModes M_CcSymmetric M_CcSymKeys M_CcEcies M_CcSignatures
  S_Config S_CcAes S_CcStreamKeys S_CcModes S_CcSymmetric S_CcSymKeys S_CcSymHandles S_CcEcies S_CcEciesKeys.
Import ListNotations.
Open Scope string_scope.
Open Scope list_scope.
Open Scope nat_scope.

(** ** Keys *)
Inductive sig_public :=
| EcdsaPublic (c : curve_type) (h : hash_type) (enc : sig_encoding) (X Y : bytes)
| Ed25519Public (A : bytes)
| Pkcs1Public (h : hash_type) (n e : bytes)
| PssPublic (h mgf1 : hash_type) (salt : Z) (n e : bytes).
Record rsa_secret := mk_rsa_secret { s_d : bytes; s_p : bytes; s_q : bytes; s_dp : bytes; s_dq : bytes; s_crt : bytes }.
Inductive sig_private :=
| EcdsaPrivate (c : curve_type) (h : hash_type) (enc : sig_encoding) (X Y d : bytes)
| Ed25519Private (A a : bytes)
| Pkcs1Private (h : hash_type) (n e : bytes) (t : rsa_secret)
| PssPrivate (h mgf1 : hash_type) (salt : Z) (n e : bytes) (t : rsa_secret).
Definition public_of (k : sig_private) : sig_public :=
  match k with
  | EcdsaPrivate c h enc X Y _ => EcdsaPublic c h enc X Y
  | Ed25519Private A _ => Ed25519Public A
  | Pkcs1Private h n e _ => Pkcs1Public h n e
  | PssPrivate h mgf1 salt n e _ => PssPublic h mgf1 salt n e
  end.
Definition public_kind (k : sig_public) : sig_kind :=
  match k with EcdsaPublic _ _ _ _ _ => Ecdsa | Ed25519Public _ => Ed25519 | Pkcs1Public _ _ _ => Pkcs1 | PssPublic _ _ _ _ _ => Pss end.
Definition private_kind (k : sig_private) : sig_kind := public_kind (public_of k).
Definition kind_name (k : sig_kind) : string :=
  match k with Ecdsa => "Ecdsa" | Ed25519 => "Ed25519" | Pkcs1 => "RsaSsaPkcs1" | Pss => "RsaSsaPss" end.
Definition public_schema (k : sig_kind) : schema :=
  match k with Ecdsa => EcdsaPublicKey | Ed25519 => Ed25519PublicKey | Pkcs1 => RsaSsaPkcs1PublicKey | Pss => RsaSsaPssPublicKey end.
Definition private_schema (k : sig_kind) : schema :=
  match k with Ecdsa => EcdsaPrivateKey | Ed25519 => Ed25519PrivateKey | Pkcs1 => RsaSsaPkcs1PrivateKey | Pss => RsaSsaPssPrivateKey end.
Definition format_schema (k : sig_kind) : schema :=
  match k with Ecdsa => EcdsaKeyFormat | Ed25519 => Ed25519KeyFormat | Pkcs1 => RsaSsaPkcs1KeyFormat | Pss => RsaSsaPssKeyFormat end.

(** How they are written (proto/ecdsa.proto:27-41) *)
Definition encoding_number (enc : sig_encoding) (z : Z) : Prop := In (enc, z) [(EncIeee, 1); (EncDer, 2)]%Z.
Definition ecdsa_params_at (fs : schema) (m : message) (path : list string) (c : curve_type) (h : hash_type) (enc : sig_encoding) : Prop :=
  (exists z, number fs m (path ++ ["curve"]) z /\ curve_number c z) /\
  (exists z, number fs m (path ++ ["hash_type"]) z /\ hash_number h z) /\
  (exists z, number fs m (path ++ ["encoding"]) z /\ encoding_number enc z).
Definition pkcs1_params_at (fs : schema) (m : message) (path : list string) (h : hash_type) : Prop :=
  exists z, number fs m (path ++ ["hash_type"]) z /\ hash_number h z.
Definition pss_params_at (fs : schema) (m : message) (path : list string) (h mgf1 : hash_type) (salt : Z) : Prop :=
  (exists z, number fs m (path ++ ["sig_hash"]) z /\ hash_number h z) /\
  (exists z, number fs m (path ++ ["mgf1_hash"]) z /\ hash_number mgf1 z) /\
  number fs m (path ++ ["salt_length"]) salt.
(** The public key [k], of version 0, at [path] *)
Definition public_at (fs : schema) (m : message) (path : list string) (k : sig_public) : Prop :=
  number fs m (path ++ ["version"]) 0%Z /\
  match k with
  | EcdsaPublic c h enc X Y =>
      ecdsa_params_at fs m (path ++ ["params"]) c h enc /\ octets fs m (path ++ ["x"]) X /\ octets fs m (path ++ ["y"]) Y
  | Ed25519Public A => octets fs m (path ++ ["key_value"]) A
  | Pkcs1Public h n e =>
      pkcs1_params_at fs m (path ++ ["params"]) h /\ octets fs m (path ++ ["n"]) n /\ octets fs m (path ++ ["e"]) e
  | PssPublic h mgf1 salt n e =>
      pss_params_at fs m (path ++ ["params"]) h mgf1 salt /\ octets fs m (path ++ ["n"]) n /\ octets fs m (path ++ ["e"]) e
  end.
Definition rsa_secret_at (fs : schema) (m : message) (t : rsa_secret) : Prop :=
  octets fs m ["d"] (s_d t) /\ octets fs m ["p"] (s_p t) /\ octets fs m ["q"] (s_q t) /\
  octets fs m ["dp"] (s_dp t) /\ octets fs m ["dq"] (s_dq t) /\ octets fs m ["crt"] (s_crt t).
Definition secret_at (fs : schema) (m : message) (k : sig_private) : Prop :=
  match k with
  | EcdsaPrivate _ _ _ _ _ d => octets fs m ["key_value"] d
  | Ed25519Private _ a => octets fs m ["key_value"] a
  | Pkcs1Private _ _ _ t | PssPrivate _ _ _ _ _ t => rsa_secret_at fs m t
  end.
(** The key data [d] is the key [k]. *)
Definition is_sig_public (d : key_data) (k : sig_public) : Prop :=
  let fs := public_schema (public_kind k) in
  kd_type_url d = type_url (kind_name (public_kind k) ++ "PublicKey") /\
  exists m, parse_message fs (kd_value d) = Some m /\ public_at fs m [] k.
Definition is_sig_private (d : key_data) (k : sig_private) : Prop :=
  let fs := private_schema (private_kind k) in
  kd_type_url d = type_url (kind_name (private_kind k) ++ "PrivateKey") /\
  exists m, parse_message fs (kd_value d) = Some m /\ number fs m ["version"] 0%Z /\
    public_at fs m ["public_key"] (public_of k) /\ secret_at fs m k.

(** ** Keys that can be used *)
Definition safe_hash (h : hash_type) : Prop := In h [M_CcAes.SHA256; M_CcAes.SHA384; M_CcAes.SHA512].
Definition ecdsa_ok (c : curve_type) (h : hash_type) : Prop :=
  In (c, h) [(P256, M_CcAes.SHA256); (P384, M_CcAes.SHA384); (P384, M_CcAes.SHA512); (P521, M_CcAes.SHA512)].
(** A modulus of at least 2048 bits; an exponent *)
Definition modulus_ok (n : N) : Prop := (2 ^ 2047 <= n)%N.
Definition exponent_ok (e : N) : Prop := (N.Odd e /\ 2 ^ 16 < e < 2 ^ 32)%N.
Definition valid_public (k : sig_public) : Prop :=
  match k with
  | EcdsaPublic c h _ _ _ => ecdsa_ok c h
  | Ed25519Public A => length A = 32
  | Pkcs1Public h n e => safe_hash h /\ modulus_ok (num n) /\ exponent_ok (num e)
  | PssPublic h mgf1 salt n e => safe_hash h /\ mgf1 = h /\ (0 <= salt)%Z /\ modulus_ok (num n) /\ exponent_ok (num e)
  end.
Definition good_public (ec : ec_crypto) (k : sig_public) : Prop :=
  valid_public k /\
  match k with EcdsaPublic c _ _ X Y => ec_on_curve ec c (num X, num Y) = true | _ => True end.
Definition numbers (n e : bytes) (t : rsa_secret) : rsa_key :=
  mk_rsa_key (num n) (num e) (num (s_d t)) (num (s_p t)) (num (s_q t)) (num (s_dp t)) (num (s_dq t)) (num (s_crt t)).
(** RFC 8017, 9.1.1: emLen >= hLen + sLen + 2, where the encoded message has one bit less than the modulus *)
Definition pss_fits (n : N) (h : hash_type) (salt : Z) : Prop :=
  (Z.of_nat (hash_size h) + salt + 2 <= (Z.of_N (N.size n) - 1 + 7) / 8)%Z.
Definition valid_private (k : sig_private) : Prop :=
  valid_public (public_of k) /\ match k with Ed25519Private _ a => length a = 32 | _ => True end.
Definition good_private (ec : ec_crypto) (sg : sig_crypto) (k : sig_private) : Prop :=
  good_public ec (public_of k) /\
  match k with
  | EcdsaPrivate c _ _ _ _ d => ec_private_ok sg c (num d) = true
  | Ed25519Private _ a => length a = 32
  | Pkcs1Private _ n e t => rsa_check sg (numbers n e t) = true
  | PssPrivate h _ salt n e t => rsa_check sg (numbers n e t) = true /\ pss_fits (num n) h salt
  end.
(** The public key is the one of the private key. *)
Definition matching (ec : ec_crypto) (sg : sig_crypto) (k : sig_private) : Prop :=
  match k with
  | EcdsaPrivate c _ _ X Y d => ec_point_mul ec c (num d) (ec_generator ec c) = Some (num X, num Y)
  | Ed25519Private A a => A = ed25519_public sg a
  | _ => True
  end.

(** ** Signatures *)

(** DER: the content octets of an INTEGER that is not negative, in the shortest form; tag,
    length in the shortest form, content *)
Definition der_integer (n : N) (x : bytes) : Prop :=
  exists k, x = be_bytes (k + 1) n /\ (n < 128 * 256 ^ N.of_nat k)%N /\ (k = 0%nat \/ (128 * 256 ^ N.of_nat (k - 1) <= n)%N).
Definition der_value (tag : byte) (content x : bytes) : Prop :=
  let l := N.of_nat (length content) in
  exists L, x = [tag] ++ L ++ content /\
    ((l < 128)%N /\ L = be_bytes 1 l \/
     (128 <= l)%N /\ exists k, L = be_bytes 1 (128 + N.of_nat k) ++ be_bytes k l /\ (k < 5)%nat /\ (256 ^ N.of_nat (k - 1) <= l < 256 ^ N.of_nat k)%N).
Definition der_signature (r s : N) (x : bytes) : Prop :=
  exists cr cs R S, der_integer r cr /\ der_integer s cs /\ der_value x02 cr R /\ der_value x02 cs S /\ der_value x30 (R ++ S) x.
Definition ecdsa_encoded (c : curve_type) (enc : sig_encoding) (r s : N) (x : bytes) : Prop :=
  match enc with
  | EncIeee => let n := coordinate_size c in (r < 256 ^ N.of_nat n /\ s < 256 ^ N.of_nat n)%N /\ x = be_bytes n r ++ be_bytes n s
  | EncDer => der_signature r s x
  | UNKNOWN_ENCODING => False
  end.
Definition modulus_size (n : N) : nat := N.to_nat ((N.size n + 7) / 8).
Definition valid_signature (sg : sig_crypto) (k : sig_public) (data x : bytes) : Prop :=
  match k with
  | EcdsaPublic c h enc X Y =>
      exists r s, ecdsa_encoded c enc r s x /\ ecdsa_do_verify sg c (num X, num Y) (evp_digest sg h data) (r, s) = true
  | Ed25519Public A => length x = 64 /\ ed25519_verify sg A data x = true
  | Pkcs1Public h n e => rsa_verify sg (num n, num e) h (evp_digest sg h data) x = true
  | PssPublic h _ salt n e =>
      exists EM, rsa_public_decrypt sg (num n, num e) x = Some EM /\ length EM = modulus_size (num n) /\
        pss_verify sg (num n) (evp_digest sg h data) h h EM salt = true
  end.
(** [x] is the signature of the data made with the random choices [rnd]. *)
Definition signature_of (sg : sig_crypto) (k : sig_private) (rnd : coins) (data x : bytes) : Prop :=
  match k with
  | EcdsaPrivate c h enc _ _ d =>
      exists r s, ecdsa_do_sign sg c (num d) rnd (evp_digest sg h data) = Some (r, s) /\ ecdsa_encoded c enc r s x
  | Ed25519Private _ a => x = ed25519_sign sg a data
  | Pkcs1Private h n e t => rsa_sign sg (numbers n e t) h (evp_digest sg h data) = Some x
  | PssPrivate h _ salt n e t =>
      exists EM, pss_add sg (num n) rnd (evp_digest sg h data) h h salt = Some EM /\ rsa_private_encrypt sg (numbers n e t) EM = Some x
  end.

(** ** Laws: digests have their sizes; what a private key signs is valid for its public key;
    the numbers of an ECDSA signature are smaller than the order of the curve; what the key
    generators return. *)
Record sig_laws (ec : ec_crypto) (sg : sig_crypto) : Prop := mk_sig_laws {
  law_digest : forall h x, safe_hash h -> length (evp_digest sg h x) = hash_size h;
  law_ecdsa_signs : forall c d rnd x, nist c -> ec_private_ok sg c d = true ->
    exists r s, ecdsa_do_sign sg c d rnd x = Some (r, s) /\ (r < 256 ^ N.of_nat (coordinate_size c) /\ s < 256 ^ N.of_nat (coordinate_size c))%N;
  law_ecdsa_verified : forall c Q x r s, nist c -> ecdsa_do_verify sg c Q x (r, s) = true ->
    (r < 256 ^ N.of_nat (coordinate_size c) /\ s < 256 ^ N.of_nat (coordinate_size c))%N;
  law_ecdsa : forall c d Q rnd x rs, nist c -> ec_private_ok sg c d = true -> ec_point_mul ec c d (ec_generator ec c) = Some Q ->
    ecdsa_do_sign sg c d rnd x = Some rs -> ecdsa_do_verify sg c Q x rs = true;
  law_ec_generated : forall c rnd, nist c -> ec_private_ok sg c (fst (ec_generate_key ec c rnd)) = true;
  law_ed25519_generate : forall rnd, length (ed25519_generate sg rnd) = 32;
  law_ed25519_public : forall a, length a = 32 -> length (ed25519_public sg a) = 32;
  law_ed25519 : forall a x, length a = 32 -> length (ed25519_sign sg a x) = 64 /\ ed25519_verify sg (ed25519_public sg a) x (ed25519_sign sg a x) = true;
  law_pkcs1 : forall k h x, rsa_check sg k = true -> modulus_ok (rsa_n k) -> exponent_ok (rsa_e k) -> safe_hash h -> length x = hash_size h ->
    exists sig, rsa_sign sg k h x = Some sig /\ rsa_verify sg (rsa_n k, rsa_e k) h x sig = true;
  law_pss_fits : forall n rnd x h salt, modulus_ok n -> safe_hash h -> length x = hash_size h -> (0 <= salt)%Z ->
    ((exists EM, pss_add sg n rnd x h h salt = Some EM) <-> pss_fits n h salt);
  law_pss : forall k rnd x h salt EM, rsa_check sg k = true -> modulus_ok (rsa_n k) -> exponent_ok (rsa_e k) -> safe_hash h -> length x = hash_size h -> (0 <= salt)%Z ->
    pss_add sg (rsa_n k) rnd x h h salt = Some EM ->
    length EM = modulus_size (rsa_n k) /\ pss_verify sg (rsa_n k) x h h EM salt = true /\
    exists sig, rsa_private_encrypt sg k EM = Some sig /\ rsa_public_decrypt sg (rsa_n k, rsa_e k) sig = Some EM;
  law_rsa_generate : forall bits e rnd k, exponent_ok e -> rsa_generate sg bits e rnd = Some k ->
    rsa_e k = e /\ rsa_check sg k = true /\ (0 <= bits /\ Z.of_N (N.size (rsa_n k)) = bits - bits mod 128)%Z;
  law_rsa_generates : forall bits e rnd, exponent_ok e -> (2048 <= bits <= 16384)%Z -> exists k, rsa_generate sg bits e rnd = Some k }.

(** ** New keys *)
Inductive sig_format :=
| EcdsaFormat (c : curve_type) (h : hash_type) (enc : sig_encoding)
| Ed25519Format
| Pkcs1Format (h : hash_type) (bits : Z) (e : bytes)
| PssFormat (h mgf1 : hash_type) (salt : Z) (bits : Z) (e : bytes).
Definition format_kind (f : sig_format) : sig_kind :=
  match f with EcdsaFormat _ _ _ => Ecdsa | Ed25519Format => Ed25519 | Pkcs1Format _ _ _ => Pkcs1 | PssFormat _ _ _ _ _ => Pss end.
(** The key format [x] asks for [f]. *)
Definition asks_for_sig (url : pystr) (x : bytes) (f : sig_format) : Prop :=
  let fs := format_schema (format_kind f) in
  url = type_url (kind_name (format_kind f) ++ "PrivateKey") /\
  exists m, parse_message fs x = Some m /\
  match f with
  | EcdsaFormat c h enc => ecdsa_params_at fs m ["params"] c h enc
  | Ed25519Format => True
  | Pkcs1Format h bits e =>
      pkcs1_params_at fs m ["params"] h /\ number fs m ["modulus_size_in_bits"] bits /\ octets fs m ["public_exponent"] e
  | PssFormat h mgf1 salt bits e =>
      pss_params_at fs m ["params"] h mgf1 salt /\ number fs m ["modulus_size_in_bits"] bits /\ octets fs m ["public_exponent"] e
  end.
Definition format_ok (f : sig_format) : Prop :=
  match f with
  | EcdsaFormat c h _ => ecdsa_ok c h
  | Ed25519Format => True
  | Pkcs1Format h bits e => safe_hash h /\ (2048 <= bits)%Z /\ exponent_ok (num e)
  | PssFormat h mgf1 salt bits e => safe_hash h /\ mgf1 = h /\ (0 <= salt)%Z /\ (2048 <= bits)%Z /\ exponent_ok (num e)
  end.
(** Sizes for which RSA keys are made *)
Definition format_size_ok (f : sig_format) : Prop :=
  match f with Pkcs1Format _ bits _ | PssFormat _ _ _ bits _ => (bits <= 16384)%Z | _ => True end.
Definition fresh_rsa (sg : sig_crypto) (bits : Z) (e0 : bytes) (rnd : coins) (n e : bytes) (t : rsa_secret) : Prop :=
  rsa_generate sg bits (num e0) rnd = Some (numbers n e t).
(** The key chosen with [rnd] *)
Definition fresh_sig (ec : ec_crypto) (sg : sig_crypto) (f : sig_format) (rnd : coins) (k : sig_private) : Prop :=
  match f, k with
  | EcdsaFormat c h enc, EcdsaPrivate c' h' enc' X Y d => c' = c /\ h' = h /\ enc' = enc /\ fresh_key ec c rnd d X Y
  | Ed25519Format, Ed25519Private A a => a = ed25519_generate sg rnd /\ A = ed25519_public sg a
  | Pkcs1Format h bits e0, Pkcs1Private h' n e t => h' = h /\ fresh_rsa sg bits e0 rnd n e t
  | PssFormat h mgf1 salt bits e0, PssPrivate h' mgf1' salt' n e t => h' = h /\ mgf1' = mgf1 /\ salt' = salt /\ fresh_rsa sg bits e0 rnd n e t
  | _, _ => False
  end.
(** New keys of these formats can sign: a generated modulus has the size, rounded down to a multiple of 128 bits. *)
Definition format_signs (f : sig_format) : Prop :=
  match f with PssFormat h _ salt bits _ => (Z.of_nat (hash_size h) + salt + 2 <= (bits - bits mod 128 + 6) / 8)%Z | _ => True end.

(** The predefined templates; 65537 is the exponent. *)
Definition sig_template_formats : list (string * sig_format) :=
  let F4 := [x01; x00; x01] in
  [("ECDSA_P256", EcdsaFormat P256 M_CcAes.SHA256 EncDer);
   ("ECDSA_P256_RAW", EcdsaFormat P256 M_CcAes.SHA256 EncIeee);
   ("ECDSA_P384", EcdsaFormat P384 M_CcAes.SHA512 EncDer);
   ("ECDSA_P384_SHA384", EcdsaFormat P384 M_CcAes.SHA384 EncDer);
   ("ECDSA_P384_SHA512", EcdsaFormat P384 M_CcAes.SHA512 EncDer);
   ("ECDSA_P521", EcdsaFormat P521 M_CcAes.SHA512 EncDer);
   ("ECDSA_P256_IEEE_P1363", EcdsaFormat P256 M_CcAes.SHA256 EncIeee);
   ("ECDSA_P384_IEEE_P1363", EcdsaFormat P384 M_CcAes.SHA512 EncIeee);
   ("ECDSA_P384_SHA384_IEEE_P1363", EcdsaFormat P384 M_CcAes.SHA384 EncIeee);
   ("ECDSA_P521_IEEE_P1363", EcdsaFormat P521 M_CcAes.SHA512 EncIeee);
   ("ED25519", Ed25519Format);
   ("RSA_SSA_PKCS1_3072_SHA256_F4", Pkcs1Format M_CcAes.SHA256 3072 F4);
   ("RSA_SSA_PKCS1_4096_SHA512_F4", Pkcs1Format M_CcAes.SHA512 4096 F4);
   ("RSA_SSA_PSS_3072_SHA256_SHA256_32_F4", PssFormat M_CcAes.SHA256 M_CcAes.SHA256 32 3072 F4);
   ("RSA_SSA_PSS_4096_SHA512_SHA512_64_F4", PssFormat M_CcAes.SHA512 M_CcAes.SHA512 64 4096 F4)].
