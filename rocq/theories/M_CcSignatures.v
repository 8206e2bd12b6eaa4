(** Digital signatures of the C++ library: /repo/cc/subtle/{ecdsa,ed25519,rsa_ssa_pkcs1,rsa_ssa_pss}_{sign,verify}_boringssl.cc,
    cc/signature/internal/ecdsa_raw_sign_boringssl.cc, cc/signature/sig_util.cc,
    cc/internal/{ec_util,rsa_util,md_util}.cc, cc/signature/*_{sign,verify}_key_manager.{h,cc}, with
    cc/core/key_manager_impl.h and cc/core/private_key_manager_impl.h.

    BoringSSL is an argument, but the DER encoding of ECDSA signatures is written out. Not
    modelled: OpenSSL in its place, FIPS mode, null pointers, failing allocations, failing
    digests, DeriveKey. *)
From Coq Require Import Strings.Byte Strings.String List NArith ZArith Bool.
From Verif Require Import M_Base M_Proto M_Wire M_ProtoMsg M_KeyFormats M_Prims M_StreamTypes M_CcStream M_CcManagers M_CcAes
  M_CcStreamKeys M_CcModes M_CcSymmetric M_CcSymKeys M_CcEcies M_CcEciesKeys.
Import ListNotations.
Open Scope string_scope.
Open Scope list_scope.
Open Scope nat_scope.

(** cc/internal/rsa_util.h:38-66 RsaPrivateKey, with numbers in place of their bytes *)
Record rsa_key := mk_rsa_key { rsa_n : N; rsa_e : N; rsa_d : N; rsa_p : N; rsa_q : N; rsa_dp : N; rsa_dq : N; rsa_crt : N }.

(** What is used of BoringSSL. [evp_digest]: EVP_Digest. [ec_private_ok]:
    EC_KEY_set_private_key accepts the number. [ecdsa_do_sign] and [ecdsa_do_verify]: the
    two numbers of an ECDSA signature of a digest. [ed25519_generate], [ed25519_public],
    [ed25519_sign], [ed25519_verify]: EVP_PKEY_keygen, and the operations of a private key (of 32 bytes)
    and of a public key (data, signature). [rsa_check]: RSA_check_key and RSA_check_fips.
    [rsa_generate]: RSA_generate_key_ex with the size and the exponent. [rsa_sign],
    [rsa_verify]: RSA_sign and RSA_verify of a digest. [pss_add], [pss_verify]:
    RSA_padding_add_PKCS1_PSS_mgf1 and RSA_verify_PKCS1_PSS_mgf1 (modulus, digest, both hashes, salt
    length). [rsa_private_encrypt], [rsa_public_decrypt]: with RSA_NO_PADDING. *)
Record sig_crypto := mk_sig_crypto {
  evp_digest : hash_type -> bytes -> bytes;
  ec_private_ok : curve_type -> N -> bool;
  ecdsa_do_sign : curve_type -> N -> coins -> bytes -> option (N * N);
  ecdsa_do_verify : curve_type -> N * N -> bytes -> N * N -> bool;
  ed25519_generate : coins -> bytes;
  ed25519_public : bytes -> bytes;
  ed25519_sign : bytes -> bytes -> bytes;
  ed25519_verify : bytes -> bytes -> bytes -> bool;
  rsa_check : rsa_key -> bool;
  rsa_generate : Z -> N -> coins -> option rsa_key;
  rsa_sign : rsa_key -> hash_type -> bytes -> option bytes;
  rsa_verify : N * N -> hash_type -> bytes -> bytes -> bool;
  pss_add : N -> coins -> bytes -> hash_type -> hash_type -> Z -> option bytes;
  pss_verify : N -> bytes -> hash_type -> hash_type -> bytes -> Z -> bool;
  rsa_private_encrypt : rsa_key -> bytes -> option bytes;
  rsa_public_decrypt : N * N -> bytes -> option bytes }.

(** cc/subtle/common_enums.h:44-48; cc/util/enums.cc ProtoToSubtle *)
Inductive sig_encoding := UNKNOWN_ENCODING | EncIeee | EncDer.
Definition encoding_proto_to_subtle (z : Z) : sig_encoding := match z with 1 => EncIeee | 2 => EncDer | _ => UNKNOWN_ENCODING end%Z.

(** ** ECDSA-Sig-Value (BoringSSL: crypto/ecdsa_extra/ecdsa_asn1.c, crypto/bn_extra/bn_asn1.c,
    crypto/bytestring/{cbb,cbs}.c) *)

(** BN_num_bytes, BN_bn2bin *)
Definition BN_num_bytes (n : N) : nat := N.to_nat ((N.size n + 7) / 8).
Definition BN_bn2bin (n : N) : bytes := rev (store_le (BN_num_bytes n) n).
(** CBB_add_asn1: a tag, the length of the content and the content *)
Definition der_length (n : N) : bytes :=
  if (n <? 128)%N then [byte_of_N n]
  else let b := BN_bn2bin n in byte_of_N (128 + N.of_nat (length b)) :: b.
Definition add_asn1 (tag : byte) (content : bytes) : bytes := tag :: der_length (N.of_nat (length content)) ++ content.
(** BN_marshal_asn1: a leading zero if the high bit would be set otherwise, or for zero *)
Definition bn_marshal (n : N) : bytes :=
  add_asn1 x02 (if (N.size n mod 8 =? 0)%N then x00 :: BN_bn2bin n else BN_bn2bin n).
(** i2d_ECDSA_SIG, ECDSA_SIG_marshal (ec_util.cc:256-271 SslEcdsaSignatureToBytes) *)
Definition i2d_ECDSA_SIG (rs : N * N) : bytes := add_asn1 x30 (bn_marshal (fst rs) ++ bn_marshal (snd rs)).
(** CBS_get_asn1: the content and what follows; lengths of up to four bytes, in the shortest form *)
Definition take_content (n : N) (x : bytes) : option (bytes * bytes) :=
  if (N.of_nat (length x) <? n)%N then None else Some (firstn (N.to_nat n) x, skipn (N.to_nat n) x).
Definition get_asn1 (tag : byte) (x : bytes) : option (bytes * bytes) :=
  match x with
  | t :: l :: rest =>
      if negb (Byte.eqb t tag) then None
      else if (Byte.to_N l <? 128)%N then take_content (Byte.to_N l) rest
      else
        let num_bytes := N.to_nat (Byte.to_N l - 128) in
        if (Nat.eqb num_bytes 0 || Nat.ltb 4 num_bytes || Nat.ltb (length rest) num_bytes)%bool then None
        else
          let len := BN_bin2bn (firstn num_bytes rest) in
          if ((len <? 128) || (len / 256 ^ N.of_nat (num_bytes - 1) =? 0))%N%bool then None
          else take_content len (skipn num_bytes rest)
  | _ => None
  end.
(** BN_parse_asn1_unsigned with CBS_is_unsigned_asn1_integer *)
Definition bn_parse (x : bytes) : option (N * bytes) :=
  match get_asn1 x02 x with
  | Some (b :: c, rest) =>
      if (128 <=? Byte.to_N b)%N then None
      else if (Byte.eqb b x00 && negb (Nat.eqb (length c) 0) && (Byte.to_N (hd x00 c) <? 128)%N)%bool then None
      else Some (BN_bin2bn (b :: c), rest)
  | _ => None
  end.
(** d2i_ECDSA_SIG of all of [x], ECDSA_SIG_from_bytes *)
Definition d2i_ECDSA_SIG (x : bytes) : option (N * N) :=
  match get_asn1 x30 x with
  | Some (child, []) =>
      match bn_parse child with
      | Some (r, rest) => match bn_parse rest with Some (s, []) => Some (r, s) | _ => None end
      | None => None
      end
  | _ => None
  end.

Section Signatures.
  Variable ec : ec_crypto.
  Variable sg : sig_crypto.
  (** The random choices of the signature with which a new signer is tried *)
  Variable self_test : coins.

  (** md_util.cc:56-72 IsHashTypeSafeForSignature, 37-54 EvpHashFromHashType *)
  Definition is_safe_for_signature (h : hash_type) : option cc_status :=
    match h with
    | M_CcAes.SHA256 | M_CcAes.SHA384 | M_CcAes.SHA512 => None
    | UNKNOWN_HASH => Some (NotOk "Unsupported hash function")
    | _ => Some (NotOk "Hash function is not safe for digital signature")
    end.
  Definition evp_hash (h : hash_type) : st_or hash_type :=
    match h with UNKNOWN_HASH => StErr (NotOk "Unsupported hash") | _ => StOk h end.
  Definition checked {A} (s : option cc_status) (f : st_or A) : st_or A := match s with Some e => StErr e | None => f end.

  (** ** ECDSA *)

  (** BoringSSL's ECDSA_sign and ECDSA_verify: the signature must be the encoding of what it
      is decoded to *)
  Definition ECDSA_sign (c : curve_type) (d : N) (rnd : coins) (digest : bytes) : option bytes :=
    match ecdsa_do_sign sg c d rnd digest with Some rs => Some (i2d_ECDSA_SIG rs) | None => None end.
  Definition ECDSA_verify (c : curve_type) (Q : N * N) (digest sig : bytes) : bool :=
    match d2i_ECDSA_SIG sig with
    | Some rs => (bytes_eqb (i2d_ECDSA_SIG rs) sig && ecdsa_do_verify sg c Q digest rs)%bool
    | None => false
    end.
  (** ecdsa_raw_sign_boringssl.cc:62-90 DerToIeee *)
  Definition der_to_ieee (der : bytes) (field_size : nat) : st_or bytes :=
    match d2i_ECDSA_SIG der with
    | None => StErr (NotOk "d2i_ECDSA_SIG failed")
    | Some (r_bn, s_bn) =>
        bind_st (bn2binpad r_bn field_size) (fun r =>
        bind_st (bn2binpad s_bn field_size) (fun s => StOk (r ++ s)))
    end.
  (** ec_util.cc:730-756 EcSignatureIeeeToDer *)
  Definition ieee_to_der (field_size : nat) (ieee_sig : bytes) : st_or bytes :=
    if negb (Nat.eqb (length ieee_sig) (field_size * 2)) then StErr (NotOk "Signature is not valid.")
    else StOk (i2d_ECDSA_SIG (BN_bin2bn (firstn field_size ieee_sig), BN_bin2bn (skipn field_size ieee_sig))).

  (** ecdsa_sign_boringssl.cc:42-84 New and Sign; ecdsa_raw_sign_boringssl.cc:95-161 *)
  Definition ecdsa_signer (c : curve_type) (h : hash_type) (enc : sig_encoding) (pub_x pub_y priv : bytes) : st_or cc_signer :=
    checked (is_safe_for_signature h)
    (bind_st (evp_hash h) (fun hash =>
     bind_st (ec_group c) (fun field_size =>
     bind_st (get_ec_point ec c pub_x pub_y) (fun _ =>
     let priv_key := BN_bin2bn priv in
     if negb (ec_private_ok sg c priv_key) then StErr (NotOk "Invalid private key")
     else StOk (mk_cc_signer (fun rnd data =>
       match ECDSA_sign c priv_key rnd (evp_digest sg hash data) with
       | None => StErr (NotOk "Signing failed.")
       | Some der => match enc with EncIeee => der_to_ieee der field_size | _ => StOk der end
       end)))))).
  (** ecdsa_verify_boringssl.cc:47-129 New and Verify *)
  Definition ecdsa_verifier (c : curve_type) (h : hash_type) (enc : sig_encoding) (pub_x pub_y : bytes) : st_or cc_verifier :=
    bind_st (ec_group c) (fun field_size =>
    bind_st (get_ec_point ec c pub_x pub_y) (fun point =>
    checked (is_safe_for_signature h)
    (bind_st (evp_hash h) (fun hash =>
     StOk (mk_cc_verifier (fun signature data =>
       let digest := evp_digest sg hash data in
       bind_st (match enc with EncIeee => ieee_to_der field_size signature | _ => StOk signature end) (fun der_sig =>
       if ECDSA_verify c point digest der_sig then StOk tt else StErr (NotOk "Signature is not valid."))))))) ).

  (** ** Ed25519 *)

  (** ed25519_sign_boringssl.cc:48-98; only the first 32 bytes become the key *)
  Definition ed25519_signer (private_key : bytes) : st_or cc_signer :=
    if negb (Nat.eqb (length private_key) (32 + 32)) then StErr (NotOk "Invalid ED25519 private key size")
    else StOk (mk_cc_signer (fun _ data => StOk (ed25519_sign sg (firstn 32 private_key) data))).
  (** ed25519_verify_boringssl.cc:43-100 *)
  Definition ed25519_verifier (public_key : bytes) : st_or cc_verifier :=
    if negb (Nat.eqb (length public_key) 32) then StErr (NotOk "Invalid ED25519 public key size")
    else StOk (mk_cc_verifier (fun signature data =>
      if negb (Nat.eqb (length signature) 64) then StErr (NotOk "Invalid ED25519 signature size")
      else if ed25519_verify sg public_key data signature then StOk tt else StErr (NotOk "Signature is not valid."))).

  (** ** RSA *)

  (** rsa_util.cc:57-79 ValidateRsaModulusSize; 81-113 ValidateRsaPublicExponent *)
  Definition validate_modulus_size (bits : N) : option cc_status :=
    check (bits <? 2048)%N "only modulus size >= 2048-bit is supported".
  Definition validate_exponent (e : N) : option cc_status :=
    and_then (check (negb (N.odd e)) "Public exponent must be odd.")
      (and_then (check (e <=? 65536)%N "Public exponent must be greater than 65536.")
         (check (32 <? N.size e)%N "Exponent size must be smaller than 32 bits")).
  (** Lines 115-204 NewRsaKeyPair *)
  Definition new_rsa_key_pair (bits : Z) (e : N) (rnd : coins) : st_or rsa_key :=
    checked (validate_exponent e)
    match rsa_generate sg bits e rnd with
    | None => StErr (NotOk "Error generating private key")
    | Some k => StOk k
    end.
  (** Lines 282-328 RsaPrivateKeyToRsa; 330-356 RsaPublicKeyToRsa *)
  Definition rsa_private_key_to_rsa (k : rsa_key) : st_or rsa_key :=
    checked (and_then (validate_modulus_size (N.size (rsa_n k))) (validate_exponent (rsa_e k)))
      (if rsa_check sg k then StOk k else StErr (NotOk "Could not load RSA key")).
  Definition rsa_public_key_to_rsa (k : N * N) : st_or (N * N) :=
    checked (validate_modulus_size (N.size (fst k))) (StOk k).

  (** rsa_ssa_pkcs1_sign_boringssl.cc:47-116, rsa_ssa_pkcs1_verify_boringssl.cc:44-101 *)
  Definition pkcs1_signer (k : rsa_key) (h : hash_type) : st_or cc_signer :=
    checked (is_safe_for_signature h)
    (bind_st (evp_hash h) (fun sig_hash =>
     checked (validate_modulus_size (N.size (rsa_n k)))
     (bind_st (rsa_private_key_to_rsa k) (fun rsa =>
      StOk (mk_cc_signer (fun _ data =>
        match rsa_sign sg rsa sig_hash (evp_digest sg sig_hash data) with
        | None => StErr (NotOk "Signing failed.")
        | Some signature => StOk signature
        end)))))).
  Definition pkcs1_verifier (k : N * N) (h : hash_type) : st_or cc_verifier :=
    checked (is_safe_for_signature h)
    (bind_st (evp_hash h) (fun sig_hash =>
     bind_st (rsa_public_key_to_rsa k) (fun rsa =>
     StOk (mk_cc_verifier (fun signature data =>
       if rsa_verify sg rsa sig_hash (evp_digest sg sig_hash data) signature then StOk tt
       else StErr (NotOk "Signature is not valid.")))))).

  (** EVP_MD_size *)
  Definition evp_md_size (h : hash_type) : nat :=
    match h with M_CcAes.SHA1 => 20 | M_CcAes.SHA224 => 28 | M_CcAes.SHA256 => 32 | M_CcAes.SHA384 => 48 | M_CcAes.SHA512 => 64 | UNKNOWN_HASH => 0 end.
  (** rsa_ssa_pss_sign_boringssl.cc:63-103 SslRsaSsaPssSign, 107-160 *)
  Definition ssl_pss_sign (k : rsa_key) (rnd : coins) (digest : bytes) (sig_md mgf1_md : hash_type) (salt_length : Z) : st_or bytes :=
    if negb (Nat.eqb (length digest) (evp_md_size sig_md)) then StErr (NotOk "Size of the digest doesn't match")
    else match pss_add sg (rsa_n k) rnd digest sig_md mgf1_md salt_length with
         | None => StErr (NotOk "RSA_padding_add_PKCS1_PSS_mgf1 failed.")
         | Some em =>
             match rsa_private_encrypt sg k em with
             | None => StErr (NotOk "RSA_private_encrypt failed.")
             | Some signature => StOk signature
             end
         end.
  Definition pss_signer (k : rsa_key) (sig_h mgf1_h : hash_type) (salt_length : Z) : st_or cc_signer :=
    checked (is_safe_for_signature sig_h)
    (bind_st (evp_hash sig_h) (fun sig_hash =>
     bind_st (evp_hash mgf1_h) (fun mgf1_hash =>
     bind_st (rsa_private_key_to_rsa k) (fun rsa =>
     StOk (mk_cc_signer (fun rnd data =>
       match ssl_pss_sign rsa rnd (evp_digest sg sig_hash data) sig_hash mgf1_hash salt_length with
       | StErr _ => StErr (NotOk "Signing failed.")
       | StOk signature => StOk signature
       end)))))).
  (** rsa_ssa_pss_verify_boringssl.cc:63-101 SslRsaSsaPssVerify, 105-155 *)
  Definition ssl_pss_verify (k : N * N) (signature digest : bytes) (sig_md mgf1_md : hash_type) (salt_length : Z) : st_or unit :=
    if negb (Nat.eqb (length digest) (evp_md_size sig_md)) then StErr (NotOk "Size of the digest doesn't match")
    else match rsa_public_decrypt sg k signature with
         | None => StErr (NotOk "Invalid signature size")
         | Some em =>
             if negb (Nat.eqb (length em) (BN_num_bytes (fst k))) then StErr (NotOk "Invalid signature size")
             else if pss_verify sg (fst k) digest sig_md mgf1_md em salt_length then StOk tt
             else StErr (NotOk "PSS padding verification failed.")
         end.
  Definition pss_verifier (k : N * N) (sig_h mgf1_h : hash_type) (salt_length : Z) : st_or cc_verifier :=
    checked (is_safe_for_signature sig_h)
    (bind_st (evp_hash sig_h) (fun sig_hash =>
     bind_st (evp_hash mgf1_h) (fun mgf1_hash =>
     bind_st (rsa_public_key_to_rsa k) (fun rsa =>
     StOk (mk_cc_verifier (fun signature data =>
       ssl_pss_verify rsa signature (evp_digest sg sig_hash data) sig_hash mgf1_hash salt_length)))))).

  (** sig_util.cc:26-32 SignAndVerify *)
  Definition test_message : bytes := list_byte_of_string "Wycheproof and Tink.".
  Definition sign_and_verify (signer : cc_signer) (verifier : cc_verifier) : st_or unit :=
    bind_st (cs_sign signer self_test test_message) (fun signature => cv_verify verifier signature test_message).
  (** rsa_ssa_pss_sign_key_manager.cc:120-134; rsa_ssa_pkcs1_sign_key_manager.cc:117-131 *)
  Definition tried (signer : st_or cc_signer) (verifier : st_or cc_verifier) : st_or cc_signer :=
    bind_st signer (fun s =>
    bind_st verifier (fun v =>
    match sign_and_verify s v with
    | StErr _ => StErr (NotOk "security bug: signing with private key followed by verifying with public key failed")
    | StOk _ => StOk s
    end)).

  (** ** Keys *)

  (** proto/ecdsa.proto:54-78 *)
  Definition EcdsaPublicKey : schema :=
    [("version", 1%N, TUint32); ("params", 2%N, TMsg EcdsaParams); ("x", 3%N, TBytes); ("y", 4%N, TBytes)].
  Definition EcdsaPrivateKey : schema :=
    [("version", 1%N, TUint32); ("public_key", 2%N, TMsg EcdsaPublicKey); ("key_value", 3%N, TBytes)].
  (** proto/ed25519.proto:33-52 *)
  Definition Ed25519PublicKey : schema := [("version", 1%N, TUint32); ("key_value", 2%N, TBytes)].
  Definition Ed25519PrivateKey : schema :=
    [("version", 1%N, TUint32); ("key_value", 2%N, TBytes); ("public_key", 3%N, TMsg Ed25519PublicKey)].
  (** proto/rsa_ssa_pkcs1.proto:37-82 *)
  Definition RsaSsaPkcs1PublicKey : schema :=
    [("version", 1%N, TUint32); ("params", 2%N, TMsg RsaSsaPkcs1Params); ("n", 3%N, TBytes); ("e", 4%N, TBytes)].
  Definition RsaSsaPkcs1PrivateKey : schema :=
    [("version", 1%N, TUint32); ("public_key", 2%N, TMsg RsaSsaPkcs1PublicKey); ("d", 3%N, TBytes); ("p", 4%N, TBytes);
     ("q", 5%N, TBytes); ("dp", 6%N, TBytes); ("dq", 7%N, TBytes); ("crt", 8%N, TBytes)].
  (** proto/rsa_ssa_pss.proto:45-90 *)
  Definition RsaSsaPssPublicKey : schema :=
    [("version", 1%N, TUint32); ("params", 2%N, TMsg RsaSsaPssParams); ("n", 3%N, TBytes); ("e", 4%N, TBytes)].
  Definition RsaSsaPssPrivateKey : schema :=
    [("version", 1%N, TUint32); ("public_key", 2%N, TMsg RsaSsaPssPublicKey); ("d", 3%N, TBytes); ("p", 4%N, TBytes);
     ("q", 5%N, TBytes); ("dp", 6%N, TBytes); ("dq", 7%N, TBytes); ("crt", 8%N, TBytes)].

  (** A message of type [fs] in which [at_] leads to a public key or to parameters *)

  (** ecdsa_verify_key_manager.cc:61-99 ValidateParams, 101-105 ValidateKey, 47-59 Create *)
  Definition ecdsa_validate_params (fs : schema) (at_ : list string -> list string) (m : message) : option cc_status :=
    let hash := num_at fs m (at_ ["hash_type"]) in
    let encoding := num_at fs m (at_ ["encoding"]) in
    and_then (check (negb ((encoding =? DER)%Z || (encoding =? IEEE_P1363)%Z)) "Unsupported signature encoding")
      (match num_at fs m (at_ ["curve"]) with
       | 2 => check (negb (hash =? M_KeyFormats.SHA256)) "Only SHA256 is supported for NIST P256."
       | 3 => check (negb (hash =? M_KeyFormats.SHA384) && negb (hash =? M_KeyFormats.SHA512)) "Only SHA384 and SHA512 are supported for this curve."
       | 4 => check (negb (hash =? M_KeyFormats.SHA512)) "Only SHA512 is supported for this curve."
       | _ => Some (NotOk "Unsupported elliptic curve")
       end)%Z.
  Definition ecdsa_validate_public (fs : schema) (at_ : list string -> list string) (m : message) : option cc_status :=
    and_then (validate_version (num_at fs m (at_ ["version"])) 0)
      (ecdsa_validate_params fs (fun q => at_ ("params" :: q)) m).
  Definition ecdsa_curve (fs : schema) (at_ : list string -> list string) (m : message) := curve_proto_to_subtle (num_at fs m (at_ ["params"; "curve"])).
  Definition ecdsa_hash (fs : schema) (at_ : list string -> list string) (m : message) := proto_to_subtle (num_at fs m (at_ ["params"; "hash_type"])).
  Definition ecdsa_encoding (fs : schema) (at_ : list string -> list string) (m : message) := encoding_proto_to_subtle (num_at fs m (at_ ["params"; "encoding"])).
  Definition ecdsa_create_verify (m : message) : st_or cc_verifier :=
    let fs := EcdsaPublicKey in let at_ := fun q : list string => q in
    ecdsa_verifier (ecdsa_curve fs at_ m) (ecdsa_hash fs at_ m) (ecdsa_encoding fs at_ m) (bytes_at fs m ["x"]) (bytes_at fs m ["y"]).
  (** ecdsa_sign_key_manager.cc:143-157 Create, 159-163 ValidateKey, 165-171 ValidateKeyFormat, 52-71 CreateKey *)
  Definition ecdsa_create_sign (m : message) : st_or cc_signer :=
    let fs := EcdsaPrivateKey in let at_ := cons "public_key" in
    ecdsa_signer (ecdsa_curve fs at_ m) (ecdsa_hash fs at_ m) (ecdsa_encoding fs at_ m)
      (bytes_at fs m (at_ ["x"])) (bytes_at fs m (at_ ["y"])) (bytes_at fs m ["key_value"]).
  Definition ecdsa_validate_private (m : message) : option cc_status :=
    and_then (validate_version (num_at EcdsaPrivateKey m ["version"]) 0) (ecdsa_validate_public EcdsaPrivateKey (cons "public_key") m).
  Definition ecdsa_validate_format (m : message) : option cc_status :=
    and_then (check (negb (has_at EcdsaKeyFormat m ["params"])) "Missing params.") (ecdsa_validate_params EcdsaKeyFormat (cons "params") m).
  Definition params_of (fs params : schema) (m : message) : option pval := message_or_empty params (get_path (TMsg fs) (Some (VMsg m)) ["params"]).
  Definition ecdsa_create_key (rnd : coins) (m : message) : st_or message :=
    bind_st (new_ec_key ec (curve_proto_to_subtle (num_at EcdsaKeyFormat m ["params"; "curve"])) rnd) (fun '(priv, pub_x, pub_y) =>
    StOk [Some (VNum 0);
          Some (VMsg [Some (VNum 0); params_of EcdsaKeyFormat EcdsaParams m; Some (VBytes pub_x); Some (VBytes pub_y)]);
          Some (VBytes priv)]).

  (** ed25519_verify_key_manager.cc:39-54; ed25519_sign_key_manager.cc:48-87, 119-122 ValidateKeyFormat;
      cc/internal/ec_util.cc:447-489 NewEd25519Key *)
  Definition ed25519_validate_public (fs : schema) (at_ : list string -> list string) (m : message) : option cc_status :=
    and_then (validate_version (num_at fs m (at_ ["version"])) 0)
      (check (negb (Nat.eqb (length (bytes_at fs m (at_ ["key_value"]))) 32)) "The ED25519 public key must be 32-bytes long.").
  Definition ed25519_create_verify (m : message) : st_or cc_verifier := ed25519_verifier (bytes_at Ed25519PublicKey m ["key_value"]).
  Definition ed25519_validate_private (m : message) : option cc_status :=
    and_then (validate_version (num_at Ed25519PrivateKey m ["version"]) 0)
      (and_then (check (negb (Nat.eqb (length (bytes_at Ed25519PrivateKey m ["key_value"])) 32)) "The ED25519 private key must be 32-bytes long.")
         (ed25519_validate_public Ed25519PrivateKey (cons "public_key") m)).
  Definition ed25519_create_sign (m : message) : st_or cc_signer :=
    ed25519_signer (bytes_at Ed25519PrivateKey m ["key_value"] ++ bytes_at Ed25519PrivateKey m ["public_key"; "key_value"]).
  Definition ed25519_validate_format (m : message) : option cc_status := None.
  Definition ed25519_create_key (rnd : coins) (m : message) : st_or message :=
    let private_key := ed25519_generate sg rnd in
    StOk [Some (VNum 0); Some (VBytes private_key); Some (VMsg [Some (VNum 0); Some (VBytes (ed25519_public sg private_key))])].

  (** The RSA keys in messages: rsa_ssa_pkcs1_sign_key_manager.cc:53-82, rsa_ssa_pss_sign_key_manager.cc:55-85 *)
  Definition rsa_key_of (fs : schema) (m : message) : rsa_key :=
    let b p := BN_bin2bn (bytes_at fs m p) in
    mk_rsa_key (b ["public_key"; "n"]) (b ["public_key"; "e"]) (b ["d"]) (b ["p"]) (b ["q"]) (b ["dp"]) (b ["dq"]) (b ["crt"]).
  Definition rsa_public_of (fs : schema) (at_ : list string -> list string) (m : message) : N * N :=
    (BN_bin2bn (bytes_at fs m (at_ ["n"])), BN_bin2bn (bytes_at fs m (at_ ["e"]))).
  Definition rsa_key_message (params : option pval) (k : rsa_key) : message :=
    let b n := Some (VBytes (BN_bn2bin n)) in
    [Some (VNum 0); Some (VMsg [Some (VNum 0); params; b (rsa_n k); b (rsa_e k)]);
     b (rsa_d k); b (rsa_p k); b (rsa_q k); b (rsa_dp k); b (rsa_dq k); b (rsa_crt k)].
  (** ValidateKey of the public keys: rsa_ssa_pss_verify_key_manager.cc:68-87, rsa_ssa_pkcs1_verify_key_manager.cc:69-88 *)
  Definition rsa_validate_public (validate_params : schema -> (list string -> list string) -> message -> option cc_status)
      (fs : schema) (at_ : list string -> list string) (m : message) : option cc_status :=
    and_then (validate_version (num_at fs m (at_ ["version"])) 0)
      (and_then (validate_modulus_size (N.size (BN_bin2bn (bytes_at fs m (at_ ["n"])))))
         (and_then (validate_exponent (BN_bin2bn (bytes_at fs m (at_ ["e"]))))
            (validate_params fs (fun q => at_ ("params" :: q)) m))).
  (** ValidateKeyFormat: rsa_ssa_pss_sign_key_manager.cc:144-157, rsa_ssa_pkcs1_sign_key_manager.cc:141-154 *)
  Definition rsa_validate_format (validate_params : schema -> (list string -> list string) -> message -> option cc_status)
      (fs : schema) (m : message) : option cc_status :=
    and_then (validate_modulus_size (Z.to_N (num_at fs m ["modulus_size_in_bits"])))
      (and_then (validate_exponent (BN_bin2bn (bytes_at fs m ["public_exponent"])))
         (validate_params fs (cons "params") m)).
  (** CreateKey: rsa_ssa_pss_sign_key_manager.cc:89-109, rsa_ssa_pkcs1_sign_key_manager.cc:86-108; the
      size is a uint32 that is passed as an int *)
  Definition rsa_create_key (fs params : schema) (rnd : coins) (m : message) : st_or message :=
    bind_st (new_rsa_key_pair (to_int (Z.to_N (num_at fs m ["modulus_size_in_bits"]))) (BN_bin2bn (bytes_at fs m ["public_exponent"])) rnd) (fun k =>
    StOk (rsa_key_message (params_of fs params m) k)).

  (** rsa_ssa_pkcs1_verify_key_manager.cc:46-61 Create, 63-67 ValidateParams; rsa_ssa_pkcs1_sign_key_manager.cc:110-139 *)
  Definition pkcs1_validate_params (fs : schema) (at_ : list string -> list string) (m : message) : option cc_status :=
    is_safe_for_signature (proto_to_subtle (num_at fs m (at_ ["hash_type"]))).
  Definition pkcs1_create_verify (fs : schema) (at_ : list string -> list string) (m : message) : st_or cc_verifier :=
    pkcs1_verifier (rsa_public_of fs at_ m) (proto_to_subtle (num_at fs m (at_ ["params"; "hash_type"]))).
  Definition pkcs1_create_sign (m : message) : st_or cc_signer :=
    let fs := RsaSsaPkcs1PrivateKey in
    tried (pkcs1_signer (rsa_key_of fs m) (proto_to_subtle (num_at fs m ["public_key"; "params"; "hash_type"])))
          (pkcs1_create_verify fs (cons "public_key") m).
  Definition pkcs1_validate_private (m : message) : option cc_status :=
    and_then (validate_version (num_at RsaSsaPkcs1PrivateKey m ["version"]) 0)
      (rsa_validate_public pkcs1_validate_params RsaSsaPkcs1PrivateKey (cons "public_key") m).

  (** rsa_ssa_pss_verify_key_manager.cc:49-66 Create, 89-118 ValidateParams; rsa_ssa_pss_sign_key_manager.cc:111-142 *)
  Definition pss_validate_params (fs : schema) (at_ : list string -> list string) (m : message) : option cc_status :=
    and_then (is_safe_for_signature (proto_to_subtle (num_at fs m (at_ ["sig_hash"]))))
      (and_then (check (negb (num_at fs m (at_ ["mgf1_hash"]) =? num_at fs m (at_ ["sig_hash"]))%Z) "MGF1 hash is different from signature hash")
         (check (num_at fs m (at_ ["salt_length"]) <? 0)%Z "salt length is negative")).
  Definition pss_create_verify (fs : schema) (at_ : list string -> list string) (m : message) : st_or cc_verifier :=
    pss_verifier (rsa_public_of fs at_ m) (proto_to_subtle (num_at fs m (at_ ["params"; "sig_hash"])))
      (proto_to_subtle (num_at fs m (at_ ["params"; "mgf1_hash"]))) (num_at fs m (at_ ["params"; "salt_length"])).
  Definition pss_create_sign (m : message) : st_or cc_signer :=
    let fs := RsaSsaPssPrivateKey in
    tried (pss_signer (rsa_key_of fs m) (proto_to_subtle (num_at fs m ["public_key"; "params"; "sig_hash"]))
             (proto_to_subtle (num_at fs m ["public_key"; "params"; "mgf1_hash"])) (num_at fs m ["public_key"; "params"; "salt_length"]))
          (pss_create_verify fs (cons "public_key") m).
  Definition pss_validate_private (m : message) : option cc_status :=
    and_then (validate_version (num_at RsaSsaPssPrivateKey m ["version"]) 0)
      (rsa_validate_public pss_validate_params RsaSsaPssPrivateKey (cons "public_key") m).

  (** ** KeyManagerImpl *)

  (** key_manager_impl.h:183-200 GetPrimitive; 119-152: no key factory *)
  Definition parse_key {P} (url : pystr) (fs : schema) (validate : message -> option cc_status) (create : message -> st_or P)
      (d : key_data) : st_or P :=
    if negb (str_eqb url (kd_type_url d)) then StErr (NotOk "Key type is not supported by this manager.")
    else match parse_message fs (kd_value d) with
         | None => StErr (NotOk "Could not parse key_data.value")
         | Some key => checked (validate key) (create key)
         end.
  Definition verify_manager_of (name : string) (fs : schema) (validate : message -> option cc_status)
      (create : message -> st_or cc_verifier) : cc_lib_manager cc_verifier :=
    let url := ecies_url name in
    mk_cc_lib_manager url (parse_key url fs validate create)
      (fun _ _ => StErr (NotOk "Creating new keys is not supported for this key manager.")) None.
  (** key_manager_impl.h:87-114 NewKeyData; private_key_manager_impl.h:77-96 GetPublicKeyData *)
  Definition sign_manager_of (name public_name : string) (fs public_fs format_fs : schema) (validate validate_format : message -> option cc_status)
      (create : message -> st_or cc_signer) (create_key : coins -> message -> st_or message) : cc_lib_manager cc_signer :=
    let url := ecies_url name in
    mk_cc_lib_manager url (parse_key url fs validate create)
      (fun rnd serialized_key_format =>
         match parse_message format_fs serialized_key_format with
         | None => StErr (NotOk "Could not parse the passed string")
         | Some key_format =>
             checked (validate_format key_format)
             (bind_st (create_key rnd key_format) (fun key =>
              StOk (mk_key_data url (serialize_message fs key) ASYMMETRIC_PRIVATE)))
         end)
      (Some (fun serialized_private_key =>
         match parse_message fs serialized_private_key with
         | None => StErr (NotOk "Could not parse the passed string")
         | Some private_key =>
             checked (validate private_key)
             (StOk (mk_key_data (ecies_url public_name)
                (match message_or_empty public_fs (get_path (TMsg fs) (Some (VMsg private_key)) ["public_key"]) with
                 | Some (VMsg public_key) => serialize_message public_fs public_key
                 | _ => []
                 end)
                ASYMMETRIC_PUBLIC))
         end)).

  Inductive sig_kind := Ecdsa | Ed25519 | Pkcs1 | Pss.
  (** cc/signature/signature_config.cc:55-92: the managers it registers *)
  Definition verify_manager (k : sig_kind) : cc_lib_manager cc_verifier :=
    let here := fun q : list string => q in
    match k with
    | Ecdsa => verify_manager_of "EcdsaPublicKey" EcdsaPublicKey (ecdsa_validate_public EcdsaPublicKey here) ecdsa_create_verify
    | Ed25519 => verify_manager_of "Ed25519PublicKey" Ed25519PublicKey (ed25519_validate_public Ed25519PublicKey here) ed25519_create_verify
    | Pkcs1 => verify_manager_of "RsaSsaPkcs1PublicKey" RsaSsaPkcs1PublicKey (rsa_validate_public pkcs1_validate_params RsaSsaPkcs1PublicKey here)
                 (pkcs1_create_verify RsaSsaPkcs1PublicKey here)
    | Pss => verify_manager_of "RsaSsaPssPublicKey" RsaSsaPssPublicKey (rsa_validate_public pss_validate_params RsaSsaPssPublicKey here)
               (pss_create_verify RsaSsaPssPublicKey here)
    end.
  Definition sign_manager (k : sig_kind) : cc_lib_manager cc_signer :=
    match k with
    | Ecdsa => sign_manager_of "EcdsaPrivateKey" "EcdsaPublicKey" EcdsaPrivateKey EcdsaPublicKey EcdsaKeyFormat
                 ecdsa_validate_private ecdsa_validate_format ecdsa_create_sign ecdsa_create_key
    | Ed25519 => sign_manager_of "Ed25519PrivateKey" "Ed25519PublicKey" Ed25519PrivateKey Ed25519PublicKey Ed25519KeyFormat
                   ed25519_validate_private ed25519_validate_format ed25519_create_sign ed25519_create_key
    | Pkcs1 => sign_manager_of "RsaSsaPkcs1PrivateKey" "RsaSsaPkcs1PublicKey" RsaSsaPkcs1PrivateKey RsaSsaPkcs1PublicKey RsaSsaPkcs1KeyFormat
                 pkcs1_validate_private (rsa_validate_format pkcs1_validate_params RsaSsaPkcs1KeyFormat) pkcs1_create_sign
                 (rsa_create_key RsaSsaPkcs1KeyFormat RsaSsaPkcs1Params)
    | Pss => sign_manager_of "RsaSsaPssPrivateKey" "RsaSsaPssPublicKey" RsaSsaPssPrivateKey RsaSsaPssPublicKey RsaSsaPssKeyFormat
               pss_validate_private (rsa_validate_format pss_validate_params RsaSsaPssKeyFormat) pss_create_sign
               (rsa_create_key RsaSsaPssKeyFormat RsaSsaPssParams)
    end.
End Signatures.
