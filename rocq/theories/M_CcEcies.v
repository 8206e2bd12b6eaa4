(** ECIES-AEAD-HKDF of the C++ library: /repo/cc/hybrid/ecies_aead_hkdf_hybrid_{encrypt,decrypt}.cc,
    ecies_aead_hkdf_dem_helper.cc, ecies_aead_hkdf_{private,public}_key_manager.{h,cc},
    cc/subtle/ecies_hkdf_{sender,recipient}_kem_boringssl.cc, cc/subtle/hkdf.cc,
    cc/internal/ec_util.cc, cc/internal/bn_util.cc, cc/daead/subtle/aead_or_daead.cc,
    cc/core/private_key_manager_impl.h.

    BoringSSL is an argument. Not modelled: OpenSSL in its place, FIPS mode, null pointers,
    failing allocations, failing generation of keys. *)
From Coq Require Import Strings.Byte Strings.String List NArith ZArith Bool.
From Verif Require Import M_Base M_Proto M_Wire M_ProtoMsg M_KeyFormats M_Prims M_StreamTypes M_CcStream M_CcManagers M_CcAes
  M_CcStreamKeys M_CcModes M_CcSymmetric M_CcSymKeys.
Import ListNotations.
Open Scope string_scope.
Open Scope list_scope.
Open Scope nat_scope.

(** cc/subtle/common_enums.h:26-42 *)
Inductive curve_type := UNKNOWN_CURVE | P256 | P384 | P521 | CURVE25519.
Inductive point_format := UNKNOWN_FORMAT | Uncompressed | Compressed | CrunchyUncompressed.
(** cc/util/enums.cc:51-65, 81-93 ProtoToSubtle; proto/common.proto:26-41 *)
Definition curve_proto_to_subtle (z : Z) : curve_type :=
  match z with 2 => P256 | 3 => P384 | 4 => P521 | 5 => CURVE25519 | _ => UNKNOWN_CURVE end%Z.
Definition format_proto_to_subtle (z : Z) : point_format :=
  match z with 1 => Uncompressed | 2 => Compressed | 3 => CrunchyUncompressed | _ => UNKNOWN_FORMAT end%Z.

(** What is used of BoringSSL for elliptic curves. [ec_on_curve]: the coordinates are in the
    field and satisfy the equation (EC_POINT_set_affine_coordinates_GFp,
    EC_POINT_is_on_curve). [ec_decompress]: the y of this parity for an x, if there is one.
    [ec_generate_key]: EC_KEY_generate_key, a private key and a point, a multiple of
    [ec_generator], which is not used otherwise. [ec_point_mul]:
    EC_POINT_mul; None if it fails or is the point at infinity, which has no affine
    coordinates. [x25519_generate] and [x25519_public]: EVP_PKEY_keygen, a private key and
    its public key. [x25519_derive]: EVP_PKEY_derive of the private key and the public key of
    the peer, None if it fails (for public keys of small order). [evp_hkdf]: HKDF with hash, key, salt,
    info and the size of the output. *)
Record ec_crypto := mk_ec_crypto {
  ec_on_curve : curve_type -> N * N -> bool;
  ec_decompress : curve_type -> N -> bool -> option N;
  ec_generate_key : curve_type -> coins -> N * (N * N);
  ec_generator : curve_type -> N * N;
  ec_point_mul : curve_type -> N -> N * N -> option (N * N);
  x25519_generate : coins -> bytes;
  x25519_public : bytes -> bytes;
  x25519_derive : bytes -> bytes -> option bytes;
  evp_hkdf : hash_type -> bytes -> bytes -> bytes -> nat -> option bytes }.

(** An operation that ends with a status or a value, or (None) does not end regularly: it
    calls std::abort() or throws an exception that is no status. *)
Definition outcome (A : Type) := option (st_or A).
Definition bind_st {A B} (a : st_or A) (f : A -> st_or B) : st_or B := match a with StErr s => StErr s | StOk x => f x end.
Definition bind_out {A B} (a : outcome A) (f : A -> outcome B) : outcome B :=
  match a with None => None | Some (StErr s) => Some (StErr s) | Some (StOk x) => f x end.

(** ** Bignums: BN_bin2bn (bn_util.cc:88-98 StringToBignum), BN_bn2binpad (38-57
    BignumToBinaryPadded, 59-70 BignumToString, 72-86 BignumToSecretData) *)
Definition BN_bin2bn (x : bytes) : N := load_le (rev x).
Definition bn2binpad (bn : N) (len : nat) : st_or bytes :=
  if (bn <? 256 ^ N.of_nat len)%N then StOk (rev (store_le len bn)) else StErr (NotOk "Value too large to fit into the given buffer").

(** ** Points (ec_util.cc) *)

(** Lines 636-661 EcGroupFromCurveType, 194-197 SslEcFieldSizeInBytes of the group; the sizes
    of the orders (190-192 ScalarSizeInBytes) are the same. *)
Definition ec_group (c : curve_type) : st_or nat :=
  match c with
  | P256 => StOk 32 | P384 => StOk 48 | P521 => StOk 66
  | _ => StErr (NotOk "Unsupported elliptic curve")
  end.
(** Lines 314-324 EcFieldSizeInBytes *)
Definition ec_field_size (c : curve_type) : st_or nat := match c with CURVE25519 => StOk 32 | _ => ec_group c end.
(** Lines 326-353 EcPointEncodingSizeInBytes *)
Definition ec_point_encoding_size (c : curve_type) (f : point_format) : st_or nat :=
  bind_st (ec_field_size c) (fun coordinate_size =>
  match c with
  | CURVE25519 => StOk coordinate_size
  | _ =>
      match f with
      | Uncompressed => StOk (2 * coordinate_size + 1)
      | Compressed => StOk (coordinate_size + 1)
      | CrunchyUncompressed => StOk (2 * coordinate_size)
      | UNKNOWN_FORMAT => StErr (NotOk "Unsupported elliptic curve point format")
      end
  end).

Section Ecies.
  Variable ec : ec_crypto.
  Variable lib : crypto.
  Variable random : coins -> Z -> bytes.

  (** EC_POINT_point2oct, both forms (61-85 SslEcPointEncode): SEC 1, 2.3.3 *)
  Definition point2oct (size : nat) (compressed : bool) (point : N * N) : st_or bytes :=
    bind_st (bn2binpad (fst point) size) (fun x =>
    if compressed then StOk ((if N.odd (snd point) then x03 else x02) :: x)
    else bind_st (bn2binpad (snd point) size) (fun y => StOk (x04 :: x ++ y))).
  (** Lines 554-604 EcPointEncode *)
  Definition ec_point_encode (c : curve_type) (f : point_format) (point : N * N) : st_or bytes :=
    bind_st (ec_group c) (fun size =>
    if negb (ec_on_curve ec c point) then StErr (NotOk "Point is not on curve")
    else match f with
         | Uncompressed => point2oct size false point
         | Compressed => point2oct size true point
         | CrunchyUncompressed =>
             bind_st (bn2binpad (fst point) size) (fun x =>
             bind_st (bn2binpad (snd point) size) (fun y => StOk (x ++ y)))
         | UNKNOWN_FORMAT => StErr (NotOk "Unsupported point format")
         end).
  (** Lines 88-107 SslGetEcPointFromCoordinates; 681-689 GetEcPoint *)
  Definition point_from_coordinates (c : curve_type) (pubx puby : bytes) : st_or (N * N) :=
    let point := (BN_bin2bn pubx, BN_bin2bn puby) in
    if ec_on_curve ec c point then StOk point else StErr (NotOk "EC_POINT_set_affine_coordinates_GFp failed").
  Definition get_ec_point (c : curve_type) (pubx puby : bytes) : st_or (N * N) :=
    bind_st (ec_group c) (fun _ => point_from_coordinates c pubx puby).
  (** EC_POINT_oct2point for encodings of the right sizes (SEC 1, 2.3.4) *)
  Definition oct2point (c : curve_type) (size : nat) (encoded : bytes) : option (N * N) :=
    match encoded with
    | x04 :: xy =>
        let point := (BN_bin2bn (firstn size xy), BN_bin2bn (skipn size xy)) in
        if (Nat.eqb (length xy) (2 * size) && ec_on_curve ec c point)%bool then Some point else None
    | b :: x =>
        if (Nat.eqb (length x) size && (Byte.eqb b x02 || Byte.eqb b x03))%bool
        then match ec_decompress ec c (BN_bin2bn x) (Byte.eqb b x03) with
             | Some y => Some (BN_bin2bn x, y)
             | None => None
             end
        else None
    | [] => None
    end.
  (** Lines 111-166 SslGetEcPointFromEncoded *)
  Definition point_from_encoded (c : curve_type) (f : point_format) (encoded : bytes) : st_or (N * N) :=
    bind_st (ec_group c) (fun size =>
    bind_st (ec_point_encoding_size c f) (fun encoding_size =>
    if negb (Nat.eqb (length encoded) encoding_size) then StErr (NotOk "Encoded point's size")
    else
      let first := hd x00 encoded in
      if match f with
         | Uncompressed => negb (Byte.eqb first x04)
         | _ => negb (Byte.eqb first x03) && negb (Byte.eqb first x02)
         end%bool
      then StErr (NotOk "wrong starting byte")
      else match oct2point c size encoded with
           | None => StErr (NotOk "EC_POINT_toc2point failed")
           | Some point => if ec_on_curve ec c point then StOk point else StErr (NotOk "Point is not on curve")
           end)).
  (** Lines 606-634 EcPointDecode *)
  Definition ec_point_decode (c : curve_type) (f : point_format) (encoded : bytes) : st_or (N * N) :=
    match f with
    | Uncompressed | Compressed => point_from_encoded c f encoded
    | CrunchyUncompressed =>
        bind_st (ec_group c) (fun size =>
        if negb (Nat.eqb (length encoded) (2 * size)) then StErr (NotOk "Encoded point's size")
        else point_from_coordinates c (firstn size encoded) (skipn size encoded))
    | UNKNOWN_FORMAT => StErr (NotOk "Unsupported format")
    end.
  (** Lines 691-728 ComputeEcdhSharedSecret *)
  Definition compute_ecdh_shared_secret (c : curve_type) (priv_key : N) (pub_key : N * N) : st_or bytes :=
    bind_st (ec_group c) (fun size =>
    if negb (ec_on_curve ec c pub_key) then StErr (NotOk "Public key is not on curve")
    else match ec_point_mul ec c priv_key pub_key with
         | None => StErr (NotOk "Point multiplication failed")
         | Some shared_point =>
             if negb (ec_on_curve ec c shared_point) then StErr (NotOk "Shared point is not on curve")
             else bn2binpad (fst shared_point) size
         end).

  (** ** KEM *)

  (** hkdf.cc:54-83 SslHkdf, 87-105 ComputeHkdf, 127-135 ComputeEciesHkdfSymmetricKey *)
  Definition ecies_hkdf_symmetric_key (hash : hash_type) (kem_bytes shared_secret salt info : bytes) (out_len : nat) : st_or bytes :=
    match evp_md_size hash with
    | None => StErr (NotOk "Unsupported hash")
    | Some _ =>
        match evp_hkdf ec hash (kem_bytes ++ shared_secret) salt info out_len with
        | None => StErr (NotOk "HKDF failed")
        | Some out_key => StOk out_key
        end
    end.

  (** GenerateKey of a sender: hash, salt, info, the size of the key, the format; the KEM
      bytes and the symmetric key. *)
  Definition sender_kem := coins -> hash_type -> bytes -> bytes -> nat -> point_format -> outcome (bytes * bytes).
  (** ecies_hkdf_sender_kem_boringssl.cc:68-81 New, 84-129 GenerateKey *)
  Definition nist_sender_kem (c : curve_type) (pubx puby : bytes) : st_or sender_kem :=
    bind_st (get_ec_point c pubx puby) (fun peer_pub_key =>
    StOk (fun rnd hash hkdf_salt hkdf_info key_size_in_bytes f =>
      Some (bind_st (ec_group c) (fun _ =>
      let (ephemeral_priv, ephemeral_pub) := ec_generate_key ec c rnd in
      bind_st (ec_point_encode c f ephemeral_pub) (fun kem_bytes =>
      bind_st (compute_ecdh_shared_secret c ephemeral_priv peer_pub_key) (fun shared_secret =>
      bind_st (ecies_hkdf_symmetric_key hash kem_bytes shared_secret hkdf_salt hkdf_info key_size_in_bytes) (fun symmetric_key =>
      StOk (kem_bytes, symmetric_key)))))))).
  (** Lines 135-166 New, 168-211 GenerateKey; ec_util.cc:508-531 ComputeX25519SharedSecret.
      [*shared_secret] is evaluated without a look at its status (line 202), which ends the process if it is an error. *)
  Definition x25519_sender_kem (c : curve_type) (pubx puby : bytes) : st_or sender_kem :=
    match c with
    | CURVE25519 =>
        if negb (Nat.eqb (length pubx) 32) then StErr (NotOk "pubx has unexpected length")
        else if negb (Nat.eqb (length puby) 0) then StErr (NotOk "puby is not empty")
        else
          StOk (fun rnd hash hkdf_salt hkdf_info key_size_in_bytes f =>
            match f with
            | Compressed =>
                let private_key := x25519_generate ec rnd in
                let public_key := x25519_public ec private_key in
                match x25519_derive ec private_key pubx with
                | None => None
                | Some shared_secret =>
                    Some (bind_st (ecies_hkdf_symmetric_key hash public_key shared_secret hkdf_salt hkdf_info key_size_in_bytes)
                      (fun symmetric_key => StOk (public_key, symmetric_key)))
                end
            | _ => Some (StErr (NotOk "X25519 only supports compressed elliptic curve points"))
            end)
    | _ => StErr (NotOk "curve is not CURVE25519")
    end.
  (** Lines 43-58 New *)
  Definition sender_kem_new (c : curve_type) (pubx puby : bytes) : st_or sender_kem :=
    match c with
    | P256 | P384 | P521 => nist_sender_kem c pubx puby
    | CURVE25519 => x25519_sender_kem c pubx puby
    | UNKNOWN_CURVE => StErr (NotOk "Unsupported elliptic curve")
    end.

  (** GenerateKey of a recipient: the KEM bytes, then as above; the symmetric key. *)
  Definition recipient_kem := bytes -> hash_type -> bytes -> bytes -> nat -> point_format -> st_or bytes.
  (** ecies_hkdf_recipient_kem_boringssl.cc:61-80 New, 90-115 GenerateKey *)
  Definition nist_recipient_kem (c : curve_type) (priv_key : bytes) : st_or recipient_kem :=
    if Nat.eqb (length priv_key) 0 then StErr (NotOk "empty priv_key")
    else bind_st (ec_group c) (fun _ =>
    StOk (fun kem_bytes hash hkdf_salt hkdf_info key_size_in_bytes f =>
      bind_st (ec_point_decode c f kem_bytes) (fun pub_key =>
      bind_st (compute_ecdh_shared_secret c (BN_bin2bn priv_key) pub_key) (fun shared_secret =>
      ecies_hkdf_symmetric_key hash kem_bytes shared_secret hkdf_salt hkdf_info key_size_in_bytes)))).
  (** Lines 121-148 New, 150-185 GenerateKey *)
  Definition x25519_recipient_kem (c : curve_type) (priv_key : bytes) : st_or recipient_kem :=
    match c with
    | CURVE25519 =>
        if negb (Nat.eqb (length priv_key) 32) then StErr (NotOk "pubx has unexpected length")
        else
          StOk (fun kem_bytes hash hkdf_salt hkdf_info key_size_in_bytes f =>
            match f with
            | Compressed =>
                if negb (Nat.eqb (length kem_bytes) 32) then StErr (NotOk "kem_bytes has unexpected size")
                else match x25519_derive ec priv_key kem_bytes with
                     | None => StErr (NotOk "Secret generation failed")
                     | Some shared_secret =>
                         ecies_hkdf_symmetric_key hash kem_bytes shared_secret hkdf_salt hkdf_info key_size_in_bytes
                     end
            | _ => StErr (NotOk "X25519 only supports compressed elliptic curve points")
            end)
    | _ => StErr (NotOk "curve is not CURVE25519")
    end.
  (** Lines 43-58 New *)
  Definition recipient_kem_new (c : curve_type) (priv_key : bytes) : st_or recipient_kem :=
    match c with
    | P256 | P384 | P521 => nist_recipient_kem c priv_key
    | CURVE25519 => x25519_recipient_kem c priv_key
    | UNKNOWN_CURVE => StErr (NotOk "Unsupported elliptic curve")
    end.

  (** ** DEM *)

  (** ecies_aead_hkdf_dem_helper.h:58-72 DemKeyParams; the last four are of AES_CTR_HMAC_AEAD_KEY *)
  Inductive dem_key_type := AES_GCM_KEY | AES_CTR_HMAC_AEAD_KEY | XCHACHA20_POLY1305_KEY | AES_SIV_KEY.
  Record dem_key_params := mk_dem_key_params {
    dk_type : dem_key_type;
    dk_size : Z;
    dk_aes_ctr_key_size : Z;
    dk_aes_ctr_key_iv_size : Z;
    dk_hmac_key_hash : Z;
    dk_hmac_key_tag_size : Z }.
  (** ecies_aead_hkdf_dem_helper.cc:82-126 GetKeyParams *)
  Definition get_key_params (type_url : pystr) (value : bytes) : st_or dem_key_params :=
    if str_eqb type_url (ulit "type.googleapis.com/google.crypto.tink.AesGcmKey") then
      match parse_message AesGcmKeyFormat value with
      | None => StErr (NotOk "Invalid AesGcmKeyFormat in DEM key template")
      | Some m => StOk (mk_dem_key_params AES_GCM_KEY (num_at AesGcmKeyFormat m ["key_size"]) 0 0 0 0)
      end
    else if str_eqb type_url (ulit "type.googleapis.com/google.crypto.tink.AesCtrHmacAeadKey") then
      match parse_message AesCtrHmacAeadKeyFormat value with
      | None => StErr (NotOk "Invalid AesCtrHmacKeyFormat in DEM key template")
      | Some m =>
          let at_ := num_at AesCtrHmacAeadKeyFormat m in
          StOk (mk_dem_key_params AES_CTR_HMAC_AEAD_KEY
                  (uint32 (at_ ["aes_ctr_key_format"; "key_size"] + at_ ["hmac_key_format"; "key_size"]))
                  (at_ ["aes_ctr_key_format"; "key_size"])
                  (at_ ["aes_ctr_key_format"; "params"; "iv_size"])
                  (at_ ["hmac_key_format"; "params"; "hash"])
                  (at_ ["hmac_key_format"; "params"; "tag_size"]))
      end
    else if str_eqb type_url (ulit "type.googleapis.com/google.crypto.tink.XChaCha20Poly1305Key") then
      match parse_message XChaCha20Poly1305KeyFormat value with
      | None => StErr (NotOk "Invalid XChaCha20KeyFormat in DEM key template")
      | Some _ => StOk (mk_dem_key_params XCHACHA20_POLY1305_KEY 32 0 0 0 0)
      end
    else if str_eqb type_url (ulit "type.googleapis.com/google.crypto.tink.AesSivKey") then
      match parse_message AesSivKeyFormat value with
      | None => StErr (NotOk "Invalid AesSiveKeyFormat in DEM key template")
      | Some m => StOk (mk_dem_key_params AES_SIV_KEY (num_at AesSivKeyFormat m ["key_size"]) 0 0 0 0)
      end
    else StErr (NotOk "Unsupported DEM key type").
  (** cc/daead/subtle/aead_or_daead.cc:36-77 *)
  Definition aead_or_daead := (cc_aead + cc_daead)%type.
  Definition aod_encrypt (p : aead_or_daead) (rnd : coins) (plaintext associated_data : bytes) : st_or bytes :=
    match p with inl a => ca_encrypt a rnd plaintext associated_data | inr d => cda_encrypt d plaintext associated_data end.
  Definition aod_decrypt (p : aead_or_daead) (ciphertext associated_data : bytes) : st_or bytes :=
    match p with inl a => ca_decrypt a ciphertext associated_data | inr d => cda_decrypt d ciphertext associated_data end.
  (** Lines 137-169 GetAeadOrDaead. The string_view::substr of lines 160-161 throws std::out_of_range
      if its argument is larger than the string. *)
  Definition get_aead_or_daead (k : dem_key_params) (symmetric_key_value : bytes) : outcome aead_or_daead :=
    if negb (Z.of_nat (length symmetric_key_value) =? dk_size k)%Z then Some (StErr (NotOk "Wrong length of symmetric key."))
    else match dk_type k with
         | AES_GCM_KEY => Some (bind_st (aes_gcm_new lib random symmetric_key_value) (fun p => StOk (inl p)))
         | AES_CTR_HMAC_AEAD_KEY =>
             if (dk_size k <? dk_aes_ctr_key_size k)%Z then None
             else
               let aes_ctr_key :=
                 [Some (VNum 0); Some (VMsg [Some (VNum (dk_aes_ctr_key_iv_size k))]);
                  Some (VBytes (firstn (Z.to_nat (dk_aes_ctr_key_size k)) symmetric_key_value))] in
               let hmac_key :=
                 [Some (VNum 0); Some (VMsg [Some (VNum (dk_hmac_key_hash k)); Some (VNum (dk_hmac_key_tag_size k))]);
                  Some (VBytes (skipn (Z.to_nat (dk_aes_ctr_key_size k)) symmetric_key_value))] in
               Some (bind_st (kt_create (aes_ctr_hmac_aead_key_manager lib random)
                                [Some (VNum 0); Some (VMsg aes_ctr_key); Some (VMsg hmac_key)])
                       (fun p => StOk (inl p)))
         | XCHACHA20_POLY1305_KEY => Some (bind_st (xchacha20_poly1305_new lib random symmetric_key_value) (fun p => StOk (inl p)))
         | AES_SIV_KEY => Some (bind_st (aes_siv_new (aes_encrypt lib) symmetric_key_value) (fun p => StOk (inr p)))
         end.

  (** ** Keys *)

  (** proto/ecies_aead_hkdf.proto:82-98, 100-109 *)
  Definition EciesAeadHkdfPublicKey : schema :=
    [("version", 1%N, TUint32); ("params", 2%N, TMsg EciesAeadHkdfParams); ("x", 3%N, TBytes); ("y", 4%N, TBytes)].
  Definition EciesAeadHkdfPrivateKey : schema :=
    [("version", 1%N, TUint32); ("public_key", 2%N, TMsg EciesAeadHkdfPublicKey); ("key_value", 3%N, TBytes)].
  (** has_...(): the attribute, a message, is set. *)
  Definition has_at (fs : schema) (m : message) (path : list string) : bool :=
    match get_path (TMsg fs) (Some (VMsg m)) path with Some _ => true | None => false end.
  Definition string_at (fs : schema) (m : message) (path : list string) : pystr :=
    match get_path (TMsg fs) (Some (VMsg m)) path with Some (VString x) => x | _ => [] end.
  Definition empty_at (fs : schema) (m : message) (path : list string) : bool := Nat.eqb (length (bytes_at fs m path)) 0.

  (** What HybridEncrypt and HybridDecrypt do with the params of a key: a message of type
      [fs] in which [at_] leads to the EciesAeadHkdfParams *)
  Section Params.
    Variable fs : schema.
    Variable at_ : list string -> list string.
    Variable m : message.
    Definition params_curve : curve_type := curve_proto_to_subtle (num_at fs m (at_ ["kem_params"; "curve_type"])).
    Definition params_format : point_format := format_proto_to_subtle (num_at fs m (at_ ["ec_point_format"])).
    Definition params_hash : hash_type := proto_to_subtle (num_at fs m (at_ ["kem_params"; "hkdf_hash_type"])).
    Definition params_salt : bytes := bytes_at fs m (at_ ["kem_params"; "hkdf_salt"]).
    Definition params_dem : st_or dem_key_params :=
      get_key_params (string_at fs m (at_ ["dem_params"; "aead_dem"; "type_url"])) (bytes_at fs m (at_ ["dem_params"; "aead_dem"; "value"])).
    (** [has_kem_params() && kem_params().curve_type() == CURVE25519] *)
    Definition params_are_25519 : bool :=
      (has_at fs m (at_ ["kem_params"]) && (num_at fs m (at_ ["kem_params"; "curve_type"]) =? 5)%Z)%bool.
    (** ecies_aead_hkdf_public_key_manager.cc:43-68 ValidateParams *)
    Definition validate_params : option cc_status :=
      and_then (check (negb (has_at fs m (at_ ["kem_params"]))) "Missing kem_params.")
        (and_then (check ((num_at fs m (at_ ["kem_params"; "curve_type"]) =? 0)%Z
                          || (num_at fs m (at_ ["kem_params"; "hkdf_hash_type"]) =? 0)%Z)%bool "Invalid kem_params.")
           (and_then (check (negb (has_at fs m (at_ ["dem_params"]))) "Missing dem_params.")
              (and_then (check (negb (has_at fs m (at_ ["dem_params"; "aead_dem"]))) "Invalid dem_params.")
                 (check (num_at fs m (at_ ["ec_point_format"]) =? 0)%Z "Unknown EC point format.")))).
  End Params.

  (** ecies_aead_hkdf_hybrid_encrypt.cc:44-65 Validate, 70-88 New, 90-118 Encrypt *)
  Definition encrypt_validate (key : message) : option cc_status :=
    let fs := EciesAeadHkdfPublicKey in
    and_then (check (empty_at fs key ["x"] || negb (has_at fs key ["params"]))%bool "missing required fields.")
      (if params_are_25519 fs (cons "params") key
       then check (negb (empty_at fs key ["y"])) "has unexpected field."
       else check (empty_at fs key ["y"]) "missing required fields.").
  Definition ecies_encrypt_new (recipient_key : message) : st_or (coins -> bytes -> bytes -> outcome bytes) :=
    let fs := EciesAeadHkdfPublicKey in
    let at_ := cons "params" in
    match encrypt_validate recipient_key with
    | Some s => StErr s
    | None =>
        bind_st (sender_kem_new (params_curve fs at_ recipient_key) (bytes_at fs recipient_key ["x"]) (bytes_at fs recipient_key ["y"])) (fun kem =>
        bind_st (params_dem fs at_ recipient_key) (fun dem =>
        StOk (fun rnd plaintext context_info =>
          bind_out (kem rnd (params_hash fs at_ recipient_key) (params_salt fs at_ recipient_key) context_info
                      (Z.to_nat (dk_size dem)) (params_format fs at_ recipient_key)) (fun kem_key =>
          bind_out (get_aead_or_daead dem (snd kem_key)) (fun p =>
          Some (bind_st (aod_encrypt p rnd plaintext []) (fun c => StOk (fst kem_key ++ c))))))))
    end.

  (** ecies_aead_hkdf_hybrid_decrypt.cc:43-64 Validate, 69-87 New, 89-125 Decrypt *)
  Definition decrypt_validate (key : message) : option cc_status :=
    let fs := EciesAeadHkdfPrivateKey in
    and_then (check (negb (has_at fs key ["public_key"]) || negb (has_at fs key ["public_key"; "params"])
                     || empty_at fs key ["public_key"; "x"] || empty_at fs key ["key_value"])%bool "missing required fields.")
      (if params_are_25519 fs (fun p => "public_key" :: "params" :: p) key
       then check (negb (empty_at fs key ["public_key"; "y"])) "has unexpected field."
       else check (empty_at fs key ["public_key"; "y"]) "missing required fields.").
  Definition ecies_decrypt_new (recipient_key : message) : st_or (bytes -> bytes -> outcome bytes) :=
    let fs := EciesAeadHkdfPrivateKey in
    let at_ := fun p => "public_key" :: "params" :: p in
    match decrypt_validate recipient_key with
    | Some s => StErr s
    | None =>
        bind_st (recipient_kem_new (params_curve fs at_ recipient_key) (bytes_at fs recipient_key ["key_value"])) (fun kem =>
        bind_st (params_dem fs at_ recipient_key) (fun dem =>
        StOk (fun ciphertext context_info =>
          match ec_point_encoding_size (params_curve fs at_ recipient_key) (params_format fs at_ recipient_key) with
          | StErr s => Some (StErr s)
          | StOk header_size =>
              if Nat.ltb (length ciphertext) header_size then Some (StErr (NotOk "ciphertext too short"))
              else
                bind_out (Some (kem (firstn header_size ciphertext) (params_hash fs at_ recipient_key) (params_salt fs at_ recipient_key)
                                  context_info (Z.to_nat (dk_size dem)) (params_format fs at_ recipient_key))) (fun symmetric_key =>
                bind_out (get_aead_or_daead dem symmetric_key) (fun p =>
                Some (aod_decrypt p (skipn header_size ciphertext) [])))
          end)))
    end.
End Ecies.
