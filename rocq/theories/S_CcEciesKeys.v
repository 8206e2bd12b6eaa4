(** Specification of ECIES keys: what a key says, what a template asks for, and which key a
    predefined template stands for. *)
From Coq Require Import Strings.Byte Strings.String List NArith ZArith Bool.
From Verif Require Import M_Base M_Proto M_Wire M_ProtoMsg M_KeyFormats M_Prims M_StreamTypes M_CcStream M_CcManagers M_CcAes
  M_CcStreamKeys M_CcModes M_CcSymmetric M_CcSymKeys M_CcEcies S_Config S_CcAes S_CcStreamKeys S_CcModes S_CcSymmetric S_CcSymKeys S_CcSymHandles S_CcEcies.
Import ListNotations.
Open Scope string_scope.
Open Scope list_scope.
Open Scope nat_scope.

(** The key data [d] is the public key [X], [Y], or the private key [s] for it, with the
    parameters [p]. *)
Definition is_ecies_public (d : key_data) (p : ecies_params) (X Y : bytes) : Prop :=
  kd_type_url d = type_url "EciesAeadHkdfPublicKey" /\
  exists m, parse_message EciesAeadHkdfPublicKey (kd_value d) = Some m /\
    number EciesAeadHkdfPublicKey m ["version"] 0%Z /\ public_message m p X Y.
Definition is_ecies_private (d : key_data) (p : ecies_params) (s X Y : bytes) : Prop :=
  kd_type_url d = type_url "EciesAeadHkdfPrivateKey" /\
  exists m, parse_message EciesAeadHkdfPrivateKey (kd_value d) = Some m /\
    number EciesAeadHkdfPrivateKey m ["version"] 0%Z /\ number EciesAeadHkdfPrivateKey m ["public_key"; "version"] 0%Z /\ private_message m p s X Y.
(** The key format [x] asks for a key with the parameters [p]. *)
Definition asks_for_ecies (url : pystr) (x : bytes) (p : ecies_params) : Prop :=
  url = type_url "EciesAeadHkdfPrivateKey" /\
  exists m, parse_message EciesAeadHkdfKeyFormat x = Some m /\ has_ecies_params EciesAeadHkdfKeyFormat m ["params"] p.
(** The key chosen with [rnd] *)
Definition fresh_key (ec : ec_crypto) (c : curve_type) (rnd : coins) (s X Y : bytes) : Prop :=
  match c with
  | CURVE25519 => s = x25519_generate ec rnd /\ X = x25519_public ec s /\ Y = []
  | UNKNOWN_CURVE => False
  | _ => let n := coordinate_size c in let (d, Q) := ec_generate_key ec c rnd in
      s = be_bytes n d /\ X = be_bytes n (fst Q) /\ Y = be_bytes n (snd Q)
  end.

(** The predefined templates *)
Definition ecies_template_keys : list (string * ecies_params) :=
  let dem_gcm := GcmKey (repeat x00 16) in
  let dem_ctr := CtrHmacAeadKey (mk_ctr_hmac_key (repeat x00 16) 16 (repeat x00 32) M_CcAes.SHA256 16) in
  let key f dem := mk_ecies_params P256 M_CcAes.SHA256 [] f dem in
  [("ECIES_P256_HKDF_HMAC_SHA256_AES128_GCM", key Uncompressed dem_gcm);
   ("ECIES_P256_COMPRESSED_HKDF_HMAC_SHA256_AES128_GCM", key Compressed dem_gcm);
   ("ECIES_P256_HKDF_HMAC_SHA256_AES128_CTR_HMAC_SHA256", key Uncompressed dem_ctr);
   ("ECIES_P256_COMPRESSED_HKDF_HMAC_SHA256_AES128_CTR_HMAC_SHA256", key Compressed dem_ctr)].
