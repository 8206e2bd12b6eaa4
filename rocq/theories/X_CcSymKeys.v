(** A small C++ library with the symmetric primitives, and some keys, for the examples.
    Nothing here models code of /repo. *)
From Coq Require Import Strings.Byte Strings.String List NArith ZArith Bool.
From Verif Require Import M_Base M_Proto M_Wire M_ProtoMsg M_KeyFormats M_StreamTypes M_Prims M_PrimitiveSet M_Registry M_KeysetHandle M_CcStream
  M_CcManagers M_CcAes M_CcStreamKeys M_CcModes M_CcSymmetric M_CcSymKeys S_Config S_CcAes S_CcSymmetric S_CcSymKeys X_Toy X_Config X_CcSymmetric.
Import ListNotations.
Open Scope string_scope.
Open Scope list_scope.
Open Scope Z_scope.

Definition toy_draw (rnd : coins) (size : Z) : bytes := repeat (byte_of_N rnd) (Z.to_nat size).
Definition sym_toy_world : cc_world :=
  mk_cc_world (cw_tink_config toy_world) (cw_hpke_config toy_world) (cw_jwt_config toy_world) (aead_managers sym_toy toy_draw)
    (daead_managers sym_toy toy_draw) (cw_hybrid_decrypt toy_world) (cw_hybrid_encrypt toy_world) (mac_managers sym_toy toy_draw)
    (prf_managers sym_toy toy_draw) (cw_sign toy_world) (cw_verify toy_world) (cw_streaming toy_world).
(** A message with the attributes of [k] *)
Definition sym_hash (h : hash_type) : Z :=
  match h with M_CcAes.SHA1 => 1 | M_CcAes.SHA384 => 2 | M_CcAes.SHA256 => 3 | M_CcAes.SHA512 => 4 | M_CcAes.SHA224 => 5 | _ => 0 end.
Definition vn (n : nat) : option pval := Some (VNum (Z.of_nat n)).
Definition vb (x : bytes) : option pval := Some (VBytes x).
Definition key_message (k : sym_key) : message :=
  match k with
  | EaxKey key iv => [Some (VNum 0); Some (VMsg [vn iv]); vb key]
  | GcmKey key | GcmSivKey key | XChaChaKey key | SivKey key => [Some (VNum 0); vb key]
  | CmacPrf key => [Some (VNum 0); vb key]
  | CtrHmacAeadKey k =>
      [Some (VNum 0); Some (VMsg [Some (VNum 0); Some (VMsg [vn (iv_size k)]); vb (aes_key k)]);
       Some (VMsg [Some (VNum 0); Some (VMsg [Some (VNum (sym_hash (hmac_hash k))); vn (hmac_tag_size k)]); vb (hmac_key k)])]
  | HmacMacKey h ts key => [Some (VNum 0); Some (VMsg [Some (VNum (sym_hash h)); vn ts]); vb key]
  | CmacMacKey ts key => [Some (VNum 0); vb key; Some (VMsg [vn ts])]
  | HmacPrf h key => [Some (VNum 0); Some (VMsg [Some (VNum (sym_hash h))]); vb key]
  | HkdfPrf h salt key => [Some (VNum 0); Some (VMsg [Some (VNum (sym_hash h)); vb salt]); vb key]
  end.
Definition sym_data (k : sym_key) : key_data :=
  mk_key_data (type_url (sk_name k)) (serialize_message (sk_schema k) (key_message k)) SYMMETRIC.
(** One key of each kind *)
Definition toy_keys : list sym_key :=
  [EaxKey (repeat x61 16) 12; GcmKey (repeat x62 32); GcmSivKey (repeat x63 16); XChaChaKey (repeat x64 32);
   CtrHmacAeadKey (mk_ctr_hmac_key (repeat x65 16) 12 (repeat x66 16) M_CcAes.SHA1 10); SivKey (repeat x67 64);
   HmacMacKey M_CcAes.SHA384 20 (repeat x68 16); CmacMacKey 10 (repeat x69 32); HmacPrf M_CcAes.SHA224 (repeat x6a 20);
   HkdfPrf M_CcAes.SHA512 [x01; x02] (repeat x6b 33); CmacPrf (repeat x6c 32)].
(** A key format asking for HKDF keys of 2^31 bytes *)
Definition big_hkdf_format : bytes :=
  serialize_message HkdfPrfKeyFormat [Some (VMsg [Some (VNum 3); vb []]); Some (VNum 2147483648); Some (VNum 0)].
(** Keysets with these keys *)
Definition sym_k (k : sym_key) (id : N) (prefix : Z) : key := mk_key (Some (sym_data k)) ENABLED id prefix.
Definition toy_eax : sym_key := EaxKey (repeat x61 16) 12.
Definition toy_gcm_key : sym_key := GcmKey (repeat x62 32).
Definition toy_ctr_hmac : sym_key := CtrHmacAeadKey (mk_ctr_hmac_key (repeat x65 16) 12 (repeat x66 16) M_CcAes.SHA1 10).
Definition toy_siv : sym_key := SivKey (repeat x67 64).
Definition toy_hmac_key : sym_key := HmacMacKey M_CcAes.SHA384 20 (repeat x68 16).
Definition toy_cmac_key : sym_key := CmacMacKey 10 (repeat x69 32).
Definition toy_hmac_prf : sym_key := HmacPrf M_CcAes.SHA224 (repeat x6a 20).
Definition toy_hkdf_prf : sym_key := HkdfPrf M_CcAes.SHA512 [x01; x02] (repeat x6b 33).
Definition toy_aead_keys : list (key * sym_key) :=
  [(sym_k toy_eax 42 TINK, toy_eax); (sym_k toy_gcm_key 43 TINK, toy_gcm_key); (sym_k toy_ctr_hmac 44 CRUNCHY, toy_ctr_hmac)].
Definition toy_daead_keys : list (key * sym_key) := [(sym_k toy_siv 42 TINK, toy_siv)].
Definition toy_mac_keys : list (key * sym_key) := [(sym_k toy_hmac_key 42 LEGACY, toy_hmac_key); (sym_k toy_cmac_key 43 RAW, toy_cmac_key)].
Definition toy_prf_keys : list (key * sym_key) := [(sym_k toy_hmac_prf 42 RAW, toy_hmac_prf); (sym_k toy_hkdf_prf 43 RAW, toy_hkdf_prf)].
Definition toy_ks (primary : N) (l : list (key * sym_key)) : keyset := mk_keyset primary (map fst l).
