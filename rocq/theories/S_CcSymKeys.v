(** Specification of the symmetric keys: what a key and a key format say, which keys can be
    used, and what they are used for. *)
From Coq Require Import Strings.Byte Strings.String List NArith ZArith Bool.
From Verif Require Import M_Base M_Proto M_Wire M_ProtoMsg M_KeyFormats M_Prims M_StreamTypes M_CcStream M_CcManagers M_CcAes
  M_CcStreamKeys M_CcModes M_CcSymmetric M_CcSymKeys S_Config S_CcAes S_CcStreamKeys S_CcModes S_CcSymmetric.
Import ListNotations.
Open Scope string_scope.
Open Scope list_scope.
Open Scope Z_scope.

(** A symmetric key: the key material and the parameters *)
Inductive sym_key :=
| EaxKey (key : bytes) (iv_size : nat)
| GcmKey (key : bytes)
| GcmSivKey (key : bytes)
| XChaChaKey (key : bytes)
| CtrHmacAeadKey (k : ctr_hmac_key)
| SivKey (key : bytes)
| HmacMacKey (h : hash_type) (tag_size : nat) (key : bytes)
| CmacMacKey (tag_size : nat) (key : bytes)
| HmacPrf (h : hash_type) (key : bytes)
| HkdfPrf (h : hash_type) (salt key : bytes)
| CmacPrf (key : bytes).

(** ** How keys are written *)

(** The messages of /repo/proto for keys and for key formats *)
Definition sk_name (k : sym_key) : string :=
  match k with
  | EaxKey _ _ => "AesEaxKey" | GcmKey _ => "AesGcmKey" | GcmSivKey _ => "AesGcmSivKey" | XChaChaKey _ => "XChaCha20Poly1305Key"
  | CtrHmacAeadKey _ => "AesCtrHmacAeadKey" | SivKey _ => "AesSivKey" | HmacMacKey _ _ _ => "HmacKey" | CmacMacKey _ _ => "AesCmacKey"
  | HmacPrf _ _ => "HmacPrfKey" | HkdfPrf _ _ _ => "HkdfPrfKey" | CmacPrf _ => "AesCmacPrfKey"
  end.
Definition sk_schema (k : sym_key) : schema :=
  match k with
  | EaxKey _ _ => AesEaxKey | GcmKey _ => AesGcmKey | GcmSivKey _ => AesGcmSivKey | XChaChaKey _ => XChaCha20Poly1305Key
  | CtrHmacAeadKey _ => AesCtrHmacAeadKey | SivKey _ => AesSivKey | HmacMacKey _ _ _ => HmacKey | CmacMacKey _ _ => AesCmacKey
  | HmacPrf _ _ => HmacPrfKey | HkdfPrf _ _ _ => HkdfPrfKey | CmacPrf _ => AesCmacPrfKey
  end.
Definition sk_format (k : sym_key) : schema :=
  match k with
  | EaxKey _ _ => AesEaxKeyFormat | GcmKey _ => AesGcmKeyFormat | GcmSivKey _ => AesGcmSivKeyFormat
  | XChaChaKey _ => XChaCha20Poly1305KeyFormat | CtrHmacAeadKey _ => AesCtrHmacAeadKeyFormat | SivKey _ => AesSivKeyFormat
  | HmacMacKey _ _ _ => HmacKeyFormat | CmacMacKey _ _ => AesCmacKeyFormat | HmacPrf _ _ => HmacPrfKeyFormat
  | HkdfPrf _ _ _ => HkdfPrfKeyFormat | CmacPrf _ => AesCmacPrfKeyFormat
  end.
(** Attributes of a message: a number, bytes, or a hash function *)
Inductive attribute := Number (z : Z) | Octets (x : bytes) | Hash (h : hash_type).
Definition has (fs : schema) (m : message) (a : list string * attribute) : Prop :=
  match snd a with
  | Number z => number fs m (fst a) z
  | Octets x => octets fs m (fst a) x
  | Hash h => exists z, number fs m (fst a) z /\ hash_number h z
  end.
Definition size_of (x : bytes) : attribute := Number (Z.of_nat (length x)).
Definition count (n : nat) : attribute := Number (Z.of_nat n).
Definition key_attributes (k : sym_key) : list (list string * attribute) :=
  (["version"], Number 0) ::
  match k with
  | EaxKey key iv => [(["params"; "iv_size"], count iv); (["key_value"], Octets key)]
  | GcmKey key | GcmSivKey key | XChaChaKey key | SivKey key | CmacPrf key => [(["key_value"], Octets key)]
  | CtrHmacAeadKey k =>
      [(["aes_ctr_key"; "version"], Number 0);
       (["aes_ctr_key"; "params"; "iv_size"], count (iv_size k));
       (["aes_ctr_key"; "key_value"], Octets (aes_key k));
       (["hmac_key"; "version"], Number 0);
       (["hmac_key"; "params"; "hash"], Hash (hmac_hash k));
       (["hmac_key"; "params"; "tag_size"], count (hmac_tag_size k));
       (["hmac_key"; "key_value"], Octets (hmac_key k))]
  | HmacMacKey h ts key =>
      [(["params"; "hash"], Hash h); (["params"; "tag_size"], count ts); (["key_value"], Octets key)]
  | CmacMacKey ts key => [(["params"; "tag_size"], count ts); (["key_value"], Octets key)]
  | HmacPrf h key => [(["params"; "hash"], Hash h); (["key_value"], Octets key)]
  | HkdfPrf h salt key => [(["params"; "hash"], Hash h); (["params"; "salt"], Octets salt); (["key_value"], Octets key)]
  end.
(** Key formats give the size of the key, XChaCha20-Poly1305 excepted; those of PRFs have
    a version that must be 0. *)
Definition format_attributes (k : sym_key) : list (list string * attribute) :=
  match k with
  | EaxKey key iv => [(["params"; "iv_size"], count iv); (["key_size"], size_of key)]
  | GcmKey key | GcmSivKey key | SivKey key => [(["key_size"], size_of key)]
  | XChaChaKey _ => []
  | CtrHmacAeadKey k =>
      [(["aes_ctr_key_format"; "params"; "iv_size"], count (iv_size k));
       (["aes_ctr_key_format"; "key_size"], size_of (aes_key k));
       (["hmac_key_format"; "params"; "hash"], Hash (hmac_hash k));
       (["hmac_key_format"; "params"; "tag_size"], count (hmac_tag_size k));
       (["hmac_key_format"; "key_size"], size_of (hmac_key k))]
  | HmacMacKey h ts key =>
      [(["params"; "hash"], Hash h); (["params"; "tag_size"], count ts); (["key_size"], size_of key)]
  | CmacMacKey ts key => [(["params"; "tag_size"], count ts); (["key_size"], size_of key)]
  | HmacPrf h key => [(["version"], Number 0); (["params"; "hash"], Hash h); (["key_size"], size_of key)]
  | HkdfPrf h salt key =>
      [(["version"], Number 0); (["params"; "hash"], Hash h); (["params"; "salt"], Octets salt); (["key_size"], size_of key)]
  | CmacPrf key => [(["version"], Number 0); (["key_size"], size_of key)]
  end.
(** The key data [d] is the key [k]. *)
Definition is_key (d : key_data) (k : sym_key) : Prop :=
  kd_type_url d = type_url (sk_name k) /\
  exists m, parse_message (sk_schema k) (kd_value d) = Some m /\ Forall (has (sk_schema k) m) (key_attributes k).
(** The key format [x] for keys of type [url] asks for keys like [k]. *)
Definition asks_for_key (url : pystr) (x : bytes) (k : sym_key) : Prop :=
  url = type_url (sk_name k) /\
  exists m, parse_message (sk_format k) x = Some m /\ Forall (has (sk_format k) m) (format_attributes k).

(** ** Keys that can be used, and keys that can be made *)
Definition usable (k : sym_key) : Prop :=
  (match k with
   | EaxKey key iv => In (length key) [16; 32] /\ In iv [12; 16]
   | GcmKey key | GcmSivKey key => In (length key) [16; 32]
   | XChaChaKey key => length key = 32
   | CtrHmacAeadKey k => ctr_hmac_key_ok k
   | SivKey key => length key = 64
   | HmacMacKey h ts key => 16 <= length key /\ 10 <= ts <= hash_size h
   | CmacMacKey ts key => length key = 32 /\ 10 <= ts <= 16
   | HmacPrf h key => 16 <= length key /\ h <> UNKNOWN_HASH
   | HkdfPrf h _ key => 32 <= length key /\ In h [M_CcAes.SHA256; M_CcAes.SHA512]
   | CmacPrf key => length key = 32
   end)%nat.
(** The size of a key for HKDF is an int. *)
Definition requestable (k : sym_key) : Prop := match k with HkdfPrf _ _ key => Z.of_nat (length key) < 2 ^ 31 | _ => True end.
(** The key material, in the order in which it is chosen *)
Definition material (k : sym_key) : list bytes :=
  match k with
  | EaxKey key _ | GcmKey key | GcmSivKey key | XChaChaKey key | SivKey key | HmacMacKey _ _ key | CmacMacKey _ key
  | HmacPrf _ key | HkdfPrf _ _ key | CmacPrf key => [key]
  | CtrHmacAeadKey k => [aes_key k; hmac_key k]
  end.
(** All of it is random. *)
Definition chosen (random : coins -> Z -> bytes) (rnd : coins) (k : sym_key) : Prop :=
  forall i x, nth_error (material k) i = Some x -> x = random (2 * rnd + N.of_nat i)%N (Z.of_nat (length x)).

(** ** The objects *)
Definition aead_object (lib : crypto) (random : coins -> Z -> bytes) (k : sym_key) : st_or cc_aead :=
  match k with
  | EaxKey key iv => aes_eax_new (aes_encrypt lib) random key iv
  | GcmKey key => one_shot_new lib random AesGcm key
  | GcmSivKey key => one_shot_new lib random AesGcmSiv key
  | XChaChaKey key => one_shot_new lib random XChaCha20Poly1305 key
  | CtrHmacAeadKey k => ctr_hmac_new lib random k
  | _ => StErr (NotOk "not a key for AEAD")
  end.
Definition daead_object (lib : crypto) (k : sym_key) : st_or cc_daead :=
  match k with SivKey key => aes_siv_new (aes_encrypt lib) key | _ => StErr (NotOk "not a key for deterministic AEAD") end.
Definition mac_object (lib : crypto) (k : sym_key) : st_or cc_mac :=
  match k with
  | HmacMacKey h ts key => hmac_new lib h ts key
  | CmacMacKey ts key => cmac_new lib key ts
  | _ => StErr (NotOk "not a key for MAC")
  end.
Definition prf_object (lib : crypto) (k : sym_key) : st_or cc_prf :=
  match k with
  | HmacPrf h key => StOk (prf_from_stateful_mac (stateful_hmac lib h (hash_size h) key))
  | HkdfPrf h salt key => hkdf_prf_new lib h key salt
  | CmacPrf key => StOk (prf_from_stateful_mac (stateful_cmac lib 16 key))
  | _ => StErr (NotOk "not a key for PRF")
  end.
(** Which keys are for what *)
Definition for_aead (k : sym_key) : bool :=
  match k with EaxKey _ _ | GcmKey _ | GcmSivKey _ | XChaChaKey _ | CtrHmacAeadKey _ => true | _ => false end.
Definition for_daead (k : sym_key) : bool := match k with SivKey _ => true | _ => false end.
Definition for_mac (k : sym_key) : bool := match k with HmacMacKey _ _ _ | CmacMacKey _ _ => true | _ => false end.
Definition for_prf (k : sym_key) : bool := match k with HmacPrf _ _ | HkdfPrf _ _ _ | CmacPrf _ => true | _ => false end.

(** ** The predefined templates: the keys they ask for, and their output prefix. The bytes
    of the keys do not matter here. *)
Definition some (n : nat) : bytes := repeat x00 n.
Definition both_prefixes (name : string) (k : sym_key) : list (string * sym_key * Z) :=
  [(name, k, TINK); ((name ++ "_RAW")%string, k, RAW)].
Definition aead_template_keys : list (string * sym_key * Z) :=
  both_prefixes "AES128_EAX" (EaxKey (some 16) 16) ++ both_prefixes "AES256_EAX" (EaxKey (some 32) 16) ++
  both_prefixes "AES128_GCM" (GcmKey (some 16)) ++ both_prefixes "AES256_GCM" (GcmKey (some 32)) ++
  both_prefixes "AES128_GCM_SIV" (GcmSivKey (some 16)) ++ both_prefixes "AES256_GCM_SIV" (GcmSivKey (some 32)) ++
  both_prefixes "AES128_CTR_HMAC_SHA256" (CtrHmacAeadKey (mk_ctr_hmac_key (some 16) 16 (some 32) M_CcAes.SHA256 16)) ++
  both_prefixes "AES256_CTR_HMAC_SHA256" (CtrHmacAeadKey (mk_ctr_hmac_key (some 32) 16 (some 32) M_CcAes.SHA256 32)) ++
  both_prefixes "XCHACHA20_POLY1305" (XChaChaKey (some 32)).
Definition daead_template_keys : list (string * sym_key * Z) := [("AES256_SIV", SivKey (some 64), TINK)].
Definition mac_template_keys : list (string * sym_key * Z) :=
  [("AES_CMAC", CmacMacKey 16 (some 32), TINK);
   ("HMAC_SHA256_128BITTAG", HmacMacKey M_CcAes.SHA256 16 (some 32), TINK);
   ("HMAC_SHA256_256BITTAG", HmacMacKey M_CcAes.SHA256 32 (some 32), TINK);
   ("HMAC_SHA512_256BITTAG", HmacMacKey M_CcAes.SHA512 32 (some 64), TINK);
   ("HMAC_SHA512_512BITTAG", HmacMacKey M_CcAes.SHA512 64 (some 64), TINK)].
Definition prf_template_keys : list (string * sym_key * Z) :=
  [("AES_CMAC", CmacPrf (some 32), RAW); ("HMAC_SHA256", HmacPrf M_CcAes.SHA256 (some 32), RAW);
   ("HMAC_SHA512", HmacPrf M_CcAes.SHA512 (some 64), RAW); ("HKDF_SHA256", HkdfPrf M_CcAes.SHA256 [] (some 32), RAW)].
(** The template [x], by name, asks for the key and the prefix [y]. *)
Definition template_asks (x : string * result key_template) (y : string * sym_key * Z) : Prop :=
  fst x = fst (fst y) /\ exists t, snd x = Ok t /\ asks_for_key (kt_type_url t) (kt_value t) (snd (fst y)) /\
    usable (snd (fst y)) /\ requestable (snd (fst y)) /\ kt_output_prefix_type t = snd y.
