(** Specification of the keys of streaming AEAD: which parameters a key and a key format
    stand for. *)
From Coq Require Import Strings.Byte Strings.String List NArith ZArith Bool.
From Verif Require Import M_Base M_Proto M_Wire M_ProtoMsg M_KeyFormats M_Prims M_StreamTypes M_CcStream M_CcManagers M_CcAes M_Cli M_CcStreamKeys
  S_Keyset S_Wire S_Config S_Cli S_CcAes.
Import ListNotations.
Open Scope string_scope.
Open Scope list_scope.
Open Scope Z_scope.

(** The attribute [path] of a message is the number [z], or the bytes [x]. *)
Definition number (fs : schema) (m : message) (path : list string) (z : Z) : Prop :=
  get_path (TMsg fs) (Some (VMsg m)) path = Some (VNum z).
Definition octets (fs : schema) (m : message) (path : list string) (x : bytes) : Prop :=
  get_path (TMsg fs) (Some (VMsg m)) path = Some (VBytes x).
(** proto/common.proto:43-51 *)
Definition hash_number (h : hash_type) (z : Z) : Prop :=
  In (h, z) [(M_CcAes.SHA1, 1); (M_CcAes.SHA384, 2); (M_CcAes.SHA256, 3); (M_CcAes.SHA512, 4); (M_CcAes.SHA224, 5)].

(** The params in a message [m] of type [fs] are [sp]. The offset is 0. *)
Definition has_params (fs : schema) (m : message) (sp : stream_params) : Prop :=
  number fs m ["params"; "ciphertext_segment_size"] (Z.of_nat (segment_size sp)) /\
  number fs m ["params"; "derived_key_size"] (Z.of_nat (salt_size sp)) /\ stream_offset sp = 0%nat /\
  exists h, number fs m ["params"; "hkdf_hash_type"] h /\
    match sp with
    | GcmHkdf p => hash_number (gh_hash p) h
    | CtrHmac p =>
        hash_number (ch_hkdf_algo p) h /\
        number fs m ["params"; "hmac_params"; "tag_size"] (Z.of_nat (ch_tag_size p)) /\
        exists h', number fs m ["params"; "hmac_params"; "hash"] h' /\ hash_number (ch_tag_algo p) h'
    end.
Definition key_material (sp : stream_params) : bytes := match sp with GcmHkdf p => gh_ikm p | CtrHmac p => ch_ikm p end.
Definition stream_type (sp : stream_params) : pystr :=
  type_url (match sp with GcmHkdf _ => "AesGcmHkdfStreamingKey" | CtrHmac _ => "AesCtrHmacStreamingKey" end).
Definition key_schema (sp : stream_params) : schema :=
  match sp with GcmHkdf _ => AesGcmHkdfStreamingKey | CtrHmac _ => AesCtrHmacStreamingKey end.
Definition format_schema (sp : stream_params) : schema :=
  match sp with GcmHkdf _ => AesGcmHkdfStreamingKeyFormat | CtrHmac _ => AesCtrHmacStreamingKeyFormat end.

(** The key [d], of version 0, has the parameters [sp]. *)
Definition key_params (d : key_data) (sp : stream_params) : Prop :=
  kd_type_url d = stream_type sp /\
  exists m, parse_message (key_schema sp) (kd_value d) = Some m /\
    number (key_schema sp) m ["version"] 0 /\ octets (key_schema sp) m ["key_value"] (key_material sp) /\
    has_params (key_schema sp) m sp.
(** The key format [x] for keys of type [url] asks for keys like [sp]: it gives all the
    parameters, and the size of the key material. *)
Definition asks_for (url : pystr) (x : bytes) (sp : stream_params) : Prop :=
  url = stream_type sp /\
  exists m, parse_message (format_schema sp) x = Some m /\
    number (format_schema sp) m ["key_size"] (Z.of_nat (length (key_material sp))) /\
    has_params (format_schema sp) m sp.
(** Segments that are not too big for C++ *)
Definition segments_fit (sp : stream_params) : Prop := Z.of_nat (segment_size sp) < 2 ^ 31.
(** What key generation checks: AES-GCM-HKDF keys with bigger segments pass. *)
Definition format_accepted (sp : stream_params) : Prop :=
  params_usable sp /\ match sp with GcmHkdf _ => True | CtrHmac _ => segments_fit sp end.
(** As many random bytes as are asked for *)
Definition random_law (random : coins -> Z -> bytes) : Prop :=
  forall rnd size, 0 <= size -> Z.of_nat (length (random rnd size)) = size.

(** The keys that the predefined templates of streaming AEAD ask for; the bytes of the key
    material do not matter here. *)
Definition template_params : list (string * stream_params) :=
  let gcm key_size size :=
    GcmHkdf (mk_gcm_hkdf_params (repeat x00 key_size) M_CcAes.SHA256 key_size (Z.to_nat size) 0) in
  let ctr key_size size :=
    CtrHmac (mk_ctr_hmac_params (repeat x00 key_size) M_CcAes.SHA256 key_size (Z.to_nat size) 0 M_CcAes.SHA256 32) in
  [("AES128_GCM_HKDF_4KB", gcm 16%nat 4096); ("AES128_GCM_HKDF_1MB", gcm 16%nat 1048576);
   ("AES256_GCM_HKDF_4KB", gcm 32%nat 4096); ("AES256_GCM_HKDF_1MB", gcm 32%nat 1048576);
   ("AES128_CTR_HMAC_SHA256_4KB", ctr 16%nat 4096); ("AES128_CTR_HMAC_SHA256_1MB", ctr 16%nat 1048576);
   ("AES256_CTR_HMAC_SHA256_4KB", ctr 32%nat 4096); ("AES256_CTR_HMAC_SHA256_1MB", ctr 32%nat 1048576)].
(** The same parameters with other key material *)
Definition with_key (sp : stream_params) (ikm : bytes) : stream_params :=
  match sp with
  | GcmHkdf p => GcmHkdf (mk_gcm_hkdf_params ikm (gh_hash p) (gh_derived_key_size p) (gh_ciphertext_segment_size p) (gh_ciphertext_offset p))
  | CtrHmac p => CtrHmac (mk_ctr_hmac_params ikm (ch_hkdf_algo p) (ch_key_size p) (ch_ciphertext_segment_size p) (ch_ciphertext_offset p)
      (ch_tag_algo p) (ch_tag_size p))
  end.

(** C++ Tink with AES streaming: [salt] and [prefix] are the random choices of the next
    encrypting stream, [n] bounds its loops. *)
Definition aes_world (n : nat) (lib : ssl) (random : coins -> Z -> bytes) (salt prefix : bytes) (w : cc_world) : Prop :=
  cw_tink_config w = StOk tt /\ forall url, cw_streaming w url = streaming_managers n lib salt prefix random url.
(** A valid keyset whose enabled keys, in this order, are usable AES streaming keys with
    these parameters *)
Definition aes_keyset (ks : keyset) (l : list (key * stream_params)) : Prop :=
  valid_keyset ks /\ map fst l = enabled_keys ks /\
  Forall (fun x => wf_key_data (k_key_data (fst x)) /\ proto_size (serialize_key_data (k_key_data (fst x))) /\
    key_params (k_key_data (fst x)) (snd x) /\ params_usable (snd x) /\ segments_fit (snd x) /\
    exists p, has_prefix (k_output_prefix_type (fst x)) (k_key_id (fst x)) p) l.
(** Nobody can make segments of [C] with this key. *)
Definition cannot_open (lib : ssl) (ad C : bytes) (sp : stream_params) : Prop :=
  ssl_laws lib sp /\ no_forged_segment lib sp ad [] C.
(** What a run of the streaming AEAD example finds: the keyset file holds [ks], whose
    enabled keys are [l], the associated data is [ad], the input file contains [data], and
    the output file can be written. *)
Definition aes_finds (env : py_env) (o : os) (f : crypt_flags) (fs : files) (ks : keyset) (l : list (key * stream_params))
    (ad data : bytes) : Prop :=
  holds_keyset (pe_rt env) fs (cf_keyset_path f) ks /\ aes_keyset ks l /\ flag_is (cf_associated_data f) ad /\
  content fs (cf_input_path f) = Some data /\ may_write o (cf_output_path f) = true.
