(** Specification of the example programs: what happens to files, which file contents are
    keysets and which are tags. *)
From Coq Require Import Strings.Byte Strings.String List NArith ZArith Bool.
From Verif Require Import M_Base M_Utf8 M_Proto M_Prims M_PrimitiveSet M_Registry M_Json M_JsonKeyset M_CcStream
  M_CcManagers M_Cli S_Keyset S_Wire S_Base64 S_Json S_JsonKeyset S_Config S_CcLaws.
Import ListNotations.
Open Scope string_scope.
Open Scope list_scope.

(** ** Files *)
Definition same_files (fs fs' : files) : Prop := forall p, content fs' p = content fs p.
(** [path] now contains [x]; every other file is as before. *)
Definition changed_to (path : pystr) (x : bytes) (fs fs' : files) : Prop :=
  content fs' path = Some x /\ forall p, p <> path -> content fs' p = content fs p.

(** A failed run: the exit status is not 0 and no file changed. *)
Definition fails (run : result Z * files) (fs : files) : Prop :=
  exit_status (fst run) = 1%Z /\ same_files fs (snd run).
(** A run with exit status 0 that wrote [x] to [out] and nothing else. *)
Definition writes (run : result Z * files) (out : pystr) (x : bytes) (fs : files) : Prop :=
  fst run = Ok 0%Z /\ changed_to out x fs (snd run).
(** A failed run that leaves [out] empty. *)
Definition empties (run : result Z * files) (out : pystr) (fs : files) : Prop :=
  exit_status (fst run) = 1%Z /\ changed_to out [] fs (snd run).

Definition all_or_nothing (m : io Z) (out : pystr) : Prop :=
  forall fs, fails (m fs) fs \/ exists x, writes (m fs) out x fs.
Definition only_reads (m : io Z) : Prop :=
  forall fs, same_files fs (snd (m fs)) /\ (exit_status (fst (m fs)) = 0 \/ exit_status (fst (m fs)) = 1)%Z.
Definition may_empty (m : io Z) (out : pystr) : Prop :=
  forall fs, fails (m fs) fs \/ (exists x, writes (m fs) out x fs) \/ empties (m fs) out fs.

(** ** Keyset files *)

(** The file is a JSON keyset in any layout that JSON allows (Windows line ends
    included), as UTF-8. *)
Definition holds_keyset (rt : py_rt) (fs : files) (path : pystr) (ks : keyset) : Prop :=
  exists x t v, content fs path = Some x /\ utf8_encode t = Some x /\
    json_text rt v t /\ no_repeated_names v /\ shows_keyset any_base64 v ks /\
    wf_keyset ks /\ valid_keyset ks.

(** ** Flags *)

(** The bytes of an optional text flag. *)
Definition flag_is (x : option pystr) (y : bytes) : Prop :=
  match x with None => y = [] | Some t => utf8_encode t = Some y end.

(** ** Tags as text *)

Definition lower_digits : list byte := list_byte_of_string "0123456789abcdef".
Definition upper_digits : list byte := list_byte_of_string "0123456789ABCDEF".
Definition digit (c : byte) (v : nat) : Prop :=
  nth_error lower_digits v = Some c \/ nth_error upper_digits v = Some c.
(** Two digits for each byte. *)
Inductive hex_bytes : bytes -> bytes -> Prop :=
| Hex_nil : hex_bytes [] []
| Hex_byte : forall a b h l c x t, digit a h -> digit b l ->
    Byte.to_nat c = (16 * h + l)%nat -> hex_bytes x t -> hex_bytes (c :: x) (a :: b :: t).
Definition spaces : bytes := [x09; x0a; x0b; x0c; x0d; x20].
(** The file of a tag: its digits, with white space around them. *)
Definition tag_text (tag x : bytes) : Prop :=
  exists a h b, x = a ++ h ++ b /\ hex_bytes tag h /\
    Forall (fun c => In c spaces) a /\ Forall (fun c => In c spaces) b.

(** ** What the programs compute *)

(** The outcome [y] of encrypting or decrypting [data] with the keys [l] of [ks]. *)
Definition aead_outcome (ks : keyset) (l : list (key * cc_aead)) (mode : crypt_mode) (rnd : coins)
  (data ad : bytes) (y : result bytes) : Prop :=
  match mode with
  | Encrypt => (forall k q, is_primary ks l k q -> prefixed k (ca_encrypt q rnd data ad) y) /\
               ((forall k q, ~ is_primary ks l k q) -> raises_tink y)
  | Decrypt => first_success (attempts l data (fun _ q body => of_status (ca_decrypt q body ad))) y
  end.
Definition daead_outcome (ks : keyset) (l : list (key * cc_daead)) (mode : crypt_mode)
  (data ad : bytes) (y : result bytes) : Prop :=
  match mode with
  | Encrypt => (forall k q, is_primary ks l k q -> prefixed k (cda_encrypt q data ad) y) /\
               ((forall k q, ~ is_primary ks l k q) -> raises_tink y)
  | Decrypt => first_success (attempts l data (fun _ q body => of_status (cda_decrypt q body ad))) y
  end.
(** [y] is written to [out], or the run fails. *)
Definition stores (run : result Z * files) (out : pystr) (y : result bytes) (fs : files) : Prop :=
  match y with Ok x => writes run out x fs | Err _ => fails run fs end.
Definition stores_or_empties (run : result Z * files) (out : pystr) (y : result bytes) (fs : files) : Prop :=
  match y with Ok x => writes run out x fs | Err _ => empties run out fs end.

(** Some key accepts the tag of [data]. *)
Definition mac_accepts (l : list (key * cc_mac)) (tag data : bytes) : Prop :=
  (5 < length tag)%nat /\ exists k q body, In (k, q) l /\ reaches k tag body /\
    cm_verify q body (legacy_data k data) = StOk tt.
Definition signature_accepts (l : list (key * cc_verifier)) (sg data : bytes) : Prop :=
  (5 < length sg)%nat /\ exists k q body, In (k, q) l /\ reaches k sg body /\
    cv_verify q body (legacy_data k data) = StOk tt.
(** The tag [y] is written as lower case digits, or the run fails. *)
Definition stores_tag (run : result Z * files) (out : pystr) (y : result bytes) (fs : files) : Prop :=
  match y with
  | Ok tag => exists x, hex_bytes tag x /\ Forall (fun c => In c lower_digits) x /\ writes run out x fs
  | Err _ => fails run fs
  end.
(** The run changes no file, raises nothing, and its exit status is 0 iff [accepted]. *)
Definition decides (run : result Z * files) (accepted : Prop) (fs : files) : Prop :=
  same_files fs (snd run) /\ (fst run = Ok 0%Z \/ fst run = Ok 1%Z) /\ (fst run = Ok 0%Z <-> accepted).

(** The file is a JSON encrypted keyset that [remote] decrypts to [ks]. *)
Definition holds_encrypted_keyset (rt : py_rt) (fs : files) (path : pystr) (remote : aead) (ad : bytes)
  (ks : keyset) : Prop :=
  exists x t v ek pt, content fs path = Some x /\ utf8_encode t = Some x /\
    json_text rt v t /\ no_repeated_names v /\ shows_encrypted_keyset any_base64 v ek /\ wf_encrypted_keyset ek /\
    ek_encrypted_keyset ek <> [] /\ aead_decrypt remote (ek_encrypted_keyset ek) ad = Ok pt /\
    M_Wire.parse_keyset pt = Some ks /\ valid_keyset ks.

(** The keyset with the one ENABLED key [d] and TINK prefixes. *)
Definition one_key (d : key_data) (id : N) : keyset := mk_keyset id [mk_key (Some d) ENABLED id TINK].
(** The serialized AesGcmKeyFormat {key_size: 16}. *)
Definition aes128_gcm_format : bytes := [x10; x10].
(** The serialized AesGcmKeyFormat {key_size: 32}. *)
Definition aes256_gcm_format : bytes := [x10; x20].
(** The C++ library makes AES256-GCM keys that decrypt what they encrypt. *)
Definition makes_data_keys (m : cc_lib_manager cc_aead) : Prop :=
  forall r, exists d, cl_new_key_data m r aes256_gcm_format = StOk d /\
    kd_type_url d = type_url "AesGcmKey" /\ kd_key_material_type d = SYMMETRIC /\
    wf_key_data d /\ proto_size (M_Wire.serialize_key_data d) /\
    forall q, cl_get_primitive m d = StOk q ->
      forall r' x ad c, ca_encrypt q r' x ad = StOk c -> ca_decrypt q c ad = StOk x.
(** The service behind [a] decrypts what it encrypted. *)
Definition kms_round_trip (a : aead) : Prop :=
  forall r m c, aead_encrypt a r m [] = Ok c -> aead_decrypt a c [] = Ok m.

(** ** Blobs *)

(** [path] names the object [object] of [bucket]. *)
Definition blob_path (path bucket object : pystr) : Prop :=
  path = ulit "gs://" ++ bucket ++ ulit "/" ++ object /\ ~ In 47%N bucket.
Definition blob (bs : blobs) (bucket object : pystr) : option bytes := dict_get blob_eqb (bucket, object) bs.
(** The object now is [x]; all others are as before. *)
Definition uploaded (bucket object : pystr) (x : bytes) (bs bs' : blobs) : Prop :=
  blob bs' bucket object = Some x /\
  forall b n, (b, n) <> (bucket, object) -> blob bs' b n = blob bs b n.
