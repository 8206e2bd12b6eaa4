(** C85: the keys of the symmetric primitives in the C++ library. *)
From Coq Require Import Strings.Byte Strings.String List NArith ZArith Bool Lia.
From Verif Require Import M_Base L_Base M_Utf8 M_Proto M_Wire M_ProtoMsg M_KeyFormats M_StreamTypes M_Prims M_PrimitiveSet M_Registry M_KeysetHandle
  M_Templates M_CcStream M_CcManagers M_CcAes M_CcStreamKeys M_CcModes M_CcSymmetric M_CcSymKeys S_Wire S_Config S_CcAes S_CcStreamKeys S_CcModes S_CcSymmetric
  S_CcSymKeys L_CcSymKeys L_CcSymKeys2 X_CcSymmetric X_CcSymKeys.
Import ListNotations.
Open Scope string_scope.
Open Scope list_scope.
Open Scope Z_scope.

Theorem C85_aead_primitive : forall lib random d cc,
  (exists m, aead_managers lib random (kd_type_url d) = Some m /\ cl_get_primitive m d = StOk cc) <->
  (exists k, for_aead k = true /\ is_key d k /\ usable k /\ aead_object lib random k = StOk cc).
Proof. exact aead_key_primitive. Qed.
Print Assumptions C85_aead_primitive.
Theorem C85_daead_primitive : forall lib random d cc,
  (exists m, daead_managers lib random (kd_type_url d) = Some m /\ cl_get_primitive m d = StOk cc) <->
  (exists k, for_daead k = true /\ is_key d k /\ usable k /\ daead_object lib k = StOk cc).
Proof. exact daead_key_primitive. Qed.
Print Assumptions C85_daead_primitive.
Theorem C85_mac_primitive : forall lib random d cc,
  (exists m, mac_managers lib random (kd_type_url d) = Some m /\ cl_get_primitive m d = StOk cc) <->
  (exists k, for_mac k = true /\ is_key d k /\ usable k /\ mac_object lib k = StOk cc).
Proof. exact mac_key_primitive. Qed.
Print Assumptions C85_mac_primitive.
Theorem C85_prf_primitive : forall lib random d cc,
  (exists m, prf_managers lib random (kd_type_url d) = Some m /\ cl_get_primitive m d = StOk cc) <->
  (exists k, for_prf k = true /\ is_key d k /\ usable k /\ prf_object lib k = StOk cc).
Proof. exact prf_key_primitive. Qed.
Print Assumptions C85_prf_primitive.
Theorem C85_usable_keys_work : forall lib random k, usable k ->
  (for_aead k = true -> exists cc, aead_object lib random k = StOk cc) /\
  (for_daead k = true -> exists cc, daead_object lib k = StOk cc) /\
  (for_mac k = true -> exists cc, mac_object lib k = StOk cc) /\
  (for_prf k = true -> exists cc, prf_object lib k = StOk cc).
Proof. exact usable_keys_work. Qed.
Print Assumptions C85_usable_keys_work.
Theorem C85_one_meaning : forall d k k', is_key d k -> is_key d k' -> k = k'.
Proof. exact is_key_unique. Qed.
Print Assumptions C85_one_meaning.
Theorem C85_new_aead_key : forall lib random url rnd x m d,
  aead_managers lib random url = Some m -> cl_new_key_data m rnd x = StOk d -> random_law random ->
  kd_type_url d = url /\ kd_key_material_type d = SYMMETRIC /\
  exists k, for_aead k = true /\ asks_for_key url x k /\ usable k /\ requestable k /\ chosen random rnd k /\ (proto_size (kd_value d) -> is_key d k).
Proof. exact aead_new_key. Qed.
Print Assumptions C85_new_aead_key.
Theorem C85_new_daead_key : forall lib random url rnd x m d,
  daead_managers lib random url = Some m -> cl_new_key_data m rnd x = StOk d -> random_law random ->
  kd_type_url d = url /\ kd_key_material_type d = SYMMETRIC /\
  exists k, for_daead k = true /\ asks_for_key url x k /\ usable k /\ requestable k /\ chosen random rnd k /\ (proto_size (kd_value d) -> is_key d k).
Proof. exact daead_new_key. Qed.
Print Assumptions C85_new_daead_key.
Theorem C85_new_mac_key : forall lib random url rnd x m d,
  mac_managers lib random url = Some m -> cl_new_key_data m rnd x = StOk d -> random_law random ->
  kd_type_url d = url /\ kd_key_material_type d = SYMMETRIC /\
  exists k, for_mac k = true /\ asks_for_key url x k /\ usable k /\ requestable k /\ chosen random rnd k /\ (proto_size (kd_value d) -> is_key d k).
Proof. exact mac_new_key. Qed.
Print Assumptions C85_new_mac_key.
Theorem C85_new_prf_key : forall lib random url rnd x m d,
  prf_managers lib random url = Some m -> cl_new_key_data m rnd x = StOk d -> random_law random ->
  kd_type_url d = url /\ kd_key_material_type d = SYMMETRIC /\
  exists k, for_prf k = true /\ asks_for_key url x k /\ usable k /\ requestable k /\ chosen random rnd k /\ (proto_size (kd_value d) -> is_key d k).
Proof. exact prf_new_key. Qed.
Print Assumptions C85_new_prf_key.
Theorem C85_formats_accepted : forall lib random url rnd x k, asks_for_key url x k -> usable k -> requestable k ->
  (for_aead k = true -> exists m d, aead_managers lib random url = Some m /\ cl_new_key_data m rnd x = StOk d) /\
  (for_daead k = true -> exists m d, daead_managers lib random url = Some m /\ cl_new_key_data m rnd x = StOk d) /\
  (for_mac k = true -> exists m d, mac_managers lib random url = Some m /\ cl_new_key_data m rnd x = StOk d) /\
  (for_prf k = true -> exists m d, prf_managers lib random url = Some m /\ cl_new_key_data m rnd x = StOk d).
Proof. exact new_key_accepted. Qed.
Print Assumptions C85_formats_accepted.
Theorem C85_templates : Forall2 template_asks aead_templates aead_template_keys /\ Forall2 template_asks daead_templates daead_template_keys /\
  Forall2 template_asks mac_templates mac_template_keys /\ Forall2 template_asks prf_templates prf_template_keys.
Proof. exact symmetric_templates. Qed.
Print Assumptions C85_templates.
(** New keys can be used. *)
Theorem C85_new_keys_work : forall lib random url rnd x, random_law random ->
  (forall m d, aead_managers lib random url = Some m -> cl_new_key_data m rnd x = StOk d -> proto_size (kd_value d) ->
     exists cc, cl_get_primitive m d = StOk cc) /\
  (forall m d, daead_managers lib random url = Some m -> cl_new_key_data m rnd x = StOk d -> proto_size (kd_value d) ->
     exists cc, cl_get_primitive m d = StOk cc) /\
  (forall m d, mac_managers lib random url = Some m -> cl_new_key_data m rnd x = StOk d -> proto_size (kd_value d) ->
     exists cc, cl_get_primitive m d = StOk cc) /\
  (forall m d, prf_managers lib random url = Some m -> cl_new_key_data m rnd x = StOk d -> proto_size (kd_value d) ->
     exists cc, cl_get_primitive m d = StOk cc).
Proof.
  intros lib random url rnd x RL. repeat apply conj; intros m d Hm Hd Hs.
  - destruct (aead_new_key _ _ _ _ _ _ _ Hm Hd RL) as (<- & _ & k & K & _ & U & _ & _ & I).
    destruct (proj1 (usable_keys_work lib random k U) K) as (cc & C).
    destruct (proj2 (aead_key_primitive lib random d cc)) as (m' & Hm' & H); [exists k; auto |].
    rewrite Hm in Hm'. injection Hm' as <-. exists cc. exact H.
  - destruct (daead_new_key _ _ _ _ _ _ _ Hm Hd RL) as (<- & _ & k & K & _ & U & _ & _ & I).
    destruct (proj1 (proj2 (usable_keys_work lib random k U)) K) as (cc & C).
    destruct (proj2 (daead_key_primitive lib random d cc)) as (m' & Hm' & H); [exists k; auto |].
    rewrite Hm in Hm'. injection Hm' as <-. exists cc. exact H.
  - destruct (mac_new_key _ _ _ _ _ _ _ Hm Hd RL) as (<- & _ & k & K & _ & U & _ & _ & I).
    destruct (proj1 (proj2 (proj2 (usable_keys_work lib random k U))) K) as (cc & C).
    destruct (proj2 (mac_key_primitive lib random d cc)) as (m' & Hm' & H); [exists k; auto |].
    rewrite Hm in Hm'. injection Hm' as <-. exists cc. exact H.
  - destruct (prf_new_key _ _ _ _ _ _ _ Hm Hd RL) as (<- & _ & k & K & _ & U & _ & _ & I).
    destruct (proj2 (proj2 (proj2 (usable_keys_work lib random k U))) K) as (cc & C).
    destruct (proj2 (prf_key_primitive lib random d cc)) as (m' & Hm' & H); [exists k; auto |].
    rewrite Hm in Hm'. injection Hm' as <-. exists cc. exact H.
Qed.
Print Assumptions C85_new_keys_work.

(** Keys of each of the kinds. *)
Example C85_hypotheses_met : Forall (fun k => is_key (sym_data k) k /\ usable k) toy_keys.
Proof.
  unfold toy_keys. repeat apply Forall_cons; try apply Forall_nil.
  all: split; [split; [reflexivity |]; eexists; split; [vm_compute; reflexivity |]; cbv beta iota delta [key_attributes];
    repeat apply Forall_cons; try apply Forall_nil; unfold has; cbn [fst snd size_of count];
    first [vm_compute; reflexivity | eexists; split; [vm_compute; reflexivity | cbn; tauto]] |].
  all: unfold usable; try (unfold ctr_hmac_key_ok; cbn [aes_key iv_size hmac_key hmac_hash hmac_tag_size]); rewrite ?repeat_length; cbn [hash_size In];
    try lia; try (split; [lia | discriminate]); repeat split; try lia; auto.
Qed.
Example C85_random_law_met : random_law toy_draw.
Proof. intros rnd size H. unfold toy_draw. rewrite repeat_length. lia. Qed.
(** Every predefined template makes keys that can be used. *)
Definition makes_usable {P} (managers : pystr -> option (cc_lib_manager P)) (x : string * result key_template) : bool :=
  match snd x with
  | Ok t =>
      match managers (kt_type_url t) with
      | Some m =>
          match cl_new_key_data m 7%N (kt_value t) with
          | StOk d => match cl_get_primitive m d with StOk _ => true | StErr _ => false end
          | StErr _ => false
          end
      | None => false
      end
  | Err _ => false
  end.
Example C85_concrete :
  (forallb (makes_usable (aead_managers sym_toy toy_draw)) aead_templates && forallb (makes_usable (daead_managers sym_toy toy_draw)) daead_templates &&
   forallb (makes_usable (mac_managers sym_toy toy_draw)) mac_templates && forallb (makes_usable (prf_managers sym_toy toy_draw)) prf_templates)%bool = true.
Proof. vm_compute. reflexivity. Qed.
(** Keys that are refused: an AES-GCM key of 24 bytes, a key of another version, a tag of 9
    bytes, an HKDF key with SHA1, and bytes that are no key. *)
Definition refused {P} (managers : pystr -> option (cc_lib_manager P)) (name : string) (x : bytes) : bool :=
  match managers (type_url name) with
  | Some m => match cl_get_primitive m (mk_key_data (type_url name) x SYMMETRIC) with StOk _ => false | StErr _ => true end
  | None => false
  end.
Example C85_refused :
  (refused (aead_managers sym_toy toy_draw) "AesGcmKey" (serialize_message AesGcmKey (key_message (GcmKey (repeat x61 24)))) &&
   refused (aead_managers sym_toy toy_draw) "AesGcmKey" (serialize_message AesGcmKey [Some (VNum 1); vb (repeat x61 32)]) &&
   refused (mac_managers sym_toy toy_draw) "HmacKey" (serialize_message HmacKey (key_message (HmacMacKey M_CcAes.SHA256 9 (repeat x61 32)))) &&
   refused (prf_managers sym_toy toy_draw) "HkdfPrfKey" (serialize_message HkdfPrfKey (key_message (HkdfPrf M_CcAes.SHA1 [] (repeat x61 32)))) &&
   refused (aead_managers sym_toy toy_draw) "XChaCha20Poly1305Key" [x00])%bool = true.
Proof. vm_compute. reflexivity. Qed.
(** Not true: "keys for HKDF can be made with any number of bytes from 32 on". *)
Theorem C85_hkdf_sizes_refuted : exists m s,
  prf_managers sym_toy toy_draw (type_url "HkdfPrfKey") = Some m /\ cl_new_key_data m 0%N big_hkdf_format = StErr s /\
  parse_message HkdfPrfKeyFormat big_hkdf_format =
    Some [Some (VMsg [Some (VNum 3); Some (VBytes [])]); Some (VNum 2147483648); Some (VNum 0)].
Proof. eexists. eexists. split; [reflexivity |]. split; vm_compute; reflexivity. Qed.
Print Assumptions C85_hkdf_sizes_refuted.
