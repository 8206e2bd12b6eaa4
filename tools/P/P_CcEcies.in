(** C88: hybrid encryption with ECIES in the C++ library. *)
From Coq Require Import Strings.Byte Strings.String List NArith ZArith Bool Lia.
From Verif Require Import M_Base L_Base M_Proto M_Wire S_Wire M_ProtoMsg S_ProtoMsg M_KeyFormats M_Prims M_StreamTypes M_CcStream M_CcManagers M_CcAes
  M_CcStreamKeys M_CcModes M_CcSymmetric M_CcSymKeys M_CcEcies S_Config S_CcAes S_CcStreamKeys S_CcModes S_CcSymmetric S_CcSymKeys S_CcSymHandles S_CcEcies
  L_CcEcies4 L_CcEcies5 X_CcSymmetric X_CcSymKeys X_CcEcies.
Import ListNotations.
Open Scope string_scope.
Open Scope list_scope.
Open Scope nat_scope.

(** The laws are those of some library. *)
Example C88_laws_met : ec_laws toy_ec sym_toy /\ crypto_laws sym_toy /\ random_law toy_draw.
Proof.
  split; [exact toy_ec_laws |]. split; [exact sym_toy_laws |]. intros rnd size H. unfold toy_draw. rewrite repeat_length. lia.
Qed.

(** ** Points of the NIST curves *)
@thm C88_point_codec point_decodes
@thm C88_point_round_trip point_round_trip
Definition decodes_to (c : curve_type) (f : point_format) (x : bytes) (Q : N * N) : bool :=
  match ec_point_decode toy_ec c f x with StOk R => (N.eqb (fst R) (fst Q) && N.eqb (snd R) (snd Q))%bool | _ => false end.
Definition st_fails {A} (r : st_or A) : bool := match r with StOk _ => false | _ => true end.
Example C88_points_concrete :
  (decodes_to P256 Compressed (x03 :: be_bytes 32 4) (4, 5)%N && decodes_to P384 Uncompressed (x04 :: be_bytes 48 2 ++ be_bytes 48 3) (2, 3)%N &&
   decodes_to P521 CrunchyUncompressed (be_bytes 66 2 ++ be_bytes 66 3) (2, 3)%N &&
   st_fails (ec_point_decode toy_ec P256 Compressed (x02 :: be_bytes 32 4)) && st_fails (ec_point_decode toy_ec P256 Compressed (x03 :: be_bytes 31 4)) &&
   st_fails (ec_point_decode toy_ec P256 Uncompressed (x04 :: be_bytes 32 2 ++ be_bytes 32 5)) &&
   st_fails (ec_point_decode toy_ec P256 Uncompressed (x03 :: be_bytes 32 2)) && st_fails (ec_point_decode toy_ec P256 UNKNOWN_FORMAT (x03 :: be_bytes 32 2)))%bool = true.
Proof. vm_compute. reflexivity. Qed.

(** ** Encryption and decryption *)
@thm C88_encrypt_made ecies_encrypt_made
@thm C88_encrypts ecies_encrypts
@thm C88_decrypt_made ecies_decrypt_made
@thm C88_decrypts ecies_decrypts
@thm C88_round_trip ecies_round_trip
@thm C88_ciphertext_size ecies_ciphertext_size

(** A key pair for each curve, point format and kind of data encryption key *)
Definition toy_pair (p : ecies_params) : bytes * bytes * bytes :=
  match ep_curve p with
  | CURVE25519 => (repeat x40 32, repeat x41 32, [])
  | c => (be_bytes (coordinate_size c) 2, be_bytes (coordinate_size c) 4, be_bytes (coordinate_size c) 5)
  end.
Ltac in_list := cbn [In]; repeat first [left; reflexivity | right].
Ltac reads := match goal with |- exists z, _ /\ _ => eexists; split; [vm_compute; reflexivity | in_list] | |- _ => vm_compute; reflexivity end.
Example C88_hypotheses_met : Forall (fun p => let '(d, X, Y) := toy_pair p in
    public_message (toy_public_message p X Y) p X Y /\ private_message (toy_private_message p d X Y) p d X Y /\ proper p /\ key_pair toy_ec (ep_curve p) d X Y)
  [gcm_params; ctr_params; siv_params; x_params].
Proof.
  assert (PR : forall p, ep_curve p <> UNKNOWN_CURVE -> ep_hash p <> UNKNOWN_HASH -> ep_format p <> UNKNOWN_FORMAT -> (ep_curve p = CURVE25519 -> ep_format p = Compressed) ->
    dem_kind (ep_dem p) = true -> usable (ep_dem p) -> Nat.leb (dem_size (ep_dem p)) (255 * hash_size (ep_hash p)) = true -> proper p).
  { intros p A B C D E F G. repeat (split; [assumption |]). apply Nat.leb_le. exact G. }
  assert (AS : forall k m, parse_message (sk_format k) (toy_format k) = Some m -> Forall (has (sk_format k) m) (format_attributes k) -> asks_for_key (type_url (sk_name k)) (toy_format k) k).
  { intros k m A B. split; [reflexivity |]. exists m. split; assumption. }
  assert (A1 : asks_for_key (type_url (sk_name (ep_dem gcm_params))) (toy_format (ep_dem gcm_params)) (ep_dem gcm_params)).
  { eapply AS; [vm_compute; reflexivity |]. repeat constructor; cbn [has snd fst]; reads. }
  assert (A2 : asks_for_key (type_url (sk_name (ep_dem ctr_params))) (toy_format (ep_dem ctr_params)) (ep_dem ctr_params)).
  { eapply AS; [vm_compute; reflexivity |]. repeat (apply Forall_cons || apply Forall_nil); cbn [has snd fst]; reads. }
  assert (A3 : asks_for_key (type_url (sk_name (ep_dem siv_params))) (toy_format (ep_dem siv_params)) (ep_dem siv_params)).
  { eapply AS; [vm_compute; reflexivity |]. repeat constructor; cbn [has snd fst]; reads. }
  assert (A4 : asks_for_key (type_url (sk_name (ep_dem x_params))) (toy_format (ep_dem x_params)) (ep_dem x_params)).
  { eapply AS; [vm_compute; reflexivity |]. constructor. }
  assert (HP : forall p, asks_for_key (type_url (sk_name (ep_dem p))) (toy_format (ep_dem p)) (ep_dem p) -> forall fs m pre,
    (exists z, number fs m (pre ++ ["kem_params"; "curve_type"]) z /\ curve_number (ep_curve p) z) -> (exists z, number fs m (pre ++ ["kem_params"; "hkdf_hash_type"]) z /\ hash_number (ep_hash p) z) ->
    octets fs m (pre ++ ["kem_params"; "hkdf_salt"]) (ep_salt p) -> (exists z, number fs m (pre ++ ["ec_point_format"]) z /\ format_number (ep_format p) z) ->
    text fs m (pre ++ ["dem_params"; "aead_dem"; "type_url"]) (type_url (sk_name (ep_dem p))) -> octets fs m (pre ++ ["dem_params"; "aead_dem"; "value"]) (toy_format (ep_dem p)) ->
    has_ecies_params fs m pre p).
  { intros p A fs m pre H1 H2 H3 H4 H5 H6. repeat (split; [assumption |]). eexists. eexists. split; [exact H5 |]. split; [exact H6 | exact A]. }
  repeat apply Forall_cons; [| | | | apply Forall_nil]; cbv beta iota zeta delta [toy_pair gcm_params ctr_params siv_params x_params ep_curve];
    (split; [split; [apply HP; [assumption | ..]; reads | split; vm_compute; reflexivity] |]);
    (split; [split; [apply HP; [assumption | ..]; reads | repeat split; vm_compute; reflexivity] |]);
    (split; [apply PR; try (vm_compute; reflexivity); try discriminate; vm_compute; tauto || (repeat split; auto; lia) |]).
  - repeat split; try discriminate; vm_compute; reflexivity.
  - repeat split; try discriminate; vm_compute; reflexivity.
  - repeat split; try discriminate; vm_compute; reflexivity.
  - repeat split; vm_compute; reflexivity.
Qed.
Definition plaintext : bytes := list_byte_of_string "the plaintext".
Definition context : bytes := list_byte_of_string "the context".
Definition st_is (r : outcome bytes) (b : bytes) : bool := match r with Some (StOk c) => bytes_eqb c b | _ => false end.
Definition out_fails (r : outcome bytes) : bool := match r with Some (StErr _) => true | _ => false end.
Definition works (p : ecies_params) (size : nat) : bool :=
  let '(d, X, Y) := toy_pair p in
  match ecies_encrypt_new toy_ec sym_toy toy_draw (toy_public_message p X Y), ecies_decrypt_new toy_ec sym_toy toy_draw (toy_private_message p d X Y) with
  | StOk enc, StOk dec =>
      match enc 7%N plaintext context with
      | Some (StOk C) =>
          Nat.eqb (length C) (size + length plaintext) && st_is (dec C context) plaintext && out_fails (dec C []) && out_fails (dec (removelast C ++ [x01]) context) &&
          out_fails (dec (x00 :: skipn 1 C) context) && out_fails (dec (firstn 30 C) context)
      | _ => false
      end
  | _, _ => false
  end%bool.
Example C88_concrete : (works gcm_params (33 + 28) && works x_params (32 + 40))%bool = true.
Proof. vm_compute. reflexivity. Qed.

(** ** Only such keys *)
@thm C88_encrypts_only ecies_encrypts_only
@thm C88_decrypts_only ecies_decrypts_only
(** Keys with another algorithm for the data, and keys that are not on the curve, are never of use. *)
Definition useless_public (p : ecies_params) (X Y : bytes) : bool :=
  match ecies_encrypt_new toy_ec sym_toy toy_draw (toy_public_message p X Y) with
  | StOk enc => out_fails (enc 7%N plaintext context)
  | _ => true
  end.
Example C88_only_concrete :
  (useless_public (mk_ecies_params P256 SHA256 [] Compressed (GcmSivKey (repeat x00 16))) (be_bytes 32 4) (be_bytes 32 5) &&
   useless_public (mk_ecies_params P256 SHA256 [] Compressed (GcmKey (repeat x00 24))) (be_bytes 32 4) (be_bytes 32 5) &&
   useless_public gcm_params (be_bytes 32 4) (be_bytes 32 4) && useless_public gcm_params (be_bytes 32 4) [] &&
   useless_public (mk_ecies_params CURVE25519 SHA384 [] Uncompressed (XChaChaKey (repeat x00 32))) (repeat x41 32) [])%bool = true.
Proof. vm_compute. reflexivity. Qed.

(** ** Failures that are not reported as such: the process ends instead. *)
@thm C88_low_order_refuted low_order_crashes
@thm C88_sizes_wrap_refuted sizes_wrap_crashes
@thm C88_sizes_wrap_decryption_refuted sizes_wrap_crashes_decryption
Example C88_low_order_met :
  public_message (toy_public_message x_params (repeat x00 32) []) x_params (repeat x00 32) [] /\ proper x_params /\
  (forall a, length a = 32 -> x25519_derive toy_ec a (repeat x00 32) = None) /\
  match ecies_encrypt_new toy_ec sym_toy toy_draw (toy_public_message x_params (repeat x00 32) []) with
  | StOk enc => match enc 7%N plaintext context with None => true | _ => false end
  | _ => false
  end = true.
Proof.
  assert (H : public_message (toy_public_message x_params (repeat x41 32) []) x_params (repeat x41 32) [] /\ proper x_params).
  { pose proof C88_hypotheses_met as F. apply Forall_inv_tail, Forall_inv_tail, Forall_inv_tail, Forall_inv in F. cbv beta iota zeta delta [toy_pair x_params ep_curve] in F. split; apply F. }
  destruct H as ((P & _) & R). split; [split; [exact P | split; vm_compute; reflexivity] |]. split; [exact R |]. split; [| vm_compute; reflexivity].
  intros a _. vm_compute. reflexivity.
Qed.
(** AES keys of 2^32 - 1 bytes and HMAC keys of 17 bytes: 16 bytes in 32-bit arithmetic *)
Definition wrapping (aes : bytes) : ecies_params := mk_ecies_params P256 SHA256 [] Uncompressed (CtrHmacAeadKey (mk_ctr_hmac_key aes 12 (repeat x00 17) SHA256 16)).
Definition wrapping_format : bytes :=
  serialize_message AesCtrHmacAeadKeyFormat
    [Some (VMsg [Some (VMsg [Some (VNum 12)]); Some (VNum 4294967295)]); Some (VMsg [Some (VMsg [Some (VNum 3); Some (VNum 16)]); Some (VNum 17); Some (VNum 0)])].
Definition wrapping_message : message :=
  [Some (VNum 0); Some (VMsg (ecies_params_message (wrapping []) (type_url "AesCtrHmacAeadKey") wrapping_format)); vb (be_bytes 32 4); vb (be_bytes 32 5)].
Example C88_sizes_wrap_met : exists aes k n,
  public_message wrapping_message (wrapping aes) (be_bytes 32 4) (be_bytes 32 5) /\ ep_dem (wrapping aes) = CtrHmacAeadKey k /\
  public_ok toy_ec P256 (be_bytes 32 4) (be_bytes 32 5) /\ (Z.of_nat (length (aes_key k)) < 2 ^ 32)%Z /\ (Z.of_nat (length (hmac_key k)) < 2 ^ 32)%Z /\
  (Z.of_nat (length (aes_key k)) + Z.of_nat (length (hmac_key k)) = 2 ^ 32 + Z.of_nat n)%Z /\ n <= 255 * hash_size SHA256.
Proof.
  assert (E : exists aes : bytes, Z.of_nat (length aes) = 4294967295%Z).
  { exists (repeat x00 (Z.to_nat 4294967295)). rewrite repeat_length. apply Z2Nat.id. discriminate. }
  destruct E as (aes & E). exists aes. eexists. exists 16. split; [| split; [reflexivity |]].
  - split; [| split; vm_compute; reflexivity]. split; [cbn [ep_curve wrapping]; reads |]. split; [cbn [ep_hash wrapping]; reads |]. split; [vm_compute; reflexivity |].
    split; [cbn [ep_format wrapping]; reads |]. eexists. eexists. split; [vm_compute; reflexivity |]. split; [vm_compute; reflexivity |].
    split; [vm_compute; reflexivity |]. eexists. split; [vm_compute; reflexivity |].
    cbn [format_attributes ep_dem wrapping iv_size aes_key hmac_hash hmac_tag_size hmac_key]. unfold size_of. rewrite E.
    repeat (apply Forall_cons || apply Forall_nil); cbn [has snd fst]; reads.
  - split; [split; [discriminate |]; split; [discriminate | vm_compute; reflexivity] |].
    cbn [aes_key hmac_key]. rewrite E, repeat_length. change (2 ^ 32)%Z with 4294967296%Z. cbn [hash_size]. lia.
Qed.
(** And the process does end. *)
Example C88_sizes_wrap_concrete :
  match ecies_encrypt_new toy_ec sym_toy toy_draw wrapping_message with
  | StOk enc => match enc 7%N plaintext context with None => true | _ => false end
  | _ => false
  end = true.
Proof. vm_compute. reflexivity. Qed.
