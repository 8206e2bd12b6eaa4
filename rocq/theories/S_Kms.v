(** Specification vocabulary for KMS clients and envelope encryption. *)
From Coq Require Import Strings.Byte Strings.String List NArith ZArith Bool.
From Verif Require Import M_Base M_Proto M_Prims M_Registry M_Kms.
Import ListNotations.
Open Scope list_scope.

(** [c] is the earliest client of the list that supports [uri]. *)
Definition first_supporting (clients : list kms_client) (uri : pystr) (c : kms_client) : Prop :=
  exists earlier later, clients = earlier ++ c :: later /\ kc_does_support c uri = true /\
    forall d, In d earlier -> kc_does_support d uri = false.

(** The clients registered since the last reset. *)
Fixpoint since_reset (ops : list kms_op) : list kms_client :=
  match ops with
  | [] => []
  | KmsRegister c :: r =>
      if existsb (fun o => match o with KmsReset => true | _ => false end) r
      then since_reset r else c :: since_reset r
  | KmsReset :: r => since_reset r
  end.

(** The layout of an envelope ciphertext: 4-byte big-endian length of the encrypted
    DEK, encrypted DEK, ciphertext. *)
Definition envelope_layout (edek body ct : bytes) : Prop :=
  exists b3 b2 b1 b0,
    ct = [b3; b2; b1; b0] ++ edek ++ body /\
    (Byte.to_N b3 * 2 ^ 24 + Byte.to_N b2 * 2 ^ 16 + Byte.to_N b1 * 2 ^ 8 + Byte.to_N b0
     = N.of_nat (length edek))%N.

(** The registry builds the Aead primitive [p] from this key data. *)
Definition data_provides (reg : registry) (d : key_data) (p : prim) : Prop :=
  exists km b,
    dict_get str_eqb (kd_type_url d) (r_key_managers reg) = Some (km, b) /\
    km_primitive_class km = ClsAead /\ km_primitive km d = Ok p.

(** With random choices [r], the registry generates [d] from template [t]. *)
Definition generates (reg : registry) (r : coins) (t : key_template) (d : key_data) : Prop :=
  exists km,
    dict_get str_eqb (kt_type_url t) (r_key_managers reg) = Some (km, true) /\
    km_new_key_data km r t = Ok d.

(** The five key types allowed for data encryption keys. *)
Definition dek_types : list pystr :=
  map ulit [ "type.googleapis.com/google.crypto.tink.AesGcmKey";
             "type.googleapis.com/google.crypto.tink.XChaCha20Poly1305Key";
             "type.googleapis.com/google.crypto.tink.AesCtrHmacAeadKey";
             "type.googleapis.com/google.crypto.tink.AesEaxKey";
             "type.googleapis.com/google.crypto.tink.AesGcmSivKey" ]%string.

(** A ciphertext has no layout exactly if it is too short for its announced DEK. *)
Definition too_short (ct : bytes) : Prop :=
  (length ct < 4)%nat \/
  exists b3 b2 b1 b0 rest, ct = b3 :: b2 :: b1 :: b0 :: rest /\
    (N.of_nat (length rest) < Byte.to_N b3 * 2 ^ 24 + Byte.to_N b2 * 2 ^ 16 + Byte.to_N b1 * 2 ^ 8
       + Byte.to_N b0)%N.
