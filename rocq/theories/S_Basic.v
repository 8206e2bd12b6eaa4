(** Specification of the *_basic.py examples: the keys in them and how the programs end. *)
From Coq Require Import Strings.Byte Strings.String List NArith ZArith Bool.
From Verif Require Import M_Base M_Proto M_Prims M_Registry M_CcStream M_CcManagers S_Keyset S_Config.
Import ListNotations.
Open Scope string_scope.
Open Scope list_scope.

(** The keys in the source of the programs; each is the only key of its keyset. *)
(** aead_basic.py *)
Definition aead_basic_key : key_data :=
  mk_key_data (type_url "AesGcmKey")
    [x1a; x20; x56; xc9; x47; xc6; x81; x89; x37; x45; x34; x61; x8f; xf2; xc8; x53; x34;
     xae; x74; x85; xa5; xca; x30; x9f; xb4; x23; xb2; xa5; x3a; xf4; x8c; x23; x52; x2e] SYMMETRIC.
Definition aead_basic_id : N := 294406504.

(** deterministic_aead_basic.py *)
Definition daead_basic_key : key_data :=
  mk_key_data (type_url "AesSivKey")
    [x12; x40; x25; xf4; x70; x8c; x98; xa4; xcd; xd6; x9d; xd5; xd7; xce; xae; x85; x9a;
     x49; x43; xeb; x62; xbf; x27; x38; x20; xac; x84; xfa; x8a; x60; xe9; x2b; x04; x6d;
     x64; x3f; x59; xeb; x16; x1f; x3c; x02; x46; xb9; x60; x46; xec; x5d; x6a; x08; x2f;
     x80; xcc; xf0; x5a; x18; xcf; x9e; x49; x3d; x82; x9b; x41; x9c; x62; xca] SYMMETRIC.
Definition daead_basic_id : N := 1919301694.

(** mac_basic.py *)
Definition mac_basic_key : key_data :=
  mk_key_data (type_url "HmacKey")
    [x12; x04; x08; x03; x10; x10; x1a; x20; x34; x2d; x08; xe8; xbd; xcc; x9d; x5a; x15;
     x50; x57; x79; x3c; x5b; xd6; x52; x46; x47; x7b; x12; x2e; x18; xfd; x34; x56; x02;
     x91; x3c; x82; xec; x15; xe1] SYMMETRIC.
Definition mac_basic_id : N := 1892702217.

(** hybrid_basic.py, private key *)
Definition hybrid_basic_private_key : key_data :=
  mk_key_data (type_url "HpkePrivateKey")
    [x12; x2a; x12; x06; x08; x01; x10; x01; x18; x02; x1a; x20; x55; x64; x29; x99; x0a;
     x33; xef; x88; xdc; x02; x9e; x56; x38; x3d; xfa; x2a; x20; x50; xef; x53; x15; x0a;
     x99; xf6; x89; x67; xce; xcd; x62; xed; x29; x5e; x1a; x20; xd7; xe7; xf2; xa9; x4c;
     x6f; x28; xa3; x34; x97; x02; xce; xb6; x9f; x8e; xc8; x09; xe3; xdd; xd9; x64; x63;
     x76; xe7; xa2; x93; x7c; xac; x34; x58; xdf; xa9] ASYMMETRIC_PRIVATE.
Definition hybrid_basic_private_id : N := 958452012.

(** hybrid_basic.py, public key *)
Definition hybrid_basic_public_key : key_data :=
  mk_key_data (type_url "HpkePublicKey")
    [x12; x06; x08; x01; x10; x01; x18; x02; x1a; x20; x55; x64; x29; x99; x0a; x33; xef;
     x88; xdc; x02; x9e; x56; x38; x3d; xfa; x2a; x20; x50; xef; x53; x15; x0a; x99; xf6;
     x89; x67; xce; xcd; x62; xed; x29; x5e] ASYMMETRIC_PUBLIC.
Definition hybrid_basic_public_id : N := 958452012.

(** signature_basic.py, private key *)
Definition signature_basic_private_key : key_data :=
  mk_key_data (type_url "EcdsaPrivateKey")
    [x12; x4c; x12; x06; x08; x03; x10; x02; x18; x02; x1a; x20; x12; x24; x99; xf6; xed;
     xa7; x0e; xdb; xd9; xb8; x38; x16; x80; x6b; x15; x4c; x86; x79; xfd; x5d; x3c; x37;
     x8c; x9c; x52; xca; x53; x5f; x44; x58; x46; xb9; x22; x20; x7a; x44; xc0; x7c; x50;
     x77; x56; xc8; x9a; x4c; x8c; xbd; x5d; x9b; xaa; xd5; x1b; x80; xc8; x79; xb8; xf4;
     x93; x76; x75; x04; x1a; xb3; xd7; x76; xde; x7a; x1a; x21; x00; xde; x25; x22; xf8;
     x24; x4d; xef; x5a; xb2; xd1; xf3; x82; x2b; xae; xb1; x01; x6f; xc8; xbc; x5c; xa3;
     x38; x6b; x71; x8e; x9a; x51; x85; x21; x54; x9d; xea] ASYMMETRIC_PRIVATE.
Definition signature_basic_private_id : N := 611814836.

(** signature_basic.py, public key *)
Definition signature_basic_public_key : key_data :=
  mk_key_data (type_url "EcdsaPublicKey")
    [x12; x06; x08; x03; x10; x02; x18; x02; x1a; x20; x12; x24; x99; xf6; xed; xa7; x0e;
     xdb; xd9; xb8; x38; x16; x80; x6b; x15; x4c; x86; x79; xfd; x5d; x3c; x37; x8c; x9c;
     x52; xca; x53; x5f; x44; x58; x46; xb9; x22; x20; x7a; x44; xc0; x7c; x50; x77; x56;
     xc8; x9a; x4c; x8c; xbd; x5d; x9b; xaa; xd5; x1b; x80; xc8; x79; xb8; xf4; x93; x76;
     x75; x04; x1a; xb3; xd7; x76; xde; x7a] ASYMMETRIC_PUBLIC.
Definition signature_basic_public_id : N := 611814836.

(** How a program ends that encrypts and decrypts: [x] is its outcome, [enc] and [dec] are
    those of the C++ calls. Without any exception exactly if the C++ library decrypts its
    own (not empty) ciphertext to the message. *)
Definition ends_as (enc : st_or bytes) (dec : bytes -> st_or bytes) (message : bytes) (x : result unit) : Prop :=
  match enc with
  | StOk (b :: c) =>
      match dec (b :: c) with
      | StOk output => (output = message -> x = Ok tt) /\ (output <> message -> x = Err (OtherError 1))
      | StErr _ => raises_tink x
      end
  | _ => raises_tink x
  end.
(** The same for tags and signatures, each checked with every function of [checks]. *)
Definition ends_checked (made : st_or bytes) (checks : list (bytes -> st_or unit)) (x : result unit) : Prop :=
  match made with
  | StOk (b :: c) =>
      (Forall (fun check => check (b :: c) = StOk tt) checks -> x = Ok tt) /\
      (~ Forall (fun check => check (b :: c) = StOk tt) checks -> raises_tink x)
  | _ => raises_tink x
  end.
