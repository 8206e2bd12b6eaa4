(** A small C++ library with AES streaming, for the examples. Nothing here models code of
    /repo. *)
From Coq Require Import Strings.Byte Strings.String List NArith ZArith Bool.
From Verif Require Import M_Base M_Proto M_Wire M_ProtoMsg M_KeyFormats M_StreamTypes M_Prims M_PrimitiveSet M_Registry M_KeysetHandle M_JsonKeyset M_CcStream M_Stream
  M_Buffered M_CcManagers M_Cli M_CliStream M_CcAes M_CcStreamKeys S_Config X_Toy X_Rt X_Config X_Stream X_Buffered X_CliStream X_CcAes.
Import ListNotations.
Open Scope string_scope.
Open Scope list_scope.
Open Scope Z_scope.

Definition toy_random (rnd : coins) (size : Z) : bytes := repeat x61 (Z.to_nat size).
Definition aes_toy (salt : byte) : cc_world :=
  mk_cc_world (cw_tink_config toy_world) (cw_hpke_config toy_world) (cw_jwt_config toy_world) (cw_aead toy_world) (cw_daead toy_world)
    (cw_hybrid_decrypt toy_world) (cw_hybrid_encrypt toy_world) (cw_mac toy_world) (cw_prf toy_world) (cw_sign toy_world) (cw_verify toy_world)
    (streaming_managers 60 toy_ssl (toy_salt salt) toy_prefix toy_random).
(** Keys with the parameters [toy_gcm x] and [toy_ctr x] *)
Definition gcm_value (size : Z) (x : byte) : bytes :=
  serialize_message AesGcmHkdfStreamingKey
    [Some (VNum 0); Some (VMsg [Some (VNum size); Some (VNum 16); Some (VNum 3)]); Some (VBytes (toy_ikm x))].
Definition ctr_value (x : byte) : bytes :=
  serialize_message AesCtrHmacStreamingKey
    [Some (VNum 0); Some (VMsg [Some (VNum 44); Some (VNum 16); Some (VNum 3); Some (VMsg [Some (VNum 3); Some (VNum 16)])]);
     Some (VBytes (toy_ikm x))].
Definition aes_gcm_key (x : byte) (id : N) : key :=
  mk_key (Some (mk_key_data (type_url "AesGcmHkdfStreamingKey") (gcm_value 44 x) SYMMETRIC)) ENABLED id RAW.
Definition aes_ctr_key (x : byte) (id : N) : key :=
  mk_key (Some (mk_key_data (type_url "AesCtrHmacStreamingKey") (ctr_value x) SYMMETRIC)) ENABLED id TINK.
(** A key format with segments of 2^31 bytes *)
Definition big_format : bytes :=
  serialize_message AesGcmHkdfStreamingKeyFormat
    [Some (VMsg [Some (VNum 2147483648); Some (VNum 16); Some (VNum 3)]); Some (VNum 16); Some (VNum 0)].
Definition aes_run (salt : byte) (mode : crypt_mode) (keys input output : string) (fs : files) : option (result Z * files) :=
  streaming_aead_cli (aes_toy salt) stream_env stream_pb stream_os 60 (stream_flags mode keys input output) fs.
