(** A small C++ library with streaming AEADs, for the examples. Nothing here models code of
    /repo. *)
From Coq Require Import Strings.Byte Strings.String List NArith ZArith Bool.
From Verif Require Import M_Base M_Proto M_StreamTypes M_Prims M_PrimitiveSet M_Registry M_KeysetHandle M_JsonKeyset M_CcStream M_Stream M_Buffered M_CcManagers
  M_Cli M_CliStream S_Config X_Toy X_Rt X_Config X_Stream X_Buffered.
Import ListNotations.
Open Scope string_scope.
Open Scope list_scope.
Open Scope Z_scope.

(** Keys that begin with f have ciphertexts of fixed length. *)
Definition stream_cc (v : bytes) : cc_streaming_aead :=
  match v with x66 :: rest => fixed_cc (length rest) | _ => toy_cc (last v x00) end.
Definition stream_world : cc_world :=
  mk_cc_world (cw_tink_config toy_world) (cw_hpke_config toy_world) (cw_jwt_config toy_world) (cw_aead toy_world) (cw_daead toy_world)
    (cw_hybrid_decrypt toy_world) (cw_hybrid_encrypt toy_world) (cw_mac toy_world) (cw_prf toy_world) (cw_sign toy_world) (cw_verify toy_world)
    (some_manager stream_cc SYMMETRIC false).
Definition stream_env : py_env := mk_py_env empty_registry 0%N [] toy_what [x00; x00; x00] [x00; x00; x00] 30 toy_rt.
Definition stream_one (v : string) (id : N) (prefix : Z) : key :=
  mk_key (Some (mk_key_data (type_url "AesGcmHkdfStreamingKey") (blit v) SYMMETRIC)) ENABLED id prefix.
Definition stream_flags (mode : crypt_mode) (keys input output : string) : crypt_flags :=
  mk_crypt_flags mode (ulit keys) (ulit input) (ulit output) (Some (ulit "ad")).
Definition stream_os : os := mk_os (fun _ => true).
Definition stream_pb : pb_rt := mk_pb_rt true (fun _ => None).
Definition stream_run (mode : crypt_mode) (keys input output : string) (fs : files) : option (result Z * files) :=
  streaming_aead_cli stream_world stream_env stream_pb stream_os 30 (stream_flags mode keys input output) fs.
