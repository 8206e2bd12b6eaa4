(** C01: output prefixes. *)
From Coq Require Import Strings.Byte Strings.String List NArith ZArith Bool Lia.
From Verif Require Import M_Base M_Proto M_Prims M_PrimitiveSet S_Keyset L_PrimitiveSet X_Toy.
Import ListNotations.
Open Scope Z_scope.

(** The prefix is exactly the documented one ([has_prefix] in S_Keyset). *)
@thm C01_prefix_exact output_prefix_spec

(** Every known prefix type has a prefix (key ids are 32-bit). *)
@thm C01_prefix_defined output_prefix_defined

(** Every other prefix type is rejected with TinkError. *)
@thm C01_prefix_rejects output_prefix_rejects

(** For keys of one non-RAW type, equal prefixes iff equal ids. *)
@thm C01_prefix_injective output_prefix_same_iff

Example C01_tink_prefix :
  output_prefix (toy_key u_aead SYMMETRIC "ka" ENABLED 4042322160 TINK) =
  Ok [x01; xf0; xf0; xf0; xf0].
Proof. reflexivity. Qed.
Example C01_legacy_crunchy_prefix :
  output_prefix (toy_key u_aead SYMMETRIC "ka" ENABLED 258 LEGACY) = Ok [x00; x00; x00; x01; x02] /\
  output_prefix (toy_key u_aead SYMMETRIC "ka" ENABLED 258 CRUNCHY) = Ok [x00; x00; x00; x01; x02].
Proof. split; reflexivity. Qed.
Example C01_unknown_prefix_types :
  raises_tink (output_prefix (toy_key u_aead SYMMETRIC "ka" ENABLED 1 UNKNOWN_PREFIX)) /\
  raises_tink (output_prefix (toy_key u_aead SYMMETRIC "ka" ENABLED 1 77)).
Proof. split; apply output_prefix_rejects; discriminate. Qed.
