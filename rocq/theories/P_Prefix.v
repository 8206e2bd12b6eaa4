(** C01: output prefixes. *)
From Coq Require Import Strings.Byte Strings.String List NArith ZArith Bool Lia.
From Verif Require Import M_Base M_Proto M_Prims M_PrimitiveSet S_Keyset L_PrimitiveSet X_Toy.
Import ListNotations.
Open Scope Z_scope.

(** The prefix is exactly the documented one ([has_prefix] in S_Keyset). *)
Theorem C01_prefix_exact : forall k p,
  output_prefix k = Ok p <-> has_prefix (k_output_prefix_type k) (k_key_id k) p.
Proof. exact output_prefix_spec. Qed.
Print Assumptions C01_prefix_exact.

(** Every known prefix type has a prefix (key ids are 32-bit). *)
Theorem C01_prefix_defined : forall k,
  (k_output_prefix_type k = RAW \/
   ((k_output_prefix_type k = TINK \/ k_output_prefix_type k = LEGACY \/
     k_output_prefix_type k = CRUNCHY) /\ (k_key_id k < 2 ^ 32)%N)) ->
  exists p, output_prefix k = Ok p.
Proof. exact output_prefix_defined. Qed.
Print Assumptions C01_prefix_defined.

(** Every other prefix type is rejected with TinkError. *)
Theorem C01_prefix_rejects : forall k,
  k_output_prefix_type k <> TINK -> k_output_prefix_type k <> LEGACY ->
  k_output_prefix_type k <> CRUNCHY -> k_output_prefix_type k <> RAW ->
  raises_tink (output_prefix k).
Proof. exact output_prefix_rejects. Qed.
Print Assumptions C01_prefix_rejects.

(** For keys of one non-RAW type, equal prefixes iff equal ids. *)
Theorem C01_prefix_injective : forall k1 k2 p1 p2,
  k_output_prefix_type k1 = k_output_prefix_type k2 -> k_output_prefix_type k1 <> RAW ->
  output_prefix k1 = Ok p1 -> output_prefix k2 = Ok p2 ->
  (p1 = p2 <-> k_key_id k1 = k_key_id k2).
Proof. exact output_prefix_same_iff. Qed.
Print Assumptions C01_prefix_injective.

Example C01_tink_prefix :
  output_prefix (toy_key u_aead SYMMETRIC "ka" ENABLED 4042322160 TINK) =
  Ok [x01; xf0; xf0; xf0; xf0].
Proof. reflexivity. Qed.
Example C01_legacy_crunchy_prefix :
  output_prefix (toy_key u_aead SYMMETRIC "ka" ENABLED 258 LEGACY) = Ok [x00; x00; x00; x01; x02] /\
  output_prefix (toy_key u_aead SYMMETRIC "ka" ENABLED 258 CRUNCHY) = Ok [x00; x00; x00; x01; x02].
Proof. split; reflexivity. Qed.
Example C01_unknown_prefix_types :
  raises_tink (output_prefix (toy_key u_aead SYMMETRIC "ka" ENABLED 1 UNKNOWN_PREFIX)) /\
  raises_tink (output_prefix (toy_key u_aead SYMMETRIC "ka" ENABLED 1 77)).
Proof. split; apply output_prefix_rejects; discriminate. Qed.
