(** C32: the base64url coding of JWTs. *)
From Coq Require Import Strings.Byte Strings.String List NArith ZArith Bool Lia.
From Verif Require Import M_Base M_Base64 S_Base64 L_Base64.
Import ListNotations.
Open Scope list_scope.

(** Encoding produces the RFC 4648 base64url text without padding. *)
@thm C32_encode_is_base64url base64_encode_text

(** Decoding accepts exactly the texts whose digits carry the bits of the result,
    whatever the unused trailing bits. *)
@thm C32_decode_exact base64_decode_iff

@thm C32_round_trip base64_round_trip

(** A character outside the alphabet (also '=' and line breaks) or an impossible
    length raises JwtInvalidError. *)
@thm C32_rejects base64_decode_rejects

(** Nothing else is raised, and only in those two cases. *)
@thm C32_total base64_decode_total

(** The standard coding (used for key material in JSON keysets and Vault). *)
@thm C32_standard_round_trip b64_round_trip

(** Finding: decoding is not injective, the unused bits of the last character are
    ignored. *)
Theorem C32_injective_refuted :
  exists s t x, s <> t /\ base64_decode s = Ok x /\ base64_decode t = Ok x.
Proof. exists (blit "QQ"), (blit "QR"), (blit "A"). repeat split; vm_compute; congruence. Qed.

Example C32_vector : base64_encode (blit "hi?>" ++ [xff; xfe]) = blit "aGk_Pv_-".
Proof. vm_compute. reflexivity. Qed.
Example C32_vector_decoded : base64_decode (blit "aGk_Pv_-") = Ok (blit "hi?>" ++ [xff; xfe]).
Proof. vm_compute. reflexivity. Qed.
Example C32_rejected_character : exists c, In c (blit "QQ=") /\ ~ In c url_alphabet.
Proof.
  exists "="%byte. split; [vm_compute; auto |].
  intros H. vm_compute in H. repeat (destruct H as [H | H]; [discriminate |]). exact H.
Qed.
Example C32_rejected_length : Nat.modulo (length (blit "QQQQQ")) 4 = 1%nat.
Proof. reflexivity. Qed.
