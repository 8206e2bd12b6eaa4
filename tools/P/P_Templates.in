(** C56: key templates carry the parameters they were asked for. *)
From Coq Require Import Strings.Byte Strings.String List NArith ZArith Bool Lia.
From Verif Require Import M_Base M_Proto M_ProtoMsg M_KeyFormats M_Templates.
From Verif Require Import S_Wire S_ProtoMsg S_Templates L_ProtoMsg L_Templates.
Import ListNotations.
Open Scope string_scope.
Open Scope list_scope.
Open Scope Z_scope.

@thm C56_template_delivers template_delivers
@thm C56_created_iff_representable template_exists_iff
@thm C56_errors template_error
@thm C56_templates_determine_requests template_injective
@thm C56_predefined_templates predefined_deliver
@thm C56_message_round_trip message_round_trip

(** The envelope template for AES256-GCM data keys and a key uri. *)
Definition dek : key_template :=
  mk_key_template (ulit "type.googleapis.com/google.crypto.tink.AesGcmKey") [x10; x20] TINK.
Definition envelope : key_template :=
  mk_key_template (ulit "type.googleapis.com/google.crypto.tink.KmsEnvelopeAeadKey")
    ([x0a; x05] ++ blit "kms:k" ++ [x12; x38; x0a; x30] ++
     blit "type.googleapis.com/google.crypto.tink.AesGcmKey" ++ [x12; x02; x10; x20; x18; x01]) RAW.
Example C56_hypotheses_met :
  create (AesGcm (bits 256) TINK) = Ok dek /\ sane (KmsEnvelopeAead (ulit "kms:k") dek) /\
  create (KmsEnvelopeAead (ulit "kms:k") dek) = Ok envelope /\ proto_size (kt_value envelope) /\
  kt_type_url envelope <> [] /\ representable (KmsEnvelopeAead (ulit "kms:k") dek).
Proof.
  assert (S : sane (KmsEnvelopeAead (ulit "kms:k") dek)) by (apply sane_b_spec; vm_compute; reflexivity).
  assert (C : create (KmsEnvelopeAead (ulit "kms:k") dek) = Ok envelope) by (vm_compute; reflexivity).
  split; [vm_compute; reflexivity |]. split; [exact S |]. split; [exact C |].
  split; [vm_compute; reflexivity |]. split; [discriminate |]. apply (template_ok_representable _ _ S C).
Qed.
(** Sizes that do not fit the message fields are refused. *)
Example C56_errors_met :
  create (AesGcm (-1) TINK) = Err (ValueError "") /\ create (AesEax 16 (2 ^ 32) TINK) = Err (ValueError "") /\
  create (KmsAead [55296%N]) = Err UnicodeError /\ create (RsaSsaPkcs1 3 2048 (-3)) = Err OverflowError /\
  create (AesEax 16 (2 ^ 32 - 1) TINK) <> Err (ValueError "").
Proof. repeat split; vm_compute; congruence. Qed.
Example C56_catalogue_size :
  length (flat_map snd catalogue) = 89%nat /\ existsb (fun e => String.eqb (fst e) "AES256_GCM") (flat_map snd catalogue) = true.
Proof. split; vm_compute; reflexivity. Qed.
