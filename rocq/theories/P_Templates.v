(** C56: key templates carry the parameters they were asked for. *)
From Coq Require Import Strings.Byte Strings.String List NArith ZArith Bool Lia.
From Verif Require Import M_Base M_Proto M_ProtoMsg M_KeyFormats M_Templates.
From Verif Require Import S_Wire S_ProtoMsg S_Templates L_ProtoMsg L_Templates.
Import ListNotations.
Open Scope string_scope.
Open Scope list_scope.
Open Scope Z_scope.

Theorem C56_template_delivers : forall r t, sane r -> create r = Ok t -> proto_size (kt_value t) ->
  delivers t (promised r).
Proof. exact template_delivers. Qed.
Print Assumptions C56_template_delivers.
Theorem C56_created_iff_representable : forall r, sane r -> ((exists t, create r = Ok t) <-> representable r).
Proof. exact template_exists_iff. Qed.
Print Assumptions C56_created_iff_representable.
Theorem C56_errors : forall r e, create r = Err e ->
  (e = ValueError "" \/ e = UnicodeError \/ e = OverflowError) /\ ~ representable r.
Proof. exact template_error. Qed.
Print Assumptions C56_errors.
Theorem C56_templates_determine_requests : forall r1 r2 t, sane r1 -> sane r2 ->
  create r1 = Ok t -> create r2 = Ok t -> proto_size (kt_value t) -> r1 = r2.
Proof. exact template_injective. Qed.
Print Assumptions C56_templates_determine_requests.
Theorem C56_predefined_templates : Forall2 (fun m c => fst m = fst c /\
    Forall2 (fun d e => fst d = fst e /\
      exists r, snd e = Some r /\ exists t, snd d = Ok t /\ delivers t (promised r)) (snd m) (snd c))
    predefined_templates catalogue.
Proof. exact predefined_deliver. Qed.
Print Assumptions C56_predefined_templates.
Theorem C56_message_round_trip : forall fs vs, schema_ok (TMsg fs) = true -> holds_all fs vs ->
  proto_size (serialize_message fs vs) ->
  parse_message fs (serialize_message fs vs) = Some vs.
Proof. exact message_round_trip. Qed.
Print Assumptions C56_message_round_trip.

(** The envelope template for AES256-GCM data keys and a key uri. *)
Definition dek : key_template :=
  mk_key_template (ulit "type.googleapis.com/google.crypto.tink.AesGcmKey") [x10; x20] TINK.
Definition envelope : key_template :=
  mk_key_template (ulit "type.googleapis.com/google.crypto.tink.KmsEnvelopeAeadKey")
    ([x0a; x05] ++ blit "kms:k" ++ [x12; x38; x0a; x30] ++
     blit "type.googleapis.com/google.crypto.tink.AesGcmKey" ++ [x12; x02; x10; x20; x18; x01]) RAW.
Example C56_hypotheses_met :
  create (AesGcm (bits 256) TINK) = Ok dek /\ sane (KmsEnvelopeAead (ulit "kms:k") dek) /\
  create (KmsEnvelopeAead (ulit "kms:k") dek) = Ok envelope /\ proto_size (kt_value envelope) /\
  kt_type_url envelope <> [] /\ representable (KmsEnvelopeAead (ulit "kms:k") dek).
Proof.
  assert (S : sane (KmsEnvelopeAead (ulit "kms:k") dek)) by (apply sane_b_spec; vm_compute; reflexivity).
  assert (C : create (KmsEnvelopeAead (ulit "kms:k") dek) = Ok envelope) by (vm_compute; reflexivity).
  split; [vm_compute; reflexivity |]. split; [exact S |]. split; [exact C |].
  split; [vm_compute; reflexivity |]. split; [discriminate |]. apply (template_ok_representable _ _ S C).
Qed.
(** Sizes that do not fit the message fields are refused. *)
Example C56_errors_met :
  create (AesGcm (-1) TINK) = Err (ValueError "") /\ create (AesEax 16 (2 ^ 32) TINK) = Err (ValueError "") /\
  create (KmsAead [55296%N]) = Err UnicodeError /\ create (RsaSsaPkcs1 3 2048 (-3)) = Err OverflowError /\
  create (AesEax 16 (2 ^ 32 - 1) TINK) <> Err (ValueError "").
Proof. repeat split; vm_compute; congruence. Qed.
Example C56_catalogue_size :
  length (flat_map snd catalogue) = 89%nat /\ existsb (fun e => String.eqb (fst e) "AES256_GCM") (flat_map snd catalogue) = true.
Proof. split; vm_compute; reflexivity. Qed.
