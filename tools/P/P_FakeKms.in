(** C79: the fake KMS of tink.testing. *)
From Coq Require Import Strings.Byte Strings.String List NArith ZArith Bool Lia.
From Verif Require Import M_Base M_Utf8 M_Base64 M_Proto M_Wire M_Prims M_PrimitiveSet M_Registry M_KeysetHandle M_KeysetIO
  M_Kms M_KmsIntegrations M_JwtTypes M_Json M_CcStream M_CcManagers M_KeyFormats M_Templates M_Cli M_Walkthrough M_FakeKms
  S_Base64 S_Keyset S_Wire S_Kms S_Handle S_Config S_CcLaws S_Cli S_Walkthrough S_FakeKms
  L_Base L_Base64 L_Wire L_Keyset L_Cli5 L_Walkthrough L_Basic L_FakeKms X_Toy L_Toy X_Rt X_Config P_JsonKeyset P_Config P_Walkthrough.
Import ListNotations.
Open Scope string_scope.
Open Scope list_scope.

@thm C79_client fake_client_spec
@thm C79_register fake_register_spec
@thm C79_get_aead fake_get_aead_spec
@thm C79_errors fake_get_aead_errors
@thm C79_keyset fake_keyset_spec
@thm C79_round_trip fake_round_trip
@thm C79_as_kms fake_kms_spec

(** ** Examples *)
Definition fake_bytes : bytes := serialize_keyset walk_keyset.
Definition fake_id : bytes := base64_encode fake_bytes.
Definition the_uri : pystr := fake_uri fake_id.
Definition fake_env : py_env :=
  mk_py_env empty_registry 0%N
    [kms_client_of 1 "a://" "other";
     match FakeKmsClient 2 walk_registry None with Ok c => c | Err _ => broken_client end]
    (fun _ => "") [x00] [x00] 1 toy_rt.
Definition fake_registry : registry := fst (setup_run toy_world fake_env 0 [CallAead] empty_registry).
Lemma fake_configured : configured toy_world fake_env Aead fake_registry.
Proof.
  exists [CallAead], (snd (setup_run toy_world fake_env 0 [CallAead] empty_registry)), CallAead.
  split; [| split; [left; reflexivity | reflexivity]]. split; [| split].
  - unfold fake_registry. destruct (setup_run _ _ _ _ _). reflexivity.
  - intros c p _ _. apply toy_ready.
  - intros c [<- | []]. exact I.
Qed.
Definition walk_q : cc_aead :=
  let k := kd_value walk_key in
  mk_cc_aead (fun _ pt ad => status (toy_seal k ad pt)) (fun ct ad => status (toy_open k ct ad)).
Lemma walk_cc : cc_keyset ClsAead (cw_aead toy_world) walk_keyset [(old_key, walk_q)].
Proof.
  destruct (cw_aead toy_world (type_url "AesGcmKey")) as [m |] eqn:E; [| discriminate].
  apply (one_key_over _ _ _ m walk_key 8 walk_q Aead "AesGcmKey" false).
  - intros [H | [H | []]]; discriminate.
  - cbn. tauto.
  - reflexivity.
  - split; [apply text_range; vm_compute; reflexivity | unfold int32_range; vm_compute; split; congruence].
  - vmr.
  - reflexivity.
  - exact E.
  - injection E as <-. reflexivity.
Qed.
Lemma the_contains : contains the_uri fake_bytes /\ contains (the_uri ++ ulit "==") fake_bytes.
Proof.
  split.
  - exists fake_id, 0%nat. split; [apply base64_encode_text | rewrite app_nil_r; reflexivity].
  - exists fake_id, 2%nat. split; [apply base64_encode_text |]. unfold the_uri, fake_uri. rewrite map_app, app_assoc. reflexivity.
Qed.
Example C79_hypotheses_met :
  configured toy_world fake_env Aead fake_registry /\ configured toy_world kms_env Aead walk_registry /\
  (exists c, FakeKmsClient 2 walk_registry None = Ok c /\ pe_clients fake_env = [kms_client_of 1 "a://" "other"] ++ [c]) /\
  kc_does_support (kms_client_of 1 "a://" "other") the_uri = false /\
  usable_uri the_uri /\ contains the_uri fake_bytes /\ fake_bytes <> [] /\ parse_keyset fake_bytes = Some walk_keyset /\
  valid_keyset walk_keyset /\ cc_keyset ClsAead (cw_aead toy_world) walk_keyset [(old_key, walk_q)] /\
  is_primary walk_keyset [(old_key, walk_q)] old_key walk_q /\
  ca_decrypt walk_q (blit "k" ++ walk_format ++ [x02] ++ blit "adhello") (blit "ad") = StOk (blit "hello") /\
  match GetKmsAead fake_registry 0%N [7%N] the_uri with
  | Some (Ok (PrimAead a)) =>
      match aead_encrypt a 0%N (blit "hello") (blit "ad") with
      | Ok ct =>
          bytes_eqb ct ([x01; x00; x00; x00; x08] ++ blit "k" ++ walk_format ++ [x02] ++ blit "adhello") &&
          match fake_get_aead walk_registry (the_uri ++ ulit "==") with
          | Ok b => match aead_decrypt b ct (blit "ad") with Ok pt => bytes_eqb pt (blit "hello") | Err _ => false end
          | Err _ => false
          end
      | Err _ => false
      end
  | _ => false
  end%bool = true.
Proof.
  split; [exact fake_configured |]. split; [exact walk_configured |].
  split; [eexists; split; [reflexivity | reflexivity] |]. split; [vmr |].
  split; [split; [apply text_range; vm_compute; reflexivity | vm_compute; reflexivity] |].
  split; [exact (proj1 the_contains) |]. split; [vm_compute; discriminate |]. split; [vm_compute; reflexivity |].
  split; [apply one_key_valid |]. split; [exact walk_cc |].
  split; [apply (one_primary cc_aead walk_key 8 walk_q) |]. split; [vmr |]. vm_compute. reflexivity.
Qed.
(** A client made for one URI says that it does not support another one, and gives its
    AEAD all the same. (AWS and Google Cloud clients raise TinkError.) *)
Theorem C79_bound_client_refuses_refuted :
  exists reg n uri c u a, FakeKmsClient n reg (Some uri) = Ok c /\ kc_does_support c u = false /\ kc_get_aead c u = Ok a.
Proof.
  exists walk_registry, 1%N, (ulit "fake-kms://other").
  assert (E : exists a, fake_get_aead walk_registry the_uri = Ok a).
  { assert (T : match fake_get_aead walk_registry the_uri with Ok _ => true | Err _ => false end = true)
      by (vm_compute; reflexivity).
    destruct (fake_get_aead walk_registry the_uri) as [a |]; [eauto | discriminate]. }
  destruct E as (a & E).
  exists (mk_kms_client 1%N (fake_does_support (Some (ulit "fake-kms://other"))) (fake_get_aead walk_registry)), the_uri, a.
  split; [reflexivity |]. split; [vmr | exact E].
Qed.
Print Assumptions C79_bound_client_refuses_refuted.
(** Characters that are not in the alphabet are skipped: different URIs name one key. *)
Theorem C79_one_uri_per_key_refuted : exists reg u u',
  u <> u' /\ (exists a, fake_get_aead reg u = Ok a) /\ fake_get_aead reg u = fake_get_aead reg u'.
Proof.
  exists walk_registry, the_uri, (the_uri ++ ulit "!").
  assert (T : match fake_get_aead walk_registry the_uri with Ok _ => true | Err _ => false end = true)
    by (vm_compute; reflexivity).
  split; [vm_compute; discriminate |]. split; [destruct (fake_get_aead walk_registry the_uri) as [a |]; [eauto | discriminate] |].
  unfold fake_get_aead.
  assert (S : urlsafe_b64decode (fake_id ++ [pad; pad; pad]) = urlsafe_b64decode ((fake_id ++ blit "!") ++ [pad; pad; pad]))
    by (vm_compute; reflexivity).
  replace (strip_prefix FAKE_KMS_PREFIX the_uri) with (Some (map Byte.to_N fake_id)) by (vm_compute; reflexivity).
  replace (strip_prefix FAKE_KMS_PREFIX (the_uri ++ ulit "!")) with (Some (map Byte.to_N (fake_id ++ blit "!"))) by (vm_compute; reflexivity).
  replace (utf8_encode (map Byte.to_N fake_id)) with (Some fake_id) by (vm_compute; reflexivity).
  replace (utf8_encode (map Byte.to_N (fake_id ++ blit "!"))) with (Some (fake_id ++ blit "!")) by (vm_compute; reflexivity).
  rewrite S. reflexivity.
Qed.
Print Assumptions C79_one_uri_per_key_refuted.
(** Not every error is a TinkError. *)
Theorem C79_only_tink_error_refuted : exists reg u e, fake_get_aead reg u = Err e /\ is_tink_error e = false.
Proof. exists walk_registry, (ulit "fake-kms://A"), (ValueError "binascii.Error"). split; vm_compute; reflexivity. Qed.
Print Assumptions C79_only_tink_error_refuted.
Example C79_errors_met :
  fake_get_aead walk_registry (ulit "fake-kms://" ++ [55296%N]) = Err UnicodeError /\
  match fake_get_aead walk_registry (ulit "aws-kms://") with Err e => is_tink_error e | Ok _ => false end = true /\
  match fake_get_aead walk_registry (ulit "fake-kms://") with Err e => is_tink_error e | Ok _ => false end = true /\
  match FakeKmsClient 1 walk_registry (Some (ulit "aws-kms://")) with Err e => is_tink_error e | Ok _ => false end = true.
Proof. split; [| split; [| split]]; vm_compute; reflexivity. Qed.
