(** C13-C22: keyset validation, generation, reading, writing, public handles. *)
From Coq Require Import Strings.Byte Strings.String List NArith ZArith Bool Lia.
From Verif Require Import M_Base M_Proto M_Wire M_Prims M_PrimitiveSet M_Registry M_KeysetHandle
  M_KeysetIO M_Wrappers S_Keyset S_Handle S_Wire L_Base L_Wire L_PrimitiveSet L_Keyset L_Wrappers
  L_Wrappers2 L_Wrappers3 L_Handle X_Toy L_Toy.
Import ListNotations.
Open Scope Z_scope.

(** * C13 *)
@thm C13_create_iff_valid create_ok
@thm C13_create_error create_err
@thm C13_handles_are_valid handles_are_valid

(** A keyset with an invalid DESTROYED key, an all-public keyset without primary,
    and rejected ones. *)
Example C13_accepted :
  valid_keyset (toy_keyset u_aead SYMMETRIC) /\
  valid_keyset (mk_keyset 1 [mk_key None DESTROYED 1 UNKNOWN_PREFIX;
                             toy_key u_aead SYMMETRIC "k" ENABLED 1 RAW]) /\
  valid_keyset (mk_keyset 1 [toy_key u_verify ASYMMETRIC_PUBLIC "k" ENABLED 2 TINK]).
Proof. split; [| split]; apply validate_keyset_ok; vmr. Qed.
Example C13_rejected :
  ~ valid_keyset (mk_keyset 1 [toy_key u_aead SYMMETRIC "k" ENABLED 2 TINK]) /\
  ~ valid_keyset (mk_keyset 1 [toy_key u_aead SYMMETRIC "k" ENABLED 1 TINK;
                               toy_key u_aead SYMMETRIC "k" ENABLED 1 RAW]) /\
  ~ valid_keyset (mk_keyset 1 [toy_key u_aead SYMMETRIC "k" DISABLED 1 TINK]) /\
  ~ valid_keyset (mk_keyset 1 []).
Proof.
  split; [| split; [| split]]; intro H; apply validate_keyset_ok in H; vm_compute in H; discriminate.
Qed.

(** * C14 *)
@thm C14_generate_new generate_new_result
@thm C14_generate_new_terminates generate_new_terminates
@thm C14_generate_new_error generate_new_err

Example C14_hypotheses_met :
  generate_new toy_registry 0%N [4294967295%N] (mk_key_template u_aead (blit "fmt") CRUNCHY) =
  Some (Ok (mk_handle (mk_keyset 2
    [mk_key (Some (mk_key_data u_aead (blit "fmt" ++ [x00]) SYMMETRIC)) ENABLED 2 CRUNCHY]))) /\
  exists e, generate_new toy_registry 0%N [5%N] (mk_key_template (ulit "none") [] CRUNCHY) =
    Some (Err e) /\ is_tink_error e = true.
Proof. split; [vmr |]. eexists. split; vmr. Qed.

(** * C15 C16 *)
@thm C15_encrypted_binary_round_trip encrypted_binary_round_trip
@thm C16_write_encrypted write_encrypted_spec
@thm C16_read_encrypted read_with_associated_data_ok
@thm C16_read_encrypted_error read_with_associated_data_err

Definition toy_master : aead := toy_aead (blit "master").
Example C15_hypotheses_met :
  let h := toy_handle u_aead SYMMETRIC in
  valid_keyset (kh_keyset h) /\
  (forall pt ct, aead_encrypt toy_master 0%N pt (blit "ad") = Ok ct -> ct <> []) /\
  exists x, write_with_associated_data h binary_keyset_writer toy_master 0%N (blit "ad") [] = (Ok tt, x) /\
    proto_size x /\
    read_with_associated_data (binary_keyset_reader x) toy_master (blit "ad") = Ok h /\
    raises_tink (read_with_associated_data (binary_keyset_reader x) toy_master (blit "da")).
Proof.
  cbv zeta. split; [apply validate_keyset_ok; vmr |]. split.
  { intros pt ct E. apply ok_inj in E. subst ct. discriminate. }
  eexists. split; [vmr |]. split; [unfold proto_size; vmr |]. split; [vmr | toy_raises].
Qed.

(** A key-encryption primitive whose ciphertexts do not decrypt back is refused
    and nothing is written. *)
Example C16_refusal_met :
  let bad := mk_aead (fun _ pt _ => Ok pt) (fun _ _ => Ok [x08; x01]) in
  exists e, write_with_associated_data (toy_handle u_aead SYMMETRIC) binary_keyset_writer bad 0%N []
    (blit "before") = (Err e, blit "before") /\ is_tink_error e = true.
Proof. cbv zeta. eexists. split; vmr. Qed.

(** * C17 *)
@thm C17_write_no_secret write_no_secret_spec
@thm C17_read_no_secret read_no_secret_spec
@thm C17_read_no_secret_error read_no_secret_err
@thm C17_serialize_without_secret proto_serialize_without_secret_spec
@thm C17_parse_without_secret proto_parse_without_secret_spec
@thm C17_no_secret_round_trip no_secret_binary_round_trip

Lemma toy_wf : forall url m, valid_text url -> int32_range m -> wf_keyset (toy_keyset url m).
Proof.
  intros url m Hu Hm. split; [vmr |].
  assert (Hi : forall n, int32_range n -> True) by auto.
  intros k [<- | [<- | [<- | [<- | []]]]];
    (split; [intros d E; apply some_inj in E; subst d; split; assumption |]);
    repeat split; try (vm_compute; congruence).
Qed.
Lemma ascii_text : forall s, forallb (fun c => N.ltb c 128) s = true -> valid_text s.
Proof.
  intros s H c Hc. rewrite forallb_forall in H. specialize (H c Hc). apply N.ltb_lt in H. lia.
Qed.

Example C17_hypotheses_met :
  let h := toy_handle u_verify ASYMMETRIC_PUBLIC in
  valid_keyset (kh_keyset h) /\ wf_keyset (kh_keyset h) /\ ~ has_secret (kh_keyset h) /\
  proto_size (serialize_keyset (kh_keyset h)) /\
  (exists x, proto_serialize_without_secret h = Ok x /\ proto_parse_without_secret x = Ok h) /\
  has_secret (kh_keyset (toy_handle u_aead SYMMETRIC)) /\
  raises_tink (proto_serialize_without_secret (toy_handle u_aead SYMMETRIC)).
Proof.
  cbv zeta. split; [apply validate_keyset_ok; vmr |].
  split; [apply toy_wf; [apply ascii_text; vmr | vm_compute; split; congruence] |].
  split.
  { intros (k & Hk & Hs). cbn in Hk.
    destruct Hk as [<- | [<- | [<- | [<- | []]]]]; destruct Hs as [E | [E | E]]; discriminate. }
  split; [unfold proto_size; vmr |].
  split; [exists (serialize_keyset (toy_keyset u_verify ASYMMETRIC_PUBLIC)); split; vmr |].
  split; [| toy_raises].
  exists (toy_primary u_aead SYMMETRIC). split; [left; vmr | right; left; vmr].
Qed.

(** * C18 *)
@thm C18_keyset_info_exact keyset_info_exact
@thm C18_keyset_info_no_key_material keyset_info_no_key_material
@thm C18_encrypted_output_no_key_material encrypted_output_no_key_material

Example C18_hypotheses_met :
  let k v := toy_key u_aead SYMMETRIC v ENABLED 1 TINK in
  same_public_view (mk_keyset 1 [k "secret1"%string]) (mk_keyset 1 [k "other"%string]) /\
  mk_keyset 1 [k "secret1"%string] <> mk_keyset 1 [k "other"%string].
Proof.
  cbv zeta. split; [| discriminate]. split; [reflexivity |]. constructor; [| constructor].
  repeat split.
Qed.

(** * C19 *)
@thm C19_token_required token_required
@thm C19_refusal_independent_of_keyset token_refusal_uniform
@thm C19_token_accepted token_accepted

Example C19_hypotheses_met :
  OtherKeyAccess 3 <> SecretKeyAccessToken /\
  let h := toy_handle u_aead SYMMETRIC in
  valid_keyset (kh_keyset h) /\ wf_keyset (kh_keyset h) /\
  proto_size (serialize_keyset (kh_keyset h)).
Proof.
  split; [discriminate |]. cbv zeta. split; [apply validate_keyset_ok; vmr |].
  split; [apply toy_wf; [apply ascii_text; vmr | vm_compute; split; congruence] |].
  unfold proto_size; vmr.
Qed.

(** * C20 *)
@thm C20_public_handle public_keyset_handle_ok
@thm C20_public_handle_error public_keyset_handle_err
@thm C20_no_public_counterpart public_keyset_handle_refuses

Example C20_hypotheses_met :
  public_keyset_handle toy_registry sign_handle =
    Ok (mk_handle (toy_keyset u_verify ASYMMETRIC_PUBLIC)) /\
  raises_tink (public_keyset_handle toy_registry (toy_handle u_aead SYMMETRIC)).
Proof. split; [vmr | toy_raises]. Qed.

(** * C21 *)
@thm C21_keyset_round_trip keyset_round_trip
@thm C21_encrypted_keyset_round_trip encrypted_keyset_round_trip
@thm C21_key_data_round_trip key_data_round_trip
@thm C21_key_template_round_trip key_template_round_trip
@thm C21_parsed_keysets_are_representable parse_keyset_wf
@thm C21_parsed_encrypted_keysets_are_representable parse_encrypted_keyset_wf
@thm C21_serialize_injective serialize_keyset_inj

(** Extreme values: unknown enum numbers, the largest id, absent key data and an
    empty key data. *)
Example C21_hypotheses_met :
  let ks := mk_keyset 4294967295
    [mk_key None (-1) 0 2147483647; mk_key (Some (mk_key_data [] [] 0)) 77 4294967295 (-2147483648);
     mk_key (Some (mk_key_data [233; 8364; 128512]%N [x00; xff] 2)) 1 128 3] in
  wf_keyset ks /\ proto_size (serialize_keyset ks) /\ parse_keyset (serialize_keyset ks) = Some ks /\
  parse_keyset [x08] = None.
Proof.
  cbv zeta. split.
  { split; [vmr |]. intros k [<- | [<- | [<- | []]]]; cbn [k_key_data_opt];
      (split; [intros d E; try discriminate E; apply some_inj in E; subst d |]);
      repeat split; try (vm_compute; congruence).
    - intros c [].
    - intros c [<- | [<- | [<- | []]]]; lia. }
  split; [unfold proto_size; vmr |]. split; vmr.
Qed.

(** * C22 *)
@thm C22_binary_reader_total binary_reader_total
@thm C22_binary_parsers_total binary_parsers_total

Example C22_garbage :
  raises_tink (proto_parse_without_secret [xff; xff]) /\
  raises_tink (proto_parse_without_secret []) /\
  raises_tink (proto_parse_encrypted [x12; x01; x41] toy_master []).
Proof. repeat split; toy_raises. Qed.
