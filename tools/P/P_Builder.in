(** C52, C53: the keyset builder and big integers. *)
From Coq Require Import Strings.Byte Strings.String List NArith ZArith Bool Lia.
From Verif Require Import M_Base L_Base M_Proto M_Wire M_Prims M_PrimitiveSet M_Registry M_KeysetHandle M_KeysetIO
  S_Wire S_Keyset S_Handle L_Keyset L_Handle M_KeysetBuilder S_KeysetBuilder L_KeysetBuilder
  M_BigInt S_BigInt L_BigInt X_Toy L_Toy P_Keyset.
Import ListNotations.
Open Scope string_scope.
Open Scope list_scope.

(** * C52 *)
@thm C52_call_effects builder_step_effect
@thm C52_calls_terminate builder_step_total
@thm C52_ids_unique builder_ids
@thm C52_key_persists builder_key_persists
@thm C52_deleted_key_is_gone builder_delete_gone
@thm C52_keyset_handle builder_handle_spec
@thm C52_from_keyset_handle builder_from_handle
@thm C52_from_keyset builder_from_bytes
@thm C52_histories_stay_well_formed builder_wf
@thm C52_failed_add builder_failed_add
@thm C52_public_keyset builder_public_spec
@thm C52_template_variants builder_templates

(** Rotation: add, make primary, add, make the new one primary, disable the old one,
    enable and delete it, and calls with unknown ids. The second random number repeats
    the first. *)
Definition aead_template : key_template := mk_key_template u_aead (blit "fmt") TINK.
Definition rotation : list builder_op :=
  [AddNewKey 0%N [4]%N aead_template; SetPrimaryKey 5;
   AddNewKey 1%N [4; 4294967294]%N (raw_template aead_template); SetPrimaryKey 4294967295; DisableKey 5].
Definition more_calls : list builder_op :=
  [EnableKey 6; EnableKey 5; DeleteKey 5; DeleteKey 5; DisableKey (-1); SetPrimaryKey 4294967296].
Definition run_handle (ops : list builder_op) : option (list (result (option N)) * keyset * result keyset_handle) :=
  match builder_run toy_registry ops new_keyset_builder with
  | Some (rs, ks) => Some (rs, ks, builder_keyset_handle ks)
  | None => None
  end.
Definition new_data : key_data := mk_key_data u_aead [x66; x6d; x74; x00] SYMMETRIC.
Definition new_data1 : key_data := mk_key_data u_aead [x66; x6d; x74; x01] SYMMETRIC.
Definition rotated : keyset :=
  mk_keyset 4294967295 [mk_key (Some new_data) DISABLED 5 TINK; mk_key (Some new_data1) ENABLED 4294967295 RAW].
Example C52_rotation :
  run_handle rotation = Some ([Ok (Some 5%N); Ok None; Ok (Some 4294967295%N); Ok None; Ok None],
                              rotated, Ok (mk_handle rotated)).
Proof. vmr. Qed.
Example C52_more_calls :
  run_handle (rotation ++ more_calls) =
  let ks := mk_keyset 4294967295 [mk_key (Some new_data1) ENABLED 4294967295 RAW] in
  Some ([Ok (Some 5%N); Ok None; Ok (Some 4294967295%N); Ok None; Ok None;
         Err key_not_found; Ok None; Ok None; Err key_not_found; Err key_not_found; Err key_not_found],
        ks, Ok (mk_handle ks)).
Proof. vmr. Qed.
Example C52_persist_hypotheses_met :
  first_with 5 rotated [] (mk_key (Some new_data) DISABLED 5 TINK) [mk_key (Some new_data1) ENABLED 4294967295 RAW] /\
  Forall (fun op => ~ deletes 5 op) [EnableKey 6; DisableKey 5; EnableKey 5; DeleteKey 4294967295] /\
  status_after 5 [EnableKey 6; DisableKey 5; EnableKey 5; DeleteKey 4294967295] DISABLED = ENABLED.
Proof.
  split; [split; [reflexivity | split; [reflexivity | constructor]] |]. split; [| vmr].
  repeat (constructor; [discriminate |]). constructor.
Qed.
Example C52_wf_hypotheses_met :
  Forall wf_op rotation /\ wf_keyset new_keyset_builder /\ NoDup (map k_key_id (ks_key rotated)) /\
  proto_size (serialize_keyset rotated) /\ valid_keyset rotated.
Proof.
  split; [repeat constructor; vm_compute; try congruence |]. split; [split; [vmr | intros k []] |].
  split; [repeat constructor; cbn; intuition discriminate |]. split; [vmr |].
  apply create_ok with (h := mk_handle rotated). vmr.
Qed.

(** Ids are not distinct in all histories: additions that raise leave keys with id 0. *)
Theorem C52_ids_unique_in_all_histories_refuted : exists reg ops rs ks,
  builder_run reg ops new_keyset_builder = Some (rs, ks) /\ map k_key_id (ks_key ks) = [0; 0]%N.
Proof.
  exists empty_registry, [AddNewKey 0%N [] aead_template; AddNewKey 0%N [] aead_template].
  eexists. eexists. split; [lazy; reflexivity | reflexivity].
Qed.
Example C52_failed_add_met : exists e ks,
  builder_step toy_registry (AddNewKey 0%N [] (mk_key_template (ulit "none") [] TINK)) rotated = Some (Err e, ks) /\
  wf_keyset ks /\ proto_size (serialize_keyset ks) /\ length (ks_key ks) = 3%nat.
Proof.
  exists (TinkError "No manager for type has been registered."),
    (mk_keyset 4294967295 (ks_key rotated ++ [mk_key None 0 0 0])).
  split; [vmr |]. split; [| split; vmr].
  split; [vmr |]. intros k [<- | [<- | [<- | []]]]; cbn [k_key_data_opt];
    (split; [intros d E; first [discriminate E | apply some_inj in E; subst d] | repeat split; vm_compute; congruence]);
    (split; [| vm_compute; split; congruence]); intros c Hc; vm_compute in Hc;
    repeat (destruct Hc as [<- | Hc]; [lia |]); destruct Hc.
Qed.

(** * C53 *)
@thm C53_minimal_and_exact num_to_bytes_exact
@thm C53_negative num_to_bytes_negative
@thm C53_injective num_to_bytes_injective
Example C53_hypotheses_met :
  num_to_bytes 0 = Ok [x00] /\ num_to_bytes 255 = Ok [xff] /\ num_to_bytes 256 = Ok [x01; x00] /\
  num_to_bytes 65535 = Ok [xff; xff] /\ num_to_bytes 65536 = Ok [x01; x00; x00] /\
  num_to_bytes (2 ^ 64) = Ok [x01; x00; x00; x00; x00; x00; x00; x00; x00].
Proof. repeat split; vmr. Qed.
