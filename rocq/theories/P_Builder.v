(** C52, C53: the keyset builder and big integers. *)
From Coq Require Import Strings.Byte Strings.String List NArith ZArith Bool Lia.
From Verif Require Import M_Base L_Base M_Proto M_Wire M_Prims M_PrimitiveSet M_Registry M_KeysetHandle M_KeysetIO
  S_Wire S_Keyset S_Handle L_Keyset L_Handle M_KeysetBuilder S_KeysetBuilder L_KeysetBuilder
  M_BigInt S_BigInt L_BigInt X_Toy L_Toy P_Keyset.
Import ListNotations.
Open Scope string_scope.
Open Scope list_scope.

(** * C52 *)
Theorem C52_call_effects : forall reg op ks r ks',
  builder_step reg op ks = Some (r, ks') -> builder_effect reg op ks r ks'.
Proof. exact builder_step_effect. Qed.
Print Assumptions C52_call_effects.
Theorem C52_calls_terminate : forall reg op ks,
  match op with
  | AddNewKey rnd _ t =>
      (exists e, registry_new_key_data reg rnd t = Err e) \/
      forall id, (1 <= id <= 4294967295)%N -> unknown_id (Z.of_N id) ks ->
      exists draws ks', builder_step reg (AddNewKey rnd draws t) ks = Some (Ok (Some id), ks')
  | _ => exists r ks', builder_step reg op ks = Some (r, ks')
  end.
Proof. exact builder_step_total. Qed.
Print Assumptions C52_calls_terminate.
Theorem C52_ids_unique : forall reg ops ks rs ks',
  builder_run reg ops ks = Some (rs, ks') ->
  NoDup (map k_key_id (ks_key ks)) -> Forall (fun k => k_key_id k <> 0%N) (ks_key ks) ->
  (forall k k' l m n, ks_key ks' = l ++ k :: m ++ k' :: n -> k_key_id k = k_key_id k' -> k_key_id k = 0%N) /\
  (Forall2 (fun op r => ~ failed_add op r) ops rs ->
   NoDup (map k_key_id (ks_key ks')) /\ Forall (fun k => k_key_id k <> 0%N) (ks_key ks')).
Proof. exact builder_ids. Qed.
Print Assumptions C52_ids_unique.
Theorem C52_key_persists : forall reg ops ks rs ks' id before k after,
  builder_run reg ops ks = Some (rs, ks') ->
  first_with id ks before k after -> Forall (fun op => ~ deletes id op) ops ->
  exists before' after',
    first_with id ks' before' (with_status (status_after id ops (k_status k)) k) after'.
Proof. exact builder_key_persists. Qed.
Print Assumptions C52_key_persists.
Theorem C52_deleted_key_is_gone : forall reg id ks r ks',
  builder_step reg (DeleteKey id) ks = Some (r, ks') -> NoDup (map k_key_id (ks_key ks)) ->
  unknown_id id ks' /\ (forall k, In k (ks_key ks') <-> In k (ks_key ks) /\ ~ has_id id k).
Proof. exact builder_delete_gone. Qed.
Print Assumptions C52_deleted_key_is_gone.
Theorem C52_keyset_handle : forall ks, wf_keyset ks -> proto_size (serialize_keyset ks) ->
  (valid_keyset ks -> builder_keyset_handle ks = Ok (mk_handle ks)) /\
  (~ valid_keyset ks -> raises_tink (builder_keyset_handle ks)).
Proof. exact builder_handle_spec. Qed.
Print Assumptions C52_keyset_handle.
Theorem C52_from_keyset_handle : forall h, wf_keyset (kh_keyset h) -> proto_size (serialize_keyset (kh_keyset h)) ->
  builder_from_keyset_handle h = Ok (kh_keyset h).
Proof. exact builder_from_handle. Qed.
Print Assumptions C52_from_keyset_handle.
Theorem C52_from_keyset : forall ks, wf_keyset ks -> proto_size (serialize_keyset ks) ->
  builder_from_keyset (builder_keyset ks) = Ok ks.
Proof. exact builder_from_bytes. Qed.
Print Assumptions C52_from_keyset.
Theorem C52_histories_stay_well_formed : forall reg ops ks rs ks', makes_wf_keys reg -> Forall wf_op ops ->
  builder_run reg ops ks = Some (rs, ks') -> wf_keyset ks -> wf_keyset ks'.
Proof. exact builder_wf. Qed.
Print Assumptions C52_histories_stay_well_formed.
Theorem C52_failed_add : forall reg rnd draws t ks e ks',
  builder_step reg (AddNewKey rnd draws t) ks = Some (Err e, ks') ->
  wf_keyset ks -> proto_size (serialize_keyset ks') ->
  raises_tink (builder_keyset_handle ks').
Proof. exact builder_failed_add. Qed.
Print Assumptions C52_failed_add.
Theorem C52_public_keyset : forall reg ks x, wf_keyset ks -> proto_size (serialize_keyset ks) ->
  (builder_public_keyset reg ks = Ok x <->
   valid_keyset ks /\
   exists pks, x = serialize_keyset pks /\
     ks_primary_key_id pks = ks_primary_key_id ks /\
     Forall2 (public_counterpart reg) (ks_key ks) (ks_key pks) /\
     (forall k, In k (ks_key ks) -> k_output_prefix_type k <> UNKNOWN_PREFIX /\ k_status k <> UNKNOWN_STATUS) /\
     valid_keyset pks /\ ~ has_secret pks).
Proof. exact builder_public_spec. Qed.
Print Assumptions C52_public_keyset.
Theorem C52_template_variants : forall reg rnd draws t ks id ks' prefix,
  (add_new_key reg rnd draws (raw_template t) ks = Some (Ok id, ks') /\ prefix = RAW) \/
  (add_new_key reg rnd draws (legacy_template t) ks = Some (Ok id, ks') /\ prefix = LEGACY) ->
  exists d, registry_new_key_data reg rnd (mk_key_template (kt_type_url t) (kt_value t) prefix) = Ok d /\
    ks_key ks' = ks_key ks ++ [mk_key (Some d) ENABLED id prefix].
Proof. exact builder_templates. Qed.
Print Assumptions C52_template_variants.

(** Rotation: add, make primary, add, make the new one primary, disable the old one,
    enable and delete it, and calls with unknown ids. The second random number repeats
    the first. *)
Definition aead_template : key_template := mk_key_template u_aead (blit "fmt") TINK.
Definition rotation : list builder_op :=
  [AddNewKey 0%N [4]%N aead_template; SetPrimaryKey 5;
   AddNewKey 1%N [4; 4294967294]%N (raw_template aead_template); SetPrimaryKey 4294967295; DisableKey 5].
Definition more_calls : list builder_op :=
  [EnableKey 6; EnableKey 5; DeleteKey 5; DeleteKey 5; DisableKey (-1); SetPrimaryKey 4294967296].
Definition run_handle (ops : list builder_op) : option (list (result (option N)) * keyset * result keyset_handle) :=
  match builder_run toy_registry ops new_keyset_builder with
  | Some (rs, ks) => Some (rs, ks, builder_keyset_handle ks)
  | None => None
  end.
Definition new_data : key_data := mk_key_data u_aead [x66; x6d; x74; x00] SYMMETRIC.
Definition new_data1 : key_data := mk_key_data u_aead [x66; x6d; x74; x01] SYMMETRIC.
Definition rotated : keyset :=
  mk_keyset 4294967295 [mk_key (Some new_data) DISABLED 5 TINK; mk_key (Some new_data1) ENABLED 4294967295 RAW].
Example C52_rotation :
  run_handle rotation = Some ([Ok (Some 5%N); Ok None; Ok (Some 4294967295%N); Ok None; Ok None],
                              rotated, Ok (mk_handle rotated)).
Proof. vmr. Qed.
Example C52_more_calls :
  run_handle (rotation ++ more_calls) =
  let ks := mk_keyset 4294967295 [mk_key (Some new_data1) ENABLED 4294967295 RAW] in
  Some ([Ok (Some 5%N); Ok None; Ok (Some 4294967295%N); Ok None; Ok None;
         Err key_not_found; Ok None; Ok None; Err key_not_found; Err key_not_found; Err key_not_found],
        ks, Ok (mk_handle ks)).
Proof. vmr. Qed.
Example C52_persist_hypotheses_met :
  first_with 5 rotated [] (mk_key (Some new_data) DISABLED 5 TINK) [mk_key (Some new_data1) ENABLED 4294967295 RAW] /\
  Forall (fun op => ~ deletes 5 op) [EnableKey 6; DisableKey 5; EnableKey 5; DeleteKey 4294967295] /\
  status_after 5 [EnableKey 6; DisableKey 5; EnableKey 5; DeleteKey 4294967295] DISABLED = ENABLED.
Proof.
  split; [split; [reflexivity | split; [reflexivity | constructor]] |]. split; [| vmr].
  repeat (constructor; [discriminate |]). constructor.
Qed.
Example C52_wf_hypotheses_met :
  Forall wf_op rotation /\ wf_keyset new_keyset_builder /\ NoDup (map k_key_id (ks_key rotated)) /\
  proto_size (serialize_keyset rotated) /\ valid_keyset rotated.
Proof.
  split; [repeat constructor; vm_compute; try congruence |]. split; [split; [vmr | intros k []] |].
  split; [repeat constructor; cbn; intuition discriminate |]. split; [vmr |].
  apply create_ok with (h := mk_handle rotated). vmr.
Qed.

(** Ids are not distinct in all histories: additions that raise leave keys with id 0. *)
Theorem C52_ids_unique_in_all_histories_refuted : exists reg ops rs ks,
  builder_run reg ops new_keyset_builder = Some (rs, ks) /\ map k_key_id (ks_key ks) = [0; 0]%N.
Proof.
  exists empty_registry, [AddNewKey 0%N [] aead_template; AddNewKey 0%N [] aead_template].
  eexists. eexists. split; [lazy; reflexivity | reflexivity].
Qed.
Example C52_failed_add_met : exists e ks,
  builder_step toy_registry (AddNewKey 0%N [] (mk_key_template (ulit "none") [] TINK)) rotated = Some (Err e, ks) /\
  wf_keyset ks /\ proto_size (serialize_keyset ks) /\ length (ks_key ks) = 3%nat.
Proof.
  exists (TinkError "No manager for type has been registered."),
    (mk_keyset 4294967295 (ks_key rotated ++ [mk_key None 0 0 0])).
  split; [vmr |]. split; [| split; vmr].
  split; [vmr |]. intros k [<- | [<- | [<- | []]]]; cbn [k_key_data_opt];
    (split; [intros d E; first [discriminate E | apply some_inj in E; subst d] | repeat split; vm_compute; congruence]);
    (split; [| vm_compute; split; congruence]); intros c Hc; vm_compute in Hc;
    repeat (destruct Hc as [<- | Hc]; [lia |]); destruct Hc.
Qed.

(** * C53 *)
Theorem C53_minimal_and_exact : forall n, 0 <= n ->
  exists x, num_to_bytes n = Ok x /\ x <> [] /\ big_endian x = n /\
    forall y, y <> [] -> big_endian y = n ->
      exists k, y = repeat x00 k ++ x.
Proof. exact num_to_bytes_exact. Qed.
Print Assumptions C53_minimal_and_exact.
Theorem C53_negative : forall n, n < 0 -> num_to_bytes n = Err OverflowError.
Proof. exact num_to_bytes_negative. Qed.
Print Assumptions C53_negative.
Theorem C53_injective : forall n m x, num_to_bytes n = Ok x -> num_to_bytes m = Ok x -> n = m.
Proof. exact num_to_bytes_injective. Qed.
Print Assumptions C53_injective.
Example C53_hypotheses_met :
  num_to_bytes 0 = Ok [x00] /\ num_to_bytes 255 = Ok [xff] /\ num_to_bytes 256 = Ok [x01; x00] /\
  num_to_bytes 65535 = Ok [xff; xff] /\ num_to_bytes 65536 = Ok [x01; x00; x00] /\
  num_to_bytes (2 ^ 64) = Ok [x01; x00; x00; x00; x00; x00; x00; x00; x00].
Proof. repeat split; vmr. Qed.
