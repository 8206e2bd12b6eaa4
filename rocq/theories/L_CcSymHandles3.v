(** Proofs: new keyset handles for the predefined symmetric templates, and round trips. *)
From Coq Require Import Strings.Byte Strings.String List NArith ZArith Bool Lia.
From Verif Require Import M_Base M_Utf8 M_Proto M_Wire M_ProtoMsg M_KeyFormats M_Prims M_PrimitiveSet M_Registry M_KeysetHandle M_Wrappers M_StreamTypes M_CcStream M_CcManagers
  M_Templates M_CcAes M_CcStreamKeys M_CcModes M_CcSymmetric M_CcSymKeys S_Keyset S_Wrappers S_Wire S_Config S_CcLaws S_CcAes S_CcStreamKeys S_CcModes S_CcSymmetric
  S_CcSymKeys S_CcSymHandles L_Base L_Registry L_Wire L_Keyset L_Wrappers L_Handle L_Config L_Config2 L_Config3 L_Config4
  L_CcStreamKeys L_CcSymKeys L_CcSymKeys2 L_CcSymHandles L_CcSymHandles2.
Import ListNotations.
Open Scope string_scope.
Open Scope list_scope.
Open Scope nat_scope.

(** ** Keys that a key format cannot tell apart *)
Lemma asks_alike : forall url x k k', asks_for_key url x k -> asks_for_key url x k' -> usable k -> usable k' -> alike k k'.
Proof.
  intros url x k k' (T & m & E & F) (T' & m' & E' & F') U U'. rewrite T in T'. apply type_url_inj in T'. unfold alike. split; [exact T' |].
  assert (S : sk_format k = sk_format k') by (destruct k, k'; try discriminate T'; reflexivity). rewrite <- S in E'. rewrite E in E'. injection E' as <-.
  rewrite <- S in F'. clear S E T. destruct k, k'; try discriminate T'; cbv beta iota delta [format_attributes sk_format] in F, F'; attrs;
    repeat match goal with H : hash_number _ _ |- _ => apply hash_number_known in H end;
    repeat match goal with A : ?x = Z.of_nat ?a, B : ?x = Z.of_nat ?b |- _ => rewrite A in B; apply Nat2Z.inj in B end;
    cbn [format_attributes material map]; unfold size_of, count;
    (split; [congruence |]); (congruence || (cbn [usable] in U, U'; rewrite U, U'; reflexivity)).
Qed.

(** ** The sizes of new keys *)
Definition sizes_fit (t : key_template) (d : key_data) : Prop :=
  wf_key_template t /\ proto_size (serialize_key_template t) /\ wf_key_data d /\ proto_size (kd_value d) /\ proto_size (serialize_key_data d) /\
  (N.of_nat (length (kd_value d)) < 1024)%N.
Lemma low_text : forall s, forallb (fun c => c <? 55296)%N s = true -> valid_text s.
Proof. intros s Hs c Hc. rewrite forallb_forall in Hs. specialize (Hs _ Hc). apply N.ltb_lt in Hs. auto. Qed.
Lemma low_int : forall z, ((-2147483648 <=? z) && (z <? 2147483648))%Z%bool = true -> int32_range z.
Proof. intros z Hz. apply andb_true_iff in Hz. destruct Hz as (Z1 & Z2). apply Z.leb_le in Z1. apply Z.ltb_lt in Z2. unfold int32_range. lia. Qed.
Lemma low_size : forall x, (N.of_nat (length x) <? 2147483648)%N = true -> proto_size x.
Proof. intros x Hx. apply N.ltb_lt in Hx. exact Hx. Qed.
Ltac explode x E :=
  match type of E with
  | length x = S _ => let a := fresh "a" in destruct x as [| a x]; [discriminate E |]; cbn [length] in E; apply Nat.succ_inj in E; explode x E
  | length x = O => destruct x; [clear E | discriminate E]
  end.
Ltac draw random RL :=
  match goal with |- context [VBytes (random ?c ?n)] =>
    let k := eval vm_compute in (Z.to_nat n) in
    let E := fresh "E" in
    assert (E : length (random c n) = k) by (pose proof (RL c n ltac:(lia)); lia);
    let x := fresh "x" in
    generalize dependent (random c n); intros x E; explode x E
  end.
Ltac template_sizes random RL M ND :=
  let t := fresh "t" in let I := fresh "I" in let U := fresh "U" in
  destruct M as (t & I & U & ->); cbn [In] in I;
  repeat destruct I as [<- | I]; try contradiction I; try (vm_compute in U; discriminate U); clear U;
  cbn [key_manager_impl cl_new_key_data kt_format kt_validate_key_format kt_create_key kt_key kt_name
       aes_ctr_hmac_aead_key_manager aes_gcm_key_manager aes_gcm_siv_key_manager aes_eax_key_manager xchacha20_poly1305_key_manager
       aes_siv_key_manager hmac_key_manager aes_cmac_key_manager hmac_prf_key_manager hkdf_prf_key_manager aes_cmac_prf_key_manager] in ND;
  match type of ND with context [parse_message ?f ?x] => let y := eval vm_compute in (parse_message f x) in change (parse_message f x) with y in ND end;
  cbv beta iota in ND;
  try match type of ND with (match ?c with _ => _ end) = _ => let y := eval vm_compute in c in change c with y in ND end;
  cbv beta iota in ND; injection ND as <-;
  repeat match goal with |- context [num_at ?fs ?m ?q] => let z := eval vm_compute in (num_at fs m q) in change (num_at fs m q) with z end;
  repeat draw random RL;
  (split; [split; [apply low_text | apply low_int]; vm_compute; reflexivity |]); (split; [apply low_size; vm_compute; reflexivity |]);
  (split; [split; [apply low_text | apply low_int]; vm_compute; reflexivity |]); (split; [apply low_size; vm_compute; reflexivity |]);
  (split; [apply low_size; vm_compute; reflexivity |]); vm_compute; reflexivity.
Lemma aead_template_sizes : forall name t lib random rnd m d, random_law random -> In (name, Ok t) aead_templates ->
  aead_managers lib random (kt_type_url t) = Some m -> cl_new_key_data m rnd (kt_value t) = StOk d -> sizes_fit t d.
Proof.
  intros name t lib random rnd m d RL Hin M ND. unfold aead_managers in M. apply find_manager_some in M; [| exact (proj1 (aead_family lib random))].
  unfold aead_templates in Hin. unfold sizes_fit.
  repeat (destruct Hin as [Hin | Hin]; [vm_compute in Hin; injection Hin as _ <-; cbn [kt_type_url kt_value kt_output_prefix_type] in * |]);
    [.. | contradiction].
  all: template_sizes random RL M ND.
Qed.
Lemma daead_template_sizes : forall name t lib random rnd m d, random_law random -> In (name, Ok t) daead_templates ->
  daead_managers lib random (kt_type_url t) = Some m -> cl_new_key_data m rnd (kt_value t) = StOk d -> sizes_fit t d.
Proof.
  intros name t lib random rnd m d RL Hin M ND. unfold daead_managers in M. apply find_manager_some in M; [| exact (proj1 (daead_family lib))].
  unfold daead_templates in Hin. unfold sizes_fit.
  repeat (destruct Hin as [Hin | Hin]; [vm_compute in Hin; injection Hin as _ <-; cbn [kt_type_url kt_value kt_output_prefix_type] in * |]);
    [.. | contradiction].
  all: template_sizes random RL M ND.
Qed.
Lemma mac_template_sizes : forall name t lib random rnd m d, random_law random -> In (name, Ok t) mac_templates ->
  mac_managers lib random (kt_type_url t) = Some m -> cl_new_key_data m rnd (kt_value t) = StOk d -> sizes_fit t d.
Proof.
  intros name t lib random rnd m d RL Hin M ND. unfold mac_managers in M. apply find_manager_some in M; [| exact (proj1 (mac_family lib))].
  unfold mac_templates in Hin. unfold sizes_fit.
  repeat (destruct Hin as [Hin | Hin]; [vm_compute in Hin; injection Hin as _ <-; cbn [kt_type_url kt_value kt_output_prefix_type] in * |]);
    [.. | contradiction].
  all: template_sizes random RL M ND.
Qed.
Lemma prf_template_sizes : forall name t lib random rnd m d, random_law random -> In (name, Ok t) prf_templates ->
  prf_managers lib random (kt_type_url t) = Some m -> cl_new_key_data m rnd (kt_value t) = StOk d -> sizes_fit t d.
Proof.
  intros name t lib random rnd m d RL Hin M ND. unfold prf_managers in M. apply find_manager_some in M; [| exact (proj1 (prf_family lib))].
  unfold prf_templates in Hin. unfold sizes_fit.
  repeat (destruct Hin as [Hin | Hin]; [vm_compute in Hin; injection Hin as _ <-; cbn [kt_type_url kt_value kt_output_prefix_type] in * |]);
    [.. | contradiction].
  all: template_sizes random RL M ND.
Qed.
