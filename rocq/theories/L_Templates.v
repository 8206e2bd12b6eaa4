From Coq Require Import Strings.Byte Strings.String List NArith ZArith Bool Lia.
From Verif Require Import M_Base M_Proto M_Utf8 M_Wire M_ProtoMsg M_KeyFormats M_BigInt M_Templates.
From Verif Require Import S_Wire S_ProtoMsg S_BigInt S_Templates L_Wire L_BigInt L_ProtoMsg L_Base.
Import ListNotations.
Open Scope string_scope.
Open Scope list_scope.
Open Scope Z_scope.

Definition is_u32 (z : Z) : bool := (0 <=? z) && (z <? 4294967296).
Definition is_i32 (z : Z) : bool := (-2147483648 <=? z) && (z <? 2147483648).
Lemma is_u32_spec : forall z, is_u32 z = true <-> 0 <= z < 2 ^ 32.
Proof. intros z. unfold is_u32. rewrite andb_true_iff, Z.leb_le, Z.ltb_lt. change (2 ^ 32) with 4294967296. lia. Qed.
Lemma is_i32_spec : forall z, is_i32 z = true <-> - 2 ^ 31 <= z < 2 ^ 31.
Proof. intros z. unfold is_i32. rewrite andb_true_iff, Z.leb_le, Z.ltb_lt. change (2 ^ 31) with 2147483648. lia. Qed.

Lemma check_u32 : forall z, check_value TUint32 (VNum z) = if is_u32 z then Ok (VNum z) else Err (ValueError "").
Proof. reflexivity. Qed.
Lemma check_i32 : forall z, check_value TInt32 (VNum z) = if is_i32 z then Ok (VNum z) else Err (ValueError "").
Proof. reflexivity. Qed.
Lemma check_enum : forall z, check_value TEnum (VNum z) = if is_i32 z then Ok (VNum z) else Err (ValueError "").
Proof. reflexivity. Qed.
Lemma check_string : forall s, check_value TString (VString s) =
  match utf8_encode s with Some _ => Ok (VString s) | None => Err UnicodeError end.
Proof. reflexivity. Qed.
Lemma check_bytes : forall x, check_value TBytes (VBytes x) = Ok (VBytes x).
Proof. reflexivity. Qed.
Lemma check_msg : forall fs x, check_value (TMsg fs) (VMsg x) = Ok (VMsg x).
Proof. reflexivity. Qed.

Lemma utf8_encode_valid : forall s e, utf8_encode s = Some e -> valid_text s.
Proof.
  intros s e H. apply valid_text_scalar. apply L_Utf8.utf8_encode_some. exists e. assumption.
Qed.

#[local] Arguments check_value : simpl never.
#[local] Arguments serialize_message : simpl never.
#[local] Arguments ulit : simpl never.
#[local] Arguments num_to_bytes : simpl never.
#[local] Arguments is_u32 : simpl never.
#[local] Arguments is_i32 : simpl never.

Ltac unfold_create H :=
  unfold create, create_aes_eax, create_aes_gcm, create_aes_gcm_siv, create_aes_ctr_hmac_aead, create_kms_aead,
    create_kms_envelope_aead, create_aes_siv, create_hmac, create_aes_cmac, create_aes_cmac_prf, create_hmac_prf,
    create_hkdf_prf, create_aes_gcm_hkdf_streaming, create_aes_ctr_hmac_streaming, create_ecdsa,
    create_rsa_ssa_pkcs1, create_rsa_ssa_pss, create_ecies_aead_hkdf, create_hpke, create_jwt_hmac,
    create_jwt_ecdsa, create_jwt_rsa_ssa_pkcs1, create_jwt_rsa_ssa_pss, xchacha20_poly1305, ed25519,
    template_value, build, new_key_template, bind in H.
Ltac step_checks H :=
  repeat (cbn -[serialize_message ulit check_value num_to_bytes] in H;
    first
      [ rewrite check_u32 in H | rewrite check_i32 in H | rewrite check_enum in H | rewrite check_string in H
      | rewrite check_bytes in H | rewrite check_msg in H
      | match type of H with
        | context [if ?c then _ else _] => destruct c eqn:?
        | context [match utf8_encode ?s with _ => _ end] => destruct (utf8_encode s) eqn:?
        | context [match num_to_bytes ?e with _ => _ end] => destruct (num_to_bytes e) eqn:?
        end ]); try discriminate.

Lemma num_to_bytes_reads : forall z x, num_to_bytes z = Ok x -> x <> [] /\ big_endian x = z.
Proof.
  intros z x H. destruct (Z.ltb_spec z 0) as [L | L].
  - rewrite num_to_bytes_negative in H by assumption. discriminate.
  - destruct (num_to_bytes_exact z L) as [y [E [E1 [E2 _]]]]. rewrite E in H. injection H as <-. auto.
Qed.

Ltac holds_tac :=
  repeat match goal with
    | |- holds_all [] [] => constructor
    | |- holds_all (_ :: _) (_ :: _) => eapply holds_cons; [reflexivity | cbn [snd] |]
    | |- holds_all ?s _ => unfold s
    | |- holds (TMsg _) None => constructor
    | |- holds (TMsg _) (Some (VMsg _)) => apply holds_msg
    | |- holds TBytes _ => constructor
    | |- holds TUint32 _ => constructor; first [ apply is_u32_spec; first [assumption | reflexivity] | lia ]
    | |- holds TInt32 _ => constructor; first [ apply is_i32_spec; first [assumption | reflexivity] ]
    | |- holds TEnum _ => constructor; first [ apply is_i32_spec; first [assumption | reflexivity] | assumption ]
    | |- holds TString _ => constructor; first [ assumption | eapply utf8_encode_valid; eassumption ]
    end.

Theorem template_delivers : forall r t, sane r -> create r = Ok t -> proto_size (kt_value t) ->
  delivers t (promised r).
Proof.
  intros r t Hs H Hsz. destruct r; unfold_create H; step_checks H; apply ok_inj in H; subst t;
    cbn [kt_value kt_type_url kt_output_prefix_type sane] in *;
    (split; [reflexivity |]; split; [reflexivity |]);
    cbn [promised kt_value format parameters];
    try (match goal with |- carries _ [] _ => eexists; split; [reflexivity |] end);
    try (match type of Hs with wf_key_template _ => destruct Hs as [Hs1 Hs2] end);
    try (eexists; split; [apply message_round_trip; [reflexivity | holds_tac | exact Hsz] |]);
    cbv zeta;
    (split; [intros path p Hin; cbn in Hin;
      repeat (destruct Hin as [Hin | Hin]; [injection Hin as <- <-; cbn; first [reflexivity | eexists; split; [reflexivity | apply num_to_bytes_reads; assumption]] |]);
      contradiction |]).
  all: intros path ty Hin Hno; cbn in Hin;
      repeat (destruct Hin as [Hin | Hin]; [injection Hin as <- <-;
         first [ exfalso; eapply Hno; cbn; repeat first [left; reflexivity | right]; fail
               | cbn; unfold reads_default; auto ] |]); try contradiction.
Qed.

Lemma num_to_bytes_ok_nonneg : forall z x, num_to_bytes z = Ok x -> 0 <= z.
Proof.
  intros z x H. destruct (Z.ltb_spec z 0) as [L | L]; [| assumption].
  rewrite num_to_bytes_negative in H by assumption. discriminate.
Qed.
Lemma num_to_bytes_err : forall z e, num_to_bytes z = Err e -> z < 0 /\ e = OverflowError.
Proof.
  intros z x H. destruct (Z.ltb_spec z 0) as [L | L].
  - rewrite num_to_bytes_negative in H by assumption. injection H as <-. auto.
  - destruct (num_to_bytes_exact z L) as [y [E _]]. rewrite E in H. discriminate.
Qed.
Lemma i32_small : forall z, is_i32 z = true -> -2147483648 <= z < 2147483648.
Proof. intros z H. apply is_i32_spec in H. exact H. Qed.

Theorem template_ok_representable : forall r t, sane r -> create r = Ok t -> representable r.
Proof.
  intros r t Hs H. destruct r; unfold_create H; step_checks H; clear H; cbn [sane] in Hs;
    try (match type of Hs with wf_key_template _ => destruct Hs as [Hs1 Hs2] end);
    (split; [| cbn [output_prefix promised]; first [apply is_i32_spec; assumption | cbv; split; congruence]]);
    intros path p Hin; cbn in Hin;
    repeat (destruct Hin as [Hin | Hin]; [injection Hin as <- <-;
      eexists; (split; [cbn; repeat first [left; reflexivity | right] |]);
      cbn [fits]; first [ exact I | apply is_u32_spec; assumption | apply is_i32_spec; assumption
        | eapply utf8_encode_valid; eassumption | assumption | eapply num_to_bytes_ok_nonneg; eassumption | lia ] |]);
    contradiction.
Qed.

Lemma encode_none_invalid : forall s, utf8_encode s = None -> ~ valid_text s.
Proof. intros s H V. destruct (valid_text_encode _ V) as [e E]. congruence. Qed.

Ltac refute_param Hp v :=
  let t := fresh in let Hin := fresh in let Hf := fresh in
  edestruct Hp with (p := v) as [t [Hin Hf]]; [cbn; repeat first [left; reflexivity | right] |];
  cbn in Hin;
  repeat (destruct Hin as [Hin | Hin]; [first [discriminate Hin | injection Hin as <-] |]); try contradiction;
  cbn [fits] in Hf.

Theorem template_error : forall r e, create r = Err e ->
  (e = ValueError "" \/ e = UnicodeError \/ e = OverflowError) /\ ~ representable r.
Proof.
  intros r e H. destruct r; unfold_create H; step_checks H.
  all: try (injection H as <-).
  all: split; [first [tauto | match goal with H : num_to_bytes _ = Err _ |- _ => apply num_to_bytes_err in H; tauto end] |].
  all: intros [Hp Hpre].
  all: try match goal with
       | H : is_u32 ?z = false |- _ => refute_param Hp (Num z)
       end.
  all: try match goal with
       | H : is_i32 ?z = false |- _ =>
           first [ apply is_i32_spec in Hpre; cbn [output_prefix promised] in Hpre; congruence
                 | refute_param Hp (Num z) ]
       end.
  all: try match goal with
       | H : utf8_encode ?s = None |- _ => refute_param Hp (Text s); apply (encode_none_invalid _ H); assumption
       | H : num_to_bytes ?z = Err _ |- _ => apply num_to_bytes_err in H; destruct H; refute_param Hp (Integer z); lia
       end.
  all: repeat match goal with
       | H : 0 <= _ < 2 ^ 32 |- _ => apply is_u32_spec in H
       | H : - 2 ^ 31 <= _ < 2 ^ 31 |- _ => apply is_i32_spec in H
       end; try congruence.
Qed.

Theorem template_exists_iff : forall r, sane r -> ((exists t, create r = Ok t) <-> representable r).
Proof.
  intros r Hs. split.
  - intros [t H]. apply (template_ok_representable _ _ Hs H).
  - intros Hr. destruct (create r) as [t | e] eqn:E; [eexists; reflexivity |].
    destruct (template_error _ _ E) as [_ N]. contradiction.
Qed.

Lemma carries_agree : forall f x l1 l2, carries f x l1 -> carries f x l2 -> map fst l1 = map fst l2 ->
  Forall2 (fun a b => exists v, reads v (snd a) /\ reads v (snd b)) l1 l2.
Proof.
  intros f x l1 l2 [m1 [E1 [H1 _]]] [m2 [E2 [H2 _]]]. rewrite E1 in E2. injection E2 as <-. clear E1.
  revert l2 H2. induction l1 as [| [p1 v1] l1 IH]; intros [| [p2 v2] l2] H2 Hp; try discriminate; [constructor |].
  cbn [map fst] in Hp. assert (p1 = p2) as <- by (apply (f_equal (hd p1)) in Hp; exact Hp).
  constructor.
  - exists (get_path (TMsg f) (Some (VMsg m1)) p1). split; [apply H1 | apply H2]; left; reflexivity.
  - apply IH.
    + intros path p Hi. apply H1. right. assumption.
    + intros path p Hi. apply H2. right. assumption.
    + apply (f_equal (@tl _)) in Hp. exact Hp.
Qed.

Lemma reads_num : forall v a b, reads v (Num a) -> reads v (Num b) -> a = b.
Proof. intros v a b H1 H2. cbn in *. congruence. Qed.
Lemma reads_text : forall v a b, reads v (Text a) -> reads v (Text b) -> a = b.
Proof. intros v a b H1 H2. cbn in *. congruence. Qed.
Lemma reads_blob : forall v a b, reads v (Blob a) -> reads v (Blob b) -> a = b.
Proof. intros v a b H1 H2. cbn in *. congruence. Qed.
Lemma reads_integer : forall v a b, reads v (Integer a) -> reads v (Integer b) -> a = b.
Proof. intros v a b [x [H1 [_ H2]]] [y [H3 [_ H4]]]. subst v. injection H3 as <-. congruence. Qed.

Lemma ulit_inj : forall a b, ulit a = ulit b -> a = b.
Proof.
  unfold ulit. induction a as [| c a IH]; intros [| d b] H; try discriminate; [reflexivity |].
  cbn in H. f_equal.
  - apply (f_equal (hd 0%N)) in H. cbn in H. apply (f_equal Ascii.ascii_of_N) in H.
    rewrite !Ascii.ascii_N_embedding in H. exact H.
  - apply IH. apply (f_equal (@tl _)) in H. exact H.
Qed.
Lemma append_inj : forall p a b, String.append p a = String.append p b -> a = b.
Proof. induction p as [| c p IH]; intros a b H; [exact H |]. cbn in H. apply IH. injection H as H. exact H. Qed.

Lemma Forall2_head : forall (A B : Type) (R : A -> B -> Prop) a b l m,
  Forall2 R (a :: l) (b :: m) -> R a b /\ Forall2 R l m.
Proof. intros A B R a b l m H. inversion H; subst. auto. Qed.

Theorem template_injective : forall r1 r2 t, sane r1 -> sane r2 ->
  create r1 = Ok t -> create r2 = Ok t -> proto_size (kt_value t) -> r1 = r2.
Proof.
  intros r1 r2 t S1 S2 H1 H2 Hz.
  destruct (template_delivers _ _ S1 H1 Hz) as [U1 [P1 C1]].
  destruct (template_delivers _ _ S2 H2 Hz) as [U2 [P2 C2]].
  assert (K : key_type (promised r1) = key_type (promised r2)).
  { rewrite U1 in U2. apply ulit_inj in U2. apply append_inj in U2. exact U2. }
  rewrite P1 in P2. clear U1 U2 P1 H1 H2 S1 S2 Hz.
  destruct r1, r2; try discriminate K; clear K; cbn [promised output_prefix format parameters] in *;
    pose proof (carries_agree _ _ _ _ C1 C2 eq_refl) as F; clear C1 C2; subst;
    unfold template_parameters in F; cbn [app] in F;
    repeat match goal with
      | F : Forall2 _ (_ :: _) (_ :: _) |- _ =>
          let v := fresh "v" in let A := fresh in let B := fresh in
          apply Forall2_head in F; destruct F as [[v [A B]] F]; cbn [snd] in A, B;
          first [ pose proof (reads_num _ _ _ A B) | pose proof (reads_text _ _ _ A B)
                | pose proof (reads_blob _ _ _ A B) | pose proof (reads_integer _ _ _ A B) ]; clear A B
      end; subst; try reflexivity;
    match goal with a : key_template, b : key_template |- _ => destruct a, b; cbn in *; subst; reflexivity end.
Qed.

Definition wf_template_b (d : key_template) : bool :=
  forallb (fun c => (c <? 55296)%N) (kt_type_url d) && is_i32 (kt_output_prefix_type d).
Definition sane_b (r : request) : bool :=
  match r with KmsEnvelopeAead _ d | EciesAeadHkdf _ _ _ d => wf_template_b d | _ => true end.
Lemma sane_b_spec : forall r, sane_b r = true -> sane r.
Proof.
  assert (G : forall d, wf_template_b d = true -> wf_key_template d).
  { intros d H. apply andb_prop in H. destruct H as [H1 H2]. split.
    - intros c Hc. rewrite forallb_forall in H1. apply H1 in Hc. apply N.ltb_lt in Hc. left. exact Hc.
    - apply is_i32_spec in H2. exact H2. }
  intros r H. destruct r; try exact I; apply G; exact H.
Qed.
Definition created_b (r : request) : bool :=
  match create r with Ok t => (N.of_nat (length (kt_value t)) <? 2147483648)%N | Err _ => false end.

Lemma entry_delivers : forall d r, d = create r -> sane_b r = true -> created_b r = true ->
  exists t, d = Ok t /\ delivers t (promised r).
Proof.
  intros d r E Hs Hc. apply sane_b_spec in Hs. unfold created_b in Hc. destruct (create r) as [t |] eqn:C; [| discriminate].
  exists t. split; [assumption |]. apply template_delivers; [assumption | assumption |].
  apply N.ltb_lt in Hc. exact Hc.
Qed.

Theorem predefined_deliver :
  Forall2 (fun m c => fst m = fst c /\
    Forall2 (fun d e => fst d = fst e /\
      exists r, snd e = Some r /\ exists t, snd d = Ok t /\ delivers t (promised r)) (snd m) (snd c))
    predefined_templates catalogue.
Proof.
  unfold predefined_templates, catalogue, aead_templates, daead_templates, mac_templates, prf_templates,
    streaming_templates, signature_templates, hybrid_templates, jwt_templates.
  repeat match goal with
    | |- Forall2 _ (_ :: _) (_ :: _) => constructor
    | |- Forall2 _ [] [] => constructor
    | |- fst _ = fst _ /\ Forall2 _ _ _ => split; [reflexivity | cbn [snd]]
    end.
  all: split; [reflexivity |]; eexists; (split; [vm_compute; reflexivity |]);
    apply entry_delivers; vm_compute; reflexivity.
Qed.
