(** The key managers of the symmetric primitives, one by one. *)
From Coq Require Import Strings.Byte Strings.String List NArith ZArith Bool Lia.
From Verif Require Import M_Base L_Base M_Proto M_Utf8 L_Utf8 M_Wire L_Wire S_Wire M_ProtoMsg S_ProtoMsg L_ProtoMsg M_KeyFormats M_Prims M_StreamTypes
  M_CcStream M_CcManagers M_CcAes M_CcStreamKeys M_CcModes M_CcSymmetric M_CcSymKeys S_Config S_CcAes S_CcStreamKeys S_CcModes S_CcSymmetric
  S_CcSymKeys L_CcStreamKeys L_CcModes4 L_CcSymmetric L_CcSymmetric2.
Import ListNotations.
Open Scope string_scope.
Open Scope list_scope.
Open Scope Z_scope.

(** ** Reading attributes *)
Fixpoint path_type (t : ptype) (path : list string) {struct path} : option ptype :=
  match path with
  | [] => Some t
  | name :: rest =>
      match t with
      | TMsg fs =>
          (fix go (fs : schema) : option ptype :=
             match fs with (n, _, t') :: fr => if String.eqb n name then path_type t' rest else go fr | [] => None end) fs
      | _ => None
      end
  end.
Lemma empty_holds : forall fs, holds_all fs (empty_message fs).
Proof.
  induction fs as [| ((n & i) & t) fs IH]; [constructor |]. cbn [empty_message map snd]. econstructor; [reflexivity | | exact IH].
  cbn [snd]. destruct t; cbn; constructor; try (unfold int32_range; lia); try lia. intros c [].
Qed.
Lemma read_path : forall path t v t', holds t v -> path_type t path = Some t' ->
  exists v', holds t' v' /\ get_path t v path = get_path t' v' [].
Proof.
  induction path as [| name rest IH]; intros t v t' H P; [assert (E : t = t') by (cbn in P; congruence); subst t'; exists v; split; [exact H | reflexivity] |].
  destruct t as [| | | | | fs]; try discriminate P. cbn [path_type get_path] in *.
  assert (A : holds_all fs (match v with Some (VMsg vs) => vs | _ => empty_message fs end)).
  { inversion H; subst; [apply empty_holds | assumption]. }
  revert A P. generalize (match v with Some (VMsg vs) => vs | _ => empty_message fs end). intros vs A. clear H.
  induction A as [| f t0 fs' v' vs' E Hv A IA]; intros P; [discriminate P |]. destruct f as ((n & i) & t1). cbn [snd] in E. subst t1.
  destruct (String.eqb n name); [exact (IH _ _ _ Hv P) | exact (IA P)].
Qed.
Lemma read_number : forall fs m p, holds_all fs m -> path_type (TMsg fs) p = Some TUint32 -> exists z, number fs m p z /\ u32 z.
Proof.
  intros fs m p H P. destruct (read_path _ _ _ _ (holds_msg _ _ H) P) as (v & V & E). inversion V; subst.
  eexists. split; [exact E | assumption].
Qed.
Lemma read_enum : forall fs m p, holds_all fs m -> path_type (TMsg fs) p = Some TEnum -> exists z, number fs m p z.
Proof. intros fs m p H P. destruct (read_path _ _ _ _ (holds_msg _ _ H) P) as (v & V & E). inversion V; subst. eexists. exact E. Qed.
Lemma read_octets : forall fs m p, holds_all fs m -> path_type (TMsg fs) p = Some TBytes -> exists x, octets fs m p x.
Proof. intros fs m p H P. destruct (read_path _ _ _ _ (holds_msg _ _ H) P) as (v & V & E). inversion V; subst. eexists. exact E. Qed.

(** ** What a manager does *)
Definition random_sizes (random : N -> Z -> bytes) : Prop := forall i z, 0 <= z -> Z.of_nat (length (random i z)) = z.
Record manages {P} (t : key_type_manager P) (kind : sym_key -> bool) (obj : sym_key -> st_or P) : Prop := mk_manages {
  mg_name : forall k, kind k = true -> sk_name k = kt_name t /\ sk_schema k = kt_key t /\ sk_format k = kt_format t;
  mg_key : forall m k, kind k = true -> Forall (has (kt_key t) m) (key_attributes k) ->
    (kt_validate_key t m = None <-> usable k) /\ kt_create t m = obj k;
  mg_key_read : forall m, holds_all (kt_key t) m -> kt_validate_key t m = None ->
    exists k, kind k = true /\ Forall (has (kt_key t) m) (key_attributes k);
  mg_format : forall m k, kind k = true -> Forall (has (kt_format t) m) (format_attributes k) -> usable k -> requestable k ->
    kt_validate_key_format t m = None;
  mg_created : forall random m, holds_all (kt_format t) m -> kt_validate_key_format t m = None -> random_sizes random ->
    holds_all (kt_key t) (kt_create_key t random m) /\
    exists k, kind k = true /\ Forall (has (kt_format t) m) (format_attributes k) /\ usable k /\ requestable k /\
      Forall (has (kt_key t) (kt_create_key t random m)) (key_attributes k) /\
      forall i x, nth_error (material k) i = Some x -> x = random (N.of_nat i) (Z.of_nat (length x));
  mg_ok : schema_ok (TMsg (kt_key t)) = true }.

Lemma and_then_none : forall a b, and_then a b = None <-> a = None /\ b = None.
Proof. intros [s |] b; cbn; [split; [discriminate | intros (H & _); discriminate] | tauto]. Qed.
Lemma check_none : forall b s, check b s = None <-> b = false.
Proof. intros [] s; cbn; split; intros H; try discriminate; reflexivity. Qed.
Lemma version_none : forall z, validate_version z 0 = None <-> z <= 0.
Proof. intros z. unfold validate_version. destruct (Z.ltb_spec 0 z); split; intros; try discriminate; try reflexivity; lia. Qed.
Lemma has_number : forall fs m p z, has fs m (p, Number z) -> num_at fs m p = z.
Proof. intros. apply num_at_number. assumption. Qed.
Lemma has_octets : forall fs m p x, has fs m (p, Octets x) -> bytes_at fs m p = x.
Proof. intros. apply bytes_at_content. assumption. Qed.
Lemma has_hash : forall fs m p h, has fs m (p, Hash h) -> exists z, num_at fs m p = z /\ hash_number h z.
Proof. intros fs m p h (z & A & B). exists z. split; [apply num_at_number, A | exact B]. Qed.

Ltac attrs :=
  repeat match goal with
    | H : Forall _ (_ :: _) |- _ => apply Forall_cons_iff in H; destruct H as [? H]
    | H : Forall _ [] |- _ => clear H
    | H : has _ _ (_, Number _) |- _ => apply has_number in H
    | H : has _ _ (_, count _) |- _ => apply has_number in H
    | H : has _ _ (_, size_of _) |- _ => apply has_number in H
    | H : has _ _ (_, Octets _) |- _ => apply has_octets in H
    | H : has _ _ (_, Hash _) |- _ => apply has_hash in H; destruct H as (? & H & ?)
    end.
Ltac checks :=
  repeat match goal with
    | |- context [and_then _ _ = None] => rewrite and_then_none
    | |- context [check _ _ = None] => rewrite check_none
    | |- context [validate_version _ _ = None] => rewrite version_none
    | |- context [validate_aes_key_size _ = None] => rewrite aes_key_size_spec
    end.
Ltac checks_in H :=
  repeat match type of H with
    | context [and_then _ _ = None] => rewrite and_then_none in H
    | context [check _ _ = None] => rewrite check_none in H
    | context [validate_version _ _ = None] => rewrite version_none in H
    | context [validate_aes_key_size _ = None] => rewrite aes_key_size_spec in H
    end.
Ltac bools := rewrite ?andb_false_iff, ?orb_false_iff, ?negb_false_iff, ?Z.eqb_eq, ?Z.ltb_ge in *.

Ltac rw_all := repeat match goal with H : num_at _ _ _ = _ |- _ => rewrite ?H; clear H | H : bytes_at _ _ _ = _ |- _ => rewrite ?H; clear H end.

(** ** Hash functions *)
Lemma max_tag_size_hash : forall z s, max_tag_size z = Some s -> hash_number (proto_to_subtle z) z.
Proof.
  intros z s H. destruct z as [| p | p]; try discriminate H. do 3 try (destruct p as [p | p |]; try discriminate H); cbn; tauto.
Qed.
Lemma hash_max_tag_size : forall h z, hash_number h z -> max_tag_size z = Some (Z.of_nat (hash_size h)) /\ h <> UNKNOWN_HASH.
Proof.
  intros h z H. cbn in H. destruct H as [H | [H | [H | [H | [H | []]]]]]; injection H as <- <-; split; try reflexivity; discriminate.
Qed.
Lemma hmac_params_ok : forall h z ts, hash_number h z -> (hmac_validate_params z ts = None <-> 10 <= ts <= Z.of_nat (hash_size h)).
Proof.
  intros h z ts H. unfold hmac_validate_params. rewrite (proj1 (hash_max_tag_size _ _ H)).
  destruct (Z.ltb_spec ts 10); [split; [discriminate | lia] |]. rewrite check_none, Z.ltb_ge. lia.
Qed.
Lemma hmac_params_hash : forall z ts, hmac_validate_params z ts = None -> hash_number (proto_to_subtle z) z.
Proof.
  intros z ts H. unfold hmac_validate_params in H. destruct (ts <? 10); [discriminate |].
  destruct (max_tag_size z) as [s |] eqn:E; [| discriminate]. exact (max_tag_size_hash _ _ E).
Qed.
Lemma hmac_prf_params_ok : forall h z, hash_number h z -> hmac_prf_validate_params z = None.
Proof. intros h z H. unfold hmac_prf_validate_params. rewrite (hash_number_known _ _ H). destruct (hash_max_tag_size _ _ H) as (_ & U). destruct h; try reflexivity. contradiction. Qed.
Lemma hmac_prf_params_hash : forall z, hmac_prf_validate_params z = None -> hash_number (proto_to_subtle z) z.
Proof.
  intros z H. destruct z as [| p | p]; try discriminate H. do 3 try (destruct p as [p | p |]; try discriminate H); cbn; tauto.
Qed.
Lemma hkdf_params_ok : forall h z, hash_number h z -> (hkdf_prf_validate_params z = None <-> In h [M_CcAes.SHA256; M_CcAes.SHA512]).
Proof.
  intros h z H. cbn in H. destruct H as [H | [H | [H | [H | [H | []]]]]]; injection H as <- <-; cbn; intuition congruence.
Qed.
Lemma hkdf_params_hash : forall z, hkdf_prf_validate_params z = None -> hash_number (proto_to_subtle z) z.
Proof.
  intros z H. unfold hkdf_prf_validate_params in H. rewrite check_none in H. bools. destruct H as [-> | ->]; cbn; tauto.
Qed.
Lemma to_int_spec : forall z, u32 z -> to_int (Z.to_N z) = if z <? 2147483648 then z else z - 4294967296.
Proof.
  intros z H. unfold u32 in H. unfold to_int. rewrite N.mod_small by lia. rewrite Z2N.id by lia. reflexivity.
Qed.
Ltac random_material := intros [| [| i]] x E; try discriminate E; injection E as <-.

Section Managers.
  Variable lib : crypto.
  Variable random : coins -> Z -> bytes.
  Lemma eax_manages : manages (aes_eax_key_manager lib random) (fun k => match k with EaxKey _ _ => true | _ => false end) (aead_object lib random).
  Proof.
    split.
    - intros [] K; try discriminate K; auto.
    - intros m [key iv | | | | | | | | | |] K F; try discriminate K. cbv beta iota delta [key_attributes] in F. attrs.
      cbn [aes_eax_key_manager kt_validate_key kt_create kt_key aead_object] in *. unfold size_at, eax_validate_key_size, eax_validate_iv_size.
      repeat match goal with H : _ = _ |- _ => rewrite H; clear H end. split; [| rewrite Nat2Z.id; reflexivity].
      checks. bools. cbn [usable In]. lia.
    - intros m H V. cbn [aes_eax_key_manager kt_validate_key kt_key] in *.
      destruct (read_number _ _ ["version"] H eq_refl) as (v & Hv & Rv). destruct (read_number _ _ ["params"; "iv_size"] H eq_refl) as (iv & Hi & Ri).
      destruct (read_octets _ _ ["key_value"] H eq_refl) as (key & Hk). unfold u32 in *.
      checks_in V. rewrite (num_at_number _ _ _ _ Hv) in V. replace v with 0 in * by lia.
      exists (EaxKey key (Z.to_nat iv)). split; [reflexivity |]. cbv beta iota delta [key_attributes]. repeat constructor; try assumption.
      unfold count. rewrite Z2Nat.id by lia. exact Hi.
    - intros m [key iv | | | | | | | | | |] K F U _; try discriminate K. cbv beta iota delta [format_attributes] in F. attrs.
      cbn [aes_eax_key_manager kt_validate_key_format kt_format] in *. unfold eax_validate_key_size, eax_validate_iv_size.
      repeat match goal with H : _ = _ |- _ => rewrite H; clear H end. checks. bools. cbn [usable In] in U. lia.
    - intros rnd m H V RS. cbn [aes_eax_key_manager kt_validate_key_format kt_format kt_key kt_create_key] in *.
      destruct (read_number _ _ ["key_size"] H eq_refl) as (ks & Hk & Rk). destruct (read_number _ _ ["params"; "iv_size"] H eq_refl) as (iv & Hi & Ri).
      rewrite (num_at_number _ _ _ _ Hk), (num_at_number _ _ _ _ Hi) in *. unfold u32, eax_validate_key_size, eax_validate_iv_size in *.
      split.
      { repeat (econstructor; try reflexivity; try lia). }
      checks_in V. bools. pose proof (RS 0%N ks ltac:(lia)) as L.
      exists (EaxKey (rnd 0%N ks) (Z.to_nat iv)). split; [reflexivity |]. split; [| split; [| split; [exact I | split]]].
      + cbv beta iota delta [format_attributes]. unfold count, size_of. rewrite L, Z2Nat.id by lia. repeat constructor; assumption.
      + cbn [usable In]. lia.
      + cbv beta iota delta [key_attributes]. unfold count. rewrite Z2Nat.id by lia. repeat constructor.
      + intros [| [| i]] x E; try discriminate E. injection E as <-. rewrite L. reflexivity.
    - reflexivity.
  Qed.

  Lemma gcm_manages : manages (aes_gcm_key_manager lib random) (fun k => match k with GcmKey _ => true | _ => false end) (aead_object lib random).
  Proof.
    split.
    - intros [] K; try discriminate K; auto.
    - intros m [ | key |  |  |  |  |  |  |  |  | ] K F; try discriminate K. cbv beta iota delta [key_attributes] in F. attrs.
      cbn [aes_gcm_key_manager kt_validate_key kt_create kt_key aead_object] in *. unfold size_at.
      rw_all. split; [| reflexivity]. checks. bools. cbn [usable In]. lia.
    - intros m H V. cbn [aes_gcm_key_manager kt_validate_key kt_key] in *.
      destruct (read_number _ _ ["version"] H eq_refl) as (v & Hv & Rv).
      destruct (read_octets _ _ ["key_value"] H eq_refl) as (key & Hk). unfold u32 in *.
      checks_in V. rewrite (num_at_number _ _ _ _ Hv) in V. replace v with 0 in * by lia.
      exists (GcmKey key). split; [reflexivity |]. cbv beta iota delta [key_attributes]. repeat constructor; assumption.
    - intros m [ | key |  |  |  |  |  |  |  |  | ] K F U _; try discriminate K. cbv beta iota delta [format_attributes] in F. attrs.
      cbn [aes_gcm_key_manager kt_validate_key_format kt_format] in *. unfold size_at.
      rw_all. checks. bools. cbn [usable In] in U. lia.
    - intros rnd m H V RS. cbn [aes_gcm_key_manager kt_validate_key_format kt_format kt_key kt_create_key] in *.
      destruct (read_number _ _ ["key_size"] H eq_refl) as (ks & Hk & Rk).
      rewrite (num_at_number _ _ _ _ Hk) in *.
      unfold u32 in *.
      split; [repeat (econstructor; try reflexivity; try lia) |].
      checks_in V. bools. pose proof (RS 0%N ks ltac:(lia)) as L. 
      exists (GcmKey (rnd 0%N ks)). split; [reflexivity |]. split; [| split; [| split; [exact I | split]]].
      + cbv beta iota delta [format_attributes]. unfold size_of. rewrite L. repeat constructor; assumption.
      + cbn [usable In]. lia.
      + cbv beta iota delta [key_attributes]. repeat constructor.
      + random_material. rewrite L. reflexivity.
    - reflexivity.
  Qed.

  Lemma gcm_siv_manages : manages (aes_gcm_siv_key_manager lib random) (fun k => match k with GcmSivKey _ => true | _ => false end) (aead_object lib random).
  Proof.
    split.
    - intros [] K; try discriminate K; auto.
    - intros m [ |  | key |  |  |  |  |  |  |  | ] K F; try discriminate K. cbv beta iota delta [key_attributes] in F. attrs.
      cbn [aes_gcm_siv_key_manager kt_validate_key kt_create kt_key aead_object] in *. unfold size_at.
      rw_all. split; [| reflexivity]. checks. bools. cbn [usable In]. lia.
    - intros m H V. cbn [aes_gcm_siv_key_manager kt_validate_key kt_key] in *.
      destruct (read_number _ _ ["version"] H eq_refl) as (v & Hv & Rv).
      destruct (read_octets _ _ ["key_value"] H eq_refl) as (key & Hk). unfold u32 in *.
      checks_in V. rewrite (num_at_number _ _ _ _ Hv) in V. replace v with 0 in * by lia.
      exists (GcmSivKey key). split; [reflexivity |]. cbv beta iota delta [key_attributes]. repeat constructor; assumption.
    - intros m [ |  | key |  |  |  |  |  |  |  | ] K F U _; try discriminate K. cbv beta iota delta [format_attributes] in F. attrs.
      cbn [aes_gcm_siv_key_manager kt_validate_key_format kt_format] in *. unfold size_at.
      rw_all. checks. bools. cbn [usable In] in U. lia.
    - intros rnd m H V RS. cbn [aes_gcm_siv_key_manager kt_validate_key_format kt_format kt_key kt_create_key] in *.
      destruct (read_number _ _ ["key_size"] H eq_refl) as (ks & Hk & Rk).
      rewrite (num_at_number _ _ _ _ Hk) in *.
      unfold u32 in *.
      split; [repeat (econstructor; try reflexivity; try lia) |].
      checks_in V. bools. pose proof (RS 0%N ks ltac:(lia)) as L. 
      exists (GcmSivKey (rnd 0%N ks)). split; [reflexivity |]. split; [| split; [| split; [exact I | split]]].
      + cbv beta iota delta [format_attributes]. unfold size_of. rewrite L. repeat constructor; assumption.
      + cbn [usable In]. lia.
      + cbv beta iota delta [key_attributes]. repeat constructor.
      + random_material. rewrite L. reflexivity.
    - reflexivity.
  Qed.

  Lemma xchacha_manages : manages (xchacha20_poly1305_key_manager lib random) (fun k => match k with XChaChaKey _ => true | _ => false end) (aead_object lib random).
  Proof.
    split.
    - intros [] K; try discriminate K; auto.
    - intros m [ |  |  | key |  |  |  |  |  |  | ] K F; try discriminate K. cbv beta iota delta [key_attributes] in F. attrs.
      cbn [xchacha20_poly1305_key_manager kt_validate_key kt_create kt_key aead_object] in *. unfold size_at.
      rw_all. split; [| reflexivity]. checks. bools. cbn [usable In]. lia.
    - intros m H V. cbn [xchacha20_poly1305_key_manager kt_validate_key kt_key] in *.
      destruct (read_number _ _ ["version"] H eq_refl) as (v & Hv & Rv).
      destruct (read_octets _ _ ["key_value"] H eq_refl) as (key & Hk). unfold u32 in *.
      checks_in V. rewrite (num_at_number _ _ _ _ Hv) in V. replace v with 0 in * by lia.
      exists (XChaChaKey key). split; [reflexivity |]. cbv beta iota delta [key_attributes]. repeat constructor; assumption.
    - intros m k K F U _. reflexivity.
    - intros rnd m H V RS. cbn [xchacha20_poly1305_key_manager kt_validate_key_format kt_format kt_key kt_create_key] in *.
      split; [repeat (econstructor; try reflexivity; try lia) |]. pose proof (RS 0%N 32 ltac:(lia)) as L.
      exists (XChaChaKey (rnd 0%N 32)). split; [reflexivity |]. split; [constructor | split; [cbn [usable]; lia | split; [exact I | split]]].
      + cbv beta iota delta [key_attributes]. repeat constructor.
      + random_material. rewrite L. reflexivity.
    - reflexivity.
  Qed.

  Lemma ctr_hmac_manages : manages (aes_ctr_hmac_aead_key_manager lib random) (fun k => match k with CtrHmacAeadKey _ => true | _ => false end) (aead_object lib random).
  Proof.
    split.
    - intros [] K; try discriminate K; auto.
    - intros m [ |  |  |  | ck |  |  |  |  |  | ] K F; try discriminate K. cbv beta iota delta [key_attributes] in F. attrs.
      cbn [aes_ctr_hmac_aead_key_manager kt_validate_key kt_create kt_key aead_object] in *. unfold hmac_validate_key, validate_iv_size, size_at.
      rw_all. split; [| rewrite !Nat2Z.id; erewrite hash_number_known by eassumption; reflexivity].
      checks. erewrite hmac_params_ok by eassumption. bools. cbn [usable]. unfold ctr_hmac_key_ok. cbn [In]. lia.
    - intros m H V. cbn [aes_ctr_hmac_aead_key_manager kt_validate_key kt_key] in *. unfold hmac_validate_key in V.
      destruct (read_number _ _ ["version"] H eq_refl) as (v & Hv & Rv).
      destruct (read_number _ _ ["aes_ctr_key"; "version"] H eq_refl) as (v1 & Hv1 & Rv1).
      destruct (read_number _ _ ["hmac_key"; "version"] H eq_refl) as (v2 & Hv2 & Rv2).
      destruct (read_number _ _ ["aes_ctr_key"; "params"; "iv_size"] H eq_refl) as (iv & Hi & Ri).
      destruct (read_number _ _ ["hmac_key"; "params"; "tag_size"] H eq_refl) as (ts & Ht & Rt).
      destruct (read_enum _ _ ["hmac_key"; "params"; "hash"] H eq_refl) as (z & Hz).
      destruct (read_octets _ _ ["aes_ctr_key"; "key_value"] H eq_refl) as (key & Hk).
      destruct (read_octets _ _ ["hmac_key"; "key_value"] H eq_refl) as (key' & Hk'). unfold u32 in *.
      checks_in V. rewrite (num_at_number _ _ _ _ Hv), (num_at_number _ _ _ _ Hv1), (num_at_number _ _ _ _ Hv2), (num_at_number _ _ _ _ Hz) in V.
      replace v with 0 in * by lia. replace v1 with 0 in * by lia. replace v2 with 0 in * by lia.
      destruct V as (_ & _ & _ & _ & _ & _ & V). apply hmac_params_hash in V.
      exists (CtrHmacAeadKey (mk_ctr_hmac_key key (Z.to_nat iv) key' (proto_to_subtle z) (Z.to_nat ts))).
      split; [reflexivity |]. cbv beta iota delta [key_attributes]. cbn [aes_key iv_size hmac_key hmac_hash hmac_tag_size].
      unfold count. rewrite !Z2Nat.id by lia. repeat constructor; try assumption. exists z. split; assumption.
    - intros m [ |  |  |  | ck |  |  |  |  |  | ] K F U _; try discriminate K. cbv beta iota delta [format_attributes] in F. attrs.
      cbn [aes_ctr_hmac_aead_key_manager kt_validate_key_format kt_format] in *. unfold hmac_validate_key_format, validate_iv_size.
      rw_all. checks. erewrite hmac_params_ok by eassumption. bools. cbn [usable] in U. unfold ctr_hmac_key_ok in U. cbn [In] in U. lia.
    - intros rnd m H V RS. cbn [aes_ctr_hmac_aead_key_manager kt_validate_key_format kt_format kt_key kt_create_key] in *. unfold hmac_validate_key_format, validate_iv_size in V.
      destruct (read_number _ _ ["aes_ctr_key_format"; "key_size"] H eq_refl) as (ks & Hk & Rk).
      destruct (read_number _ _ ["hmac_key_format"; "key_size"] H eq_refl) as (ks' & Hk' & Rk').
      destruct (read_number _ _ ["aes_ctr_key_format"; "params"; "iv_size"] H eq_refl) as (iv & Hi & Ri).
      destruct (read_number _ _ ["hmac_key_format"; "params"; "tag_size"] H eq_refl) as (ts & Ht & Rt).
      destruct (read_enum _ _ ["hmac_key_format"; "params"; "hash"] H eq_refl) as (z & Hz).
      rewrite (num_at_number _ _ _ _ Hk), (num_at_number _ _ _ _ Hk'), ?(num_at_number _ _ _ _ Hi), ?(num_at_number _ _ _ _ Ht), ?(num_at_number _ _ _ _ Hz) in *. unfold u32 in *.
      checks_in V. destruct V as (V1 & V2 & (V3 & V4) & _). pose proof (hmac_params_hash _ _ V4) as HN. apply (hmac_params_ok _ _ _ HN) in V4. bools.
      pose proof (RS 0%N ks ltac:(lia)) as L. pose proof (RS 1%N ks' ltac:(lia)) as L'.
      match goal with |- holds_all _ ?key /\ _ => set (k0 := key) end.
      assert (G : holds_all AesCtrHmacAeadKey k0 /\ number AesCtrHmacAeadKey k0 ["aes_ctr_key"; "params"; "iv_size"] iv /\
        number AesCtrHmacAeadKey k0 ["hmac_key"; "params"; "hash"] z /\ number AesCtrHmacAeadKey k0 ["hmac_key"; "params"; "tag_size"] ts).
      { subst k0. clear - H Hi Hz Ht. revert Hi Hz Ht. generalize (rnd 0%N ks), (rnd 1%N ks'). intros b b' Hi Hz Ht.
        unfold AesCtrHmacAeadKeyFormat, AesCtrKeyFormat, HmacKeyFormat, AesCtrParams, HmacParams in H. open_message;
          (split; [| split; [exact Hi | split; [exact Hz | exact Ht]]]).
        all: unfold message_or_empty; cbn [get_path String.eqb Ascii.eqb Bool.eqb].
        all: repeat (econstructor; try reflexivity; try eassumption; try lia). }
      destruct G as (G & G1 & G2 & G3). split; [exact G |].
      exists (CtrHmacAeadKey (mk_ctr_hmac_key (rnd 0%N ks) (Z.to_nat iv) (rnd 1%N ks') (proto_to_subtle z) (Z.to_nat ts))).
      split; [reflexivity |]. split; [| split; [| split; [exact I | split]]].
      + cbv beta iota delta [format_attributes]. unfold count, size_of. cbn [aes_key iv_size hmac_key hmac_hash hmac_tag_size].
        rewrite L, L', !Z2Nat.id by lia. repeat constructor; try assumption. exists z. split; assumption.
      + cbn [usable]. unfold ctr_hmac_key_ok. cbn [aes_key iv_size hmac_key hmac_hash hmac_tag_size In]. lia.
      + cbv beta iota delta [key_attributes]. unfold count. cbn [aes_key iv_size hmac_key hmac_hash hmac_tag_size].
        rewrite !Z2Nat.id by lia. repeat constructor; try assumption. exists z; split; assumption.
      + intros [| [| [| i]]] x E; try discriminate E; injection E as <-; cbn [aes_key hmac_key]; [rewrite L | rewrite L']; reflexivity.
    - reflexivity.
  Qed.
End Managers.

Section Deterministic.
  Variable lib : crypto.

  Lemma siv_manages : manages (aes_siv_key_manager lib) (fun k => match k with SivKey _ => true | _ => false end) (daead_object lib).
  Proof.
    split.
    - intros [] K; try discriminate K; auto.
    - intros m [ |  |  |  |  | key |  |  |  |  | ] K F; try discriminate K. cbv beta iota delta [key_attributes] in F. attrs.
      cbn [aes_siv_key_manager kt_validate_key kt_create kt_key daead_object] in *. unfold size_at, siv_validate_key_size.
      rw_all. split; [| reflexivity]. checks. bools. cbn [usable In]. lia.
    - intros m H V. cbn [aes_siv_key_manager kt_validate_key kt_key] in *.
      destruct (read_number _ _ ["version"] H eq_refl) as (v & Hv & Rv).
      destruct (read_octets _ _ ["key_value"] H eq_refl) as (key & Hk). unfold u32 in *.
      checks_in V. rewrite (num_at_number _ _ _ _ Hv) in V. replace v with 0 in * by lia.
      exists (SivKey key). split; [reflexivity |]. cbv beta iota delta [key_attributes]. repeat constructor; assumption.
    - intros m [ |  |  |  |  | key |  |  |  |  | ] K F U _; try discriminate K. cbv beta iota delta [format_attributes] in F. attrs.
      cbn [aes_siv_key_manager kt_validate_key_format kt_format] in *. unfold size_at, siv_validate_key_size.
      rw_all. checks. bools. cbn [usable In] in U. lia.
    - intros rnd m H V RS. cbn [aes_siv_key_manager kt_validate_key_format kt_format kt_key kt_create_key] in *.
      destruct (read_number _ _ ["key_size"] H eq_refl) as (ks & Hk & Rk).
      rewrite (num_at_number _ _ _ _ Hk) in *.
      unfold u32, siv_validate_key_size in *.
      split; [repeat (econstructor; try reflexivity; try lia) |].
      checks_in V. bools. pose proof (RS 0%N ks ltac:(lia)) as L. 
      exists (SivKey (rnd 0%N ks)). split; [reflexivity |]. split; [| split; [| split; [exact I | split]]].
      + cbv beta iota delta [format_attributes]. unfold size_of. rewrite L. repeat constructor; assumption.
      + cbn [usable In]. lia.
      + cbv beta iota delta [key_attributes]. repeat constructor.
      + random_material. rewrite L. reflexivity.
    - reflexivity.
  Qed.

  Lemma cmac_prf_manages : manages (aes_cmac_prf_key_manager lib) (fun k => match k with CmacPrf _ => true | _ => false end) (prf_object lib).
  Proof.
    split.
    - intros [] K; try discriminate K; auto.
    - intros m [ |  |  |  |  |  |  |  |  |  | key] K F; try discriminate K. cbv beta iota delta [key_attributes] in F. attrs.
      cbn [aes_cmac_prf_key_manager kt_validate_key kt_create kt_key prf_object] in *. unfold size_at.
      rw_all. split; [| reflexivity]. checks. bools. cbn [usable In]. lia.
    - intros m H V. cbn [aes_cmac_prf_key_manager kt_validate_key kt_key] in *.
      destruct (read_number _ _ ["version"] H eq_refl) as (v & Hv & Rv).
      destruct (read_octets _ _ ["key_value"] H eq_refl) as (key & Hk). unfold u32 in *.
      checks_in V. rewrite (num_at_number _ _ _ _ Hv) in V. replace v with 0 in * by lia.
      exists (CmacPrf key). split; [reflexivity |]. cbv beta iota delta [key_attributes]. repeat constructor; assumption.
    - intros m [ |  |  |  |  |  |  |  |  |  | key] K F U _; try discriminate K. cbv beta iota delta [format_attributes] in F. attrs.
      cbn [aes_cmac_prf_key_manager kt_validate_key_format kt_format] in *. unfold size_at.
      rw_all. checks. bools. cbn [usable In] in U. lia.
    - intros rnd m H V RS. cbn [aes_cmac_prf_key_manager kt_validate_key_format kt_format kt_key kt_create_key] in *.
      destruct (read_number _ _ ["key_size"] H eq_refl) as (ks & Hk & Rk).
      rewrite (num_at_number _ _ _ _ Hk) in *.
      destruct (read_number _ _ ["version"] H eq_refl) as (v & Hv & Rv). rewrite (num_at_number _ _ _ _ Hv) in *.
      unfold u32 in *.
      split; [repeat (econstructor; try reflexivity; try lia) |].
      checks_in V. bools. pose proof (RS 0%N ks ltac:(lia)) as L. replace v with 0 in * by lia.
      exists (CmacPrf (rnd 0%N ks)). split; [reflexivity |]. split; [| split; [| split; [exact I | split]]].
      + cbv beta iota delta [format_attributes]. unfold size_of. rewrite L. repeat constructor; assumption.
      + cbn [usable In]. lia.
      + cbv beta iota delta [key_attributes]. repeat constructor.
      + random_material. rewrite L. reflexivity.
    - reflexivity.
  Qed.

  Lemma cmac_manages : manages (aes_cmac_key_manager lib) (fun k => match k with CmacMacKey _ _ => true | _ => false end) (mac_object lib).
  Proof.
    split.
    - intros [] K; try discriminate K; auto.
    - intros m [ |  |  |  |  |  |  | ts key |  |  | ] K F; try discriminate K. cbv beta iota delta [key_attributes] in F. attrs.
      cbn [aes_cmac_key_manager kt_validate_key kt_create kt_key mac_object] in *. unfold size_at, cmac_validate_params.
      rw_all. split; [| rewrite Nat2Z.id; reflexivity]. checks. bools. cbn [usable]. lia.
    - intros m H V. cbn [aes_cmac_key_manager kt_validate_key kt_key] in *.
      destruct (read_number _ _ ["version"] H eq_refl) as (v & Hv & Rv). destruct (read_number _ _ ["params"; "tag_size"] H eq_refl) as (ts & Ht & Rt).
      destruct (read_octets _ _ ["key_value"] H eq_refl) as (key & Hk). unfold u32 in *.
      checks_in V. rewrite (num_at_number _ _ _ _ Hv) in V. replace v with 0 in * by lia.
      exists (CmacMacKey (Z.to_nat ts) key). split; [reflexivity |]. cbv beta iota delta [key_attributes]. unfold count. rewrite Z2Nat.id by lia.
      repeat constructor; assumption.
    - intros m [ |  |  |  |  |  |  | ts key |  |  | ] K F U _; try discriminate K. cbv beta iota delta [format_attributes] in F. attrs.
      cbn [aes_cmac_key_manager kt_validate_key_format kt_format] in *. unfold cmac_validate_params.
      rw_all. checks. bools. cbn [usable] in U. lia.
    - intros rnd m H V RS. cbn [aes_cmac_key_manager kt_validate_key_format kt_format kt_key kt_create_key] in *.
      destruct (read_number _ _ ["key_size"] H eq_refl) as (ks & Hk & Rk). destruct (read_number _ _ ["params"; "tag_size"] H eq_refl) as (ts & Ht & Rt).
      rewrite (num_at_number _ _ _ _ Hk), (num_at_number _ _ _ _ Ht) in *. unfold u32, cmac_validate_params in *.
      checks_in V. bools. pose proof (RS 0%N ks ltac:(lia)) as L. inversion H as [| ? ? ? vk ? E1 Hvk H1]; subst.
      inversion H1 as [| ? ? ? pm ? E2 Hpm H2]; subst. inversion H2; subst. cbn [nth snd] in *. split.
      { econstructor; [reflexivity | constructor; lia |]. econstructor; [reflexivity | constructor |].
        econstructor; [reflexivity | apply holds_params; [apply empty_holds | exact Hpm] | constructor]. }
      exists (CmacMacKey (Z.to_nat ts) (rnd 0%N ks)). split; [reflexivity |]. split; [| split; [| split; [exact I | split]]].
      + cbv beta iota delta [format_attributes]. unfold count, size_of. rewrite L, Z2Nat.id by lia. repeat constructor; assumption.
      + cbn [usable]. lia.
      + cbv beta iota delta [key_attributes]. unfold count. rewrite Z2Nat.id by lia. repeat constructor. destruct pm; exact Ht.
      + random_material. rewrite L. reflexivity.
    - reflexivity.
  Qed.

  Lemma hmac_manages : manages (hmac_key_manager lib) (fun k => match k with HmacMacKey _ _ _ => true | _ => false end) (mac_object lib).
  Proof.
    split.
    - intros [] K; try discriminate K; auto.
    - intros m [ |  |  |  |  |  | h ts key |  |  |  | ] K F; try discriminate K. cbv beta iota delta [key_attributes] in F. attrs.
      cbn [hmac_key_manager kt_validate_key kt_create kt_key mac_object] in *. unfold size_at, hmac_validate_key, size_at.
      rw_all. split; [| rewrite Nat2Z.id; erewrite hash_number_known by eassumption; reflexivity].
      checks. erewrite hmac_params_ok by eassumption. bools. cbn [usable]. lia.
    - intros m H V. cbn [hmac_key_manager kt_validate_key kt_key] in *. unfold hmac_validate_key in V.
      destruct (read_number _ _ ["version"] H eq_refl) as (v & Hv & Rv). destruct (read_number _ _ ["params"; "tag_size"] H eq_refl) as (ts & Ht & Rt).
      destruct (read_enum _ _ ["params"; "hash"] H eq_refl) as (z & Hz).
      destruct (read_octets _ _ ["key_value"] H eq_refl) as (key & Hk). unfold u32 in *.
      checks_in V. rewrite (num_at_number _ _ _ _ Hv), (num_at_number _ _ _ _ Hz) in V. replace v with 0 in * by lia.
      destruct V as (_ & _ & V). apply hmac_params_hash in V.
      exists (HmacMacKey (proto_to_subtle z) (Z.to_nat ts) key). split; [reflexivity |]. cbv beta iota delta [key_attributes].
      unfold count. rewrite Z2Nat.id by lia. repeat constructor; try assumption. exists z. split; assumption.
    - intros m [ |  |  |  |  |  | h ts key |  |  |  | ] K F U _; try discriminate K. cbv beta iota delta [format_attributes] in F. attrs.
      cbn [hmac_key_manager kt_validate_key_format kt_format] in *. unfold hmac_validate_key_format.
      rw_all. checks. erewrite hmac_params_ok by eassumption. bools. cbn [usable] in U. lia.
    - intros rnd m H V RS. cbn [hmac_key_manager kt_validate_key_format kt_format kt_key kt_create_key] in *. unfold hmac_validate_key_format in V.
      destruct (read_number _ _ ["key_size"] H eq_refl) as (ks & Hk & Rk). destruct (read_number _ _ ["params"; "tag_size"] H eq_refl) as (ts & Ht & Rt).
      destruct (read_enum _ _ ["params"; "hash"] H eq_refl) as (z & Hz).
      rewrite (num_at_number _ _ _ _ Hk), ?(num_at_number _ _ _ _ Ht), ?(num_at_number _ _ _ _ Hz) in *. unfold u32 in *.
      checks_in V. destruct V as (V1 & V2). pose proof (hmac_params_hash _ _ V2) as HN. apply (hmac_params_ok _ _ _ HN) in V2. bools.
      pose proof (RS 0%N ks ltac:(lia)) as L. destruct (holds_all_3 _ _ _ _ H) as (pm & vk & ver & -> & Hpm & _ & _). cbn [nth snd] in *. split.
      { econstructor; [reflexivity | constructor; lia |].
        econstructor; [reflexivity | apply holds_params; [apply empty_holds | exact Hpm] |]. econstructor; [reflexivity | constructor |]. constructor. }
      exists (HmacMacKey (proto_to_subtle z) (Z.to_nat ts) (rnd 0%N ks)). split; [reflexivity |]. split; [| split; [| split; [exact I | split]]].
      + cbv beta iota delta [format_attributes]. unfold count, size_of. rewrite L, Z2Nat.id by lia. repeat constructor; try assumption. exists z. split; assumption.
      + cbn [usable]. lia.
      + cbv beta iota delta [key_attributes]. unfold count. rewrite Z2Nat.id by lia. repeat constructor; [exists z; split; [destruct pm; exact Hz | exact HN] | destruct pm; exact Ht].
      + random_material. rewrite L. reflexivity.
    - reflexivity.
  Qed.

  Lemma hmac_prf_manages : manages (hmac_prf_key_manager lib) (fun k => match k with HmacPrf _ _ => true | _ => false end) (prf_object lib).
  Proof.
    split.
    - intros [] K; try discriminate K; auto.
    - intros m [ |  |  |  |  |  |  |  | h key |  | ] K F; try discriminate K. cbv beta iota delta [key_attributes] in F. attrs.
      cbn [hmac_prf_key_manager kt_validate_key kt_create kt_key prf_object] in *. unfold size_at.
      rw_all. match goal with H : hash_number _ _ |- _ => rewrite (hash_number_known _ _ H), (hmac_prf_params_ok _ _ H); apply hash_max_tag_size in H; destruct H as (_ & HU) end.
      split; [checks; bools; cbn [usable]; split; intros; repeat split; try assumption; lia |]. cbv zeta. destruct h; try reflexivity. contradiction.
    - intros m H V. cbn [hmac_prf_key_manager kt_validate_key kt_key] in *.
      destruct (read_number _ _ ["version"] H eq_refl) as (v & Hv & Rv).
      destruct (read_enum _ _ ["params"; "hash"] H eq_refl) as (z & Hz).
      destruct (read_octets _ _ ["key_value"] H eq_refl) as (key & Hk). unfold u32 in *.
      checks_in V. rewrite (num_at_number _ _ _ _ Hv), (num_at_number _ _ _ _ Hz) in V. replace v with 0 in * by lia.
      destruct V as (_ & _ & V). apply hmac_prf_params_hash in V.
      exists (HmacPrf (proto_to_subtle z) key). split; [reflexivity |]. cbv beta iota delta [key_attributes].
      repeat constructor; try assumption. exists z. split; assumption.
    - intros m [ |  |  |  |  |  |  |  | h key |  | ] K F U _; try discriminate K. cbv beta iota delta [format_attributes] in F. attrs.
      cbn [hmac_prf_key_manager kt_validate_key_format kt_format] in *.
      rw_all. erewrite hmac_prf_params_ok by eassumption. checks. bools. cbn [usable] in U. repeat split; lia.
    - intros rnd m H V RS. cbn [hmac_prf_key_manager kt_validate_key_format kt_format kt_key kt_create_key] in *.
      destruct (read_number _ _ ["version"] H eq_refl) as (v & Hv & Rv).
      destruct (read_number _ _ ["key_size"] H eq_refl) as (ks & Hk & Rk). destruct (read_enum _ _ ["params"; "hash"] H eq_refl) as (z & Hz).
      rewrite (num_at_number _ _ _ _ Hk), ?(num_at_number _ _ _ _ Hv), ?(num_at_number _ _ _ _ Hz) in *. unfold u32 in *.
      checks_in V. destruct V as (V0 & V1 & V2). pose proof (hmac_prf_params_hash _ V2) as HN. bools. replace v with 0 in * by lia.
      pose proof (RS 0%N ks ltac:(lia)) as L. destruct (holds_all_3 _ _ _ _ H) as (pm & vk & ver & -> & Hpm & _ & _). cbn [nth snd] in *. split.
      { econstructor; [reflexivity | constructor; lia |].
        econstructor; [reflexivity | apply holds_params; [apply empty_holds | exact Hpm] |]. econstructor; [reflexivity | constructor |]. constructor. }
      exists (HmacPrf (proto_to_subtle z) (rnd 0%N ks)). split; [reflexivity |]. split; [| split; [| split; [exact I | split]]].
      + cbv beta iota delta [format_attributes]. unfold count, size_of. rewrite L. repeat constructor; try assumption. exists z. split; assumption.
      + cbn [usable]. split; [lia | apply (hash_max_tag_size _ _ HN)].
      + cbv beta iota delta [key_attributes]. repeat constructor. exists z; split; [destruct pm; exact Hz | exact HN].
      + random_material. rewrite L. reflexivity.
    - reflexivity.
  Qed.

  Lemma hkdf_prf_manages : manages (hkdf_prf_key_manager lib) (fun k => match k with HkdfPrf _ _ _ => true | _ => false end) (prf_object lib).
  Proof.
    split.
    - intros [] K; try discriminate K; auto.
    - intros m [ |  |  |  |  |  |  |  |  | h salt key | ] K F; try discriminate K. cbv beta iota delta [key_attributes] in F. attrs.
      cbn [hkdf_prf_key_manager kt_validate_key kt_create kt_key prf_object] in *. unfold size_at, hkdf_prf_validate_key_size.
      rw_all. split; [| erewrite hash_number_known by eassumption; reflexivity].
      checks. erewrite hkdf_params_ok by eassumption. bools. cbn [usable]. split; [intros (_ & A & B) | intros (A & B)]; repeat split; try assumption; lia.
    - intros m H V. cbn [hkdf_prf_key_manager kt_validate_key kt_key] in *.
      destruct (read_number _ _ ["version"] H eq_refl) as (v & Hv & Rv).
      destruct (read_enum _ _ ["params"; "hash"] H eq_refl) as (z & Hz). destruct (read_octets _ _ ["params"; "salt"] H eq_refl) as (salt & Hs).
      destruct (read_octets _ _ ["key_value"] H eq_refl) as (key & Hk). unfold u32 in *.
      checks_in V. rewrite (num_at_number _ _ _ _ Hv), (num_at_number _ _ _ _ Hz) in V. replace v with 0 in * by lia.
      destruct V as (_ & _ & V). apply hkdf_params_hash in V.
      exists (HkdfPrf (proto_to_subtle z) salt key). split; [reflexivity |]. cbv beta iota delta [key_attributes].
      repeat constructor; try assumption. exists z. split; assumption.
    - intros m [ |  |  |  |  |  |  |  |  | h salt key | ] K F U R; try discriminate K. cbv beta iota delta [format_attributes] in F. attrs.
      cbn [hkdf_prf_key_manager kt_validate_key_format kt_format] in *. unfold hkdf_prf_validate_key_size. cbn [usable requestable] in U, R.
      rw_all. checks. erewrite hkdf_params_ok by eassumption. rewrite to_int_spec by (unfold u32; lia). replace (Z.of_nat (length key) <? 2147483648) with true by (symmetry; apply Z.ltb_lt; lia).
      bools. repeat split; try tauto; lia.
    - intros rnd m H V RS. cbn [hkdf_prf_key_manager kt_validate_key_format kt_format kt_key kt_create_key] in *.
      destruct (read_number _ _ ["version"] H eq_refl) as (v & Hv & Rv). destruct (read_octets _ _ ["params"; "salt"] H eq_refl) as (salt & Hs).
      destruct (read_number _ _ ["key_size"] H eq_refl) as (ks & Hk & Rk). destruct (read_enum _ _ ["params"; "hash"] H eq_refl) as (z & Hz).
      rewrite (num_at_number _ _ _ _ Hk), ?(num_at_number _ _ _ _ Hv), ?(num_at_number _ _ _ _ Hz) in *.
      rewrite to_int_spec in V by exact Rk. unfold u32, hkdf_prf_validate_key_size in *.
      checks_in V. destruct V as (V0 & V1 & V2). pose proof (hkdf_params_hash _ V2) as HN. apply (hkdf_params_ok _ _ HN) in V2. bools. replace v with 0 in * by lia.
      assert (KS : 32 <= ks < 2147483648) by (destruct (Z.ltb_spec ks 2147483648); lia).
      pose proof (RS 0%N ks ltac:(lia)) as L. destruct (holds_all_3 _ _ _ _ H) as (pm & vk & ver & -> & Hpm & _ & _). cbn [nth snd] in *. split.
      { econstructor; [reflexivity | constructor; lia |].
        econstructor; [reflexivity | apply holds_params; [apply empty_holds | exact Hpm] |]. econstructor; [reflexivity | constructor |]. constructor. }
      exists (HkdfPrf (proto_to_subtle z) salt (rnd 0%N ks)). split; [reflexivity |]. split; [| split; [| split; [cbn [requestable]; lia | split]]].
      + cbv beta iota delta [format_attributes]. unfold count, size_of. rewrite L. repeat constructor; try assumption. exists z. split; assumption.
      + cbn [usable]. split; [lia | exact V2].
      + cbv beta iota delta [key_attributes]. repeat constructor; [exists z; split; [destruct pm; exact Hz | exact HN] | destruct pm; exact Hs].
      + random_material. rewrite L. reflexivity.
    - reflexivity.
  Qed.

End Deterministic.
