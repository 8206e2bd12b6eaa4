(** Proofs: example programs, tags and round trips. *)
From Coq Require Import Strings.Byte Strings.String List NArith ZArith Bool Lia.
From Verif Require Import M_Base M_Utf8 M_Proto M_Prims M_PrimitiveSet M_Registry M_KeysetHandle M_KeysetIO
  M_Wrappers M_Kms M_JwtTypes M_Json M_JsonKeyset M_RawJwt M_JwtValidator M_JwtWrappers M_Jwk M_KmsIntegrations
  M_CcStream M_CcManagers M_KeyFormats M_Templates M_Cli
  S_Keyset S_Wrappers S_Wire S_Base64 S_Json S_JsonKeyset S_Config S_CcLaws S_Cli
  L_Base L_Utf8 L_JsonKeyset L_JsonKeyset2 L_JsonKeyset3 L_Keyset L_Wrappers L_Wrappers2 L_Config L_Config4
  L_Cli L_Cli2 L_Cli3.
Import ListNotations.
Open Scope string_scope.
Open Scope list_scope.

(** ** bytes.strip *)
Lemma is_space_spec : forall c, is_space c = true <-> In c spaces.
Proof.
  intros c. split.
  - intros H. destruct c; try discriminate H; cbn; tauto.
  - intros H. cbn in H. repeat (destruct H as [<- | H]; [reflexivity |]). contradiction.
Qed.
Definition blank (x : bytes) : Prop := Forall (fun c => In c spaces) x.
Lemma lstrip_split : forall x, exists a, x = a ++ lstrip x /\ blank a.
Proof.
  induction x as [| c x (a & E & H)]; [exists []; split; [reflexivity | constructor] |]. cbn [lstrip].
  destruct (is_space c) eqn:S.
  - exists (c :: a). split; [cbn; f_equal; exact E |]. constructor; [apply is_space_spec; exact S | exact H].
  - exists []. split; [reflexivity | constructor].
Qed.
Lemma lstrip_app : forall a y, blank a -> lstrip (a ++ y) = lstrip y.
Proof.
  intros a y H. induction H as [| c a Hc H IH]; [reflexivity |]. cbn. rewrite (proj2 (is_space_spec c) Hc). exact IH.
Qed.
Lemma lstrip_head : forall c y, ~ In c spaces -> lstrip (c :: y) = c :: y.
Proof.
  intros c y H. cbn. destruct (is_space c) eqn:E; [| reflexivity]. apply is_space_spec in E. contradiction.
Qed.
Lemma blank_rev : forall x, blank x -> blank (rev x).
Proof. intros x H. unfold blank in *. rewrite Forall_forall in *. intros c Hc. apply H. apply in_rev. exact Hc. Qed.
Lemma strip_middle : forall a h b, blank a -> blank b -> Forall (fun c => ~ In c spaces) h -> strip (a ++ h ++ b) = h.
Proof.
  intros a h b Ha Hb Hh. unfold strip. rewrite lstrip_app by exact Ha.
  destruct h as [| c h].
  - cbn [app]. destruct (lstrip_split b) as (b' & E & _). pose proof (lstrip_app b [] Hb) as E2. rewrite app_nil_r in E2.
    cbn in E2. rewrite E2. reflexivity.
  - cbn [app]. rewrite lstrip_head by (inversion Hh; assumption).
    change (c :: h ++ b) with ((c :: h) ++ b). rewrite rev_app_distr, lstrip_app by (apply blank_rev; exact Hb).
    destruct (rev (c :: h)) as [| d r] eqn:E.
    + exfalso. apply (f_equal (@length byte)) in E. rewrite rev_length in E. discriminate.
    + rewrite lstrip_head.
      * rewrite <- E. apply rev_involutive.
      * rewrite Forall_forall in Hh. apply Hh. apply in_rev. rewrite E. left. reflexivity.
Qed.
Lemma strip_split : forall x, exists a b, x = a ++ strip x ++ b /\ blank a /\ blank b.
Proof.
  intros x. unfold strip. destruct (lstrip_split x) as (a & Ea & Ha).
  destruct (lstrip_split (rev (lstrip x))) as (b & Eb & Hb).
  exists a, (rev b). split; [| split; [exact Ha | apply blank_rev; exact Hb]].
  rewrite <- rev_app_distr, <- Eb, rev_involutive. exact Ea.
Qed.
Lemma digit_not_space : forall c n, digit c n -> ~ In c spaces.
Proof.
  intros c n H Hs. pose proof (proj2 (unhex_digit_spec c (N.of_nat n)) (ex_intro _ n (conj eq_refl H))) as E.
  cbn in Hs. repeat (destruct Hs as [<- | Hs]; [discriminate E |]). contradiction.
Qed.
Lemma hex_bytes_solid : forall x t, hex_bytes x t -> Forall (fun c => ~ In c spaces) t.
Proof.
  intros x t H. induction H; [constructor |]. constructor; [eapply digit_not_space; eassumption |].
  constructor; [eapply digit_not_space; eassumption | assumption].
Qed.
Theorem tag_file_spec : forall x tag, unhexlify (M_Cli.strip x) = Some tag <-> tag_text tag x.
Proof.
  intros x tag. rewrite unhexlify_spec. split.
  - intros H. destruct (strip_split x) as (a & b & E & Ha & Hb). exists a, (strip x), b. auto.
  - intros (a & h & b & -> & H & Ha & Hb). rewrite (strip_middle a h b Ha Hb (hex_bytes_solid _ _ H)). exact H.
Qed.

(** ** binascii.hexlify *)
Lemma nibble : forall n, (n < 16)%N ->
  nth_error lower_digits (N.to_nat n) = Some (byte_of_N (hex_digit n)).
Proof.
  intros n H. assert (G : forallb (fun i => match nth_error lower_digits i with
    | Some c => Byte.eqb c (byte_of_N (hex_digit (N.of_nat i))) | None => false end) (seq 0 16) = true) by (vm_compute; reflexivity).
  rewrite forallb_forall in G. specialize (G (N.to_nat n)). rewrite N2Nat.id in G.
  assert (Hin : In (N.to_nat n) (seq 0 16)) by (apply in_seq; lia). specialize (G Hin).
  destruct (nth_error lower_digits (N.to_nat n)) as [c |]; [| discriminate].
  apply Byte.byte_dec_bl in G. subst c. reflexivity.
Qed.
Lemma hexlify_spec : forall x, hex_bytes x (hexlify_bytes x) /\ Forall (fun c => In c lower_digits) (hexlify_bytes x).
Proof.
  induction x as [| c x (H1 & H2)]; [split; constructor |].
  unfold hexlify_bytes, hexlify in *. cbn [map concat app].
  pose proof (to_N_lt c) as Hc.
  assert (Ha : nth_error lower_digits (N.to_nat (Byte.to_N c / 16)) = Some (byte_of_N (hex_digit (Byte.to_N c / 16)))).
  { apply nibble. apply N.div_lt_upper_bound; lia. }
  assert (Hb : nth_error lower_digits (N.to_nat (Byte.to_N c mod 16)) = Some (byte_of_N (hex_digit (Byte.to_N c mod 16)))).
  { apply nibble. apply N.mod_lt. lia. }
  split.
  - apply (Hex_byte _ _ (N.to_nat (Byte.to_N c / 16)) (N.to_nat (Byte.to_N c mod 16))); [left; exact Ha | left; exact Hb | | exact H1].
    apply Nat2N.inj. rewrite <- Byte.to_N_via_nat. rewrite Nat2N.inj_add, Nat2N.inj_mul, !N2Nat.id.
    change (N.of_nat 16) with 16%N. apply N.div_mod. lia.
  - constructor; [eapply nth_error_In; exact Ha |]. constructor; [eapply nth_error_In; exact Hb | exact H2].
Qed.

(** ** mac and signature *)
Lemma stores_tag_ok : forall o out y fs, may_write o out = true ->
  stores_tag (next (attempt y) (fun x => next (truncate o out) (fun _ => next (put_bytes out (hexlify_bytes x)) (fun _ => ret 0%Z))) fs) out y fs.
Proof.
  intros o out [x | e] fs H; cbn [stores_tag].
  - rewrite (next_ok _ _ _ _ x fs fs eq_refl). rewrite write_run by exact H. exists (hexlify_bytes x).
    destruct (hexlify_spec x) as (H1 & H2). split; [exact H1 |]. split; [exact H2 |].
    split; [reflexivity | apply changed_store2].
  - unfold next, attempt. split; [reflexivity | apply same_refl].
Qed.
Theorem mac_cli_compute_spec : forall w env pb o f fs ks l data, cc_ready w Mac -> tf_mode f = Produce ->
  holds_keyset (pe_rt env) fs (tf_keyset_path f) ks -> cc_keyset ClsMac (cw_mac w) ks l ->
  content fs (tf_data_path f) = Some data -> may_write o (tf_tag_path f) = true ->
  exists y, (forall k q, is_primary ks l k q -> prefixed k (cm_compute q (legacy_data k data)) y) /\
    ((forall k q, ~ is_primary ks l k q) -> raises_tink y) /\
    stores_tag (mac_cli w env pb o f fs) (tf_tag_path f) y fs.
Proof.
  intros w env pb o f fs ks l data Hr Hm Hh Hk Hd Ho.
  destruct (registered_ok w env CallMac Mac fs eq_refl ltac:(ready) I) as (r & Er & Hc).
  destruct (keyset_file_read w env pb fs _ ks Hh) as (t & Et & Ep).
  destruct (mac_over_cc_ok _ _ _ _ _ Hc Hk) as (a & Ea & L0 & L1 & L2 & L3).
  exists (mac_compute a data). split; [intros; apply L2; assumption |]. split; [intros; apply L3; assumption |].
  unfold mac_cli. rewrite (next_ok _ _ _ _ r fs fs Er), (next_ok _ _ _ _ t fs fs Et), Ep.
  cbn [or_return_1]. rewrite Ea. cbn [or_return_1].
  rewrite (next_ok _ _ _ _ data fs fs (read_bytes_ok _ _ _ Hd)), Hm.
  cbn [call_compute_mac]. apply stores_tag_ok. exact Ho.
Qed.
Lemma decides_tag : forall x (v : bytes -> result unit) fs, (forall tag, tink_total (v tag)) ->
  decides (tag_of_file x (fun tag => or_return_1 (v tag) (fun _ => ret 0%Z)) fs)
    (exists tag, tag_text tag x /\ v tag = Ok tt) fs.
Proof.
  intros x v fs Ht. unfold tag_of_file. destruct (unhexlify (strip x)) as [tag |] eqn:E.
  - pose proof (proj1 (tag_file_spec x tag) E) as Htag. specialize (Ht tag). destruct (v tag) as [[] | e] eqn:Ev; cbn [or_return_1].
    + split; [apply same_refl |]. split; [left; reflexivity |]. split; [eauto | intros _; reflexivity].
    + cbn in Ht. rewrite Ht. split; [apply same_refl |]. split; [right; reflexivity |]. split; [discriminate |].
      intros (tag' & Htag' & Ev'). apply tag_file_spec in Htag'. congruence.
  - split; [apply same_refl |]. split; [right; reflexivity |]. split; [discriminate |].
    intros (tag' & Htag' & _). apply tag_file_spec in Htag'. congruence.
Qed.
Lemma decides_iff : forall run A B fs, (A <-> B) -> decides run A fs -> decides run B fs.
Proof. intros run A B fs H (H1 & H2 & H3). split; [exact H1 |]. split; [exact H2 |]. rewrite <- H. exact H3. Qed.

Theorem mac_cli_verify_spec : forall w env pb o f fs ks l data x, cc_ready w Mac -> tf_mode f = Verify ->
  holds_keyset (pe_rt env) fs (tf_keyset_path f) ks -> cc_keyset ClsMac (cw_mac w) ks l ->
  content fs (tf_data_path f) = Some data -> content fs (tf_tag_path f) = Some x ->
  decides (mac_cli w env pb o f fs) (exists tag, tag_text tag x /\ mac_accepts l tag data) fs.
Proof.
  intros w env pb o f fs ks l data x Hr Hm Hh Hk Hd Hx.
  destruct (registered_ok w env CallMac Mac fs eq_refl ltac:(ready) I) as (r & Er & Hc).
  destruct (keyset_file_read w env pb fs _ ks Hh) as (t & Et & Ep).
  destruct (mac_over_cc_ok _ _ _ _ _ Hc Hk) as (a & Ea & L0 & L1 & L2 & L3).
  assert (G : forall tag, tink_total (mac_verify a tag data) /\ (mac_verify a tag data = Ok tt <-> mac_accepts l tag data)).
  { intros tag. destruct (Nat.le_gt_cases (length tag) 5) as [Hl | Hl].
    - destruct (L0 tag data Hl) as (e & E & He). rewrite E. split; [exact He |]. split; [discriminate |].
      intros [Hl' _]. lia.
    - destruct (cc_success_iff _ _ _ _ _ (fun k q body => cm_verify q body (legacy_data k data)) tag _ Hk (L1 tag data Hl)) as [T1 T2].
      split; [exact T1 |]. rewrite T2. unfold mac_accepts. tauto. }
  unfold mac_cli. rewrite (next_ok _ _ _ _ r fs fs Er), (next_ok _ _ _ _ t fs fs Et), Ep.
  cbn [or_return_1]. rewrite Ea. cbn [or_return_1].
  rewrite (next_ok _ _ _ _ data fs fs (read_bytes_ok _ _ _ Hd)), Hm, (next_ok _ _ _ _ x fs fs (read_bytes_ok _ _ _ Hx)).
  cbn [call_verify_mac]. eapply decides_iff; [| apply (decides_tag x (fun tag => mac_verify a tag data))].
  - split; intros (tag & T & H); exists tag; (split; [exact T | apply G; exact H]).
  - intros tag. apply G.
Qed.

Theorem signature_cli_sign_spec : forall w env pb o rnd f fs ks l data, cc_ready w Signature -> tf_mode f = Produce ->
  holds_keyset (pe_rt env) fs (tf_keyset_path f) ks -> cc_keyset ClsSign (cw_sign w) ks l ->
  content fs (tf_data_path f) = Some data -> may_write o (tf_tag_path f) = true ->
  exists y, (forall k q, is_primary ks l k q -> prefixed k (cs_sign q rnd (legacy_data k data)) y) /\
    ((forall k q, ~ is_primary ks l k q) -> raises_tink y) /\
    stores_tag (signature_cli w env pb o rnd f fs) (tf_tag_path f) y fs.
Proof.
  intros w env pb o rnd f fs ks l data Hr Hm Hh Hk Hd Ho.
  destruct (registered_ok w env CallSignature Signature fs eq_refl ltac:(ready) I) as (r & Er & Hc).
  destruct (keyset_file_read w env pb fs _ ks Hh) as (t & Et & Ep).
  destruct (signer_over_cc_ok _ _ _ _ _ Hc Hk) as (a & Ea & L2 & L3).
  exists (sign a rnd data). split; [intros; apply L2; assumption |]. split; [intros; apply L3; assumption |].
  unfold signature_cli. rewrite (next_ok _ _ _ _ r fs fs Er), (next_ok _ _ _ _ t fs fs Et), Ep.
  cbn [or_return_1]. rewrite (next_ok _ _ _ _ data fs fs (read_bytes_ok _ _ _ Hd)), Hm, Ea. cbn [or_return_1].
  cbn [call_sign]. apply stores_tag_ok. exact Ho.
Qed.
Theorem signature_cli_verify_spec : forall w env pb o rnd f fs ks l data x, cc_ready w Signature -> tf_mode f = Verify ->
  holds_keyset (pe_rt env) fs (tf_keyset_path f) ks -> cc_keyset ClsVerify (cw_verify w) ks l ->
  content fs (tf_data_path f) = Some data -> content fs (tf_tag_path f) = Some x ->
  decides (signature_cli w env pb o rnd f fs) (exists sg, tag_text sg x /\ signature_accepts l sg data) fs.
Proof.
  intros w env pb o rnd f fs ks l data x Hr Hm Hh Hk Hd Hx.
  destruct (registered_ok w env CallSignature Signature fs eq_refl ltac:(ready) I) as (r & Er & Hc).
  destruct (keyset_file_read w env pb fs _ ks Hh) as (t & Et & Ep).
  destruct (verifier_over_cc_ok _ _ _ _ _ Hc Hk) as (a & Ea & L0 & L1).
  assert (G : forall tag, tink_total (verify a tag data) /\ (verify a tag data = Ok tt <-> signature_accepts l tag data)).
  { intros tag. destruct (Nat.le_gt_cases (length tag) 5) as [Hl | Hl].
    - destruct (L0 tag data Hl) as (e & E & He). rewrite E. split; [exact He |]. split; [discriminate |].
      intros [Hl' _]. lia.
    - destruct (cc_success_iff _ _ _ _ _ (fun k q body => cv_verify q body (legacy_data k data)) tag _ Hk (L1 tag data Hl)) as [T1 T2].
      split; [exact T1 |]. rewrite T2. unfold signature_accepts. tauto. }
  unfold signature_cli. rewrite (next_ok _ _ _ _ r fs fs Er), (next_ok _ _ _ _ t fs fs Et), Ep.
  cbn [or_return_1]. rewrite (next_ok _ _ _ _ data fs fs (read_bytes_ok _ _ _ Hd)), Hm, Ea. cbn [or_return_1].
  rewrite (next_ok _ _ _ _ x fs fs (read_bytes_ok _ _ _ Hx)).
  cbn [call_verify]. eapply decides_iff; [| apply (decides_tag x (fun tag => verify a tag data))].
  - split; intros (tag & T & H); exists tag; (split; [exact T | apply G; exact H]).
  - intros tag. apply G.
Qed.
