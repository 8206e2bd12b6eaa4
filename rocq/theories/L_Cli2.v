(** Proofs: example programs, which files they change. *)
From Coq Require Import Strings.Byte Strings.String List NArith ZArith Bool Lia.
From Verif Require Import M_Base M_Utf8 M_Proto M_Prims M_PrimitiveSet M_Registry M_KeysetHandle M_KeysetIO
  M_Wrappers M_Kms M_JwtTypes M_Json M_JsonKeyset M_RawJwt M_JwtValidator M_JwtWrappers M_Jwk M_KmsIntegrations
  M_CcStream M_CcManagers M_KeyFormats M_Templates M_Cli
  S_Keyset S_Wire S_Base64 S_Json S_JsonKeyset S_Config S_CcLaws S_Cli
  L_Base.
Import ListNotations.
Open Scope string_scope.
Open Scope list_scope.

(** ** Files *)
Lemma content_store_same : forall p x fs, content (store p x fs) p = Some x.
Proof. intros. unfold content, store. apply dict_get_set_same. exact str_eqb_spec. Qed.
Lemma content_store_other : forall p q x fs, q <> p -> content (store p x fs) q = content fs q.
Proof. intros. unfold content, store. apply dict_get_set_other; [exact str_eqb_spec | auto]. Qed.
Lemma changed_store : forall p x fs, changed_to p x fs (store p x fs).
Proof. intros. split; [apply content_store_same | intros; apply content_store_other; assumption]. Qed.
Lemma changed_store2 : forall p x y fs, changed_to p x fs (store p x (store p y fs)).
Proof.
  intros. split; [apply content_store_same |]. intros q Hq. rewrite !content_store_other by exact Hq. reflexivity.
Qed.
Lemma same_refl : forall fs, same_files fs fs.
Proof. intros fs p. reflexivity. Qed.
Lemma changed_same : forall p x fs fs', content fs p = Some x -> same_files fs fs' -> changed_to p x fs fs'.
Proof. intros p x fs fs' H E. split; [rewrite E; exact H | intros; apply E]. Qed.

(** ** Statements *)
Definition quiet {A} (m : io A) : Prop := forall fs, snd (m fs) = fs.
Lemma quiet_attempt : forall A (r : result A), quiet (attempt r).
Proof. intros A r fs. reflexivity. Qed.
Lemma quiet_ret : forall A (a : A), quiet (ret a).
Proof. intros A a fs. reflexivity. Qed.
Lemma quiet_next : forall A B (m : io A) (k : A -> io B), quiet m -> (forall a, quiet (k a)) -> quiet (next m k).
Proof.
  intros A B m k Hm Hk fs. unfold next. specialize (Hm fs). destruct (m fs) as [[a | e] fs']; cbn in *; [subst fs'; apply Hk | exact Hm].
Qed.
Lemma quiet_read_bytes : forall p, quiet (read_bytes p).
Proof. intros p fs. unfold read_bytes. destruct (content fs p); reflexivity. Qed.
Lemma quiet_read_text : forall p, quiet (read_text p).
Proof.
  intros p. apply quiet_next; [apply quiet_read_bytes |]. intros x. destruct (utf8_decode x); [apply quiet_ret | apply quiet_attempt].
Qed.
Lemma quiet_registered : forall w env c, quiet (registered_by w env c).
Proof. intros w env c. unfold registered_by. destruct (perform _ _) as [r [[] | e]]; intros fs; reflexivity. Qed.

(** Statements and failures. *)
Section Frames.
  Variable Q : io Z -> Prop.
  Hypothesis Qfail : forall m, (forall fs, fails (m fs) fs) -> Q m.
  Hypothesis Qnext : forall A (m : io A) (k : A -> io Z), quiet m -> (forall a, Q (k a)) -> Q (next m k).
  Lemma Qreturn : forall A (r : result A) k, (forall a, Q (k a)) -> Q (or_return_1 r k).
  Proof.
    intros A [a | e] k H; [apply H |]. apply Qfail. intros fs. unfold or_return_1.
    destruct (is_tink_error e); (split; [reflexivity | apply same_refl]).
  Qed.
End Frames.

Lemma fail_or_go : forall A (m : io A) (k : A -> io Z) fs, quiet m ->
  fails (next m k fs) fs \/ exists a, fst (m fs) = Ok a /\ next m k fs = k a fs.
Proof.
  intros A m k fs Hq. specialize (Hq fs). unfold next. destruct (m fs) as [[a | e] fs'] eqn:E; cbn in Hq; subst fs'.
  - right. exists a. split; reflexivity.
  - left. split; [reflexivity | apply same_refl].
Qed.

Lemma aon_fail : forall out m, (forall fs, fails (m fs) fs) -> all_or_nothing m out.
Proof. intros out m H fs. left. apply H. Qed.
Lemma aon_next : forall out A (m : io A) k, quiet m -> (forall a, all_or_nothing (k a) out) -> all_or_nothing (next m k) out.
Proof.
  intros out A m k Hq Hk fs. destruct (fail_or_go _ m k fs Hq) as [H | (a & _ & E)]; [left; exact H | rewrite E; apply Hk].
Qed.
Lemma aon_return : forall out A (r : result A) k, (forall a, all_or_nothing (k a) out) -> all_or_nothing (or_return_1 r k) out.
Proof. intros out. apply (Qreturn (fun m => all_or_nothing m out)). apply aon_fail. Qed.
Lemma write_run : forall o p x (m : io Z) fs, may_write o p = true ->
  (next (truncate o p) (fun _ => next (put_bytes p x) (fun _ => m))) fs = m (store p x (store p [] fs)).
Proof. intros o p x m fs H. unfold next, truncate, put_bytes. rewrite H. reflexivity. Qed.
Lemma aon_write : forall o p x (m : io Z), m = ret 0%Z ->
  all_or_nothing (next (truncate o p) (fun _ => next (put_bytes p x) (fun _ => m))) p.
Proof.
  intros o p x m -> fs. destruct (may_write o p) eqn:E.
  - right. exists x. rewrite write_run by exact E. split; [reflexivity | apply changed_store2].
  - left. unfold next, truncate. rewrite E. split; [reflexivity | apply same_refl].
Qed.

Lemma me_of_aon : forall m out, all_or_nothing m out -> may_empty m out.
Proof. intros m out H fs. destruct (H fs) as [H1 | H1]; [left | right; left]; exact H1. Qed.
Lemma me_fail : forall out m, (forall fs, fails (m fs) fs) -> may_empty m out.
Proof. intros out m H fs. left. apply H. Qed.
Lemma me_next : forall out A (m : io A) k, quiet m -> (forall a, may_empty (k a) out) -> may_empty (next m k) out.
Proof.
  intros out A m k Hq Hk fs. destruct (fail_or_go _ m k fs Hq) as [H | (a & _ & E)]; [left; exact H | rewrite E; apply Hk].
Qed.
Lemma me_return : forall out A (r : result A) k, (forall a, may_empty (k a) out) -> may_empty (or_return_1 r k) out.
Proof. intros out. apply (Qreturn (fun m => may_empty m out)). apply me_fail. Qed.
Lemma me_open : forall o p (r : result bytes) (m : io Z), m = ret 0%Z ->
  may_empty (next (truncate o p) (fun _ => next (attempt r) (fun x => next (put_bytes p x) (fun _ => m)))) p.
Proof.
  intros o p r m -> fs. destruct (may_write o p) eqn:E.
  - destruct r as [x | e].
    + right. left. exists x. unfold next, truncate, put_bytes, attempt. rewrite E. split; [reflexivity | apply changed_store2].
    + right. right. unfold next, truncate, attempt. rewrite E. split; [reflexivity | apply changed_store].
  - left. unfold next, truncate. rewrite E. split; [reflexivity | apply same_refl].
Qed.
Lemma me_text : forall o p t (m : io Z), m = ret 0%Z ->
  may_empty (next (truncate o p) (fun _ => next (put_text p t) (fun _ => m))) p.
Proof.
  intros o p t m -> fs. destruct (may_write o p) eqn:E.
  - unfold next, truncate, put_text. rewrite E. destruct (utf8_encode t) as [x |].
    + right. left. exists x. split; [reflexivity | apply changed_store2].
    + right. right. split; [reflexivity | apply changed_store].
  - left. unfold next, truncate. rewrite E. split; [reflexivity | apply same_refl].
Qed.

Lemma or_of_next : forall m, (forall fs, fails (m fs) fs) -> only_reads m.
Proof. intros m H fs. destruct (H fs) as [H1 H2]. split; [exact H2 | right; exact H1]. Qed.
Lemma reads_next : forall A (m : io A) k, quiet m -> (forall a, only_reads (k a)) -> only_reads (next m k).
Proof.
  intros A m k Hq Hk fs. destruct (fail_or_go _ m k fs Hq) as [[H1 H2] | (a & _ & E)]; [split; [exact H2 | right; exact H1] | rewrite E; apply Hk].
Qed.
Lemma reads_return : forall A (r : result A) k, (forall a, only_reads (k a)) -> only_reads (or_return_1 r k).
Proof. apply (Qreturn only_reads or_of_next). Qed.
Lemma reads_ret : forall z, (z = 0 \/ z = 1)%Z -> only_reads (ret z).
Proof. intros z Hz fs. split; [apply same_refl | exact Hz]. Qed.

Ltac aon := repeat first
  [ apply aon_return; intros ?
  | apply aon_write; reflexivity
  | apply aon_next; [first [apply quiet_attempt | apply quiet_registered | apply quiet_read_text | apply quiet_read_bytes] | intros ?] ].

(** ** The programs *)
Theorem programs_all_or_nothing : forall w env pb o rnd f t remote ad r0,
  all_or_nothing (aead_cli w env pb o rnd f) (cf_output_path f) /\
  all_or_nothing (deterministic_aead_cli w env pb o f) (cf_output_path f) /\
  all_or_nothing (cleartext_keyset_crypt w env pb o rnd f) (cf_output_path f) /\
  all_or_nothing (encrypted_keyset_crypt w env pb o remote ad rnd f) (cf_output_path f) /\
  all_or_nothing (envelope_cli w env o remote r0 rnd f) (cf_output_path f) /\
  (tf_mode t = Produce -> all_or_nothing (mac_cli w env pb o t) (tf_tag_path t) /\
                          all_or_nothing (signature_cli w env pb o rnd t) (tf_tag_path t)).
Proof.
  intros w env pb o rnd f t remote ad r0.
  split; [unfold aead_cli; aon |]. split; [unfold deterministic_aead_cli; aon |].
  split; [unfold cleartext_keyset_crypt; aon |]. split; [unfold encrypted_keyset_crypt; aon |].
  split; [unfold envelope_cli; aon |].
  intros E. split; [unfold mac_cli | unfold signature_cli]; rewrite E; aon.
Qed.

Lemma reads_tag : forall x k, (forall t, only_reads (k t)) -> only_reads (tag_of_file x k).
Proof. intros x k H. unfold tag_of_file. destruct (unhexlify (strip x)); [apply H | apply reads_ret; auto]. Qed.
Ltac reads := repeat first
  [ apply reads_return; intros ?
  | apply reads_ret; auto
  | apply reads_tag; intros ?
  | apply reads_next; [first [apply quiet_attempt | apply quiet_registered | apply quiet_read_text | apply quiet_read_bytes] | intros ?] ].

Theorem verifying_only_reads : forall w env pb o rnd f,
  tf_mode f = Verify -> only_reads (mac_cli w env pb o f) /\ only_reads (signature_cli w env pb o rnd f).
Proof.
  intros w env pb o rnd f E. split; [unfold mac_cli | unfold signature_cli]; rewrite E; reads.
Qed.
Theorem jwt_verify_only_reads : forall w env draws clock jwk audience token fs run,
  jwt_verify_cli w env draws clock jwk audience token fs = Some run ->
  same_files fs (snd run) /\ (exit_status (fst run) = 0 \/ exit_status (fst run) = 1)%Z.
Proof.
  intros w env draws clock jwk audience token fs run H. unfold jwt_verify_cli in H.
  assert (Hq : quiet (reg <~ registered_by w env CallJwtSignature ;; text <~ read_text jwk ;; ret (reg, text))).
  { apply quiet_next; [apply quiet_registered |]. intros r. apply quiet_next; [apply quiet_read_text |]. intros t. apply quiet_ret. }
  specialize (Hq fs). destruct ((reg <~ registered_by w env CallJwtSignature ;; text <~ read_text jwk ;; ret (reg, text)) fs)
    as [[[reg text] | e] fs'] eqn:E; cbn in Hq; subst fs'.
  - destruct (to_public_keyset_handle _ _ _) as [imported |]; [| discriminate].
    apply some_inj in H. subst run. match goal with |- context [or_return_1 imported ?k fs] =>
      assert (G : only_reads (or_return_1 imported k)) by reads; exact (G fs) end.
  - apply some_inj in H. subst run. split; [apply same_refl | right; reflexivity].
Qed.

Ltac me := repeat first
  [ apply me_return; intros ?
  | apply me_open; reflexivity
  | apply me_text; reflexivity
  | apply me_next; [first [apply quiet_attempt | apply quiet_registered | apply quiet_read_text | apply quiet_read_bytes] | intros ?] ].

Theorem programs_that_empty : forall w env pb o rnd f now keyset audience token jwk,
  may_empty (hybrid_cli w env pb o rnd f) (cf_output_path f) /\
  may_empty (jwt_sign_cli w env pb o rnd now keyset audience token) token /\
  may_empty (jwt_generate_public_jwk_set w env pb o keyset jwk) jwk.
Proof.
  intros w env pb o rnd f now keyset audience token jwk.
  split; [unfold hybrid_cli; me; destruct (cf_mode f); me |]. split; [unfold jwt_sign_cli; me | unfold jwt_generate_public_jwk_set; me].
Qed.

Lemma me_write_keyset : forall o path s, may_empty (write_keyset o path s) path.
Proof.
  intros o path s fs. unfold write_keyset. destruct (may_write o path) eqn:E.
  - unfold next at 1. unfold truncate. rewrite E. destruct s as [t | e]; cbn [or_return_1].
    + unfold next, put_text. destruct (utf8_encode t) as [x |].
      * right. left. exists x. split; [reflexivity | apply changed_store2].
      * right. right. split; [reflexivity | apply changed_store].
    + right. right. destruct (is_tink_error e); (split; [reflexivity | apply changed_store]).
  - left. unfold next, truncate. rewrite E. split; [reflexivity | apply same_refl].
Qed.
Theorem generating_files : forall w env o remote ad rnd rnd' draws path m,
  cleartext_keyset_generate w env o rnd draws path = Some m \/
  encrypted_keyset_generate w env o remote ad rnd rnd' draws path = Some m -> may_empty m path.
Proof.
  intros w env o remote ad rnd rnd' draws path m [H | H].
  - unfold cleartext_keyset_generate in H. destruct (perform _ _) as [reg [[] | e]].
    + destruct (new_aes128_gcm _ _ _) as [made |]; [| discriminate]. apply some_inj in H. subst m.
      apply me_return. intros h. apply me_write_keyset.
    + apply some_inj in H. subst m. apply me_fail. intros fs. split; [reflexivity | apply same_refl].
  - unfold encrypted_keyset_generate in H. destruct (perform _ _) as [reg [[] | e]].
    + destruct remote as [a | e].
      * destruct (new_aes128_gcm _ _ _) as [made |]; [| discriminate]. apply some_inj in H. subst m.
        apply me_return. intros h. apply me_write_keyset.
      * apply some_inj in H. subst m. apply me_fail. intros fs. unfold or_return_1.
        destruct (is_tink_error e); (split; [reflexivity | apply same_refl]).
    + apply some_inj in H. subst m. apply me_fail. intros fs. split; [reflexivity | apply same_refl].
Qed.
