(** Proofs about the AWS, GCP and Vault integrations. *)
From Coq Require Import Strings.Byte Strings.String List NArith ZArith Bool Lia.
From Verif Require Import M_Base M_Utf8 M_Base64 M_Prims M_Kms M_KmsIntegrations
  S_Keyset S_Wire S_Kms S_KmsIntegrations L_Base L_Utf8 L_Base64 L_Wire L_Kms.
Import ListNotations.
Open Scope list_scope.
Open Scope N_scope.

(** * Strings *)

Lemma strip_prefix_spec : forall p s r, strip_prefix p s = Some r <-> s = p ++ r.
Proof.
  induction p as [| a p IH]; intros s r; cbn [strip_prefix app].
  - split; [intros H; apply some_inj in H; auto | congruence].
  - destruct s as [| c s]; [split; discriminate |].
    destruct (N.eqb_spec a c) as [-> | Hne].
    + rewrite IH. split; [intros ->; reflexivity | intros H; injection H as ->; reflexivity].
    + split; [discriminate | intros H; injection H as -> _; congruence].
Qed.

Lemma startswith_spec : forall s p, startswith s p = true <-> exists r, s = p ++ r.
Proof.
  intros s p. unfold startswith. destruct (strip_prefix p s) as [r |] eqn:E.
  - apply strip_prefix_spec in E. split; eauto.
  - split; [discriminate |]. intros (r & H). apply strip_prefix_spec in H. congruence.
Qed.

Lemma strip_prefix_none : forall p s, strip_prefix p s = None -> forall r, s <> p ++ r.
Proof. intros p s H r E. apply strip_prefix_spec in E. congruence. Qed.

Definition stops (cls : N -> bool) (b : pystr) : Prop :=
  match b with [] => True | c :: _ => cls c = false end.

Lemma span_sound : forall cls s a b, span cls s = (a, b) ->
  s = a ++ b /\ Forall (fun c => cls c = true) a /\ stops cls b.
Proof.
  induction s as [| c r IH]; intros a b H; cbn [span] in H.
  - injection H as <- <-. repeat split; constructor.
  - destruct (cls c) eqn:E.
    + destruct (span cls r) as [a' b']. injection H as <- <-.
      destruct (IH a' b' eq_refl) as (-> & H1 & H2). repeat split; auto.
    + injection H as <- <-. repeat split; [constructor |]. exact E.
Qed.
Lemma span_complete : forall cls a b, Forall (fun c => cls c = true) a -> stops cls b ->
  span cls (a ++ b) = (a, b).
Proof.
  induction 1 as [| c a Hc Ha IH]; intros Hb.
  - cbn [app]. destruct b as [| c r]; [reflexivity |]. cbn [span]. cbn in Hb. rewrite Hb. reflexivity.
  - cbn [app span]. rewrite Hc, IH by exact Hb. reflexivity.
Qed.

Lemma char_of_dec : forall cls alphabet,
  (forall c, cls c = true -> c < 128) ->
  forallb (fun i => Bool.eqb (cls i) (existsb (N.eqb i) (ulit alphabet))) (map N.of_nat (seq 0 128)) = true ->
  forallb (fun c => c <? 128) (ulit alphabet) = true ->
  forall c, cls c = true <-> char_of alphabet c.
Proof.
  intros cls alphabet H1 H2 H3 c. unfold char_of. rewrite forallb_forall in H2, H3.
  assert (A : forall c, c < 128 -> (cls c = true <-> In c (ulit alphabet))).
  { intros d Hd. specialize (H2 d). rewrite Bool.eqb_true_iff in H2.
    rewrite H2.
    - rewrite existsb_exists. split; [intros (x & Hx & E); apply N.eqb_eq in E; congruence |].
      intros Hx. exists d. split; [exact Hx | apply N.eqb_refl].
    - apply in_map_iff. exists (N.to_nat d). split; [apply Nnat.N2Nat.id |]. apply in_seq. lia. }
  split.
  - intros H. apply A; auto.
  - intros H. apply A; [| exact H]. apply N.ltb_lt, H3, H.
Qed.

Ltac class_bound := intros c H; repeat rewrite orb_true_iff in H; repeat rewrite andb_true_iff in H;
  rewrite ?N.leb_le, ?N.eqb_eq in H; lia.

Lemma aws_region_char_spec : forall c, aws_region_char c = true <->
  char_of "abcdefghijklmnopqrstuvwxyz0123456789-" c.
Proof. apply char_of_dec; [unfold aws_region_char; class_bound | vm_compute; reflexivity | vm_compute; reflexivity]. Qed.
Lemma gcp_name_char_spec : forall c, gcp_name_char c = true <->
  char_of "abcdefghijklmnopqrstuvwxyzABCDEFGHIJKLMNOPQRSTUVWXYZ0123456789_-" c.
Proof. apply char_of_dec; [unfold gcp_name_char; class_bound | vm_compute; reflexivity | vm_compute; reflexivity]. Qed.
Lemma quote_safe_spec : forall c, quote_safe c = true <-> unreserved c.
Proof. apply char_of_dec; [unfold quote_safe; class_bound | vm_compute; reflexivity | vm_compute; reflexivity]. Qed.

Lemma Forall_iff : forall A (P Q : A -> Prop) l, (forall x, P x <-> Q x) -> Forall P l <-> Forall Q l.
Proof. intros A P Q l H. rewrite !Forall_forall. firstorder. Qed.

(** * AWS *)

Lemma has_aws_format_spec : forall uri, has_aws_key_uri_format uri = true <-> aws_key_uri uri.
Proof.
  intros uri. unfold has_aws_key_uri_format, aws_key_uri.
  destruct (strip_prefix (ulit "aws-kms://arn:aws:kms:") uri) as [rest |] eqn:E.
  - apply strip_prefix_spec in E. subst uri.
    destruct (span aws_region_char rest) as [a b] eqn:F.
    pose proof (span_sound _ _ _ _ F) as (-> & Ha & Hb). split.
    + intros H. destruct a as [| a0 a]; [discriminate |]. destruct b as [| c b]; [discriminate |].
      apply N.eqb_eq in H. subst c. exists (a0 :: a), b. split; [reflexivity |].
      split; [discriminate |]. eapply Forall_iff; [| exact Ha]. intros x. symmetry. apply aws_region_char_spec.
    + intros (region & r & H & Hn & Hr). apply app_inv_head in H.
      assert (Hr' : Forall (fun c => aws_region_char c = true) region)
        by (eapply Forall_iff; [| exact Hr]; intros x; apply aws_region_char_spec).
      rewrite H in F. rewrite span_complete in F; [| exact Hr' | reflexivity].
      injection F as <- <-. destruct region; [congruence |]. reflexivity.
  - split; [discriminate |]. intros (region & r & H & _). exfalso.
    exact (strip_prefix_none _ _ E _ H).
Qed.

Lemma aws_uri_arn : forall uri, aws_key_uri uri ->
  exists arn, uri = ulit "aws-kms://" ++ arn /\ key_uri_to_key_arn uri = Ok arn.
Proof.
  intros uri (region & rest & -> & _).
  exists (ulit "arn:aws:kms:" ++ region ++ ulit ":" ++ rest). split; [reflexivity |].
  unfold key_uri_to_key_arn.
  assert (E : strip_prefix AWS_KEYURI_PREFIX
    (ulit "aws-kms://arn:aws:kms:" ++ region ++ ulit ":" ++ rest) =
    Some (ulit "arn:aws:kms:" ++ region ++ ulit ":" ++ rest)) by (apply strip_prefix_spec; reflexivity).
  rewrite E. reflexivity.
Qed.

Lemma aws_supports_spec : forall bound uri, aws_does_support bound uri = true <->
  aws_key_uri uri /\ (bound = None \/ bound = Some uri).
Proof.
  intros bound uri. unfold aws_does_support.
  destruct (has_aws_key_uri_format uri) eqn:E; cbn [negb].
  - apply has_aws_format_spec in E. destruct bound as [u |].
    + rewrite str_eqb_spec. split; [intros ->; auto |]. intros (_ & [H | H]); congruence.
    + split; auto.
  - split; [discriminate |]. intros (H & _). apply has_aws_format_spec in H. congruence.
Qed.

Lemma aws_bound_spec : forall u,
  (u = None \/ u = Some []) /\ aws_bound_uri u = Ok None \/
  (exists v, u = Some v /\ v <> [] /\ aws_key_uri v /\ aws_bound_uri u = Ok (Some v)) \/
  (exists v, u = Some v /\ v <> [] /\ ~ aws_key_uri v /\ raises_tink (aws_bound_uri u)).
Proof.
  intros [[| c v] |]; [left; auto | | left; auto]. right. unfold aws_bound_uri. cbn [or_none].
  destruct (has_aws_key_uri_format (c :: v)) eqn:E; cbn [negb].
  - left. exists (c :: v). split; [reflexivity |]. split; [discriminate |].
    split; [apply has_aws_format_spec; exact E | reflexivity].
  - right. exists (c :: v). split; [reflexivity |]. split; [discriminate |]. split.
    + intros H. apply has_aws_format_spec in H. congruence.
    + eexists; split; reflexivity.
Qed.

Lemma catch_client_error_spec : forall A (r : result A),
  reported_as_tink_error ClientError r (catch_client_error r).
Proof.
  intros A [a | e]; split; intros H; cbn; auto; try discriminate.
  - injection H as ->. eexists; split; reflexivity.
  - destruct e; auto. congruence.
Qed.

(** Encryption context *)
Lemma hex_digit_nth : forall n, n < 16 -> hex_digit n = nth (N.to_nat n) (ulit "0123456789abcdef") 0.
Proof.
  intros n H.
  assert (A : forallb (fun i => hex_digit (N.of_nat i) =? nth i (ulit "0123456789abcdef") 0) (seq 0 16) = true)
    by (vm_compute; reflexivity).
  rewrite forallb_forall in A. specialize (A (N.to_nat n)). rewrite Nnat.N2Nat.id in A.
  apply N.eqb_eq, A. apply in_seq. lia.
Qed.

Lemma hex_digit_inj : forall a b, a < 16 -> b < 16 -> hex_digit a = hex_digit b -> a = b.
Proof.
  intros a b Ha Hb. unfold hex_digit. destruct (N.ltb_spec a 10), (N.ltb_spec b 10); lia.
Qed.

Lemma hexlify_text : forall x, hex_text x (hexlify x).
Proof.
  intros x. unfold hexlify. eexists. split; [| reflexivity].
  induction x as [| b x IH]; cbn [map]; constructor; [| exact IH].
  pose proof (to_N_lt b). exists (Byte.to_N b / 16), (Byte.to_N b mod 16).
  split; [apply N.div_mod; lia |]. split; [apply N.mod_lt; lia |].
  rewrite <- !hex_digit_nth; [reflexivity | apply N.mod_lt; lia | apply N.div_lt_upper_bound; lia].
Qed.

Lemma hexlify_inj : forall x y, hexlify x = hexlify y -> x = y.
Proof.
  unfold hexlify. induction x as [| a x IH]; intros [| b y] H; cbn [map concat app] in H; try discriminate.
  - reflexivity.
  - injection H as H1 H2 H3. apply IH in H3. subst y. f_equal. apply to_N_inj.
    pose proof (to_N_lt a). pose proof (to_N_lt b).
    apply hex_digit_inj in H1; [| apply N.div_lt_upper_bound; lia | apply N.div_lt_upper_bound; lia].
    apply hex_digit_inj in H2; [| apply N.mod_lt; lia | apply N.mod_lt; lia].
    rewrite (N.div_mod (Byte.to_N a) 16), (N.div_mod (Byte.to_N b) 16) by lia. congruence.
Qed.

Lemma hex_pair_fun : forall b s t, hex_pair b s -> hex_pair b t -> s = t.
Proof.
  intros b s t (h & l & E & L & ->) (h' & l' & E' & L' & ->).
  assert (h = h') by lia. assert (l = l') by lia. subst. reflexivity.
Qed.
Lemma hex_text_fun : forall x s t, hex_text x s -> hex_text x t -> s = t.
Proof.
  intros x s t (p & Hp & ->) (q & Hq & ->). f_equal. revert q Hq.
  induction Hp as [| b u x p Hb Hp IH]; intros q Hq; inversion Hq; subst; [reflexivity |].
  f_equal; [eapply hex_pair_fun; eauto | apply IH; assumption].
Qed.

Theorem encryption_context_spec : forall ad ctx, encryption_context ad = ctx <-> aws_context ad ctx.
Proof.
  intros ad ctx. unfold aws_context. split.
  - intros <-. destruct ad as [| a ad]; [left; auto | right]. split; [discriminate |].
    exists (hexlify (a :: ad)). split; [apply hexlify_text | reflexivity].
  - intros [(-> & ->) | (Hn & t & Ht & ->)]; [reflexivity |].
    rewrite (hex_text_fun _ _ _ Ht (hexlify_text ad)). destruct ad; [congruence | reflexivity].
Qed.

Theorem encryption_context_inj : forall a b, encryption_context a = encryption_context b -> a = b.
Proof.
  intros [| a x] [| b y] H; cbn [encryption_context] in H; try discriminate; [reflexivity |].
  pose proof (f_equal (fun l => match l with [(_, t)] => t | _ => [] end) H) as E.
  exact (hexlify_inj _ _ E).
Qed.

Lemma aws_kms_aead_for : forall client arn, aws_aead_for client arn (aws_kms_aead client arn).
Proof.
  intros client arn. split; intros; apply encryption_context_spec in H; subst ctx;
    apply catch_client_error_spec.
Qed.

Theorem aws_client_construction : forall id client u,
  (u <> None /\ u <> Some [] /\ (forall v, u = Some v -> ~ aws_key_uri v) ->
   raises_tink (aws_new_client id client u)) /\
  (u = None \/ u = Some [] \/ (exists v, u = Some v /\ aws_key_uri v) ->
   exists c, aws_new_client id client u = Ok c).
Proof.
  intros id client u. unfold aws_new_client.
  destruct (aws_bound_spec u) as [([-> | ->] & E) | [(v & -> & Hv & Hu & E) | (v & -> & Hv & Hu & (e & E & He))]];
    try rewrite E; cbn [bind]; split.
  - intros (H & _). congruence.
  - eauto.
  - intros (_ & H & _). congruence.
  - eauto.
  - intros (_ & _ & H). specialize (H v eq_refl). contradiction.
  - eauto.
  - intros _. exists e. auto.
  - intros [H | [H | (w & H & Hw)]]; [congruence | congruence |]. injection H as ->. contradiction.
Qed.

Theorem aws_client_serves : forall id client u c, aws_new_client id client u = Ok c ->
  forall uri,
    (kc_does_support c uri = true <->
     aws_key_uri uri /\ (u = None \/ u = Some [] \/ u = Some uri)) /\
    (kc_does_support c uri = true ->
     exists arn a, uri = ulit "aws-kms://" ++ arn /\ kc_get_aead c uri = Ok a /\ aws_aead_for client arn a) /\
    (kc_does_support c uri = false -> raises_tink (kc_get_aead c uri)).
Proof.
  intros id client u c H uri. unfold aws_new_client in H. apply bind_ok in H.
  destruct H as (bound & Hb & H). apply ok_inj in H. subst c. cbn [kc_does_support kc_get_aead].
  assert (B : (bound = None \/ bound = Some uri) <-> (u = None \/ u = Some [] \/ u = Some uri) \/
                (bound = Some uri /\ uri = [])).
  { destruct (aws_bound_spec u) as [([-> | ->] & E) | [(v & -> & Hv & Hu & E) | (v & -> & Hv & Hu & (e & E & He))]].
    - assert (bound = None) by congruence. subst. intuition congruence.
    - assert (bound = None) by congruence. subst. intuition congruence.
    - assert (bound = Some v) by congruence. subst. intuition congruence.
    - congruence. }
  assert (Hne : ~ aws_key_uri []) by (intros (a & b & E & _); discriminate).
  assert (S : aws_does_support bound uri = true <->
     aws_key_uri uri /\ (u = None \/ u = Some [] \/ u = Some uri)).
  { rewrite aws_supports_spec, B. split; [intros (Ha & [Hb' | (_ & ->)]) | intros (Ha & Hb')]; auto. contradiction. }
  split; [exact S |]. split.
  - intros Hs. apply S in Hs as Hs'. destruct (aws_uri_arn uri (proj1 Hs')) as (arn & Hu & Ha).
    exists arn, (aws_kms_aead client arn). split; [exact Hu |]. split; [| apply aws_kms_aead_for].
    unfold aws_get_aead. rewrite Hs. cbn [negb]. rewrite Ha. reflexivity.
  - intros Hs. unfold aws_get_aead. rewrite Hs. cbn [negb].
    destruct bound; eexists; split; reflexivity.
Qed.

Lemma split_on_nonempty : forall sep s, split_on sep s <> [].
Proof.
  intros sep [| c s]; [discriminate |]. cbn [split_on]. destruct (split_on sep s); [discriminate |].
  destruct (c =? sep); discriminate.
Qed.

Lemma split_on_app : forall sep x r, ~ In sep x -> split_on sep (x ++ sep :: r) = x :: split_on sep r.
Proof.
  induction x as [| c x IH]; intros r H; cbn [app split_on].
  - rewrite N.eqb_refl. pose proof (split_on_nonempty sep r). destruct (split_on sep r); [congruence |].
    reflexivity.
  - rewrite IH by (intros Hi; apply H; right; exact Hi).
    destruct (N.eqb_spec c sep) as [-> | Hne]; [exfalso; apply H; left; reflexivity | reflexivity].
Qed.
Lemma split_on_none : forall sep x, ~ In sep x -> split_on sep x = [x].
Proof.
  induction x as [| c x IH]; intros H; [reflexivity |]. cbn [split_on].
  rewrite IH by (intros Hi; apply H; right; exact Hi).
  destruct (N.eqb_spec c sep) as [-> | Hne]; [exfalso; apply H; left; reflexivity | reflexivity].
Qed.
Lemma split_on_length : forall sep x, (2 <= length (split_on sep x))%nat <-> In sep x.
Proof.
  intros sep x. split.
  - intros H. destruct (in_dec N.eq_dec sep x) as [Hi | Hn]; [exact Hi |].
    rewrite split_on_none in H by exact Hn. cbn in H. lia.
  - intros H. apply in_split in H. destruct H as (a & b & ->).
    revert b. induction a as [| c a IH]; intros b; cbn [app split_on].
    + pose proof (split_on_nonempty sep b). destruct (split_on sep b); [congruence |].
      rewrite N.eqb_refl. cbn. lia.
    + specialize (IH b). destruct (split_on sep (a ++ sep :: b)) as [| p ps]; [cbn in IH; lia |].
      destruct (c =? sep); cbn in *; lia.
Qed.

Lemma aws_region_no_colon : forall r, aws_region r -> ~ In 58 r.
Proof.
  intros r (_ & H) Hi. rewrite Forall_forall in H. apply H in Hi. apply aws_region_char_spec in Hi.
  discriminate.
Qed.

Lemma get_region_spec : forall region rest, aws_region region ->
  (In 58 rest -> get_region_from_key_arn (ulit "arn:aws:kms:" ++ region ++ ulit ":" ++ rest) = Ok region) /\
  (~ In 58 rest -> raises_tink (get_region_from_key_arn (ulit "arn:aws:kms:" ++ region ++ ulit ":" ++ rest))).
Proof.
  intros region rest Hr. pose proof (aws_region_no_colon _ Hr) as Hc.
  assert (E : split_on 58 (ulit "arn:aws:kms:" ++ region ++ ulit ":" ++ rest) =
    ulit "arn" :: ulit "aws" :: ulit "kms" :: region :: split_on 58 rest).
  { change (ulit "arn:aws:kms:" ++ region ++ ulit ":" ++ rest) with
      (ulit "arn" ++ 58 :: ulit "aws" ++ 58 :: ulit "kms" ++ 58 :: region ++ 58 :: rest).
    rewrite !split_on_app; [reflexivity | exact Hc | | |];
      intros H; vm_compute in H; repeat (destruct H as [H | H]; [discriminate |]); exact H. }
  unfold get_region_from_key_arn. rewrite E. cbn [length nth].
  pose proof (split_on_length 58 rest). split; intros H'.
  - apply H in H'. destruct (Nat.ltb_spec (S (S (S (S (length (split_on 58 rest)))))) 6); [lia | reflexivity].
  - destruct (Nat.ltb_spec (S (S (S (S (length (split_on 58 rest)))))) 6); [eexists; split; reflexivity |].
    exfalso. apply H'. apply H. lia.
Qed.

(** AwsKmsClient: same URIs, and the session is opened in the region named by the
    URI; URIs without a further ':' after the region are refused. *)
Theorem aws_session_client_serves : forall id session read_config u path c,
  aws_kms_client id session read_config u path = Ok c ->
  exists creds,
    (path = None \/ path = Some [] -> creds = None) /\
    (forall p, path = Some p -> p <> [] ->
       exists k, aws_parse_config (read_config p) = Ok k /\ creds = Some k) /\
    forall uri,
      (kc_does_support c uri = true <->
       aws_key_uri uri /\ (u = None \/ u = Some [] \/ u = Some uri)) /\
      (forall a, kc_get_aead c uri = Ok a ->
         kc_does_support c uri = true /\
         exists arn region rest,
           uri = ulit "aws-kms://" ++ arn /\ arn = ulit "arn:aws:kms:" ++ region ++ ulit ":" ++ rest /\
           aws_region region /\ In 58 rest /\ aws_aead_for (session creds region) arn a) /\
      (forall region rest, aws_region region ->
         uri = ulit "aws-kms://arn:aws:kms:" ++ region ++ ulit ":" ++ rest ->
         kc_does_support c uri = true -> In 58 rest -> exists a, kc_get_aead c uri = Ok a) /\
      tink_total (kc_get_aead c uri).
Proof.
  intros id session read_config u path c H. unfold aws_kms_client in H. apply bind_ok in H.
  destruct H as (bound & Hb & H). apply bind_ok in H. destruct H as (creds & Hc & H).
  apply ok_inj in H. subst c. cbn [kc_does_support kc_get_aead]. exists creds. split.
  { intros [-> | ->]; cbn in Hc; congruence. }
  split.
  { intros p -> Hp. destruct p as [| p0 p]; [congruence |]. cbn [or_none] in Hc.
    apply bind_ok in Hc. destruct Hc as (k & Hk & E). exists k. split; [exact Hk | congruence]. }
  intros uri.
  assert (B : (bound = None \/ bound = Some uri) <-> (u = None \/ u = Some [] \/ u = Some uri) \/
                (bound = Some uri /\ uri = [])).
  { destruct (aws_bound_spec u) as [([-> | ->] & E) | [(v & -> & Hv & Hu & E) | (v & -> & Hv & Hu & (e & E & He))]].
    - assert (bound = None) by congruence. subst. intuition congruence.
    - assert (bound = None) by congruence. subst. intuition congruence.
    - assert (bound = Some v) by congruence. subst. intuition congruence.
    - congruence. }
  assert (Hne : ~ aws_key_uri []) by (intros (a & b & E & _); discriminate).
  assert (S : aws_does_support bound uri = true <->
     aws_key_uri uri /\ (u = None \/ u = Some [] \/ u = Some uri)).
  { rewrite aws_supports_spec, B. split; [intros (Ha & [Hb' | (_ & ->)]) | intros (Ha & Hb')]; auto. contradiction. }
  split; [exact S |].
  assert (G : forall region rest, aws_region region ->
    uri = ulit "aws-kms://arn:aws:kms:" ++ region ++ ulit ":" ++ rest ->
    aws_does_support bound uri = true ->
    aws_get_aead_session session creds bound uri =
    (r <- get_region_from_key_arn (ulit "arn:aws:kms:" ++ region ++ ulit ":" ++ rest) ;;
     Ok (aws_kms_aead (session creds r) (ulit "arn:aws:kms:" ++ region ++ ulit ":" ++ rest)))).
  { intros region rest Hr -> Hs. unfold aws_get_aead_session. rewrite Hs. cbn [negb].
    unfold key_uri_to_key_arn.
    assert (E : strip_prefix AWS_KEYURI_PREFIX
      (ulit "aws-kms://arn:aws:kms:" ++ region ++ ulit ":" ++ rest) =
      Some (ulit "arn:aws:kms:" ++ region ++ ulit ":" ++ rest)) by (apply strip_prefix_spec; reflexivity).
    rewrite E. reflexivity. }
  split; [| split].
  - intros a Ha. assert (Hs : aws_does_support bound uri = true).
    { destruct (aws_does_support bound uri) eqn:Es; [reflexivity |].
      unfold aws_get_aead_session in Ha. rewrite Es in Ha. cbn [negb] in Ha. destruct bound; discriminate. }
    split; [exact Hs |]. pose proof (proj1 (proj1 S Hs)) as (region & rest & Hu & Hr).
    rewrite (G region rest Hr Hu Hs) in Ha. apply bind_ok in Ha. destruct Ha as (r & H1 & H2).
    apply ok_inj in H2. subst a. destruct (get_region_spec region rest Hr) as [R1 R2].
    destruct (in_dec N.eq_dec 58 rest) as [Hi | Hn].
    + rewrite R1 in H1 by exact Hi. apply ok_inj in H1. subst r.
      exists (ulit "arn:aws:kms:" ++ region ++ ulit ":" ++ rest), region, rest.
      split; [exact Hu |]. split; [reflexivity |]. split; [exact Hr |]. split; [exact Hi |].
      apply aws_kms_aead_for.
    + destruct (R2 Hn) as (e & E & _). congruence.
  - intros region rest Hr Hu Hs Hi. rewrite (G region rest Hr Hu Hs).
    rewrite (proj1 (get_region_spec region rest Hr) Hi). cbn [bind]. eauto.
  - destruct (aws_does_support bound uri) eqn:Es.
    + pose proof (proj1 (proj1 S eq_refl)) as (region & rest & Hu & Hr).
      rewrite (G region rest Hr Hu eq_refl). destruct (get_region_spec region rest Hr) as [R1 R2].
      destruct (in_dec N.eq_dec 58 rest) as [Hi | Hn].
      * rewrite R1 by exact Hi. exact I.
      * destruct (R2 Hn) as (e & E & He). rewrite E. exact He.
    + unfold aws_get_aead_session. rewrite Es. cbn [negb]. destruct bound; reflexivity.
Qed.

(** If the service decrypts only with the key and context used to encrypt, then so
    does the Aead with key and associated data. *)
Theorem aws_binds_associated_data : forall client arn a,
  aws_aead_for client arn a ->
  (forall r k x ctx ct, boto3_encrypt client r k x ctx = Ok ct ->
     forall k' ctx' y, boto3_decrypt client k' ct ctx' = Ok y <-> k' = k /\ ctx' = ctx /\ y = x) ->
  forall r pt ad ct, aead_encrypt a r pt ad = Ok ct ->
  forall ad' y, aead_decrypt a ct ad' = Ok y <-> ad' = ad /\ y = pt.
Proof.
  intros client arn a [He Hd] Hs r pt ad ct H ad' y.
  assert (C : forall A (x y : result A) v, reported_as_tink_error ClientError x y -> y = Ok v <-> x = Ok v).
  { intros A x z v [H1 H2]. split.
    - intros ->. destruct x as [w | e].
      + rewrite <- H2; [reflexivity | discriminate].
      + destruct e; try (rewrite <- H2; [reflexivity | discriminate]).
        destruct (H1 eq_refl) as (e & E & _). discriminate.
    - intros ->. apply H2. discriminate. }
  specialize (He r pt ad _ (proj1 (encryption_context_spec ad _) eq_refl)).
  specialize (Hd ct ad' _ (proj1 (encryption_context_spec ad' _) eq_refl)).
  apply (C _ _ _ _ He) in H. rewrite (C _ _ _ _ Hd).
  rewrite (Hs _ _ _ _ _ H). split.
  - intros (_ & Hc & ->). split; [apply encryption_context_inj; exact Hc | reflexivity].
  - intros (-> & ->). auto.
Qed.

(** * GCP *)

Lemma segment_some : forall cls max s r, segment cls max s = Some r <->
  exists a, s = a ++ r /\ a <> [] /\ Forall (fun c => cls c = true) a /\ stops cls r /\
    match max with Some m => (length a <= m)%nat | None => True end.
Proof.
  intros cls max s r. unfold segment. destruct (span cls s) as [a b] eqn:E.
  pose proof (span_sound _ _ _ _ E) as (-> & Ha & Hb).
  assert (U : forall a', a ++ b = a' ++ r -> Forall (fun c => cls c = true) a' -> stops cls r ->
    a' = a /\ r = b).
  { intros a' H1 H2 H3. rewrite H1, span_complete in E by assumption. injection E as <- <-. auto. }
  destruct a as [| a0 a].
  - split; [discriminate |]. intros (a' & H1 & H2 & H3 & H4 & _). destruct (U a' H1 H3 H4); congruence.
  - destruct max as [m |].
    + destruct (Nat.leb_spec (length (a0 :: a)) m) as [Hle | Hgt].
      * split.
        -- intros H. apply some_inj in H. subst r. exists (a0 :: a). repeat split; auto. discriminate.
        -- intros (a' & H1 & H2 & H3 & H4 & _). destruct (U a' H1 H3 H4); congruence.
      * split; [discriminate |]. intros (a' & H1 & H2 & H3 & H4 & H5). destruct (U a' H1 H3 H4). subst a'. lia.
    + split.
      * intros H. apply some_inj in H. subst r. exists (a0 :: a). repeat split; auto. discriminate.
      * intros (a' & H1 & H2 & H3 & H4 & _). destruct (U a' H1 H3 H4); congruence.
Qed.

Lemma gcp_id_chars : forall a, gcp_id a <->
  a <> [] /\ Forall (fun c => gcp_name_char c = true) a /\ (length a <= 63)%nat.
Proof.
  intros a. unfold gcp_id. rewrite (Forall_iff _ _ _ a gcp_name_char_spec).
  destruct a; cbn [length]; split; intros H; intuition (try discriminate; try lia).
Qed.

Lemma no_slash_chars : forall a, Forall (fun c => negb (c =? 47) = true) a <-> ~ In 47 a.
Proof.
  intros a. rewrite Forall_forall. split.
  - intros H Hi. apply H in Hi. discriminate.
  - intros H c Hc. destruct (N.eqb_spec c 47); [subst; contradiction | reflexivity].
Qed.

Lemma gcp_regex_spec : forall n, gcp_key_regex_match n = true <->
  gcp_key_name n \/ exists m, n = m ++ [10] /\ gcp_key_name m.
Proof.
  intros n.
  assert (Q : gcp_key_regex_match n = true <-> exists project location ring key tail,
    n = ulit "projects/" ++ project ++ ulit "/locations/" ++ location ++ ulit "/keyRings/" ++ ring
           ++ ulit "/cryptoKeys/" ++ key ++ tail /\ (tail = [] \/ tail = [10]) /\
    project <> [] /\ ~ In 47 project /\ gcp_id location /\ gcp_id ring /\ gcp_id key).
  { unfold gcp_key_regex_match. split.
    - destruct (strip_prefix (ulit "projects/") n) as [s1 |] eqn:E1; [| discriminate].
      destruct (segment (fun c => negb (c =? 47)) None s1) as [s2 |] eqn:E2; [| discriminate].
      destruct (strip_prefix (ulit "/locations/") s2) as [s3 |] eqn:E3; [| discriminate].
      destruct (segment gcp_name_char (Some 63%nat) s3) as [s4 |] eqn:E4; [| discriminate].
      destruct (strip_prefix (ulit "/keyRings/") s4) as [s5 |] eqn:E5; [| discriminate].
      destruct (segment gcp_name_char (Some 63%nat) s5) as [s6 |] eqn:E6; [| discriminate].
      destruct (strip_prefix (ulit "/cryptoKeys/") s6) as [s7 |] eqn:E7; [| discriminate].
      destruct (segment gcp_name_char (Some 63%nat) s7) as [s8 |] eqn:E8; [| discriminate].
      apply strip_prefix_spec in E1, E3, E5, E7. apply segment_some in E2, E4, E6, E8.
      destruct E2 as (p & -> & P1 & P2 & _). destruct E4 as (l & -> & L1 & L2 & _ & L3).
      destruct E6 as (r & -> & R1 & R2 & _ & R3). destruct E8 as (k & -> & K1 & K2 & _ & K3).
      subst. intros H. exists p, l, r, k, s8. split; [reflexivity |]. split.
      + destruct s8 as [| c [| ? ?]]; [auto | | discriminate]. apply N.eqb_eq in H. subst. auto.
      + split; [exact P1 |]. split; [apply no_slash_chars; exact P2 |].
        rewrite !gcp_id_chars. auto.
    - intros (p & l & r & k & tail & -> & Ht & P1 & P2 & Hl & Hr & Hk).
      rewrite gcp_id_chars in Hl, Hr, Hk.
      assert (S1 : forall pre x, strip_prefix pre (pre ++ x) = Some x) by (intros; apply strip_prefix_spec; reflexivity).
      rewrite S1.
      assert (S2 : forall x y, x <> [] -> ~ In 47 x -> stops (fun c => negb (c =? 47)) y ->
        segment (fun c => negb (c =? 47)) None (x ++ y) = Some y).
      { intros x y Hx Hi Hy. apply segment_some. exists x. repeat split; auto. apply no_slash_chars. exact Hi. }
      rewrite S2; [| exact P1 | exact P2 | reflexivity]. rewrite S1.
      assert (S3 : forall x y, x <> [] /\ Forall (fun c => gcp_name_char c = true) x /\ (length x <= 63)%nat ->
        stops gcp_name_char y -> segment gcp_name_char (Some 63%nat) (x ++ y) = Some y).
      { intros x y (H1 & H2 & H3) Hy. apply segment_some. exists x. repeat split; auto. }
      rewrite S3; [| exact Hl | reflexivity]. rewrite S1. rewrite S3; [| exact Hr | reflexivity].
      rewrite S1. rewrite S3; [| exact Hk | destruct Ht as [-> | ->]; [exact I | reflexivity]].
      destruct Ht as [-> | ->]; reflexivity. }
  rewrite Q. unfold gcp_key_name. split.
  - intros (p & l & r & k & tail & -> & [-> | ->] & H).
    + left. exists p, l, r, k. rewrite app_nil_r. auto.
    + right. eexists. split; [| exists p, l, r, k; split; [reflexivity | exact H]].
      rewrite <- !app_assoc. reflexivity.
  - intros [(p & l & r & k & -> & H) | (m & -> & (p & l & r & k & -> & H))].
    + exists p, l, r, k, []. rewrite app_nil_r. auto.
    + exists p, l, r, k, [10]. rewrite <- !app_assoc. auto.
Qed.

Lemma catch_google_error_spec : forall A (r : result A),
  reported_as_tink_error GoogleAPIError r (catch_google_error r).
Proof.
  intros A [a | e]; split; intros H; cbn; auto; try discriminate.
  - injection H as ->. eexists; split; reflexivity.
  - destruct e; auto. congruence.
Qed.

Theorem gcp_client_serves : forall id service u path,
  (forall client, service (or_none path) = Ok client ->
   u <> None -> u <> Some [] -> (forall rest, u <> Some (ulit "gcp-kms://" ++ rest)) ->
   raises_tink (gcp_kms_client id service u path)) /\
  (forall client, service (or_none path) = Ok client ->
   u = None \/ u = Some [] \/ (exists rest, u = Some (ulit "gcp-kms://" ++ rest)) ->
   exists c, gcp_kms_client id service u path = Ok c /\
   forall uri,
     (kc_does_support c uri = true <->
      (exists rest, uri = ulit "gcp-kms://" ++ rest) /\ (u = None \/ u = Some [] \/ u = Some uri)) /\
     (forall a, kc_get_aead c uri = Ok a ->
        kc_does_support c uri = true /\
        exists name, uri = ulit "gcp-kms://" ++ name /\ gcp_aead_for client name a /\
          (gcp_key_name name \/ exists m, name = m ++ [10] /\ gcp_key_name m)) /\
     (forall name, uri = ulit "gcp-kms://" ++ name -> gcp_key_name name ->
        kc_does_support c uri = true -> exists a, kc_get_aead c uri = Ok a) /\
     tink_total (kc_get_aead c uri)).
Proof.
  intros id service u path. unfold gcp_kms_client. split.
  - intros client _ Hn He Hp. destruct u as [[| c0 v] |]; try congruence. cbn [or_none].
    destruct (startswith (c0 :: v) GCP_KEYURI_PREFIX) eqn:E.
    + apply startswith_spec in E. destruct E as (r & E). exfalso. apply (Hp r). rewrite E. reflexivity.
    + eexists; split; reflexivity.
  - intros client Hs Hu.
    assert (B : exists bound, match or_none u with
           | None => Ok None
           | Some u => if startswith u GCP_KEYURI_PREFIX then Ok (Some u)
                       else Err (TinkError "Invalid key_uri.")
           end = Ok bound /\ ((bound = None /\ (u = None \/ u = Some [])) \/
             (bound = u /\ exists rest, u = Some (ulit "gcp-kms://" ++ rest)))).
    { destruct Hu as [-> | [-> | (rest & ->)]]; cbn [or_none];
        [exists None; auto | exists None; auto |].
      exists (Some (ulit "gcp-kms://" ++ rest)). split; [| eauto].
      assert (E : startswith (ulit "gcp-kms://" ++ rest) GCP_KEYURI_PREFIX = true)
        by (apply startswith_spec; exists rest; reflexivity).
      exact (f_equal (fun b : bool => if b then Ok (Some (ulit "gcp-kms://" ++ rest))
        else Err (TinkError "Invalid key_uri.")) E). }
    destruct B as (bound & B & Hb). rewrite B. cbn [bind]. rewrite Hs. cbn [bind].
    eexists. split; [reflexivity |]. cbn [kc_does_support kc_get_aead]. intros uri.
    assert (S : gcp_does_support bound uri = true <->
      (exists rest, uri = ulit "gcp-kms://" ++ rest) /\ (u = None \/ u = Some [] \/ u = Some uri)).
    { destruct Hb as [(-> & Hu') | (-> & rest & ->)]; cbn [gcp_does_support].
      - rewrite startswith_spec. split; [intros H; split; [exact H |] | intros (H & _); exact H].
        destruct Hu'; auto.
      - rewrite str_eqb_spec. split.
        + intros ->. split; [eauto | auto].
        + intros (_ & [H | [H | H]]); try discriminate. apply some_inj in H. auto. }
    split; [exact S |].
    assert (G : gcp_get_aead client bound uri =
      if gcp_does_support bound uri then
        match strip_prefix GCP_KEYURI_PREFIX uri with
        | None => Err (TinkError "Invalid key_uri.")
        | Some key_id => gcp_kms_aead client key_id
        end
      else gcp_get_aead client bound uri).
    { destruct (gcp_does_support bound uri) eqn:E; [| reflexivity].
      unfold gcp_get_aead. destruct bound as [v |]; [| reflexivity].
      cbn [gcp_does_support] in E. apply str_eqb_spec in E. subst v. rewrite str_eqb_refl. reflexivity. }
    assert (F : gcp_does_support bound uri = false -> raises_tink (gcp_get_aead client bound uri)).
    { intros E. unfold gcp_get_aead. destruct bound as [v |]; cbn [gcp_does_support] in E.
      - destruct (str_eqb v uri) eqn:E'; [apply str_eqb_spec in E'; subst; rewrite str_eqb_refl in E; discriminate |].
        eexists; split; reflexivity.
      - unfold startswith in E. destruct (strip_prefix GCP_KEYURI_PREFIX uri); [discriminate |].
        eexists; split; reflexivity. }
    assert (A : forall name, gcp_kms_aead client name =
       if gcp_key_regex_match name then
         Ok (mk_aead (fun r pt ad => catch_google_error (gcp_encrypt client r name pt ad))
              (fun ct ad => catch_google_error (gcp_decrypt client name ct ad)))
       else gcp_kms_aead client name).
    { intros name. destruct (gcp_key_regex_match name) eqn:E; [| reflexivity].
      unfold gcp_kms_aead. destruct name; [discriminate |]. rewrite E. reflexivity. }
    assert (A2 : forall name, gcp_key_regex_match name = false -> raises_tink (gcp_kms_aead client name)).
    { intros name E. unfold gcp_kms_aead. destruct name; [eexists; split; reflexivity |].
      rewrite E. eexists; split; reflexivity. }
    split; [| split].
    + intros a Ha. destruct (gcp_does_support bound uri) eqn:E.
      2: { destruct (F eq_refl) as (e & E' & _). congruence. }
      split; [reflexivity |]. rewrite G in Ha.
      destruct (strip_prefix GCP_KEYURI_PREFIX uri) as [name |] eqn:P; [| discriminate].
      apply strip_prefix_spec in P. exists name. split; [exact P |].
      destruct (gcp_key_regex_match name) eqn:M.
      2: { destruct (A2 name M) as (e & E' & _). congruence. }
      rewrite A, M in Ha. apply ok_inj in Ha. subst a. split; [| apply gcp_regex_spec; exact M].
      split; intros; apply catch_google_error_spec.
    + intros name -> Hn Es. rewrite G, Es.
      assert (P : strip_prefix GCP_KEYURI_PREFIX (ulit "gcp-kms://" ++ name) = Some name)
        by (apply strip_prefix_spec; reflexivity).
      rewrite P, A. assert (M : gcp_key_regex_match name = true) by (apply gcp_regex_spec; auto).
      rewrite M. eauto.
    + destruct (gcp_does_support bound uri) eqn:E.
      * rewrite G. destruct (strip_prefix GCP_KEYURI_PREFIX uri) as [name |]; [| reflexivity].
        destruct (gcp_key_regex_match name) eqn:M; [rewrite A, M; exact I |].
        destruct (A2 name M) as (e & E' & He). rewrite E'. exact He.
      * destruct (F eq_refl) as (e & E' & He). rewrite E'. exact He.
Qed.

(** * Vault *)

Lemma upper_hex_digit_nth : forall n, n < 16 ->
  upper_hex_digit n = nth (N.to_nat n) (ulit "0123456789ABCDEF") 0.
Proof.
  intros n H.
  assert (A : forallb (fun i => upper_hex_digit (N.of_nat i) =? nth i (ulit "0123456789ABCDEF") 0) (seq 0 16) = true)
    by (vm_compute; reflexivity).
  rewrite forallb_forall in A. specialize (A (N.to_nat n)). rewrite Nnat.N2Nat.id in A.
  apply N.eqb_eq, A. apply in_seq. lia.
Qed.

Lemma quote_byte_spec : forall b, percent_byte b (quote_byte b).
Proof.
  intros b. unfold quote_byte, percent_byte. destruct (quote_safe (Byte.to_N b)) eqn:E.
  - left. split; [apply quote_safe_spec; exact E | reflexivity].
  - right. split; [rewrite <- quote_safe_spec; congruence |]. pose proof (to_N_lt b).
    exists (Byte.to_N b / 16), (Byte.to_N b mod 16).
    split; [apply N.div_mod; lia |]. split; [apply N.mod_lt; lia |].
    rewrite <- !upper_hex_digit_nth; [reflexivity | apply N.mod_lt; lia | apply N.div_lt_upper_bound; lia].
Qed.

Lemma percent_byte_fun : forall b s t, percent_byte b s -> percent_byte b t -> s = t.
Proof.
  intros b s t [(H & ->) | (H & h & l & E & L & ->)] [(H' & ->) | (H' & h' & l' & E' & L' & ->)];
    try contradiction; [reflexivity |].
  assert (h = h') by lia. assert (l = l') by lia. subst. reflexivity.
Qed.
Lemma percent_encoded_fun : forall x s t, percent_encoded x s -> percent_encoded x t -> s = t.
Proof.
  intros x s t (p & Hp & ->) (q & Hq & ->). f_equal. revert q Hq.
  induction Hp as [| b u x p Hb Hp IH]; intros q Hq; inversion Hq; subst; [reflexivity |].
  f_equal; [eapply percent_byte_fun; eauto | apply IH; assumption].
Qed.
Lemma quote_bytes_spec : forall x, percent_encoded x (concat (map quote_byte x)).
Proof.
  intros x. exists (map quote_byte x). split; [| reflexivity].
  induction x; cbn [map]; constructor; [apply quote_byte_spec | assumption].
Qed.

(** Percent-encoding is injective. *)
Lemma quote_byte_shape : forall b,
  (exists c, quote_byte b = [c] /\ c <> 37 /\ c = Byte.to_N b) \/
  (exists h l, quote_byte b = [37; upper_hex_digit h; upper_hex_digit l] /\ h < 16 /\ l < 16 /\
     Byte.to_N b = 16 * h + l).
Proof.
  intros b. unfold quote_byte. destruct (quote_safe (Byte.to_N b)) eqn:E.
  - left. exists (Byte.to_N b). split; [reflexivity |]. split; [| reflexivity].
    intros H. rewrite H in E. discriminate.
  - right. pose proof (to_N_lt b). exists (Byte.to_N b / 16), (Byte.to_N b mod 16).
    split; [reflexivity |]. split; [apply N.div_lt_upper_bound; lia |].
    split; [apply N.mod_lt; lia | apply N.div_mod; lia].
Qed.
Lemma upper_hex_inj : forall a b, a < 16 -> b < 16 -> upper_hex_digit a = upper_hex_digit b -> a = b.
Proof. intros a b Ha Hb. unfold upper_hex_digit. destruct (N.ltb_spec a 10), (N.ltb_spec b 10); lia. Qed.

Lemma quote_bytes_inj : forall x y, concat (map quote_byte x) = concat (map quote_byte y) -> x = y.
Proof.
  induction x as [| a x IH]; intros [| b y] H; cbn [map concat] in H.
  - reflexivity.
  - exfalso. destruct (quote_byte_shape b) as [(c & E & _) | (h & l & E & _)]; rewrite E in H; discriminate.
  - exfalso. destruct (quote_byte_shape a) as [(c & E & _) | (h & l & E & _)]; rewrite E in H; discriminate.
  - destruct (quote_byte_shape a) as [(c & E & Hc & Ha) | (h & l & E & Hh & Hl & Ha)];
      destruct (quote_byte_shape b) as [(c' & E' & Hc' & Hb) | (h' & l' & E' & Hh' & Hl' & Hb)];
      rewrite E, E' in H; cbn [app] in H.
    + injection H as H1 H2. apply IH in H2. subst y. f_equal. apply to_N_inj. congruence.
    + injection H as H1 H2. contradiction.
    + injection H as H1 H2. congruence.
    + injection H as H1 H2 H3. apply IH in H3. subst y. f_equal. apply to_N_inj.
      apply upper_hex_inj in H1; [| assumption | assumption].
      apply upper_hex_inj in H2; [| assumption | assumption]. congruence.
Qed.

(** ** Paths *)

Definition seg_ok (s : pystr) : Prop := s <> [] /\ ~ In 47 s.

Lemma join_split : forall s, join_slash (split_on 47 s) = s /\ Forall (fun p => ~ In 47 p) (split_on 47 s).
Proof.
  induction s as [| c s (IH1 & IH2)]; cbn [split_on].
  - split; [reflexivity | repeat constructor; intros []].
  - pose proof (split_on_nonempty 47 s) as Hn. destruct (split_on 47 s) as [| p ps]; [congruence |].
    destruct (N.eqb_spec c 47) as [-> | Hc].
    + split; [| constructor; [intros [] | exact IH2]].
      change (join_slash ([] :: p :: ps)) with (47 :: join_slash (p :: ps)). rewrite IH1. reflexivity.
    + split.
      * destruct ps as [| q qs].
        -- cbn [join_slash] in *. congruence.
        -- change (join_slash ((c :: p) :: q :: qs)) with (c :: p ++ 47 :: join_slash (q :: qs)).
           change (join_slash (p :: q :: qs)) with (p ++ 47 :: join_slash (q :: qs)) in IH1. congruence.
      * inversion IH2; subst. constructor; [| assumption]. intros [H | H]; [congruence | contradiction].
Qed.

Lemma split_join : forall l, l <> [] -> Forall (fun p => ~ In 47 p) l -> split_on 47 (join_slash l) = l.
Proof.
  induction l as [| x l IH]; intros Hn H; [congruence |]. inversion H; subst.
  destruct l as [| y l].
  - cbn [join_slash]. apply split_on_none. assumption.
  - change (join_slash (x :: y :: l)) with (x ++ 47 :: join_slash (y :: l)).
    rewrite split_on_app by assumption. rewrite IH; [reflexivity | discriminate | assumption].
Qed.

Lemma join_app : forall a b, a <> [] -> b <> [] -> join_slash (a ++ b) = join_slash a ++ 47 :: join_slash b.
Proof.
  induction a as [| x a IH]; intros b Ha Hb; [congruence |]. destruct a as [| y a].
  - cbn [app]. destruct b as [| z b]; [congruence |]. reflexivity.
  - change ((x :: y :: a) ++ b) with (x :: (y :: a) ++ b).
    change (join_slash (x :: y :: a)) with (x ++ 47 :: join_slash (y :: a)).
    assert (E : join_slash (x :: (y :: a) ++ b) = x ++ 47 :: join_slash ((y :: a) ++ b)) by reflexivity.
    rewrite E, IH by (try discriminate; assumption). rewrite <- app_assoc. reflexivity.
Qed.

Lemma slash_path_join : forall m, slash_path m <-> exists l, l <> [] /\ Forall seg_ok l /\ m = join_slash l.
Proof.
  intros m. split.
  - induction 1 as [s H1 H2 | s rest H1 H2 Hp (l & Hl & Hf & ->)].
    + exists [s]. split; [discriminate |]. split; [| reflexivity]. repeat constructor; assumption.
    + exists (s :: l). split; [discriminate |]. split; [constructor; [split; assumption | assumption] |].
      destruct l; [congruence | reflexivity].
  - intros (l & Hl & Hf & ->). induction Hf as [| s l [H1 H2] Hf IH]; [congruence |].
    destruct l as [| t l]; [apply SP_one; assumption |].
    change (join_slash (s :: t :: l)) with (s ++ 47 :: join_slash (t :: l)).
    apply SP_more; auto. apply IH. discriminate.
Qed.

Lemma nonempty_spec : forall s, nonempty s = true <-> s <> [].
Proof. intros [|]; cbn; split; congruence. Qed.

Lemma path_match_spec : forall p m k, path_match p = Some (m, k) <-> vault_path p m k.
Proof.
  intros p m k. unfold path_match, vault_path. split.
  - intros H. destruct (join_split p) as (J & F).
    assert (L : exists lead segs, (lead = [] \/ lead = [47]) /\ p = lead ++ join_slash segs /\
      Forall (fun p => ~ In 47 p) segs /\
      match split_on 47 p with [] :: r => r | _ => split_on 47 p end = segs).
    { destruct (split_on 47 p) as [| [| c x] r] eqn:E.
      - exfalso. eapply split_on_nonempty. exact E.
      - destruct r as [| y r].
        + exists [], []. split; [auto |]. split; [rewrite <- J; reflexivity |]. split; [constructor | reflexivity].
        + exists [47], (y :: r). split; [auto |]. split; [rewrite <- J; reflexivity |].
          split; [inversion F; assumption | reflexivity].
      - exists [], ((c :: x) :: r). split; [auto |]. split; [rewrite <- J; reflexivity |]. auto. }
    destruct L as (lead & segs & Hlead & Hp & Hs & E). rewrite E in H.
    destruct (rev segs) as [| name [| kw [| m1 ms]]] eqn:R; try discriminate.
    destruct (nonempty name && str_eqb kw (ulit "keys") && forallb nonempty (m1 :: ms)) eqn:C; [| discriminate].
    apply some_inj in H. injection H as <- <-.
    apply andb_true_iff in C. destruct C as (C & C3). apply andb_true_iff in C. destruct C as (C1 & C2).
    apply nonempty_spec in C1. apply str_eqb_spec in C2. subst kw.
    rewrite <- (rev_involutive segs) in Hp, Hs. rewrite R in Hp, Hs.
    assert (RR : rev (name :: ulit "keys" :: m1 :: ms) = rev (m1 :: ms) ++ [ulit "keys"; name]).
    { cbn [rev]. rewrite <- !app_assoc. reflexivity. }
    rewrite RR in Hp, Hs. apply Forall_app in Hs. destruct Hs as (Hs1 & Hs2).
    assert (Hne : rev (m1 :: ms) <> []) by (intros Z; apply (f_equal (@length _)) in Z; rewrite rev_length in Z; discriminate).
    assert (P : join_slash (rev (m1 :: ms) ++ [ulit "keys"; name]) =
      join_slash (rev (m1 :: ms)) ++ ulit "/keys/" ++ name).
    { rewrite join_app; [reflexivity | exact Hne | discriminate]. }
    split.
    + rewrite Hp, P. destruct Hlead as [-> | ->]; [left | right]; reflexivity.
    + split.
      * apply slash_path_join. exists (rev (m1 :: ms)). split; [exact Hne |]. split; [| reflexivity].
        rewrite forallb_forall in C3. rewrite Forall_forall in *. intros s Hi. split; [| apply Hs1; exact Hi].
        apply nonempty_spec, C3. apply in_rev. exact Hi.
      * split; [exact C1 |]. inversion Hs2; subst. inversion H2; subst. assumption.
  - intros (Hp & Hm & Hk1 & Hk2). apply slash_path_join in Hm. destruct Hm as (l & Hl & Hf & ->).
    assert (Hsegs : Forall (fun p => ~ In 47 p) (l ++ [ulit "keys"; k])).
    { apply Forall_app. split; [eapply Forall_impl; [| exact Hf]; intros a (_ & Ha); exact Ha |].
      constructor; [| constructor; [exact Hk2 | constructor]].
      intros H; vm_compute in H; repeat (destruct H as [H | H]; [discriminate |]); exact H. }
    assert (J : join_slash l ++ ulit "/keys/" ++ k = join_slash (l ++ [ulit "keys"; k])).
    { rewrite join_app; [reflexivity | exact Hl | discriminate]. }
    assert (Hd : l ++ [ulit "keys"; k] <> []) by (intros Z; apply app_eq_nil in Z; destruct Z; congruence).
    assert (S : match split_on 47 p with [] :: r => r | _ => split_on 47 p end = l ++ [ulit "keys"; k]).
    { destruct Hp as [-> | ->].
      - rewrite J, split_join by assumption.
        destruct l as [| [| c x] l]; [congruence | | reflexivity].
        inversion Hf as [| ? ? [Hx _] _]; congruence.
      - rewrite J. change (ulit "/" ++ join_slash (l ++ [ulit "keys"; k]))
          with ([] ++ 47 :: join_slash (l ++ [ulit "keys"; k])).
        rewrite split_on_app by (intros []). rewrite split_join by assumption. reflexivity. }
    rewrite S. rewrite rev_app_distr. cbn [rev app].
    destruct (rev l) as [| m1 ms] eqn:R.
    { exfalso. apply Hl. rewrite <- (rev_involutive l), R. reflexivity. }
    assert (C : nonempty k && str_eqb (ulit "keys") (ulit "keys") && forallb nonempty (m1 :: ms) = true).
    { rewrite str_eqb_refl, andb_true_r. apply andb_true_iff. split; [apply nonempty_spec; exact Hk1 |].
      apply forallb_forall. intros x Hx. apply nonempty_spec. rewrite Forall_forall in Hf.
      apply Hf. rewrite <- (rev_involutive l). apply in_rev. rewrite rev_involutive, R. exact Hx. }
    rewrite C. change (rev ms ++ [m1]) with (rev (m1 :: ms)). rewrite <- R, rev_involutive. reflexivity.
Qed.

(** Lone surrogates are the only strings without UTF-8 encoding. *)
Lemma utf8_encode_none : forall s, utf8_encode s = None -> ~ valid_text s.
Proof. intros s H V. destruct (valid_text_encode s V) as (e & E). congruence. Qed.

Theorem vault_endpoint_spec : forall path,
  (forall mount name, get_endpoint_paths path = Ok (mount, name) <->
     exists u escaped, utf8_encode path = Some u /\ percent_encoded u escaped /\
       vault_path escaped mount name) /\
  (valid_text path -> tink_total (get_endpoint_paths path)).
Proof.
  intros path. unfold get_endpoint_paths, quote.
  destruct (utf8_encode path) as [u |] eqn:U; cbn [bind]; split.
  - intros mount name. pose proof (quote_bytes_spec u) as Q. split.
    + intros H. destruct (path_match (concat (map quote_byte u))) as [[m k] |] eqn:P; [| discriminate].
      apply ok_inj in H. injection H as -> ->. exists u, (concat (map quote_byte u)).
      split; [reflexivity |]. split; [exact Q |]. apply path_match_spec. exact P.
    + intros (u' & e & Hu & Hq & Hv). apply some_inj in Hu. subst u'.
      rewrite (percent_encoded_fun _ _ _ Q Hq). apply path_match_spec in Hv. rewrite Hv. reflexivity.
  - intros _. destruct (path_match _) as [[m k] |]; [exact I | reflexivity].
  - intros mount name. split; [discriminate |]. intros (u & e & H & _). discriminate.
  - intros H. exfalso. eapply utf8_encode_none; eauto.
Qed.

(** Two paths with the same endpoints differ at most by a leading slash. *)
Theorem vault_endpoint_inj : forall p q x,
  get_endpoint_paths p = Ok x -> get_endpoint_paths q = Ok x ->
  p = q \/ p = 47 :: q \/ q = 47 :: p.
Proof.
  intros p q [m k] Hp Hq. unfold get_endpoint_paths, quote in *.
  destruct (utf8_encode p) as [u |] eqn:U; [| discriminate].
  destruct (utf8_encode q) as [v |] eqn:V; [| discriminate]. cbn [bind] in *.
  destruct (path_match (concat (map quote_byte u))) as [x |] eqn:P; [| discriminate].
  destruct (path_match (concat (map quote_byte v))) as [y |] eqn:Q; [| discriminate].
  apply ok_inj in Hp, Hq. subst x y. apply path_match_spec in P, Q.
  destruct P as (P & _), Q as (Q & _).
  assert (Hsl : quote_byte x2f = [47]) by (vm_compute; reflexivity).
  assert (C : u = v \/ u = x2f :: v \/ v = x2f :: u).
  { destruct P as [P | P], Q as [Q | Q].
    - left. apply quote_bytes_inj. congruence.
    - right. right. apply quote_bytes_inj. cbn [map concat]. rewrite Hsl, Q, P. reflexivity.
    - right. left. apply quote_bytes_inj. cbn [map concat]. rewrite Hsl, Q, P. reflexivity.
    - left. apply quote_bytes_inj. congruence. }
  assert (D : forall s w, utf8_encode s = Some w -> utf8_encode (47 :: s) = Some (x2f :: w)).
  { intros s w Hs. cbn [utf8_encode]. rewrite Hs. reflexivity. }
  pose proof (utf8_decode_encode _ _ U) as DU. pose proof (utf8_decode_encode _ _ V) as DV.
  destruct C as [-> | [-> | ->]].
  - left. congruence.
  - right. left. pose proof (utf8_decode_encode _ _ (D _ _ V)) as E. congruence.
  - right. right. pose proof (utf8_decode_encode _ _ (D _ _ U)) as E. congruence.
Qed.

(** What an Aead of the Vault integration does. *)
Theorem vault_aead_spec : forall path client a, vault_new_aead path client = Ok a ->
  exists mount name, get_endpoint_paths path = Ok (mount, name) /\
    (forall r pt ad ct, aead_encrypt a r pt ad = Ok ct <->
       ad = [] /\ exists text, vault_encrypt client r name (b64encode pt) mount = Ok text /\
         utf8_encode text = Some ct) /\
    (forall ct ad pt, aead_decrypt a ct ad = Ok pt <->
       ad = [] /\ exists text x, utf8_decode ct = Some text /\
         vault_decrypt client name text mount = Ok x /\ b64decode x = Some pt) /\
    (forall r pt ad, tink_total (aead_encrypt a r pt ad)) /\
    (forall ct ad, tink_total (aead_decrypt a ct ad)) /\
    (forall r pt ad, ad <> [] -> raises_tink (aead_encrypt a r pt ad)) /\
    (forall ct ad, ad <> [] -> raises_tink (aead_decrypt a ct ad)).
Proof.
  intros path client a H. unfold vault_new_aead in H. apply bind_ok in H.
  destruct H as ([mount name] & Hp & H). apply ok_inj in H. subst a. exists mount, name.
  split; [exact Hp |]. cbn [aead_encrypt aead_decrypt].
  assert (T : forall A (r : result A), tink_total (catch_all r)) by (intros A [x | e]; cbn; auto).
  assert (K : forall A (r : result A) v, catch_all r = Ok v <-> r = Ok v)
    by (intros A [x | e] v; cbn; split; congruence).
  repeat split.
  - unfold vault_aead_encrypt in H. rewrite K in H. destruct ad; [reflexivity | discriminate].
  - unfold vault_aead_encrypt in H. rewrite K in H. destruct ad; [| discriminate].
    apply bind_ok in H. destruct H as (text & H1 & H2). exists text. split; [exact H1 |].
    unfold str_encode in H2. destruct (utf8_encode text); [congruence | discriminate].
  - intros (-> & text & H1 & H2). unfold vault_aead_encrypt. apply K. rewrite H1. cbn [bind].
    unfold str_encode. rewrite H2. reflexivity.
  - unfold vault_aead_decrypt in H. rewrite K in H. destruct ad; [reflexivity | discriminate].
  - unfold vault_aead_decrypt in H. rewrite K in H. destruct ad; [| discriminate].
    apply bind_ok in H. destruct H as (text & H1 & H). apply bind_ok in H. destruct H as (x & H2 & H).
    exists text, x. unfold bytes_decode in H1.
    destruct (utf8_decode ct); [| discriminate]. split; [congruence |]. split; [exact H2 |].
    destruct (b64decode x); [congruence | discriminate].
  - intros (-> & text & x & H1 & H2 & H3). unfold vault_aead_decrypt. apply K. unfold bytes_decode.
    rewrite H1. cbn [bind]. rewrite H2. cbn [bind]. rewrite H3. reflexivity.
  - intros. apply T.
  - intros. apply T.
  - intros r pt ad Ha. unfold vault_aead_encrypt. destruct ad; [congruence |]. eexists; split; reflexivity.
  - intros ct ad Ha. unfold vault_aead_decrypt. destruct ad; [congruence |]. eexists; split; reflexivity.
Qed.

Theorem vault_round_trip : forall path client a, vault_new_aead path client = Ok a ->
  (forall r name x mount text, vault_encrypt client r name x mount = Ok text ->
     vault_decrypt client name text mount = Ok x) ->
  forall r pt ct, aead_encrypt a r pt [] = Ok ct -> aead_decrypt a ct [] = Ok pt.
Proof.
  intros path client a H Hs r pt ct He. apply vault_aead_spec in H.
  destruct H as (mount & name & _ & E & D & _). apply E in He. destruct He as (_ & text & H1 & H2).
  apply D. split; [reflexivity |]. exists text, (b64encode pt).
  split; [apply utf8_decode_encode; exact H2 |]. split; [eapply Hs; exact H1 | apply b64_round_trip].
Qed.
