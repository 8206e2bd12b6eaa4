(** Headers. *)
From Coq Require Import Strings.Byte Strings.String List NArith ZArith Bool Lia.
From Verif Require Import M_Base M_Utf8 M_Proto M_Base64 M_JwtTypes M_Json M_RawJwt M_JwtValidator
  M_JwtFormat L_Base L_Utf8 L_PrimitiveSet S_Base64 L_Base64 S_Json L_Json L_Json2 L_Json3 L_Json4 S_Keyset
  S_Jwt L_Jwt.
Import ListNotations.
Open Scope list_scope.
Open Scope N_scope.

(** ** Upper case *)

(** Letters of algorithm names: H, E, R, P, S and digits. *)
Definition plain (d : N) : Prop := In d [72; 69; 82; 80; 83; 48; 49; 50; 51; 52; 53; 54; 55; 56; 57].

Lemma upper_char_plain : forall c, upper_char c = [c] \/
  (97 <= c <= 122 /\ upper_char c = [c - 32]) \/ (c = 383 /\ upper_char c = [83]) \/
  (exists d, upper_char c = [d] /\ ~ plain d) \/
  (exists d e r, upper_char c = d :: e :: r /\ (~ plain d \/ ~ plain e \/ (d = 83 /\ e = 83))).
Proof.
  intros c. unfold upper_char. destruct ((97 <=? c) && (c <=? 122)) eqn:E; [right; left; split; [lia | reflexivity] |].
  cbn [dict_get].
  assert (P : forall d, existsb (N.eqb d) [72; 69; 82; 80; 83; 48; 49; 50; 51; 52; 53; 54; 55; 56; 57] = false -> ~ plain d).
  { intros d Hd Hp. assert (X : existsb (N.eqb d) [72; 69; 82; 80; 83; 48; 49; 50; 51; 52; 53; 54; 55; 56; 57] = true).
    { apply existsb_exists. exists d. split; [exact Hp | apply N.eqb_refl]. } congruence. }
  repeat match goal with
  | |- context [if (c =? ?k) then _ else _] => destruct (N.eqb_spec c k);
      [subst; try (right; right; right; right; do 3 eexists; split; [reflexivity |];
         first [right; right; split; reflexivity | left; apply P; reflexivity | right; left; apply P; reflexivity]);
       try (right; right; right; left; eexists; split; [reflexivity | apply P; reflexivity]);
       try (right; right; left; split; reflexivity) |]
  end.
  left. reflexivity.
Qed.

Definition no_ss (alg : pystr) : Prop := forall p q, alg <> p ++ 83 :: 83 :: q.

Lemma no_ss_tail : forall d alg, no_ss (d :: alg) -> no_ss alg.
Proof. intros d alg H p q E. apply (H (d :: p) q). rewrite E. reflexivity. Qed.

Lemma upper_variant : forall alg a, Forall plain alg -> no_ss alg ->
  (upper a = alg <-> case_variant a alg).
Proof.
  intros alg a. revert alg. induction a as [| c a IH]; intros alg Hp Hs.
  - split; [intros <-; constructor |]. intros H. inversion H. reflexivity.
  - unfold upper. cbn [flat_map]. fold (upper a). split.
    + intros H. destruct (upper_char_plain c) as [E | [(Hc & E) | [(-> & E) | [(d & E & Hn) | (d & e & r & E & Hn)]]]];
        rewrite E in H; cbn [app] in H; destruct alg as [| d' alg]; try discriminate;
        inversion Hp as [| ? ? Hd Hp']; subst.
      * injection H as -> H. constructor; [left; reflexivity |]. apply IH; [exact Hp' | exact (no_ss_tail _ _ Hs) | exact H].
      * injection H as E1 H. constructor; [right; left; lia |]. apply IH; [exact Hp' | exact (no_ss_tail _ _ Hs) | exact H].
      * injection H as E1 H. constructor; [right; right; auto |]. apply IH; [exact Hp' | exact (no_ss_tail _ _ Hs) | exact H].
      * injection H as -> H. contradiction.
      * injection H as -> H. subst alg. exfalso. destruct Hn as [Hn | [Hn | (-> & ->)]]; [contradiction | |].
        -- inversion Hp'. contradiction.
        -- exact (Hs [] _ eq_refl).
    + intros H. inversion H as [| ? d ? alg' Hcd Hr]; subst. inversion Hp as [| ? ? Hd Hp']; subst.
      apply IH in Hr; [| exact Hp' | exact (no_ss_tail _ _ Hs)]. rewrite Hr.
      assert (Hc : upper_char c = [d]).
      { destruct Hcd as [-> | [(H1 & ->) | (-> & ->)]]; [| | reflexivity].
        - cbn in Hd. decompose [or] Hd; subst; try reflexivity; contradiction.
        - unfold upper_char. replace ((97 <=? d + 32) && (d + 32 <=? 122)) with true by lia. f_equal. lia. }
      rewrite Hc. reflexivity.
Qed.

Lemma validate_algorithm_ok : forall alg, validate_algorithm alg = Ok tt <-> In alg (map ulit algorithms).
Proof.
  intros alg. unfold validate_algorithm. change (map ulit algorithms) with VALID_ALGORITHMS.
  rewrite <- (existsb_eqb_in _ str_eqb_spec). destruct (existsb _ _); split; intros; try reflexivity; discriminate.
Qed.
Lemma validate_algorithm_err : forall alg e, validate_algorithm alg = Err e -> is_jwt_invalid_error e = true.
Proof. intros alg e. unfold validate_algorithm. destruct (existsb _ _); intros H; inversion H. reflexivity. Qed.

Lemma algorithm_plain : forall alg, In alg (map ulit algorithms) -> Forall plain alg /\ no_ss alg.
Proof.
  intros alg H.
  assert (A : forallb (fun a => forallb (fun d => existsb (N.eqb d) [72; 69; 82; 80; 83; 48; 49; 50; 51; 52; 53; 54; 55; 56; 57]) a)
             (map ulit algorithms) = true) by (vm_compute; reflexivity).
  rewrite forallb_forall in A. split.
  - apply Forall_forall. intros d Hd. apply A in H. rewrite forallb_forall in H. apply H in Hd.
    apply existsb_exists in Hd. destruct Hd as (x & Hx & E). apply N.eqb_eq in E. subst x. exact Hx.
  - intros p q E.
    assert (C : forallb (fun a => negb (nth 0 a 0 =? 83) && negb (nth 2 a 0 =? 83) && negb (nth 3 a 0 =? 83) && negb (nth 4 a 0 =? 83) && Nat.eqb (length a) 5)
             (map ulit algorithms) = true) by (vm_compute; reflexivity).
    rewrite forallb_forall in C. apply C in H. subst alg.
    repeat (apply andb_prop in H; destruct H as [H ?]).
    destruct p as [| p0 [| p1 [| p2 [| p3 [| p4 p]]]]]; cbn in *; try discriminate.
    apply Nat.eqb_eq in H0. rewrite app_length in H0. cbn in H0. lia.
Qed.

(** ** Members of the header *)

Lemma payload_get_in : forall p n v, NoDup (map fst p) ->
  (payload_get p n = Some v <-> In (ulit n, v) p).
Proof.
  intros p n v Hn. unfold payload_get. split.
  - apply (dict_get_in str_eqb str_eqb_spec).
  - apply (in_dict_get str_eqb str_eqb_spec). exact Hn.
Qed.
Lemma payload_get_none : forall p n, payload_get p n = None <-> forall v, ~ In (ulit n, v) p.
Proof.
  intros p n. unfold payload_get. rewrite (dict_get_none str_eqb str_eqb_spec). split.
  - intros H v Hv. apply H. apply in_map_iff. exists (ulit n, v). auto.
  - intros H Hi. apply in_map_iff in Hi. destruct Hi as ((k & v) & E & Hi). cbn in E. subst k. exact (H v Hi).
Qed.

Lemma str_is_spec : forall x v, str_is x v = true <-> v = JStr x.
Proof.
  intros x [| | | | y | |]; cbn; try (split; [discriminate | intros; discriminate]).
  rewrite str_eqb_spec. split; [intros ->; reflexivity | intros H; injection H; auto].
Qed.

Theorem validate_header_iff : forall h alg tk ck, NoDup (map fst h) ->
  (validate_header (JDict h) alg tk ck = Ok tt <->
   In alg (map ulit algorithms) /\ header_ok alg tk ck h).
Proof.
  intros h alg tk ck Hn. unfold validate_header. split.
  - intros H. apply bind_ok in H. destruct H as ([] & Ha & H). apply validate_algorithm_ok in Ha.
    split; [exact Ha |]. destruct (algorithm_plain alg Ha) as [Hp Hs].
    apply bind_ok in H. destruct H as (a & Ea & H).
    destruct (negb (str_eqb (upper a) alg)) eqn:Eu; [discriminate |].
    apply negb_false_iff, str_eqb_spec in Eu.
    destruct (is_some (payload_get h "crit")) eqn:Ec; [discriminate |].
    destruct (is_some tk && is_some ck) eqn:Ek; [discriminate |].
    apply bind_ok in H. destruct H as ([] & Ht & H). repeat split.
    + destruct (payload_get h "alg") as [[| | | | x | |] |] eqn:Eg; try discriminate.
      * apply ok_inj in Ea. subst x. exists a. split; [apply payload_get_in; assumption |].
        apply upper_variant; assumption.
      * apply ok_inj in Ea. subst a. exfalso. cbn in Eu. subst alg. clear - Ha. cbn in Ha.
        decompose [or] Ha; try discriminate; contradiction.
    + intros v Hv. apply payload_get_in in Hv; [| exact Hn]. rewrite Hv in Ec. discriminate.
    + destruct tk, ck; try discriminate; auto.
    + intros k ->. destruct (payload_get h "kid") as [v |] eqn:Eg; [| discriminate].
      destruct (str_is k v) eqn:Es; [| discriminate]. apply str_is_spec in Es. subst v.
      apply payload_get_in; assumption.
    + intros k v -> Hv. apply payload_get_in in Hv; [| exact Hn]. rewrite Hv in H.
      destruct (str_is k v) eqn:Es; [| discriminate]. apply str_is_spec. exact Es.
  - intros (Ha & (a & Hi & Hv) & Hc & Hk & Ht & Hck). rewrite (proj2 (validate_algorithm_ok alg) Ha). cbn [bind].
    destruct (algorithm_plain alg Ha) as [Hp Hs].
    rewrite (proj2 (payload_get_in h "alg" _ Hn) Hi). cbn [bind].
    apply upper_variant in Hv; [| assumption ..]. rewrite Hv, str_eqb_refl. cbn [negb].
    rewrite (proj2 (payload_get_none h "crit") Hc). cbn [is_some].
    replace (is_some tk && is_some ck) with false by (destruct Hk as [-> | ->]; [| destruct tk]; reflexivity).
    destruct tk as [k |].
    + rewrite (proj2 (payload_get_in h "kid" _ Hn) (Ht k eq_refl)), (proj2 (str_is_spec k (JStr k)) eq_refl).
      cbn [bind]. destruct Hk as [Hk | ->]; [discriminate | reflexivity].
    + cbn [bind]. destruct ck as [k |]; [| reflexivity].
      destruct (payload_get h "kid") as [v |] eqn:Eg; [| reflexivity].
      apply payload_get_in in Eg; [| exact Hn]. rewrite (proj2 (str_is_spec k v) (Hck k v eq_refl Eg)). reflexivity.
Qed.

(** What it raises otherwise. *)
Theorem validate_header_err : forall hd alg tk ck e, validate_header hd alg tk ck = Err e ->
  is_jwt_invalid_error e = true \/
  (e = AttributeError /\
   ((forall h, hd <> JDict h) \/
    (exists h v, hd = JDict h /\ In (ulit "alg", v) h /\ ~ is_string v))).
Proof.
  intros hd alg tk ck e H. unfold validate_header in H. apply bind_err in H. destruct H as [H | (u & _ & H)].
  { left. eapply validate_algorithm_err. exact H. }
  destruct hd as [| | | | | | h]; try (right; inversion H; split; [reflexivity | left; discriminate]).
  apply bind_err in H. destruct H as [H | (a & _ & H)].
  { destruct (payload_get h "alg") as [v |] eqn:E; [| discriminate].
    right. destruct v; try discriminate; inversion H; split; try reflexivity; right; exists h; eexists;
      (split; [reflexivity | split; [apply (dict_get_in str_eqb str_eqb_spec); exact E | intros (x & Hx); discriminate]]). }
  left. destruct (negb _); [inversion H; reflexivity |].
  destruct (is_some (payload_get h "crit")); [inversion H; reflexivity |].
  destruct (is_some tk && is_some ck); [inversion H; reflexivity |].
  apply bind_err in H. destruct H as [H | (u' & _ & H)].
  - destruct tk as [k |]; [| discriminate]. destruct (payload_get h "kid") as [v |]; [| inversion H; reflexivity].
    destruct (str_is k v); inversion H. reflexivity.
  - destruct ck as [k |]; [| discriminate]. destruct (payload_get h "kid") as [v |]; [| discriminate].
    destruct (str_is k v); inversion H. reflexivity.
Qed.

Lemma get_type_header_spec : forall h th, NoDup (map fst h) ->
  (get_type_header (JDict h) = th <-> typ_of h th).
Proof.
  intros h th Hn. unfold get_type_header, typ_of. destruct (payload_get h "typ") as [v |] eqn:E.
  - apply payload_get_in in E; [| exact Hn].
    assert (U : forall w, In (ulit "typ", w) h -> w = v).
    { intros w Hw. apply payload_get_in in E, Hw; [| exact Hn ..]. congruence. }
    split.
    + destruct v; intros <-; first [right; split; [reflexivity | exact U] | left; eexists; split; [exact E | split; [discriminate | reflexivity]]].
    + intros [(w & Hw & Hnn & ->) | (-> & H)].
      * apply U in Hw. subst w. destruct v; try reflexivity. contradiction.
      * apply H in E. subst v. reflexivity.
  - pose proof (proj1 (payload_get_none h "typ") E) as N0. split.
    + intros <-. right. split; [reflexivity |]. intros v Hv. exfalso. exact (N0 v Hv).
    + intros [(w & Hw & _) | (-> & _)]; [exfalso; exact (N0 w Hw) | reflexivity].
Qed.
