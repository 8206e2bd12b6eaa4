(** JWT primitives of keysets. *)
From Coq Require Import Strings.Byte Strings.String List NArith ZArith Bool Lia Permutation.
From Verif Require Import M_Base M_Proto M_JwtTypes M_Prims M_PrimitiveSet M_Registry M_KeysetHandle
  M_JwtFormat M_JwtWrappers
  L_Base S_Keyset S_PrimitiveSet L_PrimitiveSet L_Keyset L_Wrappers L_Wrappers2 S_Jwt L_Jwt.
Import ListNotations.
Open Scope list_scope.

(** ** Order of the entries *)

Fixpoint fresh (seen : list bytes) (l : list bytes) : list bytes :=
  match l with
  | [] => []
  | x :: r => if existsb (bytes_eqb x) seen then fresh seen r else x :: fresh (seen ++ [x]) r
  end.
Lemma distinct_fresh : forall l seen,
  fold_left (fun acc x => if existsb (bytes_eqb x) acc then acc else acc ++ [x]) l seen = seen ++ fresh seen l.
Proof.
  induction l as [| x l IH]; intros seen; [cbn; rewrite app_nil_r; reflexivity |].
  cbn [fold_left fresh]. destruct (existsb (bytes_eqb x) seen); [apply IH |].
  rewrite IH, <- app_assoc. reflexivity.
Qed.

Section Grouping.
  Context {P : Type} (id : key * P -> bytes).
  Variable l0 : list (key * P).
  Hypothesis Hid : forall a b, In a l0 -> In b l0 -> same_prefix (fst a) (fst b) = bytes_eqb (id a) (id b).

  Lemma grouped_fresh : forall r pre seenk, l0 = pre ++ r -> incl seenk pre ->
    (forall a, In a pre -> exists b, In b seenk /\ id a = id b) ->
    forall seenb, (forall x, In x seenb <-> In x (map id pre)) ->
    grouped (map fst seenk) r = flat_map (fun p => filter (fun kp => bytes_eqb p (id kp)) l0) (fresh seenb (map id r)).
  Proof.
    induction r as [| kp r IH]; intros pre seenk Hl Hincl Hrep seenb Hseen; [reflexivity |].
    cbn [grouped map fresh].
    assert (Hkp : In kp l0) by (rewrite Hl; apply in_or_app; right; left; reflexivity).
    assert (Hpre : forall a, In a pre -> In a l0) by (intros a Ha; rewrite Hl; apply in_or_app; left; exact Ha).
    assert (E : existsb (fun k => same_prefix k (fst kp)) (map fst seenk) = existsb (bytes_eqb (id kp)) seenb).
    { apply eq_true_iff_eq. rewrite (existsb_eqb_in _ bytes_eqb_spec), Hseen, existsb_exists, in_map_iff. split.
      - intros (k & Hk & Es). apply in_map_iff in Hk. destruct Hk as (a & <- & Ha).
        rewrite (Hid a kp) in Es; [| apply Hpre, Hincl, Ha | exact Hkp]. apply bytes_eqb_spec in Es.
        exists a. split; [exact Es | apply Hincl; exact Ha].
      - intros (a & Ea & Ha). destruct (Hrep a Ha) as (b & Hb & Eb). exists (fst b). split; [apply in_map; exact Hb |].
        rewrite (Hid b kp); [| apply Hpre, Hincl, Hb | exact Hkp]. apply bytes_eqb_spec. congruence. }
    rewrite E. destruct (existsb (bytes_eqb (id kp)) seenb) eqn:Ex.
    - apply (IH (pre ++ [kp]) seenk).
      + rewrite <- app_assoc. exact Hl.
      + intros a Ha. apply in_or_app. left. apply Hincl. exact Ha.
      + intros a Ha. apply in_app_or in Ha. destruct Ha as [Ha | [<- | []]]; [apply Hrep; exact Ha |].
        apply (existsb_eqb_in _ bytes_eqb_spec) in Ex. apply Hseen in Ex. apply in_map_iff in Ex.
        destruct Ex as (a & Ea & Ha). destruct (Hrep a Ha) as (b & Hb & Eb). exists b. split; [exact Hb | congruence].
      + intros x. rewrite map_app, in_app_iff, <- Hseen. cbn. split; [auto |]. intros [Hx | [<- | []]]; [exact Hx |].
        apply (existsb_eqb_in _ bytes_eqb_spec) in Ex. exact Ex.
    - cbn [flat_map].
      assert (Hni : ~ In (id kp) (map id pre)).
      { rewrite <- Hseen. intros Hi. apply (existsb_eqb_in _ bytes_eqb_spec) in Hi. congruence. }
      assert (F : filter (fun kp' => bytes_eqb (id kp) (id kp')) l0 =
                  kp :: filter (fun kp' => same_prefix (fst kp) (fst kp')) r).
      { rewrite Hl, filter_app. rewrite filter_none.
        - cbn [filter app]. rewrite bytes_eqb_refl. f_equal. apply filter_ext_in. intros a Ha. symmetry. apply Hid; [exact Hkp |].
          rewrite Hl. apply in_or_app. right. right. exact Ha.
        - intros a Ha. destruct (bytes_eqb (id kp) (id a)) eqn:Ea; [| reflexivity]. apply bytes_eqb_spec in Ea.
          exfalso. apply Hni. rewrite Ea. apply in_map. exact Ha. }
      rewrite F. cbn [app]. f_equal. f_equal.
      change (fst kp :: map fst seenk) with (map fst (kp :: seenk)).
      apply (IH (pre ++ [kp]) (kp :: seenk)).
      + rewrite <- app_assoc. exact Hl.
      + intros a [<- | Ha]; apply in_or_app; [right; left; reflexivity | left; apply Hincl; exact Ha].
      + intros a Ha. apply in_app_or in Ha. destruct Ha as [Ha | [<- | []]].
        * destruct (Hrep a Ha) as (b & Hb & Eb). exists b. split; [right; exact Hb | exact Eb].
        * exists kp. split; [left; reflexivity | reflexivity].
      + intros x. rewrite map_app, !in_app_iff, Hseen. reflexivity.
  Qed.
End Grouping.

Lemma same_prefix_iff : forall a b, same_prefix a b = true <->
  (k_output_prefix_type a = RAW /\ k_output_prefix_type b = RAW) \/
  (k_output_prefix_type a = TINK /\ k_output_prefix_type b = TINK /\ k_key_id a = k_key_id b) \/
  ((k_output_prefix_type a = LEGACY \/ k_output_prefix_type a = CRUNCHY) /\
   (k_output_prefix_type b = LEGACY \/ k_output_prefix_type b = CRUNCHY) /\ k_key_id a = k_key_id b).
Proof.
  intros a b. unfold same_prefix. rewrite !orb_true_iff, !andb_true_iff, !orb_true_iff, !Z.eqb_eq, N.eqb_eq. tauto.
Qed.

Lemma same_prefix_pfx : forall k k' q q',
  has_prefix (k_output_prefix_type k) (k_key_id k) q -> has_prefix (k_output_prefix_type k') (k_key_id k') q' ->
  same_prefix k k' = bytes_eqb q q'.
Proof.
  intros k k' q q' H H'. apply eq_true_iff_eq. rewrite bytes_eqb_spec, same_prefix_iff.
  destruct H as [(E & ->) | (s & b3 & b2 & b1 & b0 & -> & Hn & Hs)];
    destruct H' as [(E' & ->) | (s' & c3 & c2 & c1 & c0 & -> & Hn' & Hs')].
  - split; [reflexivity | left; auto].
  - split; [| discriminate]. intros H. exfalso. rewrite E in H.
    destruct H as [(_ & K) | [(K & _) | ([K | K] & _)]]; try discriminate. rewrite K in Hs'.
    destruct Hs' as [(K' & _) | ([K' | K'] & _)]; discriminate.
  - split; [| discriminate]. intros H. exfalso. rewrite E' in H.
    destruct H as [(K & _) | [(_ & K & _) | (_ & [K | K] & _)]]; try discriminate. rewrite K in Hs.
    destruct Hs as [(K' & _) | ([K' | K'] & _)]; discriminate.
  - split.
    + intros H.
      assert (Es : s = s').
      { destruct Hs as [(K & ->) | (K & ->)], Hs' as [(K' & ->) | (K' & ->)]; try reflexivity; exfalso;
          try rewrite K in *; try rewrite K' in *;
          destruct H as [(A & B) | [(A & B & _) | (A & B & _)]]; try discriminate;
          try (destruct K as [K | K]; rewrite K in *; discriminate);
          try (destruct K' as [K' | K']; rewrite K' in *; discriminate);
          try (destruct A; discriminate); try (destruct B; discriminate). }
      assert (Ei : k_key_id k = k_key_id k').
      { destruct H as [(A & B) | [(A & B & C) | (A & B & C)]]; auto. exfalso. rewrite A in Hs.
        destruct Hs as [(K & _) | ([K | K] & _)]; discriminate. }
      subst s'. f_equal. apply be32_unique. lia.
    + intros E. injection E as -> -> -> -> ->. assert (Ei : k_key_id k = k_key_id k') by congruence.
      destruct Hs as [(K & ->) | (K & ->)], Hs' as [(K' & Es) | (K' & Es)]; try discriminate; auto.
Qed.

Lemma all_grouped : forall P (inj : P -> prim) reg c pid (l : list (key * P)),
  Forall (good reg c) (map (lift inj) l) ->
  concat (ps_all (pset_for c pid (map (lift inj) l))) = map entry_of (map (lift inj) (grouped [] l)).
Proof.
  intros P inj reg c pid l Hg. unfold ps_all, pset_for, group. cbn [ps_primitives]. rewrite map_map. cbn [snd].
  rewrite <- flat_map_concat_map. unfold distinct. rewrite distinct_fresh. cbn [app].
  set (id := fun kp : key * P => pfx (fst kp)).
  change (grouped [] l) with (grouped (map fst (@nil (key * P))) l).
  rewrite (grouped_fresh id l) with (r := l) (pre := []) (seenk := []) (seenb := []).
  - replace (map e_identifier (map entry_of (map (lift inj) l))) with (map id l)
      by (rewrite !map_map; reflexivity).
    generalize (fresh [] (map id l)) as ps. induction ps as [| p ps IH]; [reflexivity |].
    cbn [flat_map]. rewrite IH, !map_app. f_equal.
    clear. induction l as [| kp l IH]; [reflexivity |]. cbn [map filter]. unfold ident_is at 1. cbn [entry_of e_identifier lift fst].
    unfold id at 1. destruct (bytes_eqb p (pfx (fst kp))); cbn [map]; rewrite IH; reflexivity.
  - intros a b Ha Hb. unfold id.
    assert (G : forall x, In x l -> has_prefix (k_output_prefix_type (fst x)) (k_key_id (fst x)) (pfx (fst x))).
    { intros x Hx. rewrite Forall_forall in Hg. exact (good_pfx _ _ _ (Hg _ (in_map (lift inj) _ _ Hx))). }
    apply same_prefix_pfx; auto.
  - reflexivity.
  - intros a [].
  - intros a [].
  - intros x. reflexivity.
Qed.

Lemma grouped_in : forall P (l : list (key * P)) seen kp, In kp (grouped seen l) -> In kp l.
Proof.
  induction l as [| x l IH]; intros seen kp H; [exact H |]. cbn [grouped] in H. destruct (existsb _ _).
  - right. eapply IH. exact H.
  - destruct H as [<- | H]; [left; reflexivity |]. apply in_app_or in H. destruct H as [H | H].
    + apply filter_In in H. right. tauto.
    + right. eapply IH. exact H.
Qed.

Lemma same_prefix_trans : forall a b c, same_prefix a b = true -> same_prefix b c = true -> same_prefix a c = true.
Proof.
  intros a b c. rewrite !same_prefix_iff.
  intros [(A1 & A2) | [(A1 & A2 & A3) | (A1 & A2 & A3)]] [(B1 & B2) | [(B1 & B2 & B3) | (B1 & B2 & B3)]];
    try (left; auto; fail); try (rewrite A2 in B1; discriminate);
    try (rewrite A2 in B1; destruct B1; discriminate); try (rewrite B1 in A2; destruct A2; discriminate).
  - right. left. repeat split; congruence.
  - right. right. split; [exact A1 |]. split; [exact B2 | congruence].
Qed.
Lemma same_prefix_sym : forall a b, same_prefix a b = true -> same_prefix b a = true.
Proof. intros a b. rewrite !same_prefix_iff. intuition auto. Qed.

Lemma filter_split : forall A (f g : A -> bool) l, Permutation (filter f l)
  (filter (fun x => f x && g x) l ++ filter (fun x => f x && negb (g x)) l).
Proof.
  induction l as [| x l IH]; [constructor |]. cbn [filter]. destruct (f x); [| exact IH]. cbn [andb].
  destruct (g x); cbn [negb].
  - cbn [app]. apply perm_skip. exact IH.
  - apply Permutation_cons_app. exact IH.
Qed.

(** Every key is tried, and only once. *)
Lemma grouped_filter : forall P (l : list (key * P)) seen, Permutation (grouped seen l)
  (filter (fun kp => negb (existsb (fun k => same_prefix k (fst kp)) seen)) l).
Proof.
  induction l as [| kp l IH]; intros seen; [constructor |]. cbn [grouped filter].
  destruct (existsb (fun k => same_prefix k (fst kp)) seen) eqn:E; cbn [negb]; [apply IH |].
  apply perm_skip.
  eapply Permutation_trans; [| apply Permutation_sym, (filter_split _ _ (fun kp' => same_prefix (fst kp) (fst kp')))].
  apply Permutation_app.
  - erewrite filter_ext_in; [apply Permutation_refl |]. intros a Ha. cbn beta.
    destruct (same_prefix (fst kp) (fst a)) eqn:Es; [| rewrite andb_false_r; reflexivity]. rewrite andb_true_r. symmetry.
    apply negb_true_iff. destruct (existsb (fun k => same_prefix k (fst a)) seen) eqn:E2; [| reflexivity].
    apply existsb_exists in E2. destruct E2 as (k & Hk & Ek). rewrite <- E. symmetry. apply existsb_exists. exists k. split; [exact Hk |].
    eapply same_prefix_trans; [exact Ek |]. apply same_prefix_sym. exact Es.
  - eapply Permutation_trans; [apply IH |].
    erewrite filter_ext_in; [apply Permutation_refl |]. intros a Ha. cbn [existsb].
    rewrite negb_orb. apply andb_comm.
Qed.
Theorem grouped_permutation : forall P (l : list (key * P)), Permutation (grouped [] l) l.
Proof.
  intros P l. eapply Permutation_trans; [apply grouped_filter |]. cbn [existsb negb].
  replace (filter (fun _ => true) l) with l; [apply Permutation_refl |].
  induction l as [| x l IH]; [reflexivity |]. cbn. rewrite <- IH. reflexivity.
Qed.

(** With distinct prefixes the order is that of the keyset. *)
Lemma grouped_distinct_gen : forall P (l : list (key * P)) seen,
  Forall (fun kp => existsb (fun k => same_prefix k (fst kp)) seen = false) l ->
  ForallOrdPairs (fun a b => same_prefix (fst a) (fst b) = false) l -> grouped seen l = l.
Proof.
  induction l as [| kp l IH]; intros seen Hs Hd; [reflexivity |]. cbn [grouped].
  pose proof (Forall_inv Hs) as E. pose proof (Forall_inv_tail Hs) as Hs'. cbn beta in E. rewrite E.
  inversion Hd as [| ? ? Hk Hd']; subst. rewrite filter_none.
  - cbn [app]. f_equal. apply IH; [| exact Hd']. rewrite Forall_forall in *. intros a Ha. cbn [existsb].
    rewrite (Hk a Ha), (Hs' a Ha). reflexivity.
  - rewrite Forall_forall in Hk. exact Hk.
Qed.
Theorem grouped_distinct : forall P (l : list (key * P)),
  ForallOrdPairs (fun a b => same_prefix (fst a) (fst b) = false) l -> grouped [] l = l.
Proof. intros. apply grouped_distinct_gen; [| assumption]. apply Forall_forall. reflexivity. Qed.

(** ** The outcome of trying *)

Lemma try_each_jwt_outcome : forall X A (f : X -> result A) l interesting fail,
  is_tink_error fail = true -> is_jwt_invalid_error fail = false ->
  (forall e, interesting = Some e -> is_jwt_invalid_error e = true /\ is_tink_error e = true) ->
  let out := try_each_jwt f l interesting fail in
  (exists before r after, map f l = before ++ r :: after /\
     Forall raises_tink before /\ ~ raises_tink r /\ out = r) \/
  (Forall raises_tink (map f l) /\
   ((exists before e after, map f l = before ++ Err e :: after /\ is_jwt_invalid_error e = true /\
       Forall (fun r => forall e', r = Err e' -> is_jwt_invalid_error e' = false) after /\ out = Err e)
    \/ (Forall (fun r => forall e', r = Err e' -> is_jwt_invalid_error e' = false) (map f l) /\
        out = Err (match interesting with Some e => e | None => fail end)))).
Proof.
  intros X A f l. induction l as [| x l IH]; intros interesting fail Hf1 Hf2 Hi; cbv zeta.
  - right. split; [constructor |]. right. split; [constructor | reflexivity].
  - cbn [map try_each_jwt]. destruct (f x) as [a | e] eqn:E.
    + left. exists [], (Ok a), (map f l). split; [reflexivity |]. split; [constructor |]. split; [| reflexivity]. intros (e & He & _). discriminate.
    + destruct (is_tink_error e) eqn:Et.
      * assert (Re : raises_tink (@Err A e)) by (exists e; auto).
        specialize (IH (if is_jwt_invalid_error e then Some e else interesting) fail Hf1 Hf2).
        cbv zeta in IH. destruct IH as [(b & r & a & E1 & E2 & E3 & E4) | (E1 & [(b & e' & a & K1 & K2 & K3 & K4) | (K1 & K2)])].
        -- intros e' He'. destruct (is_jwt_invalid_error e) eqn:Ej; [apply some_inj in He'; subst; auto | apply Hi; exact He'].
        -- left. exists (Err e :: b), r, a. rewrite E1. split; [reflexivity |]. split; [constructor; assumption |]. auto.
        -- right. split; [constructor; assumption |]. left. exists (Err e :: b), e', a. rewrite K1. auto.
        -- right. split; [constructor; assumption |]. destruct (is_jwt_invalid_error e) eqn:Ej.
           ++ left. exists [], e, (map f l). split; [reflexivity |]. auto.
           ++ right. split; [constructor; [intros e' He'; congruence | exact K1] | exact K2].
      * left. exists [], (Err e), (map f l). split; [reflexivity |]. split; [constructor |]. split; [| reflexivity].
        intros (e' & He & Ht). congruence.
Qed.

Lemma try_each_jwt_verify_outcome : forall X A (f : X -> result A) l m,
  verify_outcome (map f l) (try_each_jwt f l None (TinkError m)).
Proof.
  intros X A f l m. destruct (try_each_jwt_outcome X A f l None (TinkError m)) as [H | (H1 & [H2 | (H2 & H3)])];
    try reflexivity; [intros; discriminate | left; exact H | right; auto |].
  right. split; [exact H1 |]. right. split; [exact H2 |]. exists (TinkError m). rewrite H3. auto.
Qed.

(** ** Wrappers *)

Lemma validate_jwt_ok : forall P (inj : P -> prim) c pid l,
  validate_jwt_primitive_set (pset_for c pid (map (lift inj) l)) = Ok tt <->
  Forall (fun kp => raw_or_tink (fst kp)) l.
Proof.
  intros P inj c pid l. unfold validate_jwt_primitive_set. rewrite for_each_ok.
  unfold pset_for, ps_all, group. cbn [ps_primitives]. rewrite map_map. cbn [snd].
  rewrite Forall_map, !Forall_forall.
  assert (R : forall e : entry, (if negb (e_output_prefix_type e =? RAW)%Z && negb (e_output_prefix_type e =? TINK)%Z then
        Err (TinkError "unsupported OutputPrefixType") else Ok tt) = Ok tt <->
        (e_output_prefix_type e = RAW \/ e_output_prefix_type e = TINK)).
  { intros e. destruct (Z.eqb_spec (e_output_prefix_type e) RAW), (Z.eqb_spec (e_output_prefix_type e) TINK);
      cbn; split; intros; auto; try discriminate. tauto. }
  split.
  - intros H kp Hi. set (e := entry_of (lift inj kp)).
    assert (He : In e (map entry_of (map (lift inj) l))) by (apply in_map, in_map, Hi).
    specialize (H (e_identifier e)). rewrite distinct_in in H. specialize (H (in_map _ _ _ He)).
    rewrite for_each_ok, Forall_forall in H. specialize (H e). rewrite filter_In in H.
    specialize (H (conj He (bytes_eqb_refl _))). apply R in H. exact H.
  - intros H p _. rewrite for_each_ok, Forall_forall. intros e He.
    apply filter_In in He. destruct He as [He _]. apply in_map_iff in He. destruct He as (kp & <- & He).
    apply in_map_iff in He. destruct He as (kp' & <- & He). apply R. apply H in He. exact He.
Qed.

Lemma entry_kid_of : forall P (inj : P -> prim) reg c (l : list (key * P)) kp,
  Forall (good reg c) (map (lift inj) l) -> Forall (fun kp => raw_or_tink (fst kp)) l -> In kp l ->
  exists kid, entry_kid (entry_of (lift inj kp)) = Ok kid /\ kid_of (fst kp) kid.
Proof.
  intros P inj reg c l kp Hg Hrt Hi. unfold entry_kid. cbn [entry_of e_key_id e_output_prefix_type lift fst].
  destruct (get_kid _ _) as [kid | e] eqn:E; [exists kid; split; [reflexivity | apply get_kid_ok; exact E] |].
  exfalso. rewrite Forall_forall in Hg, Hrt. specialize (Hg _ (in_map (lift inj) _ _ Hi)). apply good_pfx in Hg.
  cbn [lift fst] in Hg. specialize (Hrt _ Hi). unfold get_kid in E.
  destruct Hrt as [Er | Er]; rewrite Er in E, Hg; [discriminate |]. change ((TINK =? RAW)%Z) with false in E.
  change ((TINK =? TINK)%Z) with true in E. cbv iota in E.
  destruct Hg as [(K & _) | (s & b3 & b2 & b1 & b0 & _ & Hn & _)]; [discriminate |].
  assert (B : (k_key_id (fst kp) < 4294967296)%N).
  { rewrite <- Hn. change (2 ^ 24)%N with 16777216%N. change (2 ^ 16)%N with 65536%N. change (2 ^ 8)%N with 256%N.
    pose proof (to_N_lt b3). pose proof (to_N_lt b2). pose proof (to_N_lt b1). pose proof (to_N_lt b0). lia. }
  replace ((Z.of_N (k_key_id (fst kp)) <? 0)%Z || (4294967296 <? Z.of_N (k_key_id (fst kp)))%Z) with false in E by lia.
  rewrite N2Z.id in E. unfold pack_be32 in E. replace (k_key_id (fst kp) <? 4294967296)%N with true in E by lia.
  destruct (be32_bytes _ B) as (c3 & c2 & c1 & c0 & Eb & _). rewrite Eb in E. discriminate.
Qed.

Lemma jwt_attempts_map : forall P A (inj : P -> prim) reg c (l : list (key * P)) (call : P -> option pystr -> result A)
    (callp : prim -> option pystr -> result A),
  Forall (good reg c) (map (lift inj) l) -> Forall (fun kp => raw_or_tink (fst kp)) l ->
  (forall p kid, callp (inj p) kid = call p kid) ->
  jwt_attempts call l (map (fun e => kid <- entry_kid e ;; callp (e_primitive e) kid)
                          (map entry_of (map (lift inj) (grouped [] l)))).
Proof.
  intros P A inj reg c l call callp Hg Hrt Hc. unfold jwt_attempts. rewrite !map_map.
  assert (H : forall m, (forall kp, In kp m -> In kp l) ->
    Forall2 (fun kp r => exists kid, kid_of (fst kp) kid /\ r = call (snd kp) kid) m
      (map (fun x => kid <- entry_kid (entry_of (lift inj x)) ;; callp (e_primitive (entry_of (lift inj x))) kid) m)).
  { induction m as [| kp m IH]; intros Hm; constructor.
    - destruct (entry_kid_of P inj reg c l kp Hg Hrt (Hm kp (or_introl eq_refl))) as (kid & Ek & Hk).
      exists kid. split; [exact Hk |]. rewrite Ek. cbn [bind]. apply Hc.
    - apply IH. intros kp' Hi. apply Hm. right. exact Hi. }
  apply H. intros kp. apply grouped_in.
Qed.

Lemma jwt_make : forall P (inj : P -> prim) reg c ks (l : list (key * P)) (make : P -> option pystr -> result pystr)
    (callp : prim -> option pystr -> result pystr),
  valid_keyset ks -> keys_with inj reg c ks l ->
  Forall (good reg c) (map (lift inj) l) -> Forall (fun kp => raw_or_tink (fst kp)) l ->
  (forall p kid, callp (inj p) kid = make p kid) ->
  jwt_maker_spec inj reg c ks make
    (e <- primary (pset_for c (ks_primary_key_id ks) (map (lift inj) l)) ;; kid <- entry_kid e ;; callp (e_primitive e) kid) l.
Proof.
  intros P inj reg c ks l make callp Hv Hk Hg Hrt Hc. split; [exact Hk |]. split; [exact Hrt |].
  pose proof Hk as (Hl & _). split.
  - intros k p Hp. rewrite (primary_pset_for _ _ _ _ _ _ _ _ Hv Hl Hg Hp). cbn [bind].
    destruct (entry_kid_of P inj reg c l (k, p) Hg Hrt (proj1 Hp)) as (kid & Ek & Hkid).
    exists kid. split; [exact Hkid |]. change (entry_of (lift inj (k, p))) with (entry_of (k, inj p)) in Ek. rewrite Ek. cbn [bind].
    apply Hc.
  - intros Hn. rewrite (no_primary_pset_for _ _ _ _ _ Hn). cbn [bind]. eexists. split; reflexivity.
Qed.

Lemma jwt_mac_inj : forall p, class_of p = ClsJwtMacInternal -> exists a, p = PrimJwtMacInternal a.
Proof. intros p H. destruct p; try discriminate. eauto. Qed.
Lemma jwt_sign_inj : forall p, class_of p = ClsJwtSignInternal -> exists a, p = PrimJwtSignInternal a.
Proof. intros p H. destruct p; try discriminate. eauto. Qed.
Lemma jwt_verify_inj : forall p, class_of p = ClsJwtVerifyInternal -> exists a, p = PrimJwtVerifyInternal a.
Proof. intros p H. destruct p; try discriminate. eauto. Qed.

Theorem jwt_mac_handle_spec : forall reg h m,
  dict_get pclass_eqb ClsJwtMac (r_wrappers reg) = Some jwt_mac_wrapper ->
  handle_primitive reg h ClsJwtMac = Ok (PrimJwtMac m) ->
  valid_keyset (kh_keyset h) /\ exists l,
    (forall r, jwt_maker_spec PrimJwtMacInternal reg ClsJwtMacInternal (kh_keyset h)
                 (fun p kid => jmi_compute p r kid) (jm_compute m r) l) /\
    (forall now token v, jwt_verifier_spec PrimJwtMacInternal reg ClsJwtMacInternal (kh_keyset h)
                 (fun p kid => jmi_verify p now token v kid) (jm_verify m now token v) l).
Proof.
  intros reg h m Hw Hh.
  destruct (handle_primitive_typed _ PrimJwtMacInternal _ _ _ jwt_mac_wrapper _ jwt_mac_inj Hw Hh) as (Hv & l & Hk & Hg & HQ).
  cbn [w_input_primitive_class jwt_mac_wrapper w_wrap] in *.
  apply bind_ok in HQ. destruct HQ as ([] & Hval & HQ). apply validate_jwt_ok in Hval.
  apply ok_inj in HQ. injection HQ as <-. split; [exact Hv |]. exists l. cbn [jm_compute jm_verify]. split.
  - intros r. apply (jwt_make _ _ _ _ _ _ _ (fun p kid => call_jwt_compute p r kid)); auto.
  - intros now token v. split; [exact Hk |]. split; [exact Hval |]. unfold wrapped_jwt_mac_verify.
    rewrite (all_grouped _ _ _ _ _ _ Hg).
    eexists. split; [| apply try_each_jwt_verify_outcome].
    apply (jwt_attempts_map _ _ _ reg ClsJwtMacInternal l _ (fun p kid => call_jwt_mac_verify p now token v kid)); auto.
Qed.

Theorem jwt_sign_handle_spec : forall reg h s,
  dict_get pclass_eqb ClsJwtSign (r_wrappers reg) = Some jwt_sign_wrapper ->
  handle_primitive reg h ClsJwtSign = Ok (PrimJwtSign s) ->
  valid_keyset (kh_keyset h) /\ exists l,
    (forall rnd r, jwt_maker_spec PrimJwtSignInternal reg ClsJwtSignInternal (kh_keyset h)
                 (fun p kid => jsi_sign p rnd r kid) (js_sign s rnd r) l).
Proof.
  intros reg h s Hw Hh.
  destruct (handle_primitive_typed _ PrimJwtSignInternal _ _ _ jwt_sign_wrapper _ jwt_sign_inj Hw Hh) as (Hv & l & Hk & Hg & HQ).
  cbn [w_input_primitive_class jwt_sign_wrapper w_wrap] in *.
  apply bind_ok in HQ. destruct HQ as ([] & Hval & HQ). apply validate_jwt_ok in Hval.
  apply ok_inj in HQ. injection HQ as <-. split; [exact Hv |]. exists l. cbn [js_sign].
  intros rnd r. apply (jwt_make _ _ _ _ _ _ _ (fun p kid => call_jwt_sign p rnd r kid)); auto.
Qed.

Theorem jwt_verify_handle_spec : forall reg h vf,
  dict_get pclass_eqb ClsJwtVerify (r_wrappers reg) = Some jwt_verify_wrapper ->
  handle_primitive reg h ClsJwtVerify = Ok (PrimJwtVerify vf) ->
  valid_keyset (kh_keyset h) /\ exists l,
    (forall now token v, jwt_verifier_spec PrimJwtVerifyInternal reg ClsJwtVerifyInternal (kh_keyset h)
                 (fun p kid => jvi_verify p now token v kid) (jv_verify vf now token v) l).
Proof.
  intros reg h vf Hw Hh.
  destruct (handle_primitive_typed _ PrimJwtVerifyInternal _ _ _ jwt_verify_wrapper _ jwt_verify_inj Hw Hh) as (Hv & l & Hk & Hg & HQ).
  cbn [w_input_primitive_class jwt_verify_wrapper w_wrap] in *.
  apply bind_ok in HQ. destruct HQ as ([] & Hval & HQ). apply validate_jwt_ok in Hval.
  apply ok_inj in HQ. injection HQ as <-. split; [exact Hv |]. exists l. cbn [jv_verify].
  intros now token v. split; [exact Hk |]. split; [exact Hval |]. unfold wrapped_jwt_verify.
  rewrite (all_grouped _ _ _ _ _ _ Hg).
  eexists. split; [| apply try_each_jwt_verify_outcome].
  apply (jwt_attempts_map _ _ _ reg ClsJwtVerifyInternal l _ (fun p kid => call_jwt_verify p now token v kid)); auto.
Qed.

(** Keysets with an enabled key of another prefix type are refused. *)
Theorem jwt_refuses_prefixed : forall reg h k c Q,
  In c [ClsJwtMac; ClsJwtSign; ClsJwtVerify] ->
  dict_get pclass_eqb ClsJwtMac (r_wrappers reg) = Some jwt_mac_wrapper ->
  dict_get pclass_eqb ClsJwtSign (r_wrappers reg) = Some jwt_sign_wrapper ->
  dict_get pclass_eqb ClsJwtVerify (r_wrappers reg) = Some jwt_verify_wrapper ->
  In k (enabled_keys (kh_keyset h)) -> ~ raw_or_tink k ->
  handle_primitive reg h c <> Ok Q.
Proof.
  intros reg h k c Q Hc W1 W2 W3 Hk Hr Hh.
  assert (G : forall P (l : list (key * P)), map fst l = enabled_keys (kh_keyset h) ->
    Forall (fun kp => raw_or_tink (fst kp)) l -> False).
  { intros P l El Hf. rewrite <- El in Hk. apply in_map_iff in Hk. destruct Hk as (kp & <- & Hi).
    rewrite Forall_forall in Hf. exact (Hr (Hf kp Hi)). }
  destruct Hc as [<- | [<- | [<- | []]]].
  - destruct (handle_primitive_typed _ PrimJwtMacInternal _ _ _ jwt_mac_wrapper _ jwt_mac_inj W1 Hh) as (_ & l & (Hl & _) & _ & HQ).
    apply bind_ok in HQ. destruct HQ as ([] & Hval & _). apply validate_jwt_ok in Hval. exact (G _ _ Hl Hval).
  - destruct (handle_primitive_typed _ PrimJwtSignInternal _ _ _ jwt_sign_wrapper _ jwt_sign_inj W2 Hh) as (_ & l & (Hl & _) & _ & HQ).
    apply bind_ok in HQ. destruct HQ as ([] & Hval & _). apply validate_jwt_ok in Hval. exact (G _ _ Hl Hval).
  - destruct (handle_primitive_typed _ PrimJwtVerifyInternal _ _ _ jwt_verify_wrapper _ jwt_verify_inj W3 Hh) as (_ & l & (Hl & _) & _ & HQ).
    apply bind_ok in HQ. destruct HQ as ([] & Hval & _). apply validate_jwt_ok in Hval. exact (G _ _ Hl Hval).
Qed.
