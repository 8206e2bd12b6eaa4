(** Helper lemmas for the non-vacuity examples over X_Toy. *)
From Coq Require Import Strings.Byte Strings.String List NArith ZArith Bool Lia.
From Verif Require Import M_Base M_Proto M_Prims M_PrimitiveSet M_Registry M_KeysetHandle
  M_Wrappers S_Keyset S_Wrappers S_Handle L_Base L_PrimitiveSet L_Keyset L_Wrappers L_Wrappers2
  X_Toy.
Import ListNotations.
Open Scope list_scope.

Definition is_tink_err {A} (r : result A) : bool :=
  match r with Err e => is_tink_error e | Ok _ => false end.

Lemma is_tink_err_raises : forall A (r : result A), is_tink_err r = true -> raises_tink r.
Proof. intros A [a | e] H; [discriminate | exists e; auto]. Qed.

Ltac vmr := vm_compute; reflexivity.
Ltac toy_raises := apply is_tink_err_raises; vm_compute; reflexivity.

(** The keys of [toy_keyset] with their primitives. *)
Definition toy_list {P} (mk : bytes -> P) (url : pystr) (material : Z) : list (key * P) :=
  [ (toy_key url material "ka" ENABLED 42 TINK, mk (blit "ka"));
    (toy_key url material "kb" ENABLED 7 RAW, mk (blit "kb"));
    (toy_key url material "kd" ENABLED 300 LEGACY, mk (blit "kd")) ].

(** Checker: no key of [l] other than [k] accepts [x]. *)
Definition others_fail {P A} (l : list (key * P)) (f : key -> P -> bytes -> result A) (x : bytes)
  (k : key) : bool :=
  forallb (fun kp =>
    key_eqb (fst kp) k ||
    ((if carries_prefix (fst kp) x then is_tink_err (f (fst kp) (snd kp) (skipn 5 x)) else true)
     && (if is_raw_key (fst kp) then is_tink_err (f (fst kp) (snd kp) x) else true))) l.

Lemma others_fail_ok : forall P A (inj : P -> prim) reg c ks (l : list (key * P))
    (f : key -> P -> bytes -> result A) x k,
  (forall a b, inj a = inj b -> a = b) ->
  keys_with inj reg c ks l ->
  others_fail l f x k = true ->
  forall k' p' body, In k' (enabled_keys ks) -> k' <> k -> key_provides reg c k' (inj p') ->
    reaches k' x body -> raises_tink (f k' p' body).
Proof.
  intros P A inj reg c ks l f x k Hinj Hkw Hc k' p' body Hk Hn Hp Hr.
  assert (Hi : In (k', p') l) by (apply (law_in _ _ _ _ _ Hinj Hkw); auto).
  unfold others_fail in Hc. rewrite forallb_forall in Hc. specialize (Hc _ Hi).
  cbn [fst snd] in Hc. apply orb_true_iff in Hc. destruct Hc as [Hc | Hc].
  - apply key_eqb_spec in Hc. contradiction.
  - apply andb_true_iff in Hc. destruct Hc as [H1 H2].
    destruct Hr as [[Hraw ->] | (q & Hq & Hlen & -> & Hne)].
    + unfold is_raw_key in H2. rewrite Hraw in H2. cbn in H2. apply is_tink_err_raises. assumption.
    + rewrite (carries_prefix_spec _ _ _ Hq) in H1.
      destruct (has_prefix_length _ _ _ Hq) as [[_ ->] | [Hraw _]]; [discriminate |].
      unfold is_raw_key in H1. apply Z.eqb_neq in Hraw. rewrite Hraw in H1.
      rewrite app_length, Hlen, firstn_pre, bytes_eqb_refl, skipn_pre in H1 by assumption.
      assert (Nat.ltb 5 (5 + length body) = true) as E.
      { apply Nat.ltb_lt. destruct body; [congruence | simpl; lia]. }
      rewrite E in H1. cbn [negb andb] in H1. apply is_tink_err_raises. assumption.
Qed.

(** Solves [keys_with] for a concrete list. *)
Ltac toy_keys_with :=
  split; [vm_compute; reflexivity |];
  repeat first [apply Forall_nil | apply Forall_cons]; cbn [fst snd];
  apply registry_primitive_ok; vm_compute; reflexivity.

Lemma toy_kw_aead : keys_with PrimAead toy_registry ClsAead (toy_keyset u_aead SYMMETRIC)
  (toy_list toy_aead u_aead SYMMETRIC).
Proof. toy_keys_with. Qed.
Lemma toy_kw_daead : keys_with PrimDaead toy_registry ClsDaead (toy_keyset u_daead SYMMETRIC)
  (toy_list toy_daead u_daead SYMMETRIC).
Proof. toy_keys_with. Qed.
Lemma toy_kw_mac : keys_with PrimMac toy_registry ClsMac (toy_keyset u_mac SYMMETRIC)
  (toy_list toy_mac u_mac SYMMETRIC).
Proof. toy_keys_with. Qed.
Lemma toy_kw_verify : keys_with PrimVerify toy_registry ClsVerify (kh_keyset sign_public_handle)
  (toy_list toy_verifier u_verify ASYMMETRIC_PUBLIC).
Proof. toy_keys_with. Qed.
Lemma toy_kw_hd : keys_with PrimHybridDecrypt toy_registry ClsHybridDecrypt (kh_keyset hybrid_handle)
  (toy_list toy_hd u_hd ASYMMETRIC_PRIVATE).
Proof. toy_keys_with. Qed.
Lemma toy_kw_he : keys_with PrimHybridEncrypt toy_registry ClsHybridEncrypt
  (kh_keyset hybrid_public_handle) (toy_list toy_he u_he ASYMMETRIC_PUBLIC).
Proof. toy_keys_with. Qed.
Lemma toy_kw_sign : keys_with PrimSign toy_registry ClsSign (kh_keyset sign_handle)
  (toy_list toy_signer u_sign ASYMMETRIC_PRIVATE).
Proof. toy_keys_with. Qed.

Lemma toy_valid : forall url material, material <> ASYMMETRIC_PUBLIC ->
  valid_keyset (toy_keyset url material).
Proof.
  intros url material _. apply validate_keyset_ok. reflexivity.
Qed.

(** Toy primitives return or raise TinkError. *)
Lemma strip_app : forall p x, strip p (p ++ x) = Some x.
Proof.
  induction p as [| a p IH]; intros x; cbn [strip app]; [reflexivity |].
  rewrite (proj2 (byte_eqb_spec a a) eq_refl). apply IH.
Qed.
Lemma toy_open_seal : forall k ad pt, toy_open k (k ++ byte_of_N (N.of_nat (length ad)) :: ad ++ pt) ad = Ok pt.
Proof.
  intros k ad pt. unfold toy_open.
  change (k ++ byte_of_N (N.of_nat (length ad)) :: ad ++ pt) with
    (k ++ (byte_of_N (N.of_nat (length ad)) :: ad) ++ pt).
  rewrite app_assoc, strip_app. reflexivity.
Qed.
Lemma toy_open_total : forall k ct ad, tink_total (toy_open k ct ad).
Proof. intros. unfold toy_open. destruct (strip _ _); reflexivity || exact I. Qed.
Lemma toy_check_total : forall k t d, tink_total (toy_check k t d).
Proof. intros. unfold toy_check. destruct (bytes_eqb _ _); reflexivity || exact I. Qed.
