(** Proofs: the two readings of JWT keys agree. The Python code and the C++ library parse the
    same bytes; here each has its own parser. *)
From Coq Require Import Strings.Byte Strings.String List NArith ZArith Bool Lia.
From Verif Require Import M_Base L_Base M_Proto M_Utf8 M_Wire L_Wire M_ProtoMsg L_ProtoMsg M_KeyFormats M_JwtTypes M_JwtKeys M_CcStreamKeys M_CcJwt.
Import ListNotations.
Open Scope string_scope.
Open Scope list_scope.
Open Scope nat_scope.

(** ** Lists *)
Lemma lens_of_app : forall a b, lens_of (a ++ b) = lens_of a ++ lens_of b.
Proof. induction a as [| w a IH]; intros b; [reflexivity |]. destruct w; cbn [lens_of app]; rewrite IH; reflexivity. Qed.
Lemma varints_of_app : forall a b, varints_of (a ++ b) = varints_of a ++ varints_of b.
Proof. induction a as [| w a IH]; intros b; [reflexivity |]. destruct w; cbn [varints_of app]; rewrite IH; reflexivity. Qed.
Lemma all_some_app : forall A B (f : A -> option B) a b,
  all_some f (a ++ b) = match all_some f a, all_some f b with Some x, Some y => Some (x ++ y) | _, _ => None end.
Proof.
  intros A B f a b. induction a as [| x a IH]; cbn [all_some app]; [destruct (all_some f b); reflexivity |].
  rewrite IH. destruct (f x); [| reflexivity]. destruct (all_some f a); [| reflexivity]. destruct (all_some f b); reflexivity.
Qed.
Lemma last_app_default : forall A (a b : list A) d, last (a ++ b) d = last b (last a d).
Proof.
  intros A a b. induction b as [| x b IH] using rev_ind; intros d; [rewrite app_nil_r; reflexivity |].
  rewrite app_assoc, !last_last. reflexivity.
Qed.

(** ** The custom kid *)
Lemma kid_steps : forall l v, fold_option custom_kid_step l v =
  match all_some utf8_decode (lens_of (occurrences 1 l)) with Some r => Some (last r v) | None => None end.
Proof.
  induction l as [| f l IH]; intros v; [reflexivity |]. change (f :: l) with ([f] ++ l). rewrite occurrences_app, lens_of_app, all_some_app.
  rewrite fold_option_app. cbn [fold_option].
  destruct f as (n & x). destruct (N.eq_dec n 1) as [-> | NE].
  - destruct x as [y | y | y | y]; cbn [custom_kid_step occurrences filter map fst snd N.eqb Pos.eqb lens_of all_some]; try (rewrite IH; destruct (all_some utf8_decode (lens_of (occurrences 1 l))); reflexivity).
    destruct (utf8_decode y) as [u |]; [| destruct (all_some utf8_decode (lens_of (occurrences 1 l))); reflexivity].
    rewrite IH. destruct (all_some utf8_decode (lens_of (occurrences 1 l))) as [r |]; [| reflexivity]. rewrite last_app_default. reflexivity.
  - assert (custom_kid_step v (n, x) = Some v) as -> by (unfold custom_kid_step; destruct n as [| [p | p |]]; try reflexivity; congruence).
    unfold occurrences at 1. cbn [filter fst]. apply N.eqb_neq in NE. rewrite NE. cbn [map lens_of all_some]. rewrite IH.
    destruct (all_some utf8_decode (lens_of (occurrences 1 l))); reflexivity.
Qed.
Definition kid_value (kid : option pystr) : option pval := match kid with Some v => Some (VMsg [Some (VString v)]) | None => None end.
Lemma kid_decode_nil : decode_value (TMsg CustomKid) [] = Some (kid_value None).
Proof. reflexivity. Qed.
Lemma kid_decode_len : forall occ x, decode_value (TMsg CustomKid) (occ ++ [WLen x]) =
  match decode_value (TMsg CustomKid) occ with
  | Some o => match merge_message custom_kid_step (match o with Some (VMsg [Some (VString v)]) => v | _ => [] end) x with
              | Some v => Some (kid_value (Some v)) | None => None end
  | None => None
  end.
Proof.
  intros occ x. rewrite !decode_value_msg, lens_of_app. cbn [lens_of]. unfold merge_message.
  assert (E : forall ls, decode_fields CustomKid (concat ls) = match all_some utf8_decode (lens_of (occurrences 1 (concat ls))) with Some r => Some [Some (VString (last r []))] | None => None end).
  { intros ls. unfold CustomKid. cbn [decode_fields decode_value]. destruct (all_some utf8_decode (lens_of (occurrences 1 (concat ls)))); reflexivity. }
  destruct (lens_of occ) as [| y ys] eqn:EL.
  - cbn [app all_some]. destruct (parse_fields x) as [fs |]; [| reflexivity]. rewrite E. cbn [concat]. rewrite app_nil_r, kid_steps.
    destruct (all_some utf8_decode (lens_of (occurrences 1 fs))); reflexivity.
  - change ((y :: ys) ++ [x]) with (y :: (ys ++ [x])). cbv iota. change (y :: (ys ++ [x])) with ((y :: ys) ++ [x]). rewrite all_some_app.
    destruct (all_some parse_fields (y :: ys)) as [ls |]; [| reflexivity]. cbn [all_some].
    destruct (parse_fields x) as [fs |].
    + rewrite !E, concat_app. cbn [concat]. rewrite app_nil_r, occurrences_app, lens_of_app, all_some_app.
      destruct (all_some utf8_decode (lens_of (occurrences 1 (concat ls)))) as [r |]; [| reflexivity]. rewrite kid_steps.
      destruct (all_some utf8_decode (lens_of (occurrences 1 fs))) as [r' |]; [| reflexivity]. rewrite last_app_default. reflexivity.
    + rewrite E. destruct (all_some utf8_decode (lens_of (occurrences 1 (concat ls)))); reflexivity.
Qed.
Lemma kid_decode_other : forall occ w, (forall x, w <> WLen x) -> decode_value (TMsg CustomKid) (occ ++ [w]) = decode_value (TMsg CustomKid) occ.
Proof. intros occ w H. rewrite !decode_value_msg, lens_of_app. destruct w; try (cbn [lens_of]; rewrite app_nil_r; reflexivity). destruct (H _ eq_refl). Qed.

(** ** HMAC keys *)
Definition hmac_value (k : jwt_hmac_key) : message :=
  [Some (VNum (Z.of_N (jhk_version k))); Some (VNum (jhk_algorithm k)); Some (VBytes (jhk_key_value k)); kid_value (jhk_custom_kid k)].
Lemma occurrences_one : forall n k w, occurrences n [(k, w)] = if N.eqb k n then [w] else [].
Proof. intros n k w. unfold occurrences. cbn [filter fst]. destruct (N.eqb k n); reflexivity. Qed.
Lemma scalar_steps : forall occ w,
  decode_value TUint32 (occ ++ [w]) = (match w with WVarint n => Some (Some (VNum (Z.of_N (uint32_of_varint n)))) | _ => decode_value TUint32 occ end) /\
  decode_value TEnum (occ ++ [w]) = (match w with WVarint n => Some (Some (VNum (int32_of_varint n))) | _ => decode_value TEnum occ end) /\
  decode_value TBytes (occ ++ [w]) = (match w with WLen x => Some (Some (VBytes x)) | _ => decode_value TBytes occ end).
Proof.
  intros occ w. cbn [decode_value]. rewrite varints_of_app, lens_of_app. destruct w; cbn [varints_of lens_of]; rewrite ?app_nil_r, ?last_last; auto.
Qed.
Definition number_of (t : ptype) (l : list field) (n : N) : Z :=
  match t with TUint32 => Z.of_N (uint32_of_varint (last (varints_of (occurrences n l)) 0%N)) | _ => int32_of_varint (last (varints_of (occurrences n l)) 0%N) end.
Lemma kid_step_at : forall k l n w, decode_value (TMsg CustomKid) (occurrences k (l ++ [(n, w)])) =
  match decode_value (TMsg CustomKid) (occurrences k l) with
  | Some o => if N.eqb n k then match w with
              | WLen x => match merge_message custom_kid_step (match o with Some (VMsg [Some (VString v)]) => v | _ => [] end) x with
                          | Some v => Some (kid_value (Some v)) | None => None end
              | _ => Some o end else Some o
  | None => None
  end.
Proof.
  intros k l n w. rewrite occurrences_app, occurrences_one. destruct (N.eqb n k).
  - destruct w as [y | y | y | y]; [| | apply kid_decode_len |]; rewrite kid_decode_other by discriminate; destruct (decode_value (TMsg CustomKid) (occurrences k l)); reflexivity.
  - rewrite app_nil_r. destruct (decode_value (TMsg CustomKid) (occurrences k l)); reflexivity.
Qed.
Lemma uint_step_at : forall k l n w, last (varints_of (occurrences k (l ++ [(n, w)]))) 0%N =
  if N.eqb n k then match w with WVarint z => z | _ => last (varints_of (occurrences k l)) 0%N end else last (varints_of (occurrences k l)) 0%N.
Proof.
  intros k l n w. rewrite occurrences_app, occurrences_one. destruct (N.eqb n k); [| rewrite app_nil_r; reflexivity].
  rewrite varints_of_app. destruct w; cbn [varints_of]; rewrite ?app_nil_r, ?last_last; reflexivity.
Qed.
Lemma bytes_step_at : forall k l n w, last (lens_of (occurrences k (l ++ [(n, w)]))) [] =
  if N.eqb n k then match w with WLen z => z | _ => last (lens_of (occurrences k l)) [] end else last (lens_of (occurrences k l)) [].
Proof.
  intros k l n w. rewrite occurrences_app, occurrences_one. destruct (N.eqb n k); [| rewrite app_nil_r; reflexivity].
  rewrite lens_of_app. destruct w; cbn [lens_of]; rewrite ?app_nil_r, ?last_last; reflexivity.
Qed.
(** What the fold has gathered after the fields [l] *)
Definition hmac_gathered (l : list field) : option jwt_hmac_key :=
  match decode_value (TMsg CustomKid) (occurrences 4 l) with
  | Some o => Some (mk_jwt_hmac_key (uint32_of_varint (last (varints_of (occurrences 1 l)) 0%N)) (int32_of_varint (last (varints_of (occurrences 2 l)) 0%N))
      (last (lens_of (occurrences 3 l)) []) (match o with Some (VMsg [Some (VString v)]) => Some v | _ => None end))
  | None => None
  end.
Lemma hmac_steps : forall l, fold_option jwt_hmac_key_step l (mk_jwt_hmac_key 0 0 [] None) = hmac_gathered l.
Proof.
  induction l as [| (n & w) l IH] using rev_ind; [reflexivity |]. rewrite fold_option_app, IH. unfold hmac_gathered. rewrite kid_step_at, !uint_step_at, !bytes_step_at.
  destruct (decode_value (TMsg CustomKid) (occurrences 4 l)) as [o |]; [| reflexivity]. cbn [fold_option].
  destruct (N.eq_dec n 1) as [-> | N1]; [destruct w; reflexivity |]. destruct (N.eq_dec n 2) as [-> | N2]; [destruct w; reflexivity |]. destruct (N.eq_dec n 3) as [-> | N3]; [destruct w; reflexivity |].
  destruct (N.eq_dec n 4) as [-> | N4].
  - destruct w as [y | y | y | y]; try reflexivity. cbn [N.eqb Pos.eqb jwt_hmac_key_step jhk_custom_kid jhk_version jhk_algorithm jhk_key_value]. unfold merge_custom_kid.
    assert ((match match o with Some (VMsg [Some (VString v)]) => Some v | _ => None end with Some v => v | None => [] end) = (match o with Some (VMsg [Some (VString v)]) => v | _ => [] end)) as ->.
    { destruct o as [[| | | [| [[| | |] |] [|]]] |]; reflexivity. }
    destruct (merge_message custom_kid_step _ y); reflexivity.
  - pose proof N1 as E1. pose proof N2 as E2. pose proof N3 as E3. pose proof N4 as E4. apply N.eqb_neq in E1, E2, E3, E4. rewrite E1, E2, E3, E4.
    unfold jwt_hmac_key_step. destruct n as [| [[p | p |] | [p | [p | p |] |] |]]; try reflexivity; congruence.
Qed.
Lemma kid_decoded : forall l o, decode_value (TMsg CustomKid) l = Some o -> exists kid, o = kid_value kid.
Proof.
  intros l o H. rewrite decode_value_msg in H. destruct (lens_of l); [injection H as <-; exists None; reflexivity |]. destruct (all_some parse_fields _) as [ls |]; [| discriminate H].
  unfold CustomKid in H. cbn [decode_fields decode_value] in H. destruct (all_some utf8_decode _) as [r |]; [| discriminate H]. injection H as <-. exists (Some (last r [])). reflexivity.
Qed.
Lemma kid_value_back : forall kid, match kid_value kid with Some (VMsg [Some (VString v)]) => Some v | _ => None end = kid.
Proof. intros []; reflexivity. Qed.
Theorem hmac_parsers_agree : forall x, parse_message JwtHmacKey x = option_map hmac_value (parse_jwt_hmac_key x).
Proof.
  intros x. unfold parse_message, parse_jwt_hmac_key, merge_message. destruct (parse_fields x) as [l |]; [| reflexivity]. rewrite hmac_steps. unfold hmac_gathered, JwtHmacKey.
  cbn [decode_fields]. destruct (decode_value (TMsg CustomKid) (occurrences 4 l)) as [o |] eqn:E; [| reflexivity]. destruct (kid_decoded _ _ E) as (kid & ->). rewrite kid_value_back. reflexivity.
Qed.

(** ** Public keys *)
Definition public_value (k : jwt_public_key) : message :=
  [Some (VNum (Z.of_N (jpk_version k))); Some (VNum (jpk_algorithm k)); Some (VBytes (jpk_3 k)); Some (VBytes (jpk_4 k)); kid_value (jpk_custom_kid k)].
Definition public_gathered (l : list field) : option jwt_public_key :=
  match decode_value (TMsg CustomKid) (occurrences 5 l) with
  | Some o => Some (mk_jwt_public_key (uint32_of_varint (last (varints_of (occurrences 1 l)) 0%N)) (int32_of_varint (last (varints_of (occurrences 2 l)) 0%N))
      (last (lens_of (occurrences 3 l)) []) (last (lens_of (occurrences 4 l)) []) (match o with Some (VMsg [Some (VString v)]) => Some v | _ => None end))
  | None => None
  end.
Lemma public_steps : forall l, fold_option jwt_public_key_step l empty_jwt_public_key = public_gathered l.
Proof.
  induction l as [| (n & w) l IH] using rev_ind; [reflexivity |]. rewrite fold_option_app, IH. unfold public_gathered. rewrite kid_step_at, !uint_step_at, !bytes_step_at.
  destruct (decode_value (TMsg CustomKid) (occurrences 5 l)) as [o |]; [| reflexivity]. cbn [fold_option].
  destruct (N.eq_dec n 1) as [-> | N1]; [destruct w; reflexivity |]. destruct (N.eq_dec n 2) as [-> | N2]; [destruct w; reflexivity |]. destruct (N.eq_dec n 3) as [-> | N3]; [destruct w; reflexivity |].
  destruct (N.eq_dec n 4) as [-> | N4]; [destruct w; reflexivity |]. destruct (N.eq_dec n 5) as [-> | N5].
  - destruct w as [y | y | y | y]; try reflexivity. cbn [N.eqb Pos.eqb jwt_public_key_step jpk_custom_kid jpk_version jpk_algorithm jpk_3 jpk_4]. unfold merge_custom_kid.
    assert ((match match o with Some (VMsg [Some (VString v)]) => Some v | _ => None end with Some v => v | None => [] end) = (match o with Some (VMsg [Some (VString v)]) => v | _ => [] end)) as ->.
    { destruct o as [[| | | [| [[| | |] |] [|]]] |]; reflexivity. }
    destruct (merge_message custom_kid_step _ y); reflexivity.
  - pose proof N1 as E1. pose proof N2 as E2. pose proof N3 as E3. pose proof N4 as E4. pose proof N5 as E5. apply N.eqb_neq in E1, E2, E3, E4, E5. rewrite E1, E2, E3, E4, E5.
    unfold jwt_public_key_step. destruct n as [| [[p | [p | p |] |] | [p | [p | p |] |] |]]; try reflexivity; congruence.
Qed.
Lemma public_decode : forall fs l, map snd fs = map snd JwtRsaPublicKey -> map (fun f => snd (fst f)) fs = [1; 2; 3; 4; 5]%N ->
  decode_fields fs l = option_map public_value (fold_option jwt_public_key_step l empty_jwt_public_key).
Proof.
  intros fs l E1 E2. rewrite public_steps. unfold public_gathered.
  destruct fs as [| ((n1 & k1) & t1) [| ((n2 & k2) & t2) [| ((n3 & k3) & t3) [| ((n4 & k4) & t4) [| ((n5 & k5) & t5) [|]]]]]]; try discriminate E1. cbn in E1, E2. injection E1 as -> -> -> -> ->. injection E2 as -> -> -> -> ->.
  cbn [decode_fields]. fold CustomKid. destruct (decode_value (TMsg CustomKid) (occurrences 5 l)) as [o |] eqn:E; [| reflexivity]. destruct (kid_decoded _ _ E) as (kid & ->). rewrite kid_value_back. reflexivity.
Qed.
Theorem public_parsers_agree : forall fs x, In fs [JwtEcdsaPublicKey; JwtRsaPublicKey] -> parse_message fs x = option_map public_value (parse_jwt_public_key x).
Proof.
  intros fs x I. unfold parse_message, parse_jwt_public_key, merge_message. destruct (parse_fields x) as [l |]; [| reflexivity].
  apply public_decode; destruct I as [<- | [<- | []]]; reflexivity.
Qed.

(** ** Private keys: their public keys *)
Lemma private_step_at : forall l o, fold_option jwt_private_key_step l o =
  match all_some parse_fields (lens_of (occurrences 2 l)) with
  | Some [] => Some o
  | Some ls => option_map Some (fold_option jwt_public_key_step (concat ls) (match o with Some p => p | None => empty_jwt_public_key end))
  | None => None
  end.
Proof.
  induction l as [| (n & w) l IH]; intros o; [reflexivity |]. change ((n, w) :: l) with ([(n, w)] ++ l). rewrite occurrences_app, occurrences_one, fold_option_app. cbn [fold_option].
  assert (S : jwt_private_key_step o (n, w) = if N.eqb n 2 then match w with WLen x => option_map Some (merge_message jwt_public_key_step (match o with Some p => p | None => empty_jwt_public_key end) x) | _ => Some o end else Some o).
  { unfold jwt_private_key_step. destruct n as [| [p | [p | p |] |]]; reflexivity. }
  rewrite S. destruct (N.eqb n 2); [| exact (IH o)]. destruct w as [y | y | y | y]; try exact (IH o). cbn [lens_of app all_some]. unfold merge_message.
  destruct (parse_fields y) as [fs |]; [| reflexivity].
  destruct (fold_option jwt_public_key_step fs _) as [p |] eqn:EF; cbn [option_map].
  - rewrite IH. destruct (all_some parse_fields (lens_of (occurrences 2 l))) as [[| a ls] |]; [| | reflexivity].
    + cbn [concat]. rewrite app_nil_r, EF. reflexivity.
    + change (concat (fs :: a :: ls)) with (fs ++ concat (a :: ls)). rewrite fold_option_app, EF. reflexivity.
  - destruct (all_some parse_fields (lens_of (occurrences 2 l))) as [ls |]; [| reflexivity]. cbn [concat]. rewrite fold_option_app, EF. reflexivity.
Qed.
Theorem private_parsers_agree : forall fs x m, In fs [JwtEcdsaPrivateKey; JwtRsaPrivateKey] -> parse_message fs x = Some m ->
  exists v o rest k, m = v :: o :: rest /\ parse_jwt_private_key x = Some k /\
    ((o = None /\ k = empty_jwt_public_key) \/ o = Some (VMsg (public_value k))).
Proof.
  intros fs x m I H. unfold parse_message in H. unfold parse_jwt_private_key, merge_message. destruct (parse_fields x) as [l |]; [| discriminate H].
  assert (E : exists pub rest, fs = ("version", 1%N, TUint32) :: ("public_key", 2%N, TMsg pub) :: rest /\ In pub [JwtEcdsaPublicKey; JwtRsaPublicKey]).
  { destruct I as [<- | [<- | []]]; do 2 eexists; (split; [reflexivity | cbn; tauto]). }
  destruct E as (pub & rest & -> & IP). cbn [decode_fields] in H. rewrite private_step_at.
  destruct (decode_value TUint32 (occurrences 1 l)) as [v |]; [| discriminate H]. destruct (decode_value (TMsg pub) (occurrences 2 l)) as [o |] eqn:ED; [| discriminate H].
  destruct (decode_fields rest l) as [r |]; [| discriminate H]. injection H as <-. exists v, o, r. rewrite decode_value_msg in ED.
  destruct (lens_of (occurrences 2 l)) as [| y ys]; [injection ED as <-; exists empty_jwt_public_key; auto |].
  destruct (all_some parse_fields (y :: ys)) as [ls |] eqn:EA; [| discriminate ED].
  assert (NL : exists a b, ls = a :: b) by (cbn [all_some] in EA; destruct (parse_fields y); [| discriminate EA]; destruct (all_some parse_fields ys); [| discriminate EA]; injection EA as <-; eauto).
  destruct NL as (a & b & ->). rewrite public_decode in ED by (destruct IP as [<- | [<- | []]]; reflexivity). cbv iota.
  destruct (fold_option jwt_public_key_step (concat (a :: b)) empty_jwt_public_key) as [k |]; [| discriminate ED]. cbn [option_map] in *. injection ED as <-. exists k. auto.
Qed.
