(** Proofs: new HPKE keys. *)
From Coq Require Import Strings.Byte Strings.String List NArith ZArith Bool Lia.
From Verif Require Import M_Base L_Base M_Proto M_Utf8 M_Wire L_Wire S_Wire M_ProtoMsg S_ProtoMsg L_ProtoMsg M_KeyFormats M_Templates M_Prims M_StreamTypes M_CcStream M_CcManagers M_CcAes
  M_CcStreamKeys M_CcModes M_CcSymmetric M_CcSymKeys M_CcEcies M_CcEciesKeys M_CcSignatures M_CcHpke S_Config S_CcAes S_CcStreamKeys S_CcModes S_CcSymmetric S_CcSymKeys S_CcSymHandles
  S_CcEcies S_CcEciesKeys S_CcSignatures S_CcHpke L_CcStreamKeys L_CcModes L_CcModes4 L_CcSymmetric L_CcSymmetric2 L_CcSymKeys L_CcSymKeys2 L_CcSymHandles L_CcEcies L_CcEcies2 L_CcEcies3 L_CcEciesKeys
  L_CcSigDer L_CcSignatures L_CcSigKeys L_CcSigKeys2 L_CcSigNew L_CcHpke.
Import ListNotations.
Open Scope string_scope.
Open Scope list_scope.
Open Scope nat_scope.

(** ** Keys that are generated *)
Lemma hpke_ec_key : forall ec lib c rnd, ec_laws ec lib -> nist c -> exists sk pk, hpke_generate_ec_key ec c rnd = StOk (sk, pk) /\
  let (d, Q) := ec_generate_key ec c rnd in sk = be_bytes (coordinate_size c) d /\ point_encoding ec c Uncompressed Q pk.
Proof.
  intros ec lib c rnd L N. assert (NU : c <> UNKNOWN_CURVE) by (destruct N as [<- | [<- | [<- | []]]]; discriminate).
  destruct (new_key_fresh ec lib c rnd L NU) as (s & X & Y & NK & F). unfold hpke_generate_ec_key. rewrite NK. cbn [bind_st].
  assert (F' : let n := coordinate_size c in let (d, Q) := ec_generate_key ec c rnd in s = be_bytes n d /\ X = be_bytes n (fst Q) /\ Y = be_bytes n (snd Q)) by (destruct N as [<- | [<- | [<- | []]]]; exact F). clear F. cbv zeta in F'.
  pose proof (law_generate _ _ L c rnd N) as G. destruct (ec_generate_key ec c rnd) as (d & (qx & qy)). cbn [fst snd] in *. destruct F' as (-> & -> & ->).
  assert (O : ec_on_curve ec c (qx, qy) = true) by (apply (law_generator _ _ L c _ N); exists d; exact G). destruct (law_coordinates _ _ L c qx qy N O) as (A & B).
  assert (GP : get_ec_point ec c (be_bytes (coordinate_size c) qx) (be_bytes (coordinate_size c) qy) = StOk (qx, qy)).
  { unfold get_ec_point, point_from_coordinates. rewrite (nist_group c N). cbn [bind_st]. cbv zeta. rewrite !bin2bn_num, (num_be_small _ _ A), (num_be_small _ _ B), O. reflexivity. }
  rewrite GP. cbn [bind_st].
  assert (PE : point_encoding ec c Uncompressed (qx, qy) ([x04] ++ be_bytes (coordinate_size c) qx ++ be_bytes (coordinate_size c) qy)) by (split; [exact O | reflexivity]).
  rewrite (proj2 (encode_point ec lib L c Uncompressed _ _ N) PE). cbn [bind_st]. do 2 eexists. split; [reflexivity |]. split; [reflexivity | exact PE].
Qed.
Lemma hpke_generated : forall ec lib kem rnd, ec_laws ec lib -> In kem [1; 2; 3; 4]%Z -> exists sk pk, hpke_generate_key ec kem rnd = StOk (sk, pk) /\ fresh_hpke ec kem rnd sk pk.
Proof.
  intros ec lib kem rnd L [<- | [<- | [<- | [<- | []]]]]; cbn [hpke_generate_key].
  - do 2 eexists. split; [reflexivity |]. left. auto.
  - destruct (hpke_ec_key ec lib P256 rnd L) as (sk & pk & E & F); [cbn; auto |]. exists sk, pk. split; [exact E |]. right. exists P256. split; [cbn; auto | exact F].
  - destruct (hpke_ec_key ec lib P384 rnd L) as (sk & pk & E & F); [cbn; auto |]. exists sk, pk. split; [exact E |]. right. exists P384. split; [cbn; auto | exact F].
  - destruct (hpke_ec_key ec lib P521 rnd L) as (sk & pk & E & F); [cbn; auto |]. exists sk, pk. split; [exact E |]. right. exists P521. split; [cbn; auto | exact F].
Qed.
Lemma hpke_kem_only : forall ec kem rnd x, hpke_generate_key ec kem rnd = StOk x -> In kem [1; 2; 3; 4]%Z.
Proof. intros ec kem rnd x H. destruct kem as [| p | p]; try discriminate H. destruct p as [[p | p |] | [p | [p | p |] |] |]; try discriminate H; cbn; auto 10. Qed.
Lemma made_stated : forall p, suite_made p -> suite_stated p.
Proof. intros p (K & A & B). split; [| auto]. intros E. rewrite E in K. destruct K as [K | [K | [K | [K | []]]]]; discriminate K. Qed.
Lemma format_valid_hpke : forall m p, hpke_suite_at HpkeKeyFormat m ["params"] p -> (hpke_validate_format m = None <-> suite_stated p).
Proof.
  intros m p S. unfold hpke_validate_format. rewrite and_then_none, check_none, negb_false_iff, (suite_valid HpkeKeyFormat m (cons "params") ["params"] p (fun q => eq_refl) S).
  split; [tauto |]. intros ST. split; [| exact ST]. exact (suite_present HpkeKeyFormat m ["params"] p eq_refl S ST).
Qed.
Lemma suite_moved : forall fs m pp gs w qq n s, path_type (TMsg fs) pp = Some (TMsg HpkeParams) -> get_path (TMsg fs) (Some (VMsg m)) pp = Some (VMsg n) ->
  path_type (TMsg gs) qq = Some (TMsg HpkeParams) -> get_path (TMsg gs) (Some (VMsg w)) qq = Some (VMsg n) -> hpke_suite_at fs m pp s -> hpke_suite_at gs w qq s.
Proof.
  intros fs m pp gs w qq n s T G T' G' (A & B & C). split; [exact (number_moved _ _ _ _ _ _ _ _ ["kem"] _ T G T' G' A) |]. split; [exact (number_moved _ _ _ _ _ _ _ _ ["kdf"] _ T G T' G' B) | exact (number_moved _ _ _ _ _ _ _ _ ["aead"] _ T G T' G' C)].
Qed.
Lemma hpke_created : forall ec rnd x m p w, parse_message HpkeKeyFormat x = Some m -> hpke_suite_at HpkeKeyFormat m ["params"] p -> suite_stated p -> hpke_create_key ec rnd m = StOk w ->
  exists sk pk, hpke_generate_key ec (hs_kem p) rnd = StOk (sk, pk) /\ holds_all HpkePrivateKey w /\ number HpkePrivateKey w ["version"] 0%Z /\
    hpke_public_at HpkePrivateKey w ["public_key"] (mk_hpke_public p pk) /\ octets HpkePrivateKey w ["private_key"] sk.
Proof.
  intros ec rnd x m p w E S ST C. pose proof (parse_holds _ _ _ E) as HM. destruct (read_message _ _ ["params"] HpkeParams HM eq_refl (suite_present HpkeKeyFormat m ["params"] p eq_refl S ST)) as (n & G & HN).
  unfold hpke_create_key in C. rewrite G in C. cbn [message_or_empty] in C. pose proof S as (A & _). change (num_at HpkeKeyFormat m ["params"; "kem"]) with (num_at HpkeKeyFormat m (["params"] ++ ["kem"])) in C. rewrite (num_at_number _ _ _ _ A) in C.
  apply bind_st_ok in C. destruct C as ((sk & pk) & K & C). apply st_ok_inj in C. subst w. exists sk, pk. split; [exact K |]. split; [hold; apply holds_msg; hold; apply holds_msg, HN |]. split; [reflexivity |]. split; [| reflexivity].
  split; [reflexivity |]. split; [| reflexivity]. cbn [hpub_suite app]. refine (suite_moved HpkeKeyFormat m ["params"] HpkePrivateKey _ ["public_key"; "params"] n p eq_refl G eq_refl _ S). reflexivity.
Qed.
(** ** New keys are of a format that is accepted, and fresh. *)
Theorem hpke_new_key_only : forall ec lib hc rnd x d, ec_laws ec lib -> cl_new_key_data (hpke_private_key_manager ec hc) rnd x = StOk d ->
  kd_type_url d = type_url "HpkePrivateKey" /\ kd_key_material_type d = ASYMMETRIC_PRIVATE /\
  exists p, asks_for_hpke (type_url "HpkePrivateKey") x p /\ suite_made p /\
    (proto_size (kd_value d) -> exists sk pk, is_hpke_private d (mk_hpke_private (mk_hpke_public p pk) sk) /\ fresh_hpke ec (hs_kem p) rnd sk pk).
Proof.
  intros ec lib hc rnd x d L H. cbn [hpke_private_key_manager cl_new_key_data] in H. destruct (parse_message HpkeKeyFormat x) as [m |] eqn:E; [| discriminate H].
  apply checked_ok in H. destruct H as (V & H). apply bind_st_ok in H. destruct H as (w & C & H). apply st_ok_inj in H. subst d. cbn [kd_type_url kd_key_material_type kd_value]. rewrite url_is. split; [reflexivity |]. split; [reflexivity |].
  destruct (suite_read HpkeKeyFormat m ["params"] (parse_holds _ _ _ E) (fun q => eq_refl)) as (p & S). pose proof (proj1 (format_valid_hpke m p S) V) as ST. destruct (hpke_created ec rnd x m p w E S ST C) as (sk & pk & K & HW & VV & PU & SE).
  pose proof (hpke_kem_only _ _ _ _ K) as IK. exists p. split; [split; [reflexivity | exists m; auto] |]. split; [split; [exact IK | apply ST] |]. intros PS. exists sk, pk.
  destruct (hpke_generated ec lib (hs_kem p) rnd L IK) as (sk' & pk' & K' & F). rewrite K in K'. injection K' as <- <-. split; [| exact F]. split; [reflexivity |]. exists w. split; [apply message_round_trip; [reflexivity | exact HW | exact PS] |]. auto.
Qed.
Theorem hpke_new_key : forall ec lib hc rnd x p, ec_laws ec lib -> asks_for_hpke (type_url "HpkePrivateKey") x p -> suite_made p ->
  exists d, cl_new_key_data (hpke_private_key_manager ec hc) rnd x = StOk d /\ kd_type_url d = type_url "HpkePrivateKey" /\ kd_key_material_type d = ASYMMETRIC_PRIVATE /\
    (proto_size (kd_value d) -> exists sk pk, is_hpke_private d (mk_hpke_private (mk_hpke_public p pk) sk) /\ fresh_hpke ec (hs_kem p) rnd sk pk).
Proof.
  intros ec lib hc rnd x p L (_ & m & E & S) MA. pose proof (made_stated p MA) as ST. destruct (hpke_generated ec lib (hs_kem p) rnd L (proj1 MA)) as (sk & pk & K & F).
  assert (C : exists w, hpke_create_key ec rnd m = StOk w).
  { unfold hpke_create_key. change (num_at HpkeKeyFormat m ["params"; "kem"]) with (num_at HpkeKeyFormat m (["params"] ++ ["kem"])). rewrite (num_at_number _ _ _ _ (proj1 S)), K. eexists. reflexivity. }
  destruct C as (w & C). cbn [hpke_private_key_manager cl_new_key_data]. rewrite E, (proj2 (format_valid_hpke m p S) ST). cbn [checked]. rewrite C. cbn [bind_st]. eexists. split; [reflexivity |]. cbn [kd_type_url kd_key_material_type kd_value]. rewrite url_is.
  split; [reflexivity |]. split; [reflexivity |]. intros PS. destruct (hpke_created ec rnd x m p w E S ST C) as (sk' & pk' & K' & HW & VV & PU & SE). rewrite K in K'. injection K' as <- <-. exists sk, pk. split; [| exact F].
  split; [reflexivity |]. exists w. split; [apply message_round_trip; [reflexivity | exact HW | exact PS] |]. auto.
Qed.
(** From the format of a key to a ciphertext that is decrypted *)
Lemma fresh_pair_hpke : forall ec lib p rnd sk pk a, ec_laws ec lib -> suite_works p a -> fresh_hpke ec (hs_kem p) rnd sk pk -> hpke_pair ec (mk_hpke_private (mk_hpke_public p pk) sk).
Proof.
  intros ec lib p rnd sk pk a L (W & _) F. rewrite W in F. destruct F as [(_ & -> & ->) | (c & [H | [H | [H | []]]] & _)]; try discriminate H.
  split; [exact (law_x25519_generate _ _ L rnd) | reflexivity].
Qed.
Lemma works_made : forall p a, suite_works p a -> suite_made p.
Proof. intros p a W. destruct (suite_works_taken p a W) as (A & B & C). split; [rewrite A; cbn; auto |]. split; [rewrite B; discriminate | exact C]. Qed.
Theorem hpke_from_format : forall ec lib hc rnd x p a, ec_laws ec lib -> hpke_laws ec hc -> asks_for_hpke (type_url "HpkePrivateKey") x p -> suite_works p a ->
  exists d get, cl_new_key_data (hpke_private_key_manager ec hc) rnd x = StOk d /\ cl_public_key_data (hpke_private_key_manager ec hc) = Some get /\
    (proto_size (kd_value d) -> exists d', get (kd_value d) = StOk d' /\
      (proto_size (kd_value d') -> exists e y, cl_get_primitive (hpke_public_key_manager hc) d' = StOk e /\ cl_get_primitive (hpke_private_key_manager ec hc) d = StOk y /\
         forall rnd' P info, (hpke_admits P -> exists C, che_encrypt e rnd' P info = StOk C) /\ (forall C, che_encrypt e rnd' P info = StOk C -> chd_decrypt y C info = StOk P))).
Proof.
  intros ec lib hc rnd x p a EL L A W. destruct (hpke_new_key ec lib hc rnd x p EL A (works_made p a W)) as (d & N & _ & _ & H). exists d. eexists. split; [exact N |]. split; [reflexivity |]. intros PS. destruct (H PS) as (sk & pk & K & F).
  destruct (hpke_public_key ec hc d _ K (made_stated p (works_made p a W))) as (get & d' & G & GD & _ & _ & K'). injection G as <-. exists d'. split; [exact GD |]. intros PS'.
  exact (hpke_round_trip ec lib hc d d' _ a EL L K (K' PS') (fresh_pair_hpke ec lib p rnd sk pk a EL W F) W).
Qed.
(** Keys are made that nothing can be encrypted for and that decrypt nothing. *)
Theorem hpke_new_key_unusable : forall ec lib hc rnd x p, ec_laws ec lib -> asks_for_hpke (type_url "HpkePrivateKey") x p -> suite_made p -> ~ suite_taken p ->
  exists d, cl_new_key_data (hpke_private_key_manager ec hc) rnd x = StOk d /\
    (proto_size (kd_value d) -> (forall y, cl_get_primitive (hpke_private_key_manager ec hc) d <> StOk y) /\
       (forall pk d' y, is_hpke_public d' (mk_hpke_public p pk) -> cl_get_primitive (hpke_public_key_manager hc) d' <> StOk y)).
Proof.
  intros ec lib hc rnd x p EL A MA NT. destruct (hpke_new_key ec lib hc rnd x p EL A MA) as (d & N & _ & _ & H). exists d. split; [exact N |]. intros PS. destruct (H PS) as (sk & pk & K & _). split.
  - intros y Y. destruct (hpke_private_got ec hc d y Y) as (k & K' & _ & TK). rewrite <- (is_hpke_private_fun d _ _ K K') in TK. exact (NT TK).
  - intros pk' d' y K' Y. destruct (hpke_public_got hc d' y Y) as (k & K2 & _ & TK). rewrite <- (is_hpke_public_fun d' _ _ K' K2) in TK. exact (NT TK).
Qed.

(** ** Templates *)
Definition hpke_template_asks (x : string * result key_template) (y : string * hpke_suite * bool) : Prop :=
  fst x = fst (fst y) /\ exists t a, snd x = Ok t /\ asks_for_hpke (kt_type_url t) (kt_value t) (snd (fst y)) /\ suite_works (snd (fst y)) a /\ kt_output_prefix_type t = (if snd y then TINK else RAW).
Theorem hpke_templates_ask : Forall2 hpke_template_asks (skipn 4 hybrid_templates) hpke_templates.
Proof.
  unfold hybrid_templates, hpke_templates. cbn [skipn].
  repeat match goal with |- Forall2 _ (_ :: _) (_ :: _) => apply Forall2_cons | |- Forall2 _ [] [] => constructor end;
    (split; [reflexivity |]; eexists; eexists; split; [vm_compute; reflexivity |]; cbn [kt_type_url kt_value kt_output_prefix_type fst snd]; split; [| split; [| reflexivity]]).
  all: try (split; [vm_compute; reflexivity |]; eexists; split; [vm_compute; reflexivity |]; split; [vm_compute; reflexivity |]; split; vm_compute; reflexivity).
  all: split; [reflexivity |]; split; [reflexivity |]; cbn; auto.
Qed.
