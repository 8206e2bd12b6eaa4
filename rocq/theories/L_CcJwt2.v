(** New JWT keys of signatures, and the JWT manager of HMAC keys. *)
From Coq Require Import Strings.Byte Strings.String List NArith ZArith Bool Lia.
From Verif Require Import M_Base L_Base M_Proto M_Utf8 M_Wire L_Wire S_Wire M_ProtoMsg S_ProtoMsg L_ProtoMsg M_KeyFormats M_Templates M_Prims M_StreamTypes M_CcStream M_CcManagers M_CcAes
  M_CcStreamKeys M_CcModes M_CcSymmetric M_CcSymKeys M_CcEcies M_CcEciesKeys M_CcSignatures M_CcJwt S_Config S_CcAes S_CcStreamKeys S_CcModes S_CcSymmetric S_CcSymKeys S_CcSymHandles
  S_CcEcies S_CcEciesKeys S_CcSignatures S_CcJwt L_CcStreamKeys L_CcModes L_CcModes4 L_CcSymmetric L_CcSymmetric2 L_CcSymKeys L_CcSymKeys2 L_CcSymHandles L_CcEcies L_CcEcies2 L_CcEcies3 L_CcEciesKeys L_CcSigDer L_CcSignatures L_CcSigKeys L_CcSigKeys2 L_CcSigNew L_CcSigNew2 L_CcJwt.
Import ListNotations.
Open Scope string_scope.
Open Scope list_scope.
Open Scope nat_scope.

(** ** Formats *)
Definition jwt_format_numbers (m : message) (f : jwt_format) : Prop :=
  let fs := jwt_format_schema (jwt_format_family f) in
  match f with
  | EsFormat _ => True
  | RsFormat _ bits e | PsFormat _ bits e => number fs m ["modulus_size_in_bits"] bits /\ octets fs m ["public_exponent"] e
  end.
Lemma jwt_format_validates : forall f m z, holds_all (jwt_format_schema (jwt_format_family f)) m -> number (jwt_format_schema (jwt_format_family f)) m ["algorithm"] z -> jwt_algorithm (jwt_format_hash f) z -> jwt_format_numbers m f ->
  (jwt_validate_format (jwt_format_family f) m = None <-> jwt_format_ok f).
Proof.
  intros f m z HM Z A N. destruct (jwt_algorithm_facts _ _ A) as (VA & _). destruct f as [h | h bits e | h bits e]; cbn [jwt_format_family jwt_validate_format jwt_format_schema jwt_format_ok] in *.
  - unfold jwt_ecdsa_validate_format. rewrite (num_at_number _ _ _ _ Z), VA. tauto.
  - destruct N as (B & X). cbn [jwt_format_family jwt_format_schema] in B, X. unfold jwt_rsa_validate_format, validate_modulus_size. rewrite (num_at_number _ _ _ _ Z), VA, (num_at_number _ _ _ _ B), (bytes_at_content _ _ _ _ X), bin2bn_num, !and_then_none, exponent_none.
    destruct (read_number _ _ ["modulus_size_in_bits"] HM eq_refl) as (w & Hw & R). rewrite (number_fun _ _ _ _ _ B Hw) in *. unfold u32 in R. rewrite check_none, N.ltb_ge.
    assert ((2048 <= Z.to_N w)%N <-> (2048 <= w)%Z) by lia. tauto.
  - destruct N as (B & X). cbn [jwt_format_family jwt_format_schema] in B, X. unfold jwt_rsa_validate_format, validate_modulus_size. rewrite (num_at_number _ _ _ _ Z), VA, (num_at_number _ _ _ _ B), (bytes_at_content _ _ _ _ X), bin2bn_num, !and_then_none, exponent_none.
    destruct (read_number _ _ ["modulus_size_in_bits"] HM eq_refl) as (w & Hw & R). rewrite (number_fun _ _ _ _ _ B Hw) in *. unfold u32 in R. rewrite check_none, N.ltb_ge.
    assert ((2048 <= Z.to_N w)%N <-> (2048 <= w)%Z) by lia. tauto.
Qed.
Lemma jwt_format_read : forall fam m, holds_all (jwt_format_schema fam) m -> jwt_validate_format fam m = None ->
  exists f z, jwt_format_family f = fam /\ number (jwt_format_schema fam) m ["algorithm"] z /\ jwt_algorithm (jwt_format_hash f) z /\ jwt_format_numbers m f.
Proof.
  intros fam m HM V. destruct (read_enum (jwt_format_schema fam) m ["algorithm"] HM) as (z & Z); [destruct fam; reflexivity |].
  assert (A : jwt_validate_algorithm (num_at (jwt_format_schema fam) m ["algorithm"]) = None).
  { destruct fam; cbn [jwt_validate_format] in V; [exact V | |]; unfold jwt_rsa_validate_format in V; rewrite !and_then_none in V; apply V. }
  rewrite (num_at_number _ _ _ _ Z) in A. destruct (jwt_algorithm_read z A) as (h & HA). destruct fam; cbn [jwt_format_schema] in *.
  - exists (EsFormat h), z. cbn. auto.
  - destruct (read_number _ _ ["modulus_size_in_bits"] HM eq_refl) as (w & Hw & _). destruct (read_octets _ _ ["public_exponent"] HM eq_refl) as (e & He). exists (RsFormat h w e), z. split; [reflexivity |]. split; [exact Z |]. split; [exact HA |]. split; [exact Hw | exact He].
  - destruct (read_number _ _ ["modulus_size_in_bits"] HM eq_refl) as (w & Hw & _). destruct (read_octets _ _ ["public_exponent"] HM eq_refl) as (e & He). exists (PsFormat h w e), z. split; [reflexivity |]. split; [exact Z |]. split; [exact HA |]. split; [exact Hw | exact He].
Qed.
Lemma format_scheme_ok : forall f z, jwt_algorithm (jwt_format_hash f) z -> jwt_format_ok f -> format_ok (format_scheme f) /\ format_signs (format_scheme f).
Proof.
  intros f z A OK. destruct (jwt_algorithm_facts _ _ A) as (_ & _ & _ & _ & SH & EO & _). destruct f as [h | h bits e | h bits e]; cbn [format_scheme format_ok format_signs jwt_format_hash jwt_format_ok] in *; try tauto.
  destruct OK as (B & X). split; [split; [exact SH |]; split; [reflexivity |]; split; [lia |]; split; assumption |].
  assert (2048 <= bits - bits mod 128)%Z.
  { pose proof (Z.mod_pos_bound bits 128 ltac:(lia)). pose proof (Z.div_mod bits 128 ltac:(lia)). assert (16 <= bits / 128)%Z by (apply Z.div_le_lower_bound; lia). lia. }
  assert (256 <= (bits - bits mod 128 + 6) / 8)%Z by (apply Z.div_le_lower_bound; lia).
  destruct SH as [<- | [<- | [<- | []]]]; cbn [hash_size]; lia.
Qed.

(** ** New keys *)
Lemma small_enum : forall z, (1 <= z <= 3)%Z -> holds TEnum (Some (VNum z)).
Proof. intros z H. apply holds_enum. unfold int32_range. change (2 ^ 31)%Z with 2147483648%Z. lia. Qed.
Lemma jwt_key_created : forall ec lib sg rnd f m z w, ec_laws ec lib -> sig_laws ec sg -> holds_all (jwt_format_schema (jwt_format_family f)) m -> number (jwt_format_schema (jwt_format_family f)) m ["algorithm"] z ->
  jwt_algorithm (jwt_format_hash f) z -> jwt_format_numbers m f -> jwt_format_ok f -> jwt_create_key ec sg (jwt_format_family f) rnd m = StOk w ->
  holds_all (jwt_private_schema (jwt_format_family f)) w /\ exists k, private_family k = jwt_format_family f /\ jwt_private_at w k /\ fresh_jwt ec sg f rnd k.
Proof.
  intros ec lib sg rnd f m z w L SL HM Z A N OK C. destruct (jwt_algorithm_facts _ _ A) as (_ & _ & EC & _ & _ & _ & NU & B & _). pose proof (small_enum z B) as HE.
  destruct f as [h | h bits e0 | h bits e0]; cbn [jwt_format_family jwt_format_schema jwt_private_schema jwt_create_key jwt_format_hash jwt_format_ok] in *.
  - unfold jwt_ecdsa_create_key in C. cbn zeta in C. rewrite (num_at_number _ _ _ _ Z), EC in C. cbn [bind_st] in C.
    destruct (new_key_fresh ec lib (jwt_curve h) rnd L NU) as (s & X & Y & NE & F). rewrite NE in C. cbn [bind_st] in C. apply st_ok_inj in C. subst w. split.
    + hold. apply holds_msg. hold; [exact HE | apply holds_unset].
    + exists (EsPrivate h X Y s None). split; [reflexivity |]. split.
      * split; [reflexivity |]. split; [| reflexivity]. split; [reflexivity |]. split; [exists z; split; [reflexivity | exact A] |]. split; [reflexivity | split; reflexivity].
      * split; [reflexivity |]. split; [reflexivity |]. cbn. auto.
  - destruct N as (BI & X). cbn [jwt_format_family jwt_format_schema] in BI, X. destruct OK as (LB & EX). unfold jwt_rsa_create_key in C. destruct (uint_bits _ _ _ HM eq_refl BI LB) as (_ & TI). cbn zeta in TI.
    rewrite (num_at_number _ _ _ _ Z), (bytes_at_content _ _ _ _ X), bin2bn_num in C. unfold new_rsa_key_pair in C. rewrite (proj2 (exponent_none _) EX) in C. cbn [checked] in C.
    destruct (rsa_generate sg (to_int (Z.to_N (num_at JwtRsaSsaPkcs1KeyFormat m ["modulus_size_in_bits"]))) (num e0) rnd) as [k |] eqn:GE; [| discriminate C].
    rewrite (TI (proj1 (proj2 (proj2 (law_rsa_generate _ _ SL _ _ _ _ EX GE))))) in GE. cbn [bind_st] in C. cbv zeta in C. apply st_ok_inj in C. subst w.
    destruct (rsa_message_key k) as (nn & ee & t & EN & EE & ET & K). split.
    + hold. apply holds_msg. hold; [exact HE | apply holds_unset].
    + exists (RsPrivate h nn ee t None). split; [reflexivity |]. rewrite <- EN, <- EE. split.
      * split; [reflexivity |]. split; [| subst t; repeat split; reflexivity]. split; [reflexivity |]. split; [exists z; split; [reflexivity | exact A] |]. split; [reflexivity | split; reflexivity].
      * split; [reflexivity |]. split; [reflexivity |]. cbn. split; [reflexivity |]. unfold fresh_rsa. rewrite EN, EE, K. exact GE.
  - destruct N as (BI & X). cbn [jwt_format_family jwt_format_schema] in BI, X. destruct OK as (LB & EX). unfold jwt_rsa_create_key in C. destruct (uint_bits _ _ _ HM eq_refl BI LB) as (_ & TI). cbn zeta in TI.
    rewrite (num_at_number _ _ _ _ Z), (bytes_at_content _ _ _ _ X), bin2bn_num in C. unfold new_rsa_key_pair in C. rewrite (proj2 (exponent_none _) EX) in C. cbn [checked] in C.
    destruct (rsa_generate sg (to_int (Z.to_N (num_at JwtRsaSsaPssKeyFormat m ["modulus_size_in_bits"]))) (num e0) rnd) as [k |] eqn:GE; [| discriminate C].
    rewrite (TI (proj1 (proj2 (proj2 (law_rsa_generate _ _ SL _ _ _ _ EX GE))))) in GE. cbn [bind_st] in C. cbv zeta in C. apply st_ok_inj in C. subst w.
    destruct (rsa_message_key k) as (nn & ee & t & EN & EE & ET & K). split.
    + hold. apply holds_msg. hold; [exact HE | apply holds_unset].
    + exists (PsPrivate h nn ee t None). split; [reflexivity |]. rewrite <- EN, <- EE. split.
      * split; [reflexivity |]. split; [| subst t; repeat split; reflexivity]. split; [reflexivity |]. split; [exists z; split; [reflexivity | exact A] |]. split; [reflexivity | split; reflexivity].
      * split; [reflexivity |]. split; [reflexivity |]. cbn [format_scheme fresh_sig private_scheme]. split; [reflexivity |]. split; [reflexivity |]. split; [reflexivity |]. unfold fresh_rsa. rewrite EN, EE, K. exact GE.
Qed.
(** A new key is of a format that is accepted; it is fresh, it has no custom kid, and it can sign. *)
Theorem jwt_cc_new_key_only : forall ec lib sg self_test fam rnd x d, ec_laws ec lib -> sig_laws ec sg -> cl_new_key_data (jwt_sign_cc_manager ec sg self_test fam) rnd x = StOk d ->
  kd_type_url d = type_url (family_name fam ++ "PrivateKey") /\ kd_key_material_type d = ASYMMETRIC_PRIVATE /\
  exists f, jwt_format_family f = fam /\ asks_for_jwt (type_url (family_name fam ++ "PrivateKey")) x f /\ jwt_format_ok f /\
    (proto_size (kd_value d) -> exists k, is_jwt_private d k /\ fresh_jwt ec sg f rnd k /\ good_private ec sg (private_scheme k) /\ matching ec sg (private_scheme k)).
Proof.
  intros ec lib sg self_test fam rnd x d L SL H. rewrite jwt_sign_is in H. cbn [sign_manager_of cl_new_key_data] in H. destruct (parse_message (jwt_format_schema fam) x) as [m |] eqn:E; [| discriminate H].
  apply checked_ok in H. destruct H as (V & H). apply bind_st_ok in H. destruct H as (w & C & H). apply st_ok_inj in H. subst d. cbn [kd_type_url kd_key_material_type kd_value]. rewrite url_is. split; [reflexivity |]. split; [reflexivity |].
  pose proof (parse_holds _ _ _ E) as HM. destruct (jwt_format_read fam m HM V) as (f & z & <- & Z & A & N). exists f. split; [reflexivity |]. pose proof (proj1 (jwt_format_validates f m z HM Z A N) V) as OK.
  split; [split; [reflexivity |]; exists m; split; [exact E |]; split; [exists z; auto | exact N] |]. split; [exact OK |]. intros PS. destruct (jwt_key_created ec lib sg rnd f m z w L SL HM Z A N OK C) as (HW & k & K & P & F). exists k.
  split; [split; [cbn [kd_type_url]; rewrite K; reflexivity |]; cbn [kd_value]; exists w; rewrite K; split; [apply message_round_trip; [clear; destruct (jwt_format_family f); reflexivity | exact HW | exact PS] |]; unfold jwt_private_at in P; rewrite K in P; exact P |].
  split; [exact F |]. destruct (format_scheme_ok f z A OK) as (FO & FS). destruct (fresh_sig_good ec lib sg (format_scheme f) rnd (private_scheme k) L SL FO (proj2 (proj2 F))) as (_ & M & G). split; [exact (proj2 G FS) | exact M].
Qed.
Theorem jwt_cc_new_key : forall ec lib sg self_test rnd x f, ec_laws ec lib -> sig_laws ec sg -> asks_for_jwt (type_url (family_name (jwt_format_family f) ++ "PrivateKey")) x f -> jwt_format_ok f -> jwt_format_size_ok f ->
  exists d, cl_new_key_data (jwt_sign_cc_manager ec sg self_test (jwt_format_family f)) rnd x = StOk d /\
    kd_type_url d = type_url (family_name (jwt_format_family f) ++ "PrivateKey") /\ kd_key_material_type d = ASYMMETRIC_PRIVATE /\
    (proto_size (kd_value d) -> exists k, is_jwt_private d k /\ fresh_jwt ec sg f rnd k /\ good_private ec sg (private_scheme k) /\ matching ec sg (private_scheme k)).
Proof.
  intros ec lib sg self_test rnd x f L SL (_ & m & E & (z & Z & A) & N) OK SZ. pose proof (parse_holds _ _ _ E) as HM. pose proof (proj2 (jwt_format_validates f m z HM Z A N) OK) as V.
  destruct (jwt_algorithm_facts _ _ A) as (_ & _ & EC & _ & _ & _ & NU & _).
  assert (C : exists w, jwt_create_key ec sg (jwt_format_family f) rnd m = StOk w).
  { destruct f as [h | h bits e0 | h bits e0]; cbn [jwt_format_family jwt_format_schema jwt_create_key jwt_format_ok jwt_format_size_ok jwt_format_hash] in *.
    - unfold jwt_ecdsa_create_key. cbn zeta. rewrite (num_at_number _ _ _ _ Z), EC. cbn [bind_st]. destruct (new_key_fresh ec lib (jwt_curve h) rnd L NU) as (s & X & Y & NE & F). rewrite NE. eexists. reflexivity.
    - destruct N as (BI & X). destruct OK as (LB & EX). destruct (uint_bits _ _ _ HM eq_refl BI LB) as (TI & _). cbn zeta in TI. unfold jwt_rsa_create_key, new_rsa_key_pair. rewrite TI by lia. rewrite (bytes_at_content _ _ _ _ X), bin2bn_num, (proj2 (exponent_none _) EX).
      destruct (law_rsa_generates _ _ SL bits (num e0) rnd EX (conj LB SZ)) as (k & ->). eexists. reflexivity.
    - destruct N as (BI & X). destruct OK as (LB & EX). destruct (uint_bits _ _ _ HM eq_refl BI LB) as (TI & _). cbn zeta in TI. unfold jwt_rsa_create_key, new_rsa_key_pair. rewrite TI by lia. rewrite (bytes_at_content _ _ _ _ X), bin2bn_num, (proj2 (exponent_none _) EX).
      destruct (law_rsa_generates _ _ SL bits (num e0) rnd EX (conj LB SZ)) as (k & ->). eexists. reflexivity. }
  destruct C as (w & C). rewrite jwt_sign_is. cbn [sign_manager_of cl_new_key_data]. rewrite E, V. cbn [checked]. rewrite C. cbn [bind_st]. eexists. split; [reflexivity |]. cbn [kd_type_url kd_key_material_type kd_value]. rewrite url_is. split; [reflexivity |]. split; [reflexivity |].
  intros PS. destruct (jwt_key_created ec lib sg rnd f m z w L SL HM Z A N OK C) as (HW & k & K & P & F). exists k.
  split; [split; [cbn [kd_type_url]; rewrite K; reflexivity |]; cbn [kd_value]; exists w; rewrite K; split; [apply message_round_trip; [clear; destruct (jwt_format_family f); reflexivity | exact HW | exact PS] |]; unfold jwt_private_at in P; rewrite K in P; exact P |].
  split; [exact F |]. destruct (format_scheme_ok f z A OK) as (FO & FS). destruct (fresh_sig_good ec lib sg (format_scheme f) rnd (private_scheme k) L SL FO (proj2 (proj2 F))) as (_ & M & G). split; [exact (proj2 G FS) | exact M].
Qed.
(** From the format of a key to a signature that is valid *)
Theorem jwt_cc_from_format : forall ec lib sg self_test rnd x f, ec_laws ec lib -> sig_laws ec sg -> asks_for_jwt (type_url (family_name (jwt_format_family f) ++ "PrivateKey")) x f -> jwt_format_ok f -> jwt_format_size_ok f ->
  exists d get, cl_new_key_data (jwt_sign_cc_manager ec sg self_test (jwt_format_family f)) rnd x = StOk d /\ cl_public_key_data (jwt_sign_cc_manager ec sg self_test (jwt_format_family f)) = Some get /\
    (proto_size (kd_value d) -> exists d', get (kd_value d) = StOk d' /\
      (proto_size (kd_value d') -> exists s v, cl_get_primitive (jwt_sign_cc_manager ec sg self_test (jwt_format_family f)) d = StOk s /\ cl_get_primitive (jwt_verify_cc_manager ec sg (jwt_format_family f)) d' = StOk v /\
         forall rnd' data, exists y, cs_sign s rnd' data = StOk y /\ cv_verify v y data = StOk tt)).
Proof.
  intros ec lib sg self_test rnd x f L SL A OK SZ. destruct (jwt_cc_new_key ec lib sg self_test rnd x f L SL A OK SZ) as (d & E & _ & _ & H).
  destruct (cl_public_key_data (jwt_sign_cc_manager ec sg self_test (jwt_format_family f))) as [get |] eqn:G; [| rewrite jwt_sign_is in G; discriminate G].
  exists d, get. split; [exact E |]. split; [reflexivity |]. intros PS. destruct (H PS) as (k & D & F & GO & M). pose proof (proj1 F) as K.
  assert (V : valid_private (private_scheme k)) by (apply jwt_valid_private; rewrite scheme_of_public; apply GO).
  destruct (jwt_cc_public_key ec sg self_test d k D V) as (get' & d' & G' & GD & _ & _ & D'). rewrite K, G in G'. injection G' as <-. exists d'. split; [exact GD |]. intros PS'.
  rewrite <- K. exact (jwt_cc_round_trip ec sg self_test d d' k SL D (D' PS') GO M).
Qed.

(** ** HMAC *)
Lemma jwt_key_size_none : forall h z n, jwt_algorithm h z -> (jwt_check_key_size z n = None <-> (Z.of_nat (hash_size h) <= n)%Z).
Proof. intros h z n A. destruct (jwt_algorithm_facts _ _ A) as (_ & _ & _ & _ & _ & _ & _ & _ & E). unfold jwt_check_key_size. rewrite E, check_none, Z.ltb_ge. reflexivity. Qed.
Lemma jwt_key_size_algorithm : forall z n, jwt_check_key_size z n = None -> exists h, jwt_algorithm h z.
Proof. intros z n H. apply jwt_algorithm_read. unfold jwt_check_key_size in H. destruct z as [| p | p]; try discriminate H. destruct p as [[p | p |] | [p | p |] |]; try discriminate H; reflexivity. Qed.
Lemma jwt_mac_get : forall lib random d k, is_jwt_hmac d k -> jwt_hmac_ok k -> cl_get_primitive (jwt_mac_manager lib random) d = hmac_new lib (hs_hash k) (hash_size (hs_hash k)) (hs_value k).
Proof.
  intros lib random d k (U & m & E & V & (z & Z & A) & K & _) OK. cbn [jwt_mac_manager key_manager_impl cl_get_primitive jwt_hmac_key_manager kt_name kt_key kt_validate_key kt_create].
  change (ulit ("type.googleapis.com/google.crypto.tink." ++ "JwtHmacKey")) with (type_url "JwtHmacKey"). rewrite U, (proj2 (str_eqb_spec _ _) eq_refl). cbn [negb]. rewrite E, (version_zero _ _ _ V). cbn [and_then].
  unfold size_at. rewrite (num_at_number _ _ _ _ Z), (bytes_at_content _ _ _ _ K). rewrite (proj2 (jwt_key_size_none _ _ _ A)) by (unfold jwt_hmac_ok in OK; lia).
  destruct A as [A | [A | [A | []]]]; injection A as <- <-; reflexivity.
Qed.
Lemma jwt_mac_got : forall lib random d p, cl_get_primitive (jwt_mac_manager lib random) d = StOk p -> exists k, is_jwt_hmac d k /\ jwt_hmac_ok k.
Proof.
  intros lib random d p H. cbn [jwt_mac_manager key_manager_impl cl_get_primitive jwt_hmac_key_manager kt_name kt_key kt_validate_key kt_create] in H. revert H.
  change (ulit ("type.googleapis.com/google.crypto.tink." ++ "JwtHmacKey")) with (type_url "JwtHmacKey"). destruct (str_eqb (type_url "JwtHmacKey") (kd_type_url d)) eqn:U; cbn [negb]; [| discriminate]. apply str_eqb_spec in U.
  destruct (parse_message JwtHmacKey (kd_value d)) as [m |] eqn:E; [| discriminate]. destruct (and_then _ _) as [s |] eqn:V; [discriminate |]. intros _. apply and_then_none in V. destruct V as (V & C).
  pose proof (parse_holds _ _ _ E) as HM. apply version_read in V; [| exact HM | reflexivity]. destruct (jwt_key_size_algorithm _ _ C) as (h & A). destruct (read_enum _ _ ["algorithm"] HM eq_refl) as (z & Z). rewrite (num_at_number _ _ _ _ Z) in *.
  destruct (read_octets _ _ ["key_value"] HM eq_refl) as (x & X). unfold size_at in C. rewrite (bytes_at_content _ _ _ _ X) in C. apply (jwt_key_size_none _ _ _ A) in C. destruct (kid_read JwtHmacKey m [] HM eq_refl) as (kid & K).
  exists (mk_jwt_hmac_secret h x kid). split; [| unfold jwt_hmac_ok; cbn; lia]. split; [auto |]. exists m. split; [exact E |]. split; [exact V |]. split; [exists z; auto |]. auto.
Qed.
Lemma is_jwt_hmac_fun : forall d k k', is_jwt_hmac d k -> is_jwt_hmac d k' -> k = k'.
Proof.
  intros d [h x kid] [h' x' kid'] (_ & m & E & _ & (z & Z & A) & X & K) (_ & m' & E' & _ & (z' & Z' & A') & X' & K'). rewrite E in E'. injection E' as <-. cbn [hs_hash hs_value hs_kid] in *.
  rewrite (number_fun _ _ _ _ _ Z' Z) in A'. rewrite (jwt_algorithm_fun _ _ _ A A'), (content_fun _ _ _ _ _ X X'), (kid_fun _ _ _ _ _ K K'). reflexivity.
Qed.
Theorem jwt_cc_mac_made : forall lib random d, (exists p, cl_get_primitive (jwt_mac_manager lib random) d = StOk p) <-> (exists k, is_jwt_hmac d k /\ jwt_hmac_ok k).
Proof.
  intros lib random d. split; [intros (p & H); exact (jwt_mac_got lib random d p H) |]. intros (k & D & OK). rewrite (jwt_mac_get lib random d k D OK). apply hmac_made.
  destruct D as (_ & m & _ & _ & (z & _ & A) & _). unfold jwt_hmac_ok in OK. destruct A as [A | [A | [A | []]]]; injection A as A _; rewrite <- A in *; cbn [hash_size] in *; (split; [discriminate | lia]).
Qed.
(** The tag is the whole HMAC, and no other is accepted. *)
Theorem jwt_cc_mac_computes : forall lib random d k p, hmac_size_law lib -> is_jwt_hmac d k -> cl_get_primitive (jwt_mac_manager lib random) d = StOk p ->
  forall data, cm_compute p data = StOk (evp_hmac lib (hs_hash k) (hs_value k) data) /\
    (forall tag, cm_verify p tag data = StOk tt <-> tag = evp_hmac lib (hs_hash k) (hs_value k) data).
Proof.
  intros lib random d k p L D H data. destruct (jwt_mac_got lib random d p H) as (k' & D' & OK). rewrite <- (is_jwt_hmac_fun d k k' D D') in OK. rewrite (jwt_mac_get lib random d k D OK) in H.
  destruct (hmac_computes lib _ _ _ p data H L) as (tag & E & LT & (rest & R) & V). assert (Q : tag = evp_hmac lib (hs_hash k) (hs_value k) data).
  { pose proof (f_equal (@length _) R) as Q. rewrite app_length, LT, L in Q. destruct rest; [rewrite app_nil_r in R; exact R | cbn in Q; lia]. }
  rewrite Q in E, V. split; [exact E | exact V].
Qed.
(** New keys: random bytes, at least as many as the hash has *)
Theorem jwt_cc_new_mac_key : forall lib random rnd x d, (forall r n, (0 <= n)%Z -> Z.of_nat (length (random r n)) = n) ->
  (cl_new_key_data (jwt_mac_manager lib random) rnd x = StOk d -> proto_size (kd_value d) ->
   exists h size, asks_for_jwt_hmac x h size /\ (Z.of_nat (hash_size h) <= size)%Z /\ kd_key_material_type d = SYMMETRIC /\
     is_jwt_hmac d (mk_jwt_hmac_secret h (random (2 * rnd)%N size) None) /\ jwt_hmac_ok (mk_jwt_hmac_secret h (random (2 * rnd)%N size) None)).
Proof.
  intros lib random rnd x d R H PS. cbn [jwt_mac_manager key_manager_impl cl_new_key_data jwt_hmac_key_manager kt_name kt_key kt_format kt_validate_key_format kt_create_key] in H.
  destruct (parse_message JwtHmacKeyFormat x) as [m |] eqn:E; [| discriminate H]. destruct (jwt_check_key_size _ _) as [s |] eqn:C; [discriminate H |]. apply st_ok_inj in H. subst d. cbn [kd_key_material_type kd_value] in *.
  pose proof (parse_holds _ _ _ E) as HM. destruct (jwt_key_size_algorithm _ _ C) as (h & A). destruct (read_enum _ _ ["algorithm"] HM eq_refl) as (z & Z). destruct (read_number _ _ ["key_size"] HM eq_refl) as (size & S & _).
  rewrite (num_at_number _ _ _ _ Z), (num_at_number _ _ _ _ S) in *. apply (jwt_key_size_none _ _ _ A) in C. destruct (jwt_algorithm_facts _ _ A) as (_ & _ & _ & _ & _ & _ & _ & B & _). replace (2 * rnd + 0)%N with (2 * rnd)%N in * by lia.
  exists h, size. split; [exists m; split; [exact E |]; split; [exists z; auto | exact S] |]. split; [exact C |]. split; [reflexivity |].
  split; [| unfold jwt_hmac_ok; cbn [hs_hash hs_value]; pose proof (R (2 * rnd)%N size ltac:(lia)); lia].
  split; [reflexivity |]. cbn [kd_value]. eexists. split; [apply message_round_trip; [reflexivity | | exact PS] |].
  - hold; [exact (small_enum z B) | apply holds_unset].
  - split; [reflexivity |]. split; [exists z; split; [reflexivity | exact A] |]. split; reflexivity.
Qed.
Theorem jwt_cc_new_mac_made : forall lib random rnd x h size, asks_for_jwt_hmac x h size -> (Z.of_nat (hash_size h) <= size)%Z ->
  exists d, cl_new_key_data (jwt_mac_manager lib random) rnd x = StOk d /\ kd_type_url d = type_url "JwtHmacKey".
Proof.
  intros lib random rnd x h size (m & E & (z & Z & A) & S) C. cbn [jwt_mac_manager key_manager_impl cl_new_key_data jwt_hmac_key_manager kt_name kt_key kt_format kt_validate_key_format kt_create_key].
  rewrite E, (num_at_number _ _ _ _ Z), (num_at_number _ _ _ _ S), (proj2 (jwt_key_size_none _ _ _ A) C). eexists. split; [reflexivity | reflexivity].
Qed.

(** ** Templates *)
Theorem jwt_cc_templates : Forall2 jwt_template_asks jwt_templates jwt_template_formats.
Proof.
  unfold jwt_templates, jwt_template_formats. cbv zeta. cbn [app].
  repeat match goal with |- Forall2 _ (_ :: _) (_ :: _) => apply Forall2_cons | |- Forall2 _ [] [] => constructor end;
    (split; [reflexivity |]; eexists; split; [vm_compute; reflexivity |]; cbn [kt_type_url kt_value kt_output_prefix_type fst snd]; split; [| reflexivity]).
  all: split; [| split].
  all: try (cbn [jwt_format_ok]; first [exact I | split; [lia | exact odd_f4]]).
  all: try (cbn [jwt_format_size_ok]; first [exact I | lia]).
  all: try (vm_compute; reflexivity).
  all: try (cbn [hash_size]; lia).
  all: first [ eexists; (split; [vm_compute; reflexivity |]); split; [eexists; split; [vm_compute; reflexivity | cbn; tauto] | vm_compute; reflexivity]
             | split; [vm_compute; reflexivity |]; eexists; (split; [vm_compute; reflexivity |]); split; [eexists; split; [vm_compute; reflexivity | cbn; tauto] |]; first [exact I | split; vm_compute; reflexivity] ].
Qed.
