(** New keys of signatures. *)
From Coq Require Import Strings.Byte Strings.String List NArith ZArith Bool Lia.
From Verif Require Import M_Base L_Base M_Proto M_Utf8 M_Wire L_Wire S_Wire M_ProtoMsg S_ProtoMsg L_ProtoMsg M_KeyFormats M_Prims M_StreamTypes M_CcStream M_CcManagers M_CcAes
  M_CcStreamKeys M_CcModes M_CcSymmetric M_CcSymKeys M_CcEcies M_CcEciesKeys M_CcSignatures S_Config S_CcAes S_CcStreamKeys S_CcModes S_CcSymmetric S_CcSymKeys S_CcSymHandles
  S_CcEcies S_CcEciesKeys S_CcSignatures L_CcStreamKeys L_CcModes L_CcModes4 L_CcSymmetric L_CcSymmetric2 L_CcSymKeys L_CcSymKeys2 L_CcSymHandles L_CcEcies L_CcEcies2 L_CcEcies3 L_CcEciesKeys L_CcSigDer L_CcSignatures L_CcSigKeys L_CcSigKeys2.
Import ListNotations.
Open Scope string_scope.
Open Scope list_scope.
Open Scope nat_scope.

Lemma format_read : forall kd x m, parse_message (format_schema kd) x = Some m -> validate_format kd m = None ->
  exists f, format_kind f = kd /\ asks_for_sig (type_url (kind_name kd ++ "PrivateKey")) x f.
Proof.
  intros kd x m E V. pose proof (parse_holds _ _ _ E) as HM. destruct kd; cbn [validate_format format_schema] in *.
  - unfold ecdsa_validate_format in V. apply and_then_none in V. destruct V as (_ & V).
    destruct (ecdsa_params_read EcdsaKeyFormat m (cons "params") ["params"] (fun q => eq_refl) HM eq_refl eq_refl eq_refl V) as (c & h & enc & P).
    exists (EcdsaFormat c h enc). split; [reflexivity |]. split; [reflexivity |]. exists m. auto.
  - exists Ed25519Format. split; [reflexivity |]. split; [reflexivity |]. exists m. auto.
  - unfold rsa_validate_format in V. apply and_then_none in V. destruct V as (_ & V). apply and_then_none in V. destruct V as (_ & V).
    destruct (pkcs1_params_read RsaSsaPkcs1KeyFormat m (cons "params") ["params"] (fun q => eq_refl) HM eq_refl V) as (h & P).
    destruct (read_number _ _ ["modulus_size_in_bits"] HM eq_refl) as (z & Hz & _). destruct (read_octets _ _ ["public_exponent"] HM eq_refl) as (e & He).
    exists (Pkcs1Format h z e). split; [reflexivity |]. split; [reflexivity |]. exists m. split; [exact E |]. split; [exact P |]. split; [exact Hz | exact He].
  - unfold rsa_validate_format in V. apply and_then_none in V. destruct V as (_ & V). apply and_then_none in V. destruct V as (_ & V).
    destruct (pss_params_read RsaSsaPssKeyFormat m (cons "params") ["params"] (fun q => eq_refl) HM eq_refl eq_refl eq_refl V) as (h & g & salt & P).
    destruct (read_number _ _ ["modulus_size_in_bits"] HM eq_refl) as (z & Hz & _). destruct (read_octets _ _ ["public_exponent"] HM eq_refl) as (e & He).
    exists (PssFormat h g salt z e). split; [reflexivity |]. split; [reflexivity |]. exists m. split; [exact E |]. split; [exact P |]. split; [exact Hz | exact He].
Qed.

(** The parameters are copied. *)
Lemma number_moved : forall fs m pp gs w qq ps n q z, path_type (TMsg fs) pp = Some (TMsg ps) -> get_path (TMsg fs) (Some (VMsg m)) pp = Some (VMsg n) ->
  path_type (TMsg gs) qq = Some (TMsg ps) -> get_path (TMsg gs) (Some (VMsg w)) qq = Some (VMsg n) -> number fs m (pp ++ q) z -> number gs w (qq ++ q) z.
Proof.
  intros fs m pp gs w qq ps n q z T G T' G' H. unfold number in *. rewrite (get_path_app _ q _ _ _ _ T' G'). rewrite (get_path_app _ q _ _ _ _ T G) in H. exact H.
Qed.
Ltac hold := repeat (apply holds_cons with (1 := eq_refl) || apply holds_nil); try apply holds_bytes; try (apply holds_uint32; lia).

Lemma rsa_message_key : forall k, exists n e t, BN_bn2bin (rsa_n k) = n /\ BN_bn2bin (rsa_e k) = e /\
  mk_rsa_secret (BN_bn2bin (rsa_d k)) (BN_bn2bin (rsa_p k)) (BN_bn2bin (rsa_q k)) (BN_bn2bin (rsa_dp k)) (BN_bn2bin (rsa_dq k)) (BN_bn2bin (rsa_crt k)) = t /\ numbers n e t = k.
Proof.
  intros k. do 3 eexists. split; [reflexivity |]. split; [reflexivity |]. split; [reflexivity |]. unfold numbers. cbn [s_d s_p s_q s_dp s_dq s_crt]. rewrite !num_bn2bin. destruct k. reflexivity.
Qed.
Lemma uint_bits : forall fs m bits, holds_all fs m -> path_type (TMsg fs) ["modulus_size_in_bits"] = Some TUint32 -> number fs m ["modulus_size_in_bits"] bits -> (2048 <= bits)%Z ->
  let b := to_int (Z.to_N (num_at fs m ["modulus_size_in_bits"])) in ((bits < 2147483648)%Z -> b = bits) /\ ((0 <= b)%Z -> b = bits).
Proof.
  intros fs m bits HM T B G. cbn zeta. destruct (read_number _ _ _ HM T) as (z & Hz & R). rewrite (num_at_number _ _ _ _ B). rewrite (number_fun _ _ _ _ _ Hz B) in R. rewrite (to_int_spec _ R). unfold u32 in R. change (2 ^ 32)%Z with 4294967296%Z in R.
  destruct (bits <? 2147483648)%Z eqn:E; [auto |]. apply Z.ltb_ge in E. split; intros; lia.
Qed.

Lemma key_created : forall ec lib sg rnd f x m w, ec_laws ec lib -> sig_laws ec sg -> parse_message (format_schema (format_kind f)) x = Some m ->
  match f with
  | EcdsaFormat c h enc => ecdsa_params_at (format_schema (format_kind f)) m ["params"] c h enc
  | Ed25519Format => True
  | Pkcs1Format h bits e =>
      pkcs1_params_at (format_schema (format_kind f)) m ["params"] h /\ number (format_schema (format_kind f)) m ["modulus_size_in_bits"] bits /\ octets (format_schema (format_kind f)) m ["public_exponent"] e
  | PssFormat h mgf1 salt bits e =>
      pss_params_at (format_schema (format_kind f)) m ["params"] h mgf1 salt /\ number (format_schema (format_kind f)) m ["modulus_size_in_bits"] bits /\ octets (format_schema (format_kind f)) m ["public_exponent"] e
  end -> format_ok f -> create_key ec sg (format_kind f) rnd m = StOk w ->
  holds_all (private_schema (format_kind f)) w /\ exists k, private_kind k = format_kind f /\ private_at w k /\ fresh_sig ec sg f rnd k.
Proof.
  intros ec lib sg rnd f x m w L SL E H OK C. pose proof (parse_holds _ _ _ E) as HM. destruct f as [c h enc | | h bits e0 | h g salt bits e0]; cbn [format_kind format_schema private_schema create_key format_ok] in *.
  - unfold ecdsa_create_key in C.
    assert (S : has_at EcdsaKeyFormat m ["params"] = true).
    { destruct H as (_ & (zh & H1 & H2) & _). apply (is_set EcdsaKeyFormat m ["params"] ["hash_type"] EcdsaParams (VNum zh) eq_refl H1). cbn. intros K. injection K as K. exact (hash_number_set h zh H2 (eq_sym K)). }
    destruct (read_message _ _ ["params"] _ HM eq_refl S) as (n & G & HN). unfold params_of in C. rewrite G in C. cbn [message_or_empty] in C.
    destruct H as ((zc & C1 & C2) & (zh & H1 & H2) & (ze & E1 & E2)). change (num_at EcdsaKeyFormat m ["params"; "curve"]) with (num_at EcdsaKeyFormat m (["params"] ++ ["curve"])) in C. rewrite (num_at_number _ _ _ _ C1) in C. destruct (curve_number_subtle _ _ C2) as (CC & _ & _ & NU). rewrite CC in C.
    destruct (new_key_fresh ec lib c rnd L NU) as (s & X & Y & N & F). rewrite N in C. cbn [bind_st] in C. apply st_ok_inj in C. subst w. split.
    + hold. apply holds_msg. hold. apply holds_msg, HN.
    + exists (EcdsaPrivate c h enc X Y s). split; [reflexivity |]. split; [| cbn; auto]. split; [reflexivity |]. cbn [public_of private_kind public_kind private_schema secret_at]. split; [| reflexivity].
      split; [reflexivity |]. cbn [app]. split; [| split; reflexivity]. split; [exists zc | split; [exists zh | exists ze]]; (split; [| assumption]).
      * refine (number_moved EcdsaKeyFormat m ["params"] EcdsaPrivateKey _ ["public_key"; "params"] EcdsaParams n ["curve"] _ eq_refl G eq_refl _ C1); reflexivity.
      * refine (number_moved EcdsaKeyFormat m ["params"] EcdsaPrivateKey _ ["public_key"; "params"] EcdsaParams n ["hash_type"] _ eq_refl G eq_refl _ H1); reflexivity.
      * refine (number_moved EcdsaKeyFormat m ["params"] EcdsaPrivateKey _ ["public_key"; "params"] EcdsaParams n ["encoding"] _ eq_refl G eq_refl _ E1); reflexivity.
  - unfold ed25519_create_key in C. apply st_ok_inj in C. subst w. split.
    + hold. apply holds_msg. hold.
    + exists (Ed25519Private (ed25519_public sg (ed25519_generate sg rnd)) (ed25519_generate sg rnd)). split; [reflexivity |]. split; [| cbn; auto]. split; [reflexivity |]. split; [| reflexivity]. split; reflexivity.
  - destruct H as (P & B & X). destruct OK as (SH & BI & EX). unfold rsa_create_key in C. destruct (uint_bits _ _ _ HM eq_refl B BI) as (_ & TI). cbn zeta in TI.
    assert (S : has_at RsaSsaPkcs1KeyFormat m ["params"] = true).
    { destruct P as (zh & H1 & H2). apply (is_set RsaSsaPkcs1KeyFormat m ["params"] ["hash_type"] RsaSsaPkcs1Params (VNum zh) eq_refl H1). cbn. intros K. injection K as K. exact (hash_number_set h zh H2 (eq_sym K)). }
    destruct (read_message _ _ ["params"] _ HM eq_refl S) as (n & G & HN). unfold params_of in C. rewrite G, (bytes_at_content _ _ _ _ X), bin2bn_num in C. cbn [message_or_empty] in C.
    unfold new_rsa_key_pair in C. rewrite (proj2 (exponent_none _) EX) in C. cbn [checked] in C.
    destruct (rsa_generate sg (to_int (Z.to_N (num_at RsaSsaPkcs1KeyFormat m ["modulus_size_in_bits"]))) (num e0) rnd) as [k |] eqn:GE; [| discriminate C].
    rewrite (TI (proj1 (proj2 (proj2 (law_rsa_generate _ _ SL _ _ _ _ EX GE))))) in GE. cbn [bind_st] in C. apply st_ok_inj in C. subst w.
    destruct (rsa_message_key k) as (nn & ee & t & EN & EE & ET & K). unfold rsa_key_message. split.
    + hold. apply holds_msg. hold. apply holds_msg, HN.
    + exists (Pkcs1Private h nn ee t). split; [reflexivity |]. rewrite <- EN, <- EE. split; [| cbn; split; [reflexivity |]; unfold fresh_rsa; rewrite EN, EE, K; exact GE]. split; [reflexivity |]. cbn [public_of private_kind public_kind private_schema secret_at].
      split; [| subst t; repeat split; reflexivity]. split; [reflexivity |]. cbn [app]. split; [| split; reflexivity]. destruct P as (zh & H1 & H2). exists zh. split; [| exact H2].
      refine (number_moved RsaSsaPkcs1KeyFormat m ["params"] RsaSsaPkcs1PrivateKey _ ["public_key"; "params"] RsaSsaPkcs1Params n ["hash_type"] _ eq_refl G eq_refl _ H1); reflexivity.
  - destruct H as (P & B & X). destruct OK as (SH & -> & SA & BI & EX). unfold rsa_create_key in C. destruct (uint_bits _ _ _ HM eq_refl B BI) as (_ & TI). cbn zeta in TI.
    assert (S : has_at RsaSsaPssKeyFormat m ["params"] = true).
    { destruct P as ((zh & H1 & H2) & _). apply (is_set RsaSsaPssKeyFormat m ["params"] ["sig_hash"] RsaSsaPssParams (VNum zh) eq_refl H1). cbn. intros K. injection K as K. exact (hash_number_set h zh H2 (eq_sym K)). }
    destruct (read_message _ _ ["params"] _ HM eq_refl S) as (n & G & HN). unfold params_of in C. rewrite G, (bytes_at_content _ _ _ _ X), bin2bn_num in C. cbn [message_or_empty] in C.
    unfold new_rsa_key_pair in C. rewrite (proj2 (exponent_none _) EX) in C. cbn [checked] in C.
    destruct (rsa_generate sg (to_int (Z.to_N (num_at RsaSsaPssKeyFormat m ["modulus_size_in_bits"]))) (num e0) rnd) as [k |] eqn:GE; [| discriminate C].
    rewrite (TI (proj1 (proj2 (proj2 (law_rsa_generate _ _ SL _ _ _ _ EX GE))))) in GE. cbn [bind_st] in C. apply st_ok_inj in C. subst w.
    destruct (rsa_message_key k) as (nn & ee & t & EN & EE & ET & K). unfold rsa_key_message. split.
    + hold. apply holds_msg. hold. apply holds_msg, HN.
    + exists (PssPrivate h h salt nn ee t). split; [reflexivity |]. rewrite <- EN, <- EE. split; [| cbn; split; [reflexivity |]; split; [reflexivity |]; split; [reflexivity |]; unfold fresh_rsa; rewrite EN, EE, K; exact GE]. split; [reflexivity |]. cbn [public_of private_kind public_kind private_schema secret_at].
      split; [| subst t; repeat split; reflexivity]. split; [reflexivity |]. cbn [app]. split; [| split; reflexivity]. destruct P as ((zh & H1 & H2) & (zg & G1 & G2) & SL1). split; [exists zh | split; [exists zg |]]; try (split; [| assumption]).
      * refine (number_moved RsaSsaPssKeyFormat m ["params"] RsaSsaPssPrivateKey _ ["public_key"; "params"] RsaSsaPssParams n ["sig_hash"] _ eq_refl G eq_refl _ H1); reflexivity.
      * refine (number_moved RsaSsaPssKeyFormat m ["params"] RsaSsaPssPrivateKey _ ["public_key"; "params"] RsaSsaPssParams n ["mgf1_hash"] _ eq_refl G eq_refl _ G1); reflexivity.
      * refine (number_moved RsaSsaPssKeyFormat m ["params"] RsaSsaPssPrivateKey _ ["public_key"; "params"] RsaSsaPssParams n ["salt_length"] _ eq_refl G eq_refl _ SL1); reflexivity.
Qed.
(** What is known of a new key *)
Theorem fresh_sig_good : forall ec lib sg f rnd k, ec_laws ec lib -> sig_laws ec sg -> format_ok f -> fresh_sig ec sg f rnd k ->
  valid_private k /\ matching ec sg k /\ (good_private ec sg k <-> format_signs f).
Proof.
  intros ec lib sg f rnd k L SL OK F. destruct f as [c h enc | | h bits e0 | h g salt bits e0], k as [c' h' enc' X Y d | A a | h' n e t | h' g' salt' n e t]; cbn [fresh_sig format_ok format_signs] in *; try contradiction.
  - destruct F as (-> & -> & -> & F). destruct (ecdsa_ok_parts _ _ OK) as (N & S). pose proof (fresh_pair ec lib c rnd d X Y L F) as KP.
    assert (NI : ec_point_mul ec c (num d) (ec_generator ec c) = Some (num X, num Y) /\ ec_private_ok sg c (num d) = true).
    { destruct N as [<- | [<- | [<- | []]]]; cbn [key_pair] in KP; (split; [apply KP |]); cbn [fresh_key] in F.
      - pose proof (law_ec_generated _ _ SL P256 rnd ltac:(cbn; auto)) as G. pose proof (law_scalar _ _ L P256 rnd ltac:(cbn; auto)) as B. destruct (ec_generate_key ec P256 rnd) as (dd & (qx & qy)). destruct F as (-> & _). cbn [fst] in *. rewrite num_be_small by exact B. exact G.
      - pose proof (law_ec_generated _ _ SL P384 rnd ltac:(cbn; auto)) as G. pose proof (law_scalar _ _ L P384 rnd ltac:(cbn; auto)) as B. destruct (ec_generate_key ec P384 rnd) as (dd & (qx & qy)). destruct F as (-> & _). cbn [fst] in *. rewrite num_be_small by exact B. exact G.
      - pose proof (law_ec_generated _ _ SL P521 rnd ltac:(cbn; auto)) as G. pose proof (law_scalar _ _ L P521 rnd ltac:(cbn; auto)) as B. destruct (ec_generate_key ec P521 rnd) as (dd & (qx & qy)). destruct F as (-> & _). cbn [fst] in *. rewrite num_be_small by exact B. exact G. }
    destruct NI as (M & P). split; [split; [exact OK | exact I] |]. split; [exact M |]. split; [auto |]. intros _. split; [| exact P]. split; [exact OK |]. apply (law_generator _ _ L c _ N). exists (num d). exact M.
  - destruct F as (-> & ->). pose proof (law_ed25519_generate _ _ SL rnd) as G. pose proof (law_ed25519_public _ _ SL _ G) as G'. split; [split; assumption |]. split; [reflexivity |]. split; [auto |]. intros _. split; [split; [exact G' | exact I] | exact G].
  - destruct F as (-> & F). unfold fresh_rsa in F. destruct OK as (S & BI & EX). destruct (law_rsa_generate _ _ SL _ _ _ _ EX F) as (RE & RC & _ & RN). cbn [numbers rsa_e rsa_n] in RE, RN.
    assert (V : valid_public (Pkcs1Public h n e)). { split; [exact S |]. split; [| rewrite RE; exact EX]. unfold modulus_ok. rewrite <- size_ge. pose proof (Z.mod_pos_bound bits 128 ltac:(lia)). pose proof (Z.div_mod bits 128 ltac:(lia)). assert (16 <= bits / 128)%Z by (apply Z.div_le_lower_bound; lia). lia. }
    split; [split; [exact V | exact I] |]. split; [exact I |]. split; [auto |]. intros _. split; [split; [exact V | exact I] | exact RC].
  - destruct F as (-> & -> & -> & F). unfold fresh_rsa in F. destruct OK as (S & -> & SA & BI & EX). destruct (law_rsa_generate _ _ SL _ _ _ _ EX F) as (RE & RC & _ & RN). cbn [numbers rsa_e rsa_n] in RE, RN.
    assert (V : valid_public (PssPublic h h salt n e)). { split; [exact S |]. split; [reflexivity |]. split; [exact SA |]. split; [| rewrite RE; exact EX]. unfold modulus_ok. rewrite <- size_ge. pose proof (Z.mod_pos_bound bits 128 ltac:(lia)). pose proof (Z.div_mod bits 128 ltac:(lia)). assert (16 <= bits / 128)%Z by (apply Z.div_le_lower_bound; lia). lia. }
    split; [split; [exact V | exact I] |]. split; [exact I |]. unfold good_private, pss_fits, good_public. cbn [public_of]. rewrite RN. replace (bits - bits mod 128 - 1 + 7)%Z with (bits - bits mod 128 + 6)%Z by lia.
    split; [intros (_ & _ & Q); exact Q | intros Q; split; [split; [exact V | exact I] | split; [exact RC | exact Q]]].
Qed.
(** A new key is of a format that is accepted, and it is fresh. *)
Theorem sig_new_key_only : forall ec lib sg self_test kd rnd x d, ec_laws ec lib -> sig_laws ec sg -> cl_new_key_data (sign_manager ec sg self_test kd) rnd x = StOk d ->
  kd_type_url d = type_url (kind_name kd ++ "PrivateKey") /\ kd_key_material_type d = ASYMMETRIC_PRIVATE /\
  exists f, format_kind f = kd /\ asks_for_sig (type_url (kind_name kd ++ "PrivateKey")) x f /\ format_ok f /\
    (proto_size (kd_value d) -> exists k, is_sig_private d k /\ fresh_sig ec sg f rnd k).
Proof.
  intros ec lib sg self_test kd rnd x d L SL H. rewrite sign_manager_is in H. cbn [sign_manager_of cl_new_key_data] in H. destruct (parse_message (format_schema kd) x) as [m |] eqn:E; [| discriminate H].
  apply checked_ok in H. destruct H as (V & H). apply bind_st_ok in H. destruct H as (w & C & H). apply st_ok_inj in H. subst d. cbn [kd_type_url kd_key_material_type kd_value]. rewrite url_is. split; [reflexivity |]. split; [reflexivity |].
  destruct (format_read kd x m E V) as (f & <- & A). exists f. split; [reflexivity |]. split; [exact A |]. destruct (format_validates f x A) as (m' & E' & VF). rewrite E in E'. injection E' as <-. pose proof (proj1 VF V) as OK. split; [exact OK |].
  intros PS. destruct A as (_ & m' & E' & A). rewrite E in E'. injection E' as <-. destruct (key_created ec lib sg rnd f x m w L SL E A OK C) as (HW & k & K & P & F). exists k. split; [| exact F].
  split; [cbn [kd_type_url]; rewrite K; reflexivity |]. cbn [kd_value]. exists w. rewrite K. split; [apply message_round_trip; [clear; destruct (format_kind f); reflexivity | exact HW | exact PS] |]. unfold private_at in P. rewrite K in P. exact P.
Qed.
Theorem sig_new_key : forall ec lib sg self_test rnd x f, ec_laws ec lib -> sig_laws ec sg -> asks_for_sig (type_url (kind_name (format_kind f) ++ "PrivateKey")) x f -> format_ok f -> format_size_ok f ->
  exists d, cl_new_key_data (sign_manager ec sg self_test (format_kind f)) rnd x = StOk d /\
    kd_type_url d = type_url (kind_name (format_kind f) ++ "PrivateKey") /\ kd_key_material_type d = ASYMMETRIC_PRIVATE /\
    (proto_size (kd_value d) -> exists k, private_kind k = format_kind f /\ is_sig_private d k /\ fresh_sig ec sg f rnd k).
Proof.
  intros ec lib sg self_test rnd x f L SL A OK SZ. destruct (format_validates f x A) as (m & E & VF). pose proof (proj2 VF OK) as V. destruct A as (_ & m' & E' & A). rewrite E in E'. injection E' as <-.
  assert (C : exists w, create_key ec sg (format_kind f) rnd m = StOk w).
  { pose proof (parse_holds _ _ _ E) as HM. destruct f as [c h enc | | h bits e0 | h g salt bits e0]; cbn [format_kind format_schema create_key format_ok format_size_ok] in *.
    - unfold ecdsa_create_key. destruct A as ((zc & C1 & C2) & _). change (num_at EcdsaKeyFormat m ["params"; "curve"]) with (num_at EcdsaKeyFormat m (["params"] ++ ["curve"])). rewrite (num_at_number _ _ _ _ C1). destruct (curve_number_subtle _ _ C2) as (-> & _ & _ & NU). destruct (new_key_fresh ec lib c rnd L NU) as (s & X & Y & N & F). rewrite N. eexists. reflexivity.
    - eexists. reflexivity.
    - destruct A as (P & B & X). destruct OK as (SH & BI & EX). destruct (uint_bits _ _ _ HM eq_refl B BI) as (TI & _). cbn zeta in TI. unfold rsa_create_key, new_rsa_key_pair. rewrite TI by lia. rewrite (bytes_at_content _ _ _ _ X), bin2bn_num, (proj2 (exponent_none _) EX).
      destruct (law_rsa_generates _ _ SL bits (num e0) rnd EX (conj BI SZ)) as (k & ->). eexists. reflexivity.
    - destruct A as (P & B & X). destruct OK as (SH & _ & _ & BI & EX). destruct (uint_bits _ _ _ HM eq_refl B BI) as (TI & _). cbn zeta in TI. unfold rsa_create_key, new_rsa_key_pair. rewrite TI by lia. rewrite (bytes_at_content _ _ _ _ X), bin2bn_num, (proj2 (exponent_none _) EX).
      destruct (law_rsa_generates _ _ SL bits (num e0) rnd EX (conj BI SZ)) as (k & ->). eexists. reflexivity. }
  destruct C as (w & C). rewrite sign_manager_is. cbn [sign_manager_of cl_new_key_data]. rewrite E, V. cbn [checked]. rewrite C. cbn [bind_st]. eexists. split; [reflexivity |]. cbn [kd_type_url kd_key_material_type kd_value]. rewrite url_is. split; [reflexivity |]. split; [reflexivity |].
  intros PS. destruct (key_created ec lib sg rnd f x m w L SL E A OK C) as (HW & k & K & P & F). exists k. split; [exact K |]. split; [| exact F].
  split; [cbn [kd_type_url]; rewrite K; reflexivity |]. cbn [kd_value]. exists w. rewrite K. split; [apply message_round_trip; [clear; destruct (format_kind f); reflexivity | exact HW | exact PS] |]. unfold private_at in P. rewrite K in P. exact P.
Qed.
(** From the format of a key to a signature that is valid *)
Theorem sig_from_format : forall ec lib sg self_test rnd x f, ec_laws ec lib -> sig_laws ec sg -> asks_for_sig (type_url (kind_name (format_kind f) ++ "PrivateKey")) x f -> format_ok f -> format_size_ok f -> format_signs f ->
  exists d get, cl_new_key_data (sign_manager ec sg self_test (format_kind f)) rnd x = StOk d /\ cl_public_key_data (sign_manager ec sg self_test (format_kind f)) = Some get /\
    (proto_size (kd_value d) -> exists d', get (kd_value d) = StOk d' /\
      (proto_size (kd_value d') -> exists s v, cl_get_primitive (sign_manager ec sg self_test (format_kind f)) d = StOk s /\ cl_get_primitive (verify_manager ec sg (format_kind f)) d' = StOk v /\
         forall rnd' data, exists y, cs_sign s rnd' data = StOk y /\ cv_verify v y data = StOk tt)).
Proof.
  intros ec lib sg self_test rnd x f L SL A OK SZ FS. destruct (sig_new_key ec lib sg self_test rnd x f L SL A OK SZ) as (d & E & _ & _ & H).
  destruct (cl_public_key_data (sign_manager ec sg self_test (format_kind f))) as [get |] eqn:G; [| rewrite sign_manager_is in G; discriminate G].
  exists d, get. split; [exact E |]. split; [reflexivity |]. intros PS. destruct (H PS) as (k & K & D & F). destruct (fresh_sig_good ec lib sg f rnd k L SL OK F) as (V & M & GO).
  destruct (sig_public_key ec sg self_test d k D V) as (get' & d' & G' & GD & _ & _ & D'). rewrite K, G in G'. injection G' as <-. exists d'. split; [exact GD |]. intros PS'.
  rewrite <- K. exact (sig_round_trip ec sg self_test d d' k SL D (D' PS') (proj2 GO FS) M).
Qed.
