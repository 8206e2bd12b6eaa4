(** The key managers of ECIES. *)
From Coq Require Import Strings.Byte Strings.String List NArith ZArith Bool Lia.
From Verif Require Import M_Base L_Base M_Proto M_Utf8 M_Wire L_Wire S_Wire M_ProtoMsg S_ProtoMsg L_ProtoMsg M_KeyFormats M_Prims M_StreamTypes M_CcStream M_CcManagers M_CcAes
  M_CcStreamKeys M_CcModes M_CcSymmetric M_CcSymKeys M_CcEcies M_CcEciesKeys S_Config S_CcAes S_CcStreamKeys S_CcModes S_CcSymmetric S_CcSymKeys S_CcSymHandles
  S_CcEcies S_CcEciesKeys L_CcStreamKeys L_CcModes L_CcModes4 L_CcSymmetric L_CcSymmetric2 L_CcSymKeys L_CcSymKeys2 L_CcSymHandles L_CcEcies L_CcEcies2 L_CcEcies3 L_CcEcies4 L_CcEcies5.
Import ListNotations.
Open Scope string_scope.
Open Scope list_scope.
Open Scope nat_scope.

(** ** Messages in messages *)
Lemma get_path_app : forall p q t v fs n, path_type t p = Some (TMsg fs) -> get_path t v p = Some (VMsg n) ->
  get_path t v (p ++ q) = get_path (TMsg fs) (Some (VMsg n)) q.
Proof.
  induction p as [| name rest IH]; intros q t v fs n T H.
  - cbn [path_type] in T. injection T as ->. cbn [app get_path] in *. destruct v as [v |]; [injection H as -> | discriminate H]. reflexivity.
  - destruct t as [| | | | | fs0]; try discriminate T. cbn [path_type get_path app] in *.
    revert T H. generalize (match v with Some (VMsg vs) => vs | _ => empty_message fs0 end). induction fs0 as [| ((k & i) & t') fs0 IF]; intros vs T H; [discriminate T |].
    destruct vs as [| v' vs]; [discriminate H |]. destruct (String.eqb k name); [exact (IH q _ _ _ _ T H) | exact (IF _ T H)].
Qed.
Lemma params_in : forall fs m pre n p, path_type (TMsg fs) pre = Some (TMsg EciesAeadHkdfParams) -> get_path (TMsg fs) (Some (VMsg m)) pre = Some (VMsg n) ->
  (has_ecies_params fs m pre p <-> has_ecies_params EciesAeadHkdfParams n [] p).
Proof.
  intros fs m pre n p T H. unfold has_ecies_params, number, octets, text. cbn [app].
  assert (E : forall q, get_path (TMsg fs) (Some (VMsg m)) (pre ++ q) = get_path (TMsg EciesAeadHkdfParams) (Some (VMsg n)) q) by (intros q; exact (get_path_app _ q _ _ _ _ T H)).
  rewrite !E. reflexivity.
Qed.
(** A message that is set is of its type. *)
Lemma read_message : forall fs m p fs', holds_all fs m -> path_type (TMsg fs) p = Some (TMsg fs') -> has_at fs m p = true ->
  exists n, get_path (TMsg fs) (Some (VMsg m)) p = Some (VMsg n) /\ holds_all fs' n.
Proof.
  intros fs m p fs' H P S. destruct (read_path _ _ _ _ (holds_msg _ _ H) P) as (v & V & E). unfold has_at in S. rewrite E in S |- *.
  inversion V; subst; [discriminate S |]. eexists. split; [reflexivity | assumption].
Qed.
Lemma version_zero : forall fs m p, number fs m p 0%Z -> validate_version (num_at fs m p) 0 = None.
Proof. intros fs m p H. rewrite (num_at_number _ _ _ _ H). reflexivity. Qed.
Lemma version_read : forall fs m p, holds_all fs m -> path_type (TMsg fs) p = Some TUint32 -> validate_version (num_at fs m p) 0 = None -> number fs m p 0%Z.
Proof.
  intros fs m p H P V. destruct (read_number _ _ _ H P) as (z & Hz & R). rewrite (num_at_number _ _ _ _ Hz) in V. apply version_none in V.
  unfold u32 in R. replace z with 0%Z in Hz by lia. exact Hz.
Qed.
Lemma url_is : forall s, ecies_url s = type_url s.
Proof. reflexivity. Qed.

(** ** Keys that are generated *)
Lemma fresh_pair : forall ec lib c rnd s X Y, ec_laws ec lib -> fresh_key ec c rnd s X Y -> key_pair ec c s X Y.
Proof.
  intros ec lib c rnd s X Y L H.
  assert (NI : nist c -> (let n := coordinate_size c in let (d, Q) := ec_generate_key ec c rnd in s = be_bytes n d /\ X = be_bytes n (fst Q) /\ Y = be_bytes n (snd Q)) ->
    s <> [] /\ X <> [] /\ Y <> [] /\ ec_point_mul ec c (num s) (ec_generator ec c) = Some (num X, num Y)).
  { intros N E. pose proof (law_scalar _ _ L c rnd N) as A. pose proof (law_generate _ _ L c rnd N) as G. cbn zeta in E. destruct (ec_generate_key ec c rnd) as (d & (x & y)). cbn [fst snd] in *.
    assert (O : ec_on_curve ec c (x, y) = true) by (apply (law_generator _ _ L c _ N); exists d; exact G). destruct (law_coordinates _ _ L c x y N O) as (B & C).
    destruct E as (-> & -> & ->). rewrite !num_be_small by assumption.
    assert (NE : forall v, be_bytes (coordinate_size c) v <> []).
    { intros v Z. apply (f_equal (@length byte)) in Z. rewrite be_bytes_length in Z. pose proof (coordinate_size_pos c). cbn in Z. lia. }
    repeat split; try apply NE. exact G. }
  destruct c; cbn [fresh_key key_pair] in *; try contradiction; try (apply NI; [unfold nist; cbn; tauto | exact H]).
  destruct H as (-> & -> & ->). split; [apply (law_x25519_generate _ _ L) | split; reflexivity].
Qed.
Lemma new_key_fresh : forall ec lib c rnd, ec_laws ec lib -> c <> UNKNOWN_CURVE -> exists s X Y, new_ec_key ec c rnd = StOk (s, X, Y) /\ fresh_key ec c rnd s X Y.
Proof.
  intros ec lib c rnd L C.
  assert (NI : nist c -> exists s X Y, bind_st (ec_group c) (fun size => let (priv_key, pub_key) := ec_generate_key ec c rnd in
        bind_st (bn2binpad (fst pub_key) size) (fun pub_x => bind_st (bn2binpad (snd pub_key) size) (fun pub_y => bind_st (bn2binpad priv_key size) (fun priv => StOk (priv, pub_x, pub_y))))) = StOk (s, X, Y) /\
     (let n := coordinate_size c in let (d, Q) := ec_generate_key ec c rnd in s = be_bytes n d /\ X = be_bytes n (fst Q) /\ Y = be_bytes n (snd Q))).
  { intros N. rewrite (nist_group c N). cbn [bind_st]. pose proof (law_scalar _ _ L c rnd N) as A. pose proof (law_generate _ _ L c rnd N) as G. destruct (ec_generate_key ec c rnd) as (d & (x & y)). cbn [fst snd] in *.
    assert (O : ec_on_curve ec c (x, y) = true) by (apply (law_generator _ _ L c _ N); exists d; exact G). destruct (law_coordinates _ _ L c x y N O) as (B & D).
    rewrite !bn2binpad_be by assumption. cbn [bind_st]. do 3 eexists. split; [reflexivity |]. cbn zeta. auto. }
  destruct c; try contradiction; try (apply NI; unfold nist; cbn; tauto).
  cbn [new_ec_key fresh_key]. do 3 eexists. split; [reflexivity |]. auto.
Qed.
Theorem ecies_new_key : forall ec lib random rnd x p, ec_laws ec lib -> asks_for_ecies (type_url "EciesAeadHkdfPrivateKey") x p ->
  exists d, cl_new_key_data (ecies_private_key_manager ec lib random) rnd x = StOk d /\
    kd_type_url d = type_url "EciesAeadHkdfPrivateKey" /\ kd_key_material_type d = ASYMMETRIC_PRIVATE /\
    (proto_size (kd_value d) -> exists s X Y, is_ecies_private d p s X Y /\ fresh_key ec (ep_curve p) rnd s X Y /\ key_pair ec (ep_curve p) s X Y).
Proof.
  intros ec lib random rnd x p L (_ & m & E & P). cbn [ecies_private_key_manager cl_new_key_data]. rewrite E. rewrite url_is.
  destruct (params_read EciesAeadHkdfKeyFormat m ["params"] p eq_refl eq_refl eq_refl eq_refl P) as (A1 & _ & _ & _ & _ & _ & A7 & A8 & A9 & _). cbn zeta in *. cbn [app] in *.
  unfold validate_ecies_key_format. rewrite A7. change (validate_params EciesAeadHkdfKeyFormat (cons "params") m) with (validate_params EciesAeadHkdfKeyFormat (fun q => "params" :: q) m).
  rewrite A8. cbn [negb check and_then]. unfold create_ecies_key. change (params_curve EciesAeadHkdfKeyFormat (cons "params") m) with (params_curve EciesAeadHkdfKeyFormat (fun q => "params" :: q) m). rewrite A1.
  destruct (new_key_fresh ec lib (ep_curve p) rnd L A9) as (s & X & Y & N & F). rewrite N. cbn [bind_st].
  eexists. split; [reflexivity |]. cbn [kd_type_url kd_key_material_type kd_value]. split; [reflexivity |]. split; [reflexivity |]. intros PS.
  exists s, X, Y. split; [| split; [exact F | exact (fresh_pair ec lib _ _ _ _ _ L F)]].
  pose proof (parse_holds _ _ _ E) as HM. destruct (read_message _ _ ["params"] _ HM eq_refl A7) as (n & G & HN). rewrite G in PS |- *. cbn [message_or_empty] in *.
  split; [reflexivity |]. cbn [kd_value]. eexists. split; [apply message_round_trip; [reflexivity | | exact PS] |].
  - repeat (apply holds_cons with (1 := eq_refl) || apply holds_nil); try apply holds_bytes; try (apply holds_uint32; lia). apply holds_msg.
    repeat (apply holds_cons with (1 := eq_refl) || apply holds_nil); try apply holds_bytes; try (apply holds_uint32; lia). apply holds_msg, HN.
  - split; [reflexivity |]. split; [reflexivity |]. split; [| repeat split; reflexivity].
    refine (proj2 (params_in EciesAeadHkdfPrivateKey _ ["public_key"; "params"] n p eq_refl _) _); [reflexivity |]. apply (proj1 (params_in EciesAeadHkdfKeyFormat m ["params"] n p eq_refl G)), P.
Qed.

(** ** Public keys *)
Lemma private_validated : forall m p s X Y, private_message m p s X Y -> number EciesAeadHkdfPrivateKey m ["version"] 0%Z ->
  number EciesAeadHkdfPrivateKey m ["public_key"; "version"] 0%Z -> validate_private_key m = None /\ has_at EciesAeadHkdfPrivateKey m ["public_key"] = true.
Proof.
  intros m p s X Y (P & _) V1 V2. destruct (private_params m p P) as (_ & _ & _ & _ & _ & _ & A7 & A8 & _). cbn zeta in *.
  assert (B : has_at EciesAeadHkdfPrivateKey m ["public_key"] = true).
  { destruct P as ((z & Z1 & Z2) & _). apply (is_set EciesAeadHkdfPrivateKey m ["public_key"] ["params"; "kem_params"; "curve_type"] EciesAeadHkdfPublicKey (VNum z) eq_refl Z1).
    destruct (curve_number_subtle _ _ Z2) as (_ & NZ & _). cbn. intros E. injection E as E. congruence. }
  split; [| exact B]. unfold validate_private_key, validate_public_key. rewrite (version_zero _ _ _ V1), (version_zero _ _ _ V2), B, A7, A8. reflexivity.
Qed.
Lemma public_validated : forall m p X Y, public_message m p X Y -> number EciesAeadHkdfPublicKey m ["version"] 0%Z ->
  validate_public_key EciesAeadHkdfPublicKey (fun q => q) m = None.
Proof.
  intros m p X Y (P & _) V. destruct (public_params m p P) as (_ & _ & _ & _ & _ & _ & A7 & A8 & _). cbn zeta in *.
  unfold validate_public_key. rewrite (version_zero _ _ _ V), A7. cbn [negb check and_then].
  change (validate_params EciesAeadHkdfPublicKey (fun q => "params" :: q) m) with (validate_params EciesAeadHkdfPublicKey (cons "params") m). exact A8.
Qed.
Theorem ecies_public_key : forall ec lib random d p s X Y, is_ecies_private d p s X Y ->
  exists get d', cl_public_key_data (ecies_private_key_manager ec lib random) = Some get /\ get (kd_value d) = StOk d' /\
    kd_type_url d' = type_url "EciesAeadHkdfPublicKey" /\ kd_key_material_type d' = ASYMMETRIC_PUBLIC /\
    (proto_size (kd_value d') -> is_ecies_public d' p X Y).
Proof.
  intros ec lib random d p s X Y (_ & m & E & V1 & V2 & M). cbn [ecies_private_key_manager cl_public_key_data].
  destruct (private_validated m p s X Y M V1 V2) as (VK & B). eexists. eexists. split; [reflexivity |]. cbv beta. rewrite E, VK. split; [reflexivity |].
  cbn [kd_type_url kd_key_material_type kd_value]. split; [reflexivity |]. split; [reflexivity |].
  destruct (read_message _ _ ["public_key"] _ (parse_holds _ _ _ E) eq_refl B) as (n & G & HN). rewrite G. cbn [message_or_empty]. intros PS.
  split; [reflexivity |]. cbn [kd_value]. exists n. split; [apply message_round_trip; [reflexivity | exact HN | exact PS] |].
  destruct M as (P & _ & HX & HY). pose proof (fun q => get_path_app ["public_key"] q (TMsg EciesAeadHkdfPrivateKey) (Some (VMsg m)) EciesAeadHkdfPublicKey n eq_refl G) as GP. cbn [app] in GP.
  split; [unfold number in *; rewrite <- GP; exact V2 |]. split; [| split; unfold octets in *; rewrite <- GP; assumption].
  assert (HP : has_at EciesAeadHkdfPrivateKey m ["public_key"; "params"] = true) by apply (private_params m p P).
  destruct (read_message _ _ ["public_key"; "params"] _ (parse_holds _ _ _ E) eq_refl HP) as (k & GK & _).
  apply (params_in EciesAeadHkdfPublicKey n ["params"] k p eq_refl); [rewrite <- GP; exact GK |]. exact (proj1 (params_in EciesAeadHkdfPrivateKey m ["public_key"; "params"] k p eq_refl GK) P).
Qed.

(** ** Primitives *)
Lemma public_get : forall ec lib random d p X Y, is_ecies_public d p X Y -> exists m, public_message m p X Y /\ holds_all EciesAeadHkdfPublicKey m /\
  cl_get_primitive (ecies_public_key_manager ec lib random) d =
  bind_st (ecies_encrypt_new ec lib random m) (fun encrypt => StOk (mk_cc_hybrid_encrypt (fun rnd plaintext context_info => or_undefined (encrypt rnd plaintext context_info)))).
Proof.
  intros ec lib random d p X Y (U & m & E & V & M). exists m. split; [exact M |]. split; [exact (parse_holds _ _ _ E) |]. cbn [ecies_public_key_manager cl_get_primitive].
  rewrite url_is, U, (proj2 (str_eqb_spec _ _) eq_refl). cbn [negb]. rewrite E, (public_validated m p X Y M V). reflexivity.
Qed.
Lemma private_get : forall ec lib random d p s X Y, is_ecies_private d p s X Y -> exists m, private_message m p s X Y /\ holds_all EciesAeadHkdfPrivateKey m /\
  cl_get_primitive (ecies_private_key_manager ec lib random) d =
  bind_st (ecies_decrypt_new ec lib random m) (fun decrypt => StOk (mk_cc_hybrid_decrypt (fun ciphertext context_info => or_undefined (decrypt ciphertext context_info)))).
Proof.
  intros ec lib random d p s X Y (U & m & E & V1 & V2 & M). exists m. split; [exact M |]. split; [exact (parse_holds _ _ _ E) |]. cbn [ecies_private_key_manager cl_get_primitive].
  rewrite url_is, U, (proj2 (str_eqb_spec _ _) eq_refl). cbn [negb]. rewrite E, (proj1 (private_validated m p s X Y M V1 V2)). reflexivity.
Qed.
Lemma or_undefined_ok : forall A (r : outcome A) a, or_undefined r = StOk a <-> r = Some (StOk a).
Proof. intros A [r |] a; cbn; split; intros H; try discriminate H; congruence. Qed.
Theorem ecies_public_primitive : forall ec lib random d p X Y, is_ecies_public d p X Y -> dem_kind (ep_dem p) = true ->
  ((exists cc, cl_get_primitive (ecies_public_key_manager ec lib random) d = StOk cc) <-> public_ok ec (ep_curve p) X Y).
Proof.
  intros ec lib random d p X Y K D. destruct (public_get ec lib random d p X Y K) as (m & M & _ & ->). rewrite <- (ecies_encrypt_made ec lib random m p X Y M D).
  destruct (ecies_encrypt_new ec lib random m); cbn [bind_st]; split; intros (x & H); try discriminate H; eexists; reflexivity.
Qed.
Theorem ecies_private_primitive : forall ec lib random d p s X Y, is_ecies_private d p s X Y -> dem_kind (ep_dem p) = true ->
  ((exists cc, cl_get_primitive (ecies_private_key_manager ec lib random) d = StOk cc) <-> private_ok (ep_curve p) s X Y).
Proof.
  intros ec lib random d p s X Y K D. destruct (private_get ec lib random d p s X Y K) as (m & M & _ & ->). rewrite <- (ecies_decrypt_made ec lib random m p s X Y M D).
  destruct (ecies_decrypt_new ec lib random m); cbn [bind_st]; split; intros (x & H); try discriminate H; eexists; reflexivity.
Qed.
Theorem ecies_public_encrypts : forall ec lib random d p X Y cc, ec_laws ec lib -> crypto_laws lib -> random_law random ->
  is_ecies_public d p X Y -> proper p -> cl_get_primitive (ecies_public_key_manager ec lib random) d = StOk cc -> forall rnd P info,
  (forall C, che_encrypt cc rnd P info = StOk C <->
     exists kem S, sender_secret ec p X Y rnd kem S /\ ecies_ciphertext lib p kem S info (random rnd (Z.of_nat (nonce_size (ep_dem p)))) P C) /\
  (dem_admits (ep_dem p) P -> (ep_curve p = CURVE25519 /\ x25519_derive ec (x25519_generate ec rnd) X = None) \/ exists C, che_encrypt cc rnd P info = StOk C) /\
  (ep_curve p = CURVE25519 -> x25519_derive ec (x25519_generate ec rnd) X = None -> che_encrypt cc rnd P info = StErr Undefined).
Proof.
  intros ec lib random d p X Y cc L CL RL K PR H rnd P info. destruct (public_get ec lib random d p X Y K) as (m & M & _ & E). rewrite E in H.
  destruct (ecies_encrypt_new ec lib random m) as [enc |] eqn:EN; [| discriminate H]. injection H as <-. cbn [che_encrypt].
  destruct (ecies_encrypts ec lib random m p X Y enc L CL RL M PR EN rnd P info) as (A & B & C). split; [| split].
  - intros c. rewrite or_undefined_ok. apply A.
  - intros AD. destruct (C AD) as [N | (c & N)]; [left; apply B, N | right; exists c; apply or_undefined_ok, N].
  - intros CU N. rewrite (proj2 B (conj CU N)). reflexivity.
Qed.
Theorem ecies_private_decrypts : forall ec lib random d p s X Y cc, ec_laws ec lib -> crypto_laws lib ->
  is_ecies_private d p s X Y -> proper p -> cl_get_primitive (ecies_private_key_manager ec lib random) d = StOk cc -> forall C info,
  (forall P, chd_decrypt cc C info = StOk P <-> exists kem S nonce, recipient_secret ec p s kem S /\ ecies_ciphertext lib p kem S info nonce P C).
Proof.
  intros ec lib random d p s X Y cc L CL K PR H C info P. destruct (private_get ec lib random d p s X Y K) as (m & M & _ & E). rewrite E in H.
  destruct (ecies_decrypt_new ec lib random m) as [dec |] eqn:EN; [| discriminate H]. injection H as <-. cbn [chd_decrypt]. rewrite or_undefined_ok.
  apply (ecies_decrypts ec lib random m p s X Y dec L CL M PR EN C info).
Qed.
Theorem ecies_keys_round_trip : forall ec lib random d d' p s X Y, ec_laws ec lib -> crypto_laws lib -> random_law random ->
  is_ecies_private d p s X Y -> is_ecies_public d' p X Y -> proper p -> key_pair ec (ep_curve p) s X Y ->
  exists enc dec, cl_get_primitive (ecies_public_key_manager ec lib random) d' = StOk enc /\ cl_get_primitive (ecies_private_key_manager ec lib random) d = StOk dec /\
    forall rnd P info, dem_admits (ep_dem p) P -> exists C, che_encrypt enc rnd P info = StOk C /\ chd_decrypt dec C info = StOk P.
Proof.
  intros ec lib random d d' p s X Y L CL RL K K' PR KP. destruct (private_get ec lib random d p s X Y K) as (m & M & _ & E). destruct (public_get ec lib random d' p X Y K') as (m' & M' & _ & E').
  destruct (ecies_round_trip ec lib random m' m p s X Y L CL RL M' M PR KP) as (enc & dec & E1 & E2 & R). rewrite E, E', E1, E2. cbn [bind_st].
  do 2 eexists. split; [reflexivity |]. split; [reflexivity |]. intros rnd P info AD. destruct (R rnd P info AD) as (C & A & B). exists C.
  cbn [che_encrypt chd_decrypt]. rewrite !or_undefined_ok. split; assumption.
Qed.
(** From the format of a key to messages and back *)
Theorem ecies_from_format : forall ec lib random rnd x p, ec_laws ec lib -> crypto_laws lib -> random_law random ->
  asks_for_ecies (type_url "EciesAeadHkdfPrivateKey") x p -> proper p ->
  exists d get d', cl_new_key_data (ecies_private_key_manager ec lib random) rnd x = StOk d /\
    cl_public_key_data (ecies_private_key_manager ec lib random) = Some get /\
    (proto_size (kd_value d) -> get (kd_value d) = StOk d' /\
      (proto_size (kd_value d') -> exists enc dec, cl_get_primitive (ecies_public_key_manager ec lib random) d' = StOk enc /\
         cl_get_primitive (ecies_private_key_manager ec lib random) d = StOk dec /\
         forall rnd' P info, dem_admits (ep_dem p) P -> exists C, che_encrypt enc rnd' P info = StOk C /\ chd_decrypt dec C info = StOk P)).
Proof.
  intros ec lib random rnd x p L CL RL A PR. destruct (ecies_new_key ec lib random rnd x p L A) as (d & E & _ & _ & H). exists d.
  destruct (cl_public_key_data (ecies_private_key_manager ec lib random)) as [get |] eqn:G; [| discriminate G].
  destruct (get (kd_value d)) as [d' | e] eqn:GD.
  - exists get, d'. split; [exact E |]. split; [reflexivity |]. intros PS. split; [exact GD |]. intros PS'. destruct (H PS) as (s & X & Y & K & _ & KP).
    destruct (ecies_public_key ec lib random d p s X Y K) as (get' & d'' & G' & GD' & _ & _ & K'). rewrite G in G'. injection G' as <-. rewrite GD in GD'. injection GD' as <-.
    exact (ecies_keys_round_trip ec lib random d d' p s X Y L CL RL K (K' PS') PR KP).
  - exists get, d. split; [exact E |]. split; [reflexivity |]. intros PS. exfalso. destruct (H PS) as (s & X & Y & K & _).
    destruct (ecies_public_key ec lib random d p s X Y K) as (get' & d'' & G' & GD' & _). rewrite G in G'. injection G' as <-. rewrite GD in GD'. discriminate GD'.
Qed.

(** ** Only such keys *)
Lemma public_got : forall ec lib random d cc, cl_get_primitive (ecies_public_key_manager ec lib random) d = StOk cc ->
  kd_type_url d = type_url "EciesAeadHkdfPublicKey" /\ exists m enc, parse_message EciesAeadHkdfPublicKey (kd_value d) = Some m /\
    number EciesAeadHkdfPublicKey m ["version"] 0%Z /\ ecies_encrypt_new ec lib random m = StOk enc /\
    cc = mk_cc_hybrid_encrypt (fun rnd plaintext context_info => or_undefined (enc rnd plaintext context_info)).
Proof.
  intros ec lib random d cc H. cbn [ecies_public_key_manager cl_get_primitive] in H. rewrite url_is in H.
  destruct (str_eqb (type_url "EciesAeadHkdfPublicKey") (kd_type_url d)) eqn:U; [| discriminate H]. apply str_eqb_spec in U. cbn [negb] in H. split; [symmetry; exact U |].
  destruct (parse_message EciesAeadHkdfPublicKey (kd_value d)) as [m |] eqn:E; [| discriminate H]. destruct (validate_public_key EciesAeadHkdfPublicKey (fun q => q) m) eqn:V; [discriminate H |].
  apply bind_ok in H. destruct H as (enc & EN & H). injection H as <-. exists m, enc. split; [reflexivity |]. split; [| split; [exact EN | reflexivity]].
  unfold validate_public_key in V. apply and_then_none in V. destruct V as (V & _). exact (version_read _ _ ["version"] (parse_holds _ _ _ E) eq_refl V).
Qed.
Theorem ecies_public_only : forall ec lib random d cc rnd P info C, ec_laws ec lib -> crypto_laws lib ->
  cl_get_primitive (ecies_public_key_manager ec lib random) d = StOk cc -> che_encrypt cc rnd P info = StOk C ->
  exists p X Y, is_ecies_public d p X Y /\ proper p /\ public_ok ec (ep_curve p) X Y.
Proof.
  intros ec lib random d cc rnd P info C L CL H E. destruct (public_got _ _ _ _ _ H) as (U & m & enc & EM & V & EN & ->). cbn [che_encrypt] in E. apply or_undefined_ok in E.
  destruct (ecies_encrypts_only ec lib random m enc rnd P info C L CL (parse_holds _ _ _ EM) EN E) as (p & X & Y & M & R). exists p, X, Y. split; [| exact R].
  split; [exact U |]. exists m. auto.
Qed.
Theorem ecies_private_only : forall ec lib random d cc C info P, ec_laws ec lib -> crypto_laws lib ->
  cl_get_primitive (ecies_private_key_manager ec lib random) d = StOk cc -> chd_decrypt cc C info = StOk P ->
  exists p s X Y, is_ecies_private d p s X Y /\ proper p /\ private_ok (ep_curve p) s X Y.
Proof.
  intros ec lib random d cc C info P L CL H E. cbn [ecies_private_key_manager cl_get_primitive] in H. rewrite url_is in H.
  destruct (str_eqb (type_url "EciesAeadHkdfPrivateKey") (kd_type_url d)) eqn:U; [| discriminate H]. apply str_eqb_spec in U. cbn [negb] in H.
  destruct (parse_message EciesAeadHkdfPrivateKey (kd_value d)) as [m |] eqn:EM; [| discriminate H]. destruct (validate_private_key m) eqn:V; [discriminate H |].
  apply bind_ok in H. destruct H as (dec & EN & H). injection H as <-. cbn [chd_decrypt] in E. apply or_undefined_ok in E. pose proof (parse_holds _ _ _ EM) as HM.
  destruct (ecies_decrypts_only ec lib random m dec C info P L CL HM EN E) as (p & s & X & Y & M & R). exists p, s, X, Y. split; [| exact R].
  unfold validate_private_key, validate_public_key in V. apply and_then_none in V. destruct V as (V1 & V). apply and_then_none in V. destruct V as (_ & V). apply and_then_none in V. destruct V as (V2 & _).
  split; [symmetry; exact U |]. exists m. split; [exact EM |]. split; [exact (version_read _ _ ["version"] HM eq_refl V1) |]. split; [exact (version_read _ _ ["public_key"; "version"] HM eq_refl V2) | exact M].
Qed.
Theorem ecies_public_only_private : forall ec lib random get x d, cl_public_key_data (ecies_private_key_manager ec lib random) = Some get -> get x = StOk d ->
  exists m, parse_message EciesAeadHkdfPrivateKey x = Some m /\ number EciesAeadHkdfPrivateKey m ["version"] 0%Z /\ number EciesAeadHkdfPrivateKey m ["public_key"; "version"] 0%Z /\
    kd_type_url d = type_url "EciesAeadHkdfPublicKey" /\ kd_key_material_type d = ASYMMETRIC_PUBLIC.
Proof.
  intros ec lib random get x d G H. injection G as <-. cbv beta in H. destruct (parse_message EciesAeadHkdfPrivateKey x) as [m |] eqn:EM; [| discriminate H].
  destruct (validate_private_key m) eqn:V; [discriminate H |]. injection H as <-. pose proof (parse_holds _ _ _ EM) as HM. exists m. split; [reflexivity |].
  unfold validate_private_key, validate_public_key in V. apply and_then_none in V. destruct V as (V1 & V). apply and_then_none in V. destruct V as (_ & V). apply and_then_none in V. destruct V as (V2 & _).
  split; [exact (version_read _ _ ["version"] HM eq_refl V1) |]. split; [exact (version_read _ _ ["public_key"; "version"] HM eq_refl V2) |]. split; reflexivity.
Qed.
(** New public keys cannot be made. *)
Theorem ecies_no_new_public : forall ec lib random rnd x, exists s, cl_new_key_data (ecies_public_key_manager ec lib random) rnd x = StErr s.
Proof. intros. eexists. reflexivity. Qed.
