(** C94: JWT keysets over the C++ key managers. *)
From Coq Require Import Strings.Byte Strings.String List NArith ZArith Bool Lia.
From Verif Require Import M_Base M_Utf8 M_Proto M_Wire M_ProtoMsg M_KeyFormats M_JwtTypes M_Prims M_PrimitiveSet M_Registry M_KeysetHandle M_Wrappers M_Json M_RawJwt M_JwtValidator M_JwtPrims
  M_StreamTypes M_CcStream M_CcManagers M_Templates M_CcAes M_CcStreamKeys M_CcModes M_CcSymmetric M_CcSymKeys M_CcEcies M_CcEciesKeys M_CcSignatures M_CcJwt
  S_Keyset S_Handle S_Wrappers S_Registry S_Json S_Jwt S_JwtKeys S_Wire S_Config S_CcLaws S_CcAes S_CcStreamKeys S_CcModes S_CcSymmetric S_CcSymKeys S_CcSymHandles S_CcEcies S_CcEciesKeys S_CcSignatures S_CcSigHandles S_CcJwt S_CcJwtHandles
  L_Base L_Keyset L_PrimitiveSet L_Jwt L_Jwt2 L_Jwt8 L_CcSymHandles3 L_CcJwt L_CcJwt2 L_CcJwtHandles L_CcJwtHandles2 L_CcJwtHandles3 L_CcJwtHandles4
  X_Toy L_Toy X_Rt X_Jwt X_Config X_CliStream X_CcSymmetric X_CcSymKeys X_CcEcies X_CcSignatures.
Import ListNotations.
Open Scope string_scope.
Open Scope list_scope.
Open Scope nat_scope.

Theorem C94_mac : forall lib random ec sg self_test w env r ks l, jwt_world lib random ec sg self_test w -> hmac_size_law lib -> float_codec (pe_rt env) -> float_times_ok (pe_rt env) ->
  configured w env JwtMac r -> jwt_keyset is_jwt_hmac jwt_hmac_ok ks l ->
  exists a, handle_primitive r (mk_handle ks) ClsJwtMac = Ok (PrimJwtMac a) /\ jwt_mac_works (pe_rt env) lib ks l a.
Proof. exact jwt_mac_handle_works. Qed.
Print Assumptions C94_mac.
Theorem C94_sign : forall lib random ec sg self_test w env r ks l, jwt_world lib random ec sg self_test w -> sig_laws ec sg -> float_codec (pe_rt env) ->
  configured w env JwtSignature r -> jwt_keyset is_jwt_private (fun q => good_private ec sg (private_scheme q)) ks l ->
  exists a, handle_primitive r (mk_handle ks) ClsJwtSign = Ok (PrimJwtSign a) /\ jwt_sign_works (pe_rt env) sg ks l a.
Proof. exact jwt_sign_handle_works. Qed.
Print Assumptions C94_sign.
Theorem C94_verify : forall lib random ec sg self_test w env r ks l, jwt_world lib random ec sg self_test w -> sig_laws ec sg -> float_times_ok (pe_rt env) ->
  configured w env JwtSignature r -> jwt_keyset is_jwt_public (fun q => good_public ec (scheme q)) ks l ->
  exists a, handle_primitive r (mk_handle ks) ClsJwtVerify = Ok (PrimJwtVerify a) /\ jwt_verify_works (pe_rt env) sg l a.
Proof. exact jwt_verify_handle_works. Qed.
Print Assumptions C94_verify.
Theorem C94_mac_round_trip : forall rt lib ks l a ks2 l2 a2 k k2 q r r' token clock v,
  jwt_keyset is_jwt_hmac jwt_hmac_ok ks l -> jwt_mac_works rt lib ks l a -> jwt_mac_works rt lib ks2 l2 a2 -> is_primary ks l k q -> In (k2, q) l2 ->
  k_key_id k2 = k_key_id k -> k_output_prefix_type k2 = k_output_prefix_type k ->
  ordinary_jwt rt r -> well_typed r -> same_but_empty_type r r' -> accepts rt clock v r' ->
  representable (current_time v clock - jv_clock_skew v)%Z -> representable (current_time v clock + jv_clock_skew v)%Z ->
  jm_compute a r = Ok token -> jm_verify a2 clock token v = Ok (mk_verified_jwt r').
Proof. exact jwt_mac_carries_over. Qed.
Print Assumptions C94_mac_round_trip.
Theorem C94_signature_round_trip : forall rt ec sg ks l a l2 a2 k k2 q rnd r r' token clock v, sig_laws ec sg ->
  jwt_keyset is_jwt_private (fun q => good_private ec sg (private_scheme q)) ks l -> jwt_sign_works rt sg ks l a -> is_primary ks l k q -> matching ec sg (private_scheme q) ->
  jwt_verify_works rt sg l2 a2 -> In (k2, jwt_public_of q) l2 -> k_key_id k2 = k_key_id k -> k_output_prefix_type k2 = k_output_prefix_type k ->
  ordinary_jwt rt r -> well_typed r -> same_but_empty_type r r' -> accepts rt clock v r' ->
  representable (current_time v clock - jv_clock_skew v)%Z -> representable (current_time v clock + jv_clock_skew v)%Z ->
  js_sign a rnd r = Ok token -> jv_verify a2 clock token v = Ok (mk_verified_jwt r').
Proof. exact jwt_signature_carries_over. Qed.
Print Assumptions C94_signature_round_trip.
Theorem C94_public_handle : forall lib random ec sg self_test w env r ks l, jwt_world lib random ec sg self_test w -> configured w env JwtSignature r ->
  valid_keyset ks -> all_jwt_private ks l -> (forall k, In k (ks_key ks) -> k_output_prefix_type k <> UNKNOWN_PREFIX /\ k_status k <> UNKNOWN_STATUS) ->
  (forall k, In k (ks_key ks) -> jwt_public_fits ec sg self_test k) ->
  exists ph l', public_keyset_handle r (mk_handle ks) = Ok ph /\ ks_primary_key_id (kh_keyset ph) = ks_primary_key_id ks /\
    map fst l' = ks_key (kh_keyset ph) /\ Forall2 jwt_public_half l l' /\ Forall (fun y => kd_key_material_type (k_key_data (fst y)) = ASYMMETRIC_PUBLIC) l' /\
    (jwt_keyset is_jwt_private (fun q => good_private ec sg (private_scheme q)) ks (enabled_ones l) -> jwt_keyset is_jwt_public (fun q => good_public ec (scheme q)) (kh_keyset ph) (enabled_ones l')).
Proof. exact jwt_public_handle. Qed.
Print Assumptions C94_public_handle.
Theorem C94_new_mac_handle : forall lib random ec sg self_test w env r name t rnd raw draws, jwt_world lib random ec sg self_test w -> hmac_size_law lib ->
  random_law random -> float_codec (pe_rt env) -> float_times_ok (pe_rt env) ->
  configured w env JwtMac r -> In (name, Ok t) jwt_templates -> kt_type_url t = type_url "JwtHmacKey" ->
  exists h k q a, generate_new r rnd (raw :: draws) t = Some (Ok h) /\ new_jwt_mac_handle random rnd name h k q /\ handle_primitive r h ClsJwtMac = Ok (PrimJwtMac a) /\
    forall j, ordinary_jwt (pe_rt env) j -> well_typed j -> exists token, jm_compute a j = Ok token /\
      forall clock v j', same_but_empty_type j j' -> accepts (pe_rt env) clock v j' ->
        representable (current_time v clock - jv_clock_skew v)%Z -> representable (current_time v clock + jv_clock_skew v)%Z ->
        jm_verify a clock token v = Ok (mk_verified_jwt j').
Proof. exact new_jwt_mac_handle_works. Qed.
Print Assumptions C94_new_mac_handle.
Theorem C94_new_sign_handle : forall lib random ec sg self_test w env r name t rnd raw draws, jwt_world lib random ec sg self_test w -> ec_laws ec lib -> sig_laws ec sg -> rsa_sizes sg ->
  float_codec (pe_rt env) -> float_times_ok (pe_rt env) ->
  configured w env JwtSignature r -> In (name, Ok t) jwt_templates -> kt_type_url t <> type_url "JwtHmacKey" ->
  exists h k q ph k' s v, generate_new r rnd (raw :: draws) t = Some (Ok h) /\ new_jwt_sign_handle ec sg rnd name h k q /\
    public_keyset_handle r h = Ok ph /\ jwt_keyset is_jwt_public (fun q => good_public ec (scheme q)) (kh_keyset ph) [(k', jwt_public_of q)] /\
    ks_primary_key_id (kh_keyset ph) = k_key_id k /\ k_key_id k' = k_key_id k /\ k_output_prefix_type k' = k_output_prefix_type k /\
    handle_primitive r h ClsJwtSign = Ok (PrimJwtSign s) /\ handle_primitive r ph ClsJwtVerify = Ok (PrimJwtVerify v) /\
    forall rnd' j, ordinary_jwt (pe_rt env) j -> well_typed j -> exists token, js_sign s rnd' j = Ok token /\
      forall clock vd j', same_but_empty_type j j' -> accepts (pe_rt env) clock vd j' ->
        representable (current_time vd clock - jv_clock_skew vd)%Z -> representable (current_time vd clock + jv_clock_skew vd)%Z ->
        jv_verify v clock token vd = Ok (mk_verified_jwt j').
Proof. exact new_jwt_sign_handle_works. Qed.
Print Assumptions C94_new_sign_handle.

(** The hypotheses are met by the small library and its keysets. *)
Definition jwt_toy_world : cc_world :=
  let find {P} (m : jwt_family -> cc_lib_manager P) suffix url :=
    if str_eqb url (type_url ("JwtEcdsa" ++ suffix)) then Some (m ES) else if str_eqb url (type_url ("JwtRsaSsaPkcs1" ++ suffix)) then Some (m RS) else
    if str_eqb url (type_url ("JwtRsaSsaPss" ++ suffix)) then Some (m PS) else None in
  mk_cc_world (StOk tt) (StOk tt) (StOk tt) (cw_aead sym_toy_world) (cw_daead sym_toy_world) (cw_hybrid_decrypt sym_toy_world) (cw_hybrid_encrypt sym_toy_world)
    (fun url => if str_eqb url (type_url "JwtHmacKey") then Some (jwt_mac_manager sym_toy toy_draw) else None) (cw_prf sym_toy_world)
    (find (jwt_sign_cc_manager toy_ec toy_sig 1%N) "PrivateKey") (find (jwt_verify_cc_manager toy_ec toy_sig) "PublicKey") (cw_streaming sym_toy_world).
Lemma toy_jwt_world : jwt_world sym_toy toy_draw toy_ec toy_sig 1%N jwt_toy_world.
Proof. split; [reflexivity |]. intros []; split; reflexivity. Qed.
Lemma toy_jwt_ready : forall p, p = JwtMac \/ p = JwtSignature -> cc_ready jwt_toy_world p.
Proof.
  intros p [-> | ->]; (split; [reflexivity |]); intros name c b H; repeat (destruct H as [H | H]; [injection H as <- <- <-; do 2 eexists; reflexivity |]); contradiction.
Qed.
Definition jwt_toy_registry : registry := fst (setup_run jwt_toy_world stream_env 0 [CallJwtMac; CallJwtSignature] empty_registry).
Lemma toy_jwt_configured : configured jwt_toy_world stream_env JwtMac jwt_toy_registry /\ configured jwt_toy_world stream_env JwtSignature jwt_toy_registry.
Proof.
  split; exists [CallJwtMac; CallJwtSignature], (snd (setup_run jwt_toy_world stream_env 0 [CallJwtMac; CallJwtSignature] empty_registry)); [exists CallJwtMac | exists CallJwtSignature].
  all: (split; [| split; [cbn; tauto | reflexivity]]); (split; [unfold jwt_toy_registry; destruct (setup_run _ _ _ _ _); reflexivity |]); (split; [| intros c [<- | [<- | []]]; exact I]).
  all: intros c q [<- | [<- | []]] Hq; cbn in Hq; subst q; apply toy_jwt_ready; tauto.
Qed.
(** Two HMAC keys: a new one, TINK, and one with a custom kid, RAW *)
Definition jwt_made {P} (m : cc_lib_manager P) (n : nat) (rnd : coins) : key_data :=
  match nth_error jwt_templates n with
  | Some (_, Ok t) => match cl_new_key_data m rnd (kt_value t) with StOk d => d | _ => mk_key_data [] [] 0 end
  | _ => mk_key_data [] [] 0
  end.
Definition hs_a : key := mk_key (Some (jwt_made (jwt_mac_manager sym_toy toy_draw) 0 5%N)) ENABLED 42 TINK.
Definition hs_secret_a : jwt_hmac_secret := mk_jwt_hmac_secret M_CcAes.SHA256 (toy_draw 10%N 32) None.
Definition hs_b : key := mk_key (Some (mk_key_data (type_url "JwtHmacKey")
  (serialize_message JwtHmacKey [Some (VNum 0); Some (VNum 1); Some (VBytes (repeat x02 32)); Some (VMsg [Some (VString (ulit "kid-1"))])]) SYMMETRIC)) ENABLED 43 RAW.
Definition hs_secret_b : jwt_hmac_secret := mk_jwt_hmac_secret M_CcAes.SHA256 (repeat x02 32) (Some (ulit "kid-1")).
Definition es_a : key := mk_key (Some (jwt_made (jwt_sign_cc_manager toy_ec toy_sig 1%N ES) 8 5%N)) ENABLED 52 TINK.
Definition rs_b : key := mk_key (Some (jwt_made (jwt_sign_cc_manager toy_ec toy_sig 1%N RS) 13 6%N)) ENABLED 53 RAW.
Example C94_world_met : jwt_world sym_toy toy_draw toy_ec toy_sig 1%N jwt_toy_world /\ hmac_size_law sym_toy /\ random_law toy_draw /\
  ec_laws toy_ec sym_toy /\ sig_laws toy_ec toy_sig /\ rsa_sizes toy_sig /\ float_codec (pe_rt stream_env) /\ float_times_ok (pe_rt stream_env) /\
  configured jwt_toy_world stream_env JwtMac jwt_toy_registry /\ configured jwt_toy_world stream_env JwtSignature jwt_toy_registry.
Proof.
  split; [exact toy_jwt_world |]. split; [apply sym_toy_laws |]. split; [intros n s H; unfold toy_draw; rewrite repeat_length; lia |]. do 3 (split; [first [exact toy_ec_laws | exact toy_sig_laws | exact toy_rsa_sizes] |]).
  split; [exact toy_float_codec |]. split; [exact toy_float_times_ok |]. exact toy_jwt_configured.
Qed.
Lemma short_size : forall x, Nat.ltb (length x) 1000 = true -> proto_size x.
Proof. intros x H. apply Nat.ltb_lt in H. unfold proto_size. change (2 ^ 31)%N with 2147483648%N. lia. Qed.
Example C94_mac_hypotheses_met : let ks := mk_keyset 42 [hs_a; hs_b] in let l := [(hs_a, hs_secret_a); (hs_b, hs_secret_b)] in
  jwt_keyset is_jwt_hmac jwt_hmac_ok ks l /\ is_primary ks l hs_a hs_secret_a /\
  ordinary_jwt toy_rt toy_jwt /\ well_typed toy_jwt /\ same_but_empty_type toy_jwt toy_jwt.
Proof.
  cbv zeta. split; [| split; [split; [left; reflexivity | reflexivity] |]; split; [exact toy_ordinary |]; split; [exact toy_well_typed | exact toy_same]].
  split; [apply validate_keyset_ok; vm_compute; reflexivity |]. split; [reflexivity |]. repeat apply Forall_cons; [| | apply Forall_nil]; cbn [fst snd].
  - assert (W : wf_key_data (k_key_data hs_a)) by (split; [apply low_text | apply low_int]; vm_compute; reflexivity). split; [exact W |]. split; [apply short_size; vm_compute; reflexivity |].
    split; [| split; [unfold jwt_hmac_ok; apply Nat.leb_le; vm_compute; reflexivity | apply kid_exists; [right; reflexivity | reflexivity]]].
    split; [vm_compute; reflexivity |]. eexists. split; [vm_compute; reflexivity |]. split; [vm_compute; reflexivity |]. split; [eexists; split; [vm_compute; reflexivity | cbn; tauto] |]. split; [vm_compute; reflexivity |]. split; reflexivity.
  - assert (W : wf_key_data (k_key_data hs_b)) by (split; [apply low_text | apply low_int]; vm_compute; reflexivity). split; [exact W |]. split; [apply short_size; vm_compute; reflexivity |].
    split; [| split; [unfold jwt_hmac_ok; apply Nat.leb_le; vm_compute; reflexivity | apply kid_exists; [left; reflexivity | reflexivity]]].
    split; [vm_compute; reflexivity |]. eexists. split; [vm_compute; reflexivity |]. split; [vm_compute; reflexivity |]. split; [eexists; split; [vm_compute; reflexivity | cbn; tauto] |]. split; [vm_compute; reflexivity |]. split; reflexivity.
Qed.
Lemma jwt_made_private : forall n rnd name f, nth_error jwt_template_formats n = Some (name, SigKind f) -> let d := jwt_made (jwt_sign_cc_manager toy_ec toy_sig 1%N (jwt_format_family f)) n rnd in
  exists q, is_jwt_private d q /\ good_private toy_ec toy_sig (private_scheme q) /\ matching toy_ec toy_sig (private_scheme q) /\ kd_key_material_type d = ASYMMETRIC_PRIVATE /\ valid_private (private_scheme q) /\
    wf_key_data d /\ proto_size (serialize_key_data d) /\ forall k, k_key_data k = d -> jwt_public_fits toy_ec toy_sig 1%N k.
Proof.
  intros n rnd name f E. assert (T : exists t, nth_error jwt_templates n = Some (name, Ok t) /\ asks_for_jwt (kt_type_url t) (kt_value t) f /\ jwt_format_ok f /\ jwt_format_size_ok f).
  { pose proof jwt_cc_templates as F. revert n E. induction F as [| (a & r) (b & g) x y H F IH]; intros [| n] E; try discriminate E; cbn [nth_error] in *; [| exact (IH n E)].
    injection E as -> ->. destruct H as (EA & t & E & (A & OK & SZ) & _). cbn [fst snd] in *. subst a r. exists t. auto. }
  destruct T as (t & ET & A & OK & SZ). rewrite (proj1 A) in A.
  destruct (jwt_cc_new_key toy_ec sym_toy toy_sig 1%N rnd _ f toy_ec_laws toy_sig_laws A OK SZ) as (d & ND & _ & MT & H). destruct (new_jwt_sizes _ _ _ _ rnd _ f d toy_ec_laws toy_sig_laws toy_rsa_sizes A OK SZ ND) as (S & S' & W & PF).
  assert (M : jwt_made (jwt_sign_cc_manager toy_ec toy_sig 1%N (jwt_format_family f)) n rnd = d) by (unfold jwt_made; rewrite ET, ND; reflexivity). cbv zeta. rewrite M. destruct (H S) as (q & K & _ & G & MA).
  exists q. split; [exact K |]. split; [exact G |]. split; [exact MA |]. split; [exact MT |]. split; [apply jwt_valid_private; rewrite scheme_of_public; apply G |]. auto.
Qed.
Example C94_signature_hypotheses_met :
  exists qa qb, let ks := mk_keyset 53 [es_a; rs_b] in let l := [(es_a, qa); (rs_b, qb)] in
    valid_keyset ks /\ all_jwt_private ks l /\ jwt_keyset is_jwt_private (fun q => good_private toy_ec toy_sig (private_scheme q)) ks l /\ enabled_ones l = l /\
    matching toy_ec toy_sig (private_scheme qa) /\ matching toy_ec toy_sig (private_scheme qb) /\ is_primary ks l rs_b qb /\
    (forall k, In k (ks_key ks) -> k_output_prefix_type k <> UNKNOWN_PREFIX /\ k_status k <> UNKNOWN_STATUS) /\
    (forall k, In k (ks_key ks) -> jwt_public_fits toy_ec toy_sig 1%N k) /\
    exists ph l', public_keyset_handle jwt_toy_registry (mk_handle ks) = Ok ph /\ Forall2 jwt_public_half l l' /\ jwt_keyset is_jwt_public (fun q => good_public toy_ec (scheme q)) (kh_keyset ph) l' /\
      exists k', In (k', jwt_public_of qb) l' /\ k_key_id k' = 53%N /\ k_output_prefix_type k' = RAW.
Proof.
  destruct (jwt_made_private 8 5%N _ _ eq_refl) as (qa & A1 & A2 & AM & A3 & A4 & A5 & A6 & A7). destruct (jwt_made_private 13 6%N _ _ eq_refl) as (qb & B1 & B2 & BM & B3 & B4 & B5 & B6 & B7). cbn [jwt_format_family] in *.
  exists qa, qb. cbv zeta.
  assert (V : valid_keyset (mk_keyset 53 [es_a; rs_b])) by (apply validate_keyset_ok; vm_compute; reflexivity).
  assert (KA : exists kid, kid_of es_a kid) by (apply kid_exists; [right; reflexivity | reflexivity]).
  assert (KB : exists kid, kid_of rs_b kid) by (apply kid_exists; [left; reflexivity | reflexivity]).
  assert (KS : jwt_keyset is_jwt_private (fun q => good_private toy_ec toy_sig (private_scheme q)) (mk_keyset 53 [es_a; rs_b]) [(es_a, qa); (rs_b, qb)]).
  { split; [exact V |]. split; [reflexivity |]. repeat apply Forall_cons; [| | apply Forall_nil]; cbn [fst snd k_key_data k_key_data_opt]; repeat (split; [assumption |]); assumption. }
  assert (AL : all_jwt_private (mk_keyset 53 [es_a; rs_b]) [(es_a, qa); (rs_b, qb)]).
  { split; [reflexivity |]. repeat apply Forall_cons; [| | apply Forall_nil]; cbn [fst snd k_key_data k_key_data_opt]; repeat (split; [assumption |]); assumption. }
  assert (KN : forall k, In k [es_a; rs_b] -> k_output_prefix_type k <> UNKNOWN_PREFIX /\ k_status k <> UNKNOWN_STATUS) by (intros k [<- | [<- | []]]; split; discriminate).
  assert (PF : forall k, In k [es_a; rs_b] -> jwt_public_fits toy_ec toy_sig 1%N k) by (intros k [<- | [<- | []]]; [apply A7 | apply B7]; reflexivity).
  split; [exact V |]. split; [exact AL |]. split; [exact KS |]. split; [reflexivity |]. split; [exact AM |]. split; [exact BM |]. split; [split; [right; left; reflexivity | reflexivity] |].
  split; [exact KN |]. split; [exact PF |].
  destruct (jwt_public_handle _ _ toy_ec toy_sig 1%N jwt_toy_world stream_env jwt_toy_registry _ _ toy_jwt_world (proj2 toy_jwt_configured) V AL KN PF) as (ph & l' & E & PI & _ & F2 & _ & H).
  specialize (H KS). exists ph, l'. split; [exact E |]. split; [exact F2 |].
  inversion F2 as [| x1 y1 t1 t2 HA F3]. subst. inversion F3 as [| x2 y2 t3 t4 HB F4]. subst. inversion F4. subst. destruct y1 as (k1 & q1), y2 as (k2 & q2). destruct HA as (S1 & _). destruct HB as (S2 & I2 & T2 & _ & Q2). cbn [fst snd] in *. subst q2.
  unfold enabled_ones in H. cbn [filter fst] in H. rewrite S1, S2 in H. split; [exact H |]. exists k2. split; [right; left; reflexivity |]. auto.
Qed.
(** Runs: tokens made after the primary key changed are accepted by the handle from before; a
    changed token is not. *)
Definition toy_validator : jwt_validator :=
  mk_jwt_validator None (Some (ulit "me")) (Some (ulit "b")) true false false false false 0 (Some (mk_datetime true 900000000000000)).
Definition verified (x : result verified_jwt) : bool := match x with Ok _ => true | Err _ => false end.
Definition is_err {A} (x : result A) : bool := match x with Ok _ => false | Err _ => true end.
Definition mac_runs (from to : N) : bool :=
  match handle_primitive jwt_toy_registry (mk_handle (mk_keyset from [hs_a; hs_b])) ClsJwtMac, handle_primitive jwt_toy_registry (mk_handle (mk_keyset to [hs_a; hs_b])) ClsJwtMac with
  | Ok (PrimJwtMac a), Ok (PrimJwtMac b) =>
      match jm_compute b toy_jwt with Ok token => verified (jm_verify a 0 token toy_validator) && is_err (jm_verify a 0 (token ++ ulit "A")%list toy_validator) | _ => false end
  | _, _ => false
  end%bool.
Definition signature_runs (from to : N) : bool :=
  match public_keyset_handle jwt_toy_registry (mk_handle (mk_keyset from [es_a; rs_b])) with
  | Ok ph =>
      match handle_primitive jwt_toy_registry ph ClsJwtVerify, handle_primitive jwt_toy_registry (mk_handle (mk_keyset to [es_a; rs_b])) ClsJwtSign with
      | Ok (PrimJwtVerify v), Ok (PrimJwtSign s) =>
          match js_sign s 9%N toy_jwt with Ok token => verified (jv_verify v 0 token toy_validator) && is_err (jv_verify v 0 (token ++ ulit "A")%list toy_validator) | _ => false end
      | _, _ => false
      end
  | _ => false
  end%bool.
Example C94_mac_runs : (mac_runs 42 43 && mac_runs 43 42)%bool = true.
Proof. vm_compute. reflexivity. Qed.
Example C94_signature_runs : (signature_runs 52 53 && signature_runs 53 52)%bool = true.
Proof. vm_compute. reflexivity. Qed.
