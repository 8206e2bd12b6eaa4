(** C67: the JWT example programs: signing, publishing the JWK set, verifying. *)
From Coq Require Import Strings.Byte Strings.String List NArith ZArith Bool Lia.
From Verif Require Import M_Base M_Utf8 M_Proto M_Wire M_Prims M_PrimitiveSet M_Registry M_KeysetHandle M_KeysetIO
  M_Json M_JwtTypes M_JwtKeys M_Jwk M_StreamTypes M_CcStream M_CcManagers M_Cli.
From Verif Require Import S_Keyset S_Handle S_Wire S_Json S_JsonKeyset S_Jwt S_JwtKeys S_Jwk S_Config S_CcLaws S_Cli S_CliJwt.
From Verif Require Import L_Base L_Utf8 L_Wire L_Jwt L_Jwt3 L_Jwt5 L_Cli L_Cli5 L_Cli7.
From Verif Require Import X_Toy L_Toy X_Rt X_Jwt X_Config P_JsonKeyset P_Config P_Jwt P_Jwk P_JwkVerify P_Cli.
Import ListNotations.
Open Scope string_scope.
Open Scope list_scope.

(** The token that the signing program writes. *)
Theorem C67_sign : forall w env pb o rnd now path audience out fs ks k alg ck q kid,
  cc_ready w JwtSignature -> float_codec (pe_rt env) -> python_digit_limit (pe_rt env) ->
  holds_keyset (pe_rt env) fs path ks -> jwt_sign_keyset w ks ->
  In k (enabled_keys ks) -> k_key_id k = ks_primary_key_id ks -> cc_jwt_sign_key w k alg ck q ->
  kid_of k kid -> ck = None \/ kid = None ->
  valid_unicode audience -> (0 <= now + 100000000 <= max_timestamp * 1000000)%Z -> may_write o out = true ->
  exists r signed header payload h,
    signed_claims audience (now + 100000000) r /\
    document (pe_rt env) (JDict h) header /\
    header_of alg (match ck with Some c => Some c | None => kid end) None h /\
    document (pe_rt env) (JDict (rj_payload r)) payload /\
    match cs_sign q rnd signed with
    | StOk tag => exists token, compact_parts token signed header payload tag /\
        writes_text (jwt_sign_cli w env pb o rnd now path audience out fs) out token fs
    | StErr _ => fails (jwt_sign_cli w env pb o rnd now path audience out fs) fs
    end.
Proof. exact jwt_sign_cli_spec. Qed.
Print Assumptions C67_sign.

(** The JWK set that the publishing program writes, and when it writes nothing. *)
Theorem C67_jwk : forall w env pb o pub out fs ks, cc_ready w JwtSignature -> float_codec (pe_rt env) ->
  holds_keyset (pe_rt env) fs pub ks -> proto_size (serialize_keyset ks) -> may_write o out = true ->
  (exists text, ~ has_secret ks /\ jwk_set_text (pe_rt env) ks text /\
     writes_text (jwt_generate_public_jwk_set w env pb o pub out fs) out text fs) \/
  ((has_secret ks \/ ~ exists text, jwk_set_text (pe_rt env) ks text) /\
   fails (jwt_generate_public_jwk_set w env pb o pub out fs) fs).
Proof. exact jwk_cli_spec. Qed.
Print Assumptions C67_jwk.
Theorem C67_jwk_published : forall w env pb o pub out fs ks, cc_ready w JwtSignature -> float_codec (pe_rt env) ->
  holds_keyset (pe_rt env) fs pub ks -> proto_size (serialize_keyset ks) -> may_write o out = true ->
  jwt_verify_keyset w ks -> publishable ks ->
  exists text, jwk_set_text (pe_rt env) ks text /\
    writes_text (jwt_generate_public_jwk_set w env pb o pub out fs) out text fs.
Proof. exact jwk_cli_publishes. Qed.
Print Assumptions C67_jwk_published.

(** The exit status of the verifying program. *)
Theorem C67_verify : forall w env pb o pub out fs0 ks draws clock jwk audience token fs x run,
  cc_ready w JwtSignature -> float_codec (pe_rt env) -> float_times_ok (pe_rt env) -> representable clock ->
  holds_keyset (pe_rt env) fs0 pub ks -> proto_size (serialize_keyset ks) -> may_write o out = true ->
  jwt_verify_keyset w ks -> jwk_verifies_the_same w ks ->
  fst (jwt_generate_public_jwk_set w env pb o pub out fs0) = Ok 0%Z ->
  copied (jwt_generate_public_jwk_set w env pb o pub out fs0) out fs jwk ->
  content fs jwk = Some x -> (N.of_nat (length x) < 2 ^ 23)%N ->
  jwt_verify_cli w env draws clock jwk audience token fs = Some run ->
  same_files fs (snd run) /\
  (fst run = Ok 0%Z <-> exists t, holds_text fs token t /\ published_key_accepts (pe_rt env) w ks clock audience t).
Proof. exact jwt_verify_cli_spec. Qed.
Print Assumptions C67_verify.
Theorem C67_verify_ends : forall w env pb o pub out fs0 ks clock jwk audience token fs x ids,
  cc_ready w JwtSignature -> float_codec (pe_rt env) ->
  holds_keyset (pe_rt env) fs0 pub ks -> proto_size (serialize_keyset ks) -> may_write o out = true ->
  fst (jwt_generate_public_jwk_set w env pb o pub out fs0) = Ok 0%Z ->
  copied (jwt_generate_public_jwk_set w env pb o pub out fs0) out fs jwk ->
  content fs jwk = Some x -> (N.of_nat (length x) < 2 ^ 23)%N ->
  enabled_keys ks <> [] -> length ids = length (enabled_keys ks) -> NoDup ids ->
  Forall (fun id => (1 <= id <= 2147483647)%N) ids ->
  exists draws run, jwt_verify_cli w env draws clock jwk audience token fs = Some run.
Proof. exact jwt_verify_cli_ends. Qed.
Print Assumptions C67_verify_ends.

(** The three programs, one after the other. *)
Theorem C67_pipeline : forall w env pb o rnd now priv audience out1 fs1 ks1 k1 alg ck q1 kid pub out2 fs2 ks2 k2 q2
    draws clock jwk token fs x run,
  cc_ready w JwtSignature -> float_codec (pe_rt env) -> python_digit_limit (pe_rt env) -> float_times_ok (pe_rt env) ->
  (* the signing run *)
  holds_keyset (pe_rt env) fs1 priv ks1 -> jwt_sign_keyset w ks1 ->
  In k1 (enabled_keys ks1) -> k_key_id k1 = ks_primary_key_id ks1 -> cc_jwt_sign_key w k1 alg ck q1 ->
  kid_of k1 kid -> ck = None \/ kid = None ->
  valid_unicode audience -> (0 <= now + 100000000 <= max_timestamp * 1000000)%Z -> may_write o out1 = true ->
  fst (jwt_sign_cli w env pb o rnd now priv audience out1 fs1) = Ok 0%Z ->
  (* the publishing run *)
  holds_keyset (pe_rt env) fs2 pub ks2 -> proto_size (serialize_keyset ks2) -> may_write o out2 = true ->
  jwt_verify_keyset w ks2 -> jwk_verifies_the_same w ks2 ->
  fst (jwt_generate_public_jwk_set w env pb o pub out2 fs2) = Ok 0%Z ->
  (* the public key of the signing key is in the published keyset *)
  In k2 (enabled_keys ks2) -> cc_jwt_verify_key w k2 alg ck q2 -> kid_of k2 kid ->
  (forall rnd data tag, cs_sign q1 rnd data = StOk tag -> cv_verify q2 tag data = StOk tt) ->
  (* the verifying run, with the two files, before the expiration *)
  copied (jwt_sign_cli w env pb o rnd now priv audience out1 fs1) out1 fs token ->
  copied (jwt_generate_public_jwk_set w env pb o pub out2 fs2) out2 fs jwk ->
  content fs jwk = Some x -> (N.of_nat (length x) < 2 ^ 23)%N ->
  representable clock -> (clock < (now + 100000000) / 1000000 * 1000000)%Z ->
  jwt_verify_cli w env draws clock jwk audience token fs = Some run -> fst run = Ok 0%Z.
Proof. exact jwt_sign_then_verify. Qed.
Print Assumptions C67_pipeline.

(** ** The hypotheses can be met *)

(** A C++ library in which a signature is the tag of [toy_jwt_tag], the key being the
    field 3 of the public key. *)
Definition jwt_manager {P} (parse : bytes -> option jwt_public_key) (mk : bytes -> P) (url : pystr) : option (cc_lib_manager P) :=
  Some (mk_cc_lib_manager url
    (fun d => match parse (kd_value d) with Some m => StOk (mk (jpk_3 m)) | None => StErr (NotOk "no key") end)
    (fun _ _ => StErr (NotOk "toy")) None).
Definition jwt_world : cc_world :=
  let w := X_Config.toy_world in
  mk_cc_world (StOk tt) (StOk tt) (StOk tt) (cw_aead w) (cw_daead w) (cw_hybrid_decrypt w) (cw_hybrid_encrypt w)
    (cw_mac w) (cw_prf w)
    (jwt_manager parse_jwt_private_key (fun k => mk_cc_signer (fun _ d => StOk (toy_jwt_tag k d))))
    (jwt_manager parse_jwt_public_key (fun k => mk_cc_verifier (fun t d => status (toy_jwt_check k t d))))
    (cw_streaming w).
Lemma jwt_world_ready : cc_ready jwt_world JwtSignature.
Proof.
  split.
  - try exact eq_refl; split; exact eq_refl.
  - intros name c b Hin. cbn in Hin.
    repeat (destruct Hin as [Hin | Hin]; [injection Hin as <- <- <-; do 2 eexists; reflexivity |]). contradiction.
Qed.

(** In this library, of every keyset. *)
Lemma jwt_world_same : forall ks, jwk_verifies_the_same jwt_world ks.
Proof.
  intros ks k k' alg ck q Hin (m & kid & type & Hm & Hkid & Hu & (_ & _ & value & Hv & Hd)) Hw Hs
    (_ & _ & f & t & m0 & c & Hf & Hu0 & Hm0 & Ha & _ & Hl & Hq).
  rewrite Hm in Hm0. apply some_inj in Hm0. subst m0.
  exists kid, q. split; [| intros tag data; reflexivity].
  assert (Et : ulit ("type.googleapis.com/google.crypto.tink." ++ type) = type_url t) by congruence.
  split; [exact Hw |]. split; [exact Hs |].
  exists f, t, (mk_jwt_public_key 0 (jpk_algorithm m) (jpk_3 m) (jpk_4 m) kid), c.
  unfold k_key_data. rewrite Hd. cbn [kd_type_url kd_value jpk_algorithm jpk_custom_kid].
  split; [exact Hf |]. split; [exact Et |]. split; [exact Hv |]. split; [exact Ha |]. split; [reflexivity |]. split; [exact Hl |].
  cbn [cw_verify jwt_world] in Hl. apply some_inj in Hl. subst c. cbn [cl_get_primitive kd_value] in *.
  rewrite Hm in Hq. rewrite Hv. exact Hq.
Qed.

(** A signing keyset with a TINK key; the public keyset of the examples of C66. *)
Definition signing_key : key := toy_sign_key 2 "sign-key2" None 6 TINK.
Definition signing_keyset : keyset := mk_keyset 6 [signing_key].
Definition public_keyset : keyset := kh_keyset toy_verify_handle.
Definition at_home (keys : bytes) : files := [(p "keys.json", keys)].
Definition sign_run (keys : bytes) :=
  jwt_sign_cli jwt_world toy_env new_pb everywhere 0%N 1700000000123456 (p "keys.json") (p "shop") (p "token") (at_home keys).
Definition publish_run (keys : bytes) :=
  jwt_generate_public_jwk_set jwt_world toy_env new_pb everywhere (p "keys.json") (p "jwk") (at_home keys).
Definition received (jwk token : bytes) : files := [(p "set", jwk); (p "jwt", token)].
Definition verify_run (draws : list (list N)) (clock : Z) (audience : string) (jwk token : bytes) :=
  jwt_verify_cli jwt_world toy_env draws clock (p "set") (p audience) (p "jwt") (received jwk token).

Lemma signing_wf : wf_keyset signing_keyset.
Proof.
  split; [vmr |]. intros k [<- | []]. cbn [k_key_data_opt signing_key toy_sign_key].
  split; [intros d E; apply some_inj in E; subst d; split | repeat split; vm_compute; congruence].
  - intros x Hx. left. assert (B : forallb (fun c => (c <? 55296)%N) JWT_ECDSA_PRIVATE_KEY_TYPE = true) by (vm_compute; reflexivity).
    rewrite forallb_forall in B. apply N.ltb_lt, B, Hx.
  - vm_compute; split; congruence.
Qed.
Lemma signing_valid : valid_keyset signing_keyset.
Proof. apply (L_Handle.single_valid (k_key_data signing_key) 6%N TINK). discriminate. Qed.
Lemma public_valid : valid_keyset public_keyset.
Proof.
  split; [exists toy_v2; split; [left; reflexivity | discriminate] |].
  split; [intros k [<- | [<- | []]] _; (split; [eexists; reflexivity | split; discriminate]) |].
  assert (U : forall i, primary_positions public_keyset i -> i = 0%nat).
  { intros [| [| i]] (k & E & _ & Hp); [reflexivity | | destruct i; discriminate].
    cbn in E. apply some_inj in E. subst k. cbn in Hp. discriminate. }
  split; [intros i j Hi Hj; rewrite (U i Hi), (U j Hj); reflexivity |].
  left. exists 0%nat. exists toy_v2. repeat split.
Qed.
Lemma signing_cc : exists q, cc_jwt_sign_key jwt_world signing_key (ulit "ES384") None q /\
  forall rnd data, cs_sign q rnd data = StOk (toy_jwt_tag (blit "sign-key2") data).
Proof.
  exists (mk_cc_signer (fun _ d => StOk (toy_jwt_tag (blit "sign-key2") d))). split; [| intros rnd data; reflexivity].
  split; [apply (proj2 signing_wf signing_key (or_introl eq_refl)); reflexivity |]. split; [vmr |].
  exists "ES", "JwtEcdsaPrivateKey", (toy_public 2 "sign-key2" None). eexists.
  split; [left; reflexivity |]. split; [reflexivity |]. split; [vmr |].
  split; [right; left; split; reflexivity |]. split; [reflexivity |]. split; [reflexivity |].
  cbn [cl_get_primitive].
  assert (E : parse_jwt_private_key (kd_value (k_key_data signing_key)) = Some (toy_public 2 "sign-key2" None)) by vmr.
  rewrite E. reflexivity.
Qed.
Lemma public_cc : forall a v kid id prefix n, wf_key_data (k_key_data (toy_verify_key a v kid id prefix)) ->
  proto_size (serialize_key_data (k_key_data (toy_verify_key a v kid id prefix))) ->
  parse_jwt_public_key (kd_value (k_key_data (toy_verify_key a v kid id prefix))) = Some (toy_public a v kid) ->
  names_algorithm "ES" a n ->
  exists q, cc_jwt_verify_key jwt_world (toy_verify_key a v kid id prefix) n (option_map ulit kid) q /\
    forall tag data, cv_verify q tag data = status (toy_jwt_check (blit v) tag data).
Proof.
  intros a v kid id prefix n Hw Hs Hp Ha. exists (mk_cc_verifier (fun t d => status (toy_jwt_check (blit v) t d))). split; [| intros tag data; reflexivity].
  split; [exact Hw |]. split; [exact Hs |].
  exists "ES", "JwtEcdsaPublicKey", (toy_public a v kid). eexists.
  split; [left; reflexivity |]. split; [reflexivity |]. split; [exact Hp |].
  split; [exact Ha |]. split; [reflexivity |]. split; [reflexivity |].
  cbn [cl_get_primitive]. rewrite Hp. reflexivity.
Qed.
Lemma public_cc2 : exists q, cc_jwt_verify_key jwt_world toy_v2 (ulit "ES384") None q /\
  forall tag data, cv_verify q tag data = status (toy_jwt_check (blit "sign-key2") tag data).
Proof.
  apply (public_cc 2 "sign-key2" None 6 TINK); [| vmr | vmr | right; left; split; reflexivity].
  apply (proj2 toy_verify_wf toy_v2 (or_introl eq_refl)). reflexivity.
Qed.
Lemma public_cc1 : exists q, cc_jwt_verify_key jwt_world toy_v1 (ulit "ES256") (Some (ulit "abc")) q /\
  forall tag data, cv_verify q tag data = status (toy_jwt_check (blit "sign-key") tag data).
Proof.
  apply (public_cc 1 "sign-key" (Some "abc") 5 RAW); [| vmr | vmr | left; split; reflexivity].
  apply (proj2 toy_verify_wf toy_v1 (or_intror (or_introl eq_refl))). reflexivity.
Qed.
Lemma public_jwt : jwt_verify_keyset jwt_world public_keyset.
Proof.
  destruct public_cc1 as (q1 & H1 & _). destruct public_cc2 as (q2 & H2 & _).
  intros k Hi. apply filter_In in Hi. destruct Hi as ([<- | [<- | []]] & _).
  - split; [right; reflexivity |]. eauto.
  - split; [left; reflexivity |]. eauto.
Qed.
Lemma kid6 : forall k, k_key_id k = 6%N -> k_output_prefix_type k = TINK -> kid_of k (Some (ulit "AAAABg")).
Proof.
  intros k Hi Ht. apply get_kid_ok. rewrite Hi, Ht. vm_compute. reflexivity.
Qed.

(** The clock reads 1700000000.123456 when the token is made. The token is good until
    1700000100, for this audience. *)
Example C67_pipeline_met : exists priv pub token jwk,
  writes (sign_run priv) (p "token") token (at_home priv) /\
  writes (publish_run pub) (p "jwk") jwk (at_home pub) /\
  (exists draws run, verify_run draws 1700000099999999 "shop" jwk token = Some run) /\
  (forall draws run, verify_run draws 1700000099999999 "shop" jwk token = Some run -> fst run = Ok 0%Z) /\
  (forall draws run, verify_run draws 1700000100000000 "shop" jwk token = Some run -> fst run <> Ok 0%Z) /\
  (forall draws run, verify_run draws 1700000099999999 "bank" jwk token = Some run -> fst run <> Ok 0%Z).
Proof.
  destruct (written_keyset_holds toy_rt signing_keyset toy_limit signing_wf signing_valid) as (t1 & x1 & _ & _ & W1).
  destruct (written_keyset_holds toy_rt public_keyset toy_limit toy_verify_wf public_valid) as (t2 & x2 & _ & _ & W2).
  destruct P_Jwt.toy_world as (_ & _ & _ & _ & _ & _ & Hc & Hf & _).
  destruct signing_cc as (q & Hq & Hs). destruct public_cc2 as (q2 & Hq2 & Hv2).
  assert (Hk : jwt_sign_keyset jwt_world signing_keyset).
  { intros k Hi. apply filter_In in Hi. destruct Hi as ([<- | []] & _). split; [right; reflexivity |]. eauto. }
  assert (Hi1 : In signing_key (enabled_keys signing_keyset)) by (left; reflexivity).
  assert (Hi2 : In toy_v2 (enabled_keys public_keyset)) by (left; reflexivity).
  assert (Hsz : proto_size (serialize_keyset public_keyset)) by vmr.
  assert (Hval : valid_unicode (p "shop")) by (apply Forall_forall; intros c Hi; vm_compute in Hi; lia).
  assert (Hnow : (0 <= 1700000000123456 + 100000000 <= max_timestamp * 1000000)%Z) by (vm_compute; split; congruence).
  assert (Hpub : publishable public_keyset).
  { split; [| intros k Hi; apply filter_In in Hi; destruct Hi as ([<- | [<- | []]] & _); reflexivity].
    intros (k & [<- | [<- | []]] & H); vm_compute in H; intuition discriminate. }
  exists x1, x2.
  destruct (C67_sign jwt_world toy_env new_pb everywhere 0%N 1700000000123456 (p "keys.json") (p "shop") (p "token") (at_home x1)
    signing_keyset signing_key (ulit "ES384") None q (Some (ulit "AAAABg")) jwt_world_ready Hc toy_limit
    (W1 (at_home x1) (p "keys.json") eq_refl) Hk Hi1 eq_refl Hq (kid6 signing_key eq_refl eq_refl) (or_introl eq_refl) Hval Hnow eq_refl)
    as (r & signed & header & payload & h & Hsc & Hdh & Hho & Hdp & S).
  rewrite Hs in S. destruct S as (tok & Hcp & (xt & Ext & Hwt)).
  exists xt.
  destruct (jwk_cli_run jwt_world toy_env new_pb everywhere (p "keys.json") (p "jwk") (at_home x2) public_keyset
    jwt_world_ready Hc (W2 (at_home x2) (p "keys.json") eq_refl) Hsz eq_refl) as [(text & Ej & Hg & _ & (xj & Exj & Hwj)) | (_ & F)].
  2:{ exfalso. destruct (C67_jwk_published jwt_world toy_env new_pb everywhere (p "keys.json") (p "jwk") (at_home x2) public_keyset
    jwt_world_ready Hc (W2 (at_home x2) (p "keys.json") eq_refl) Hsz eq_refl public_jwt Hpub) as (text & _ & (xj & _ & (E & _))).
      destruct F as (F & _). rewrite E in F. discriminate. }
  exists xj.
  assert (Hlen : (N.of_nat (length xj) < 2 ^ 23)%N).
  { rewrite (ascii_length _ _ (proj1 (graphic_plain _ Hg)) Exj).
    assert (Et : from_public_keyset_handle toy_rt toy_verify_handle = Ok published) by vmr.
    change (from_public_keyset_handle toy_rt toy_verify_handle = Ok text) in Ej. rewrite Et in Ej. apply ok_inj in Ej. subst text. vmr. }
  assert (Hcj : copied (publish_run x2) (p "jwk") (received xj xt) (p "set")) by (symmetry; apply (proj2 Hwj)).
  assert (Hct : copied (sign_run x1) (p "token") (received xj xt) (p "jwt")) by (symmetry; apply (proj2 Hwt)).
  split; [exact Hwt |]. split; [exact Hwj |]. split; [| split].
  - apply (C67_verify_ends jwt_world toy_env new_pb everywhere (p "keys.json") (p "jwk") (at_home x2) public_keyset 1700000099999999
      (p "set") (p "shop") (p "jwt") (received xj xt) xj [7; 9]%N jwt_world_ready Hc (W2 (at_home x2) (p "keys.json") eq_refl) Hsz eq_refl
      (proj1 Hwj) Hcj eq_refl Hlen ltac:(discriminate) eq_refl).
    + constructor; [intros [E | []]; discriminate |]. constructor; [intros [] | constructor].
    + constructor; [lia |]. constructor; [lia | constructor].
  - intros draws run Hr.
    refine (C67_pipeline jwt_world toy_env new_pb everywhere 0%N 1700000000123456 (p "keys.json") (p "shop") (p "token") (at_home x1)
      signing_keyset signing_key (ulit "ES384") None q (Some (ulit "AAAABg")) (p "keys.json") (p "jwk") (at_home x2) public_keyset toy_v2 q2
      draws 1700000099999999 (p "set") (p "jwt") (received xj xt) xj run jwt_world_ready Hc toy_limit Hf
      (W1 (at_home x1) (p "keys.json") eq_refl) Hk Hi1 eq_refl Hq (kid6 signing_key eq_refl eq_refl) (or_introl eq_refl) Hval Hnow eq_refl
      (proj1 Hwt) (W2 (at_home x2) (p "keys.json") eq_refl) Hsz eq_refl public_jwt (jwt_world_same _) (proj1 Hwj)
      Hi2 Hq2 (kid6 toy_v2 eq_refl eq_refl) _ Hct Hcj eq_refl Hlen _ eq_refl Hr).
    + intros rnd data tag E. rewrite Hs in E. injection E as <-. rewrite Hv2. unfold toy_jwt_check. rewrite bytes_eqb_refl. reflexivity.
    + vm_compute. split; congruence.
  - assert (No : forall draws clock audience run, representable clock ->
      verify_run draws clock audience xj xt = Some run -> fst run = Ok 0%Z -> (clock < 1700000100000000)%Z /\ p audience = p "shop").
    { intros draws clock audience run Hclk Hr E0.
      destruct (C67_verify jwt_world toy_env new_pb everywhere (p "keys.json") (p "jwk") (at_home x2) public_keyset draws clock
        (p "set") (p audience) (p "jwt") (received xj xt) xj run jwt_world_ready Hc Hf Hclk (W2 (at_home x2) (p "keys.json") eq_refl) Hsz eq_refl
        public_jwt (jwt_world_same _) (proj1 Hwj) Hcj eq_refl Hlen Hr) as (_ & V).
      apply V in E0. destruct E0 as (t & (y & Ey & Et) & k & alg & ck & q' & tk & r' & _ & _ & _ & A).
      cbn in Ey. apply some_inj in Ey. subst y.
      assert (t = tok) by (apply L_Utf8.utf8_decode_encode in Et, Ext; congruence). subst t.
      destruct A as (signed' & header' & payload' & tag' & h' & Hcp' & _ & _ & _ & _ & Hdp' & _ & (Hx & _ & _ & _ & _ & Hau)).
      destruct (compact_parts_fun _ _ _ _ _ _ _ _ _ Hcp' Hcp) as (_ & _ & -> & _).
      apply document_iff in Hdp, Hdp'. rewrite Hdp in Hdp'. apply ok_inj in Hdp'. injection Hdp' as Hpl.
      destruct Hsc as (_ & s & (Hsec & _) & Hm). destruct (Hsec ltac:(lia)) as (_ & Hs1 & _).
      rewrite (Hs1 ltac:(reflexivity)) in Hm. cbn in Hau, Hx. split.
      - destruct Hx as [(_ & Hx) | (v & us & Hv & Hu & Hlt)]; [discriminate |]. unfold has_value in Hv. rewrite <- Hpl in Hv.
        apply Hm in Hv. destruct Hv as [(E & _) | (_ & ->)]; [discriminate |]. cbn in Hu. subst us.
        change ((1700000000123456 + 100000000) / 1000000)%Z with 1700000100%Z in Hlt. lia.
      - unfold has_value in Hau. rewrite <- Hpl in Hau.
        destruct Hau as [Hau | (l & Hau & Hl)]; apply Hm in Hau; destruct Hau as [(_ & E) | (E & _)]; try discriminate.
        injection E as ->. destruct Hl as [E | []]. injection E as E. symmetry. exact E. }
    split; intros draws run Hr E0.
    + destruct (No draws 1700000100000000%Z "shop" run ltac:(unfold representable; lia) Hr E0) as (L & _). lia.
    + destruct (No draws 1700000099999999%Z "bank" run ltac:(unfold representable; lia) Hr E0) as (_ & E). discriminate.
Qed.
