(** C44, C45: JSON Web Key sets. *)
From Coq Require Import Strings.Byte Strings.String List NArith ZArith Bool Lia.
From Verif Require Import M_Base L_Base M_Proto M_Wire M_Prims M_PrimitiveSet M_Registry M_KeysetHandle M_KeysetIO
  M_JwtTypes M_Json S_Json S_Base64 S_Wire S_Keyset S_Handle L_Keyset L_Handle M_JwtKeys S_Jwt S_JwtKeys
  M_Jwk S_Jwk L_Jwk L_Jwk4 L_Jwk5 L_Jwk6 L_Jwk7 L_JsonKeyset2 X_Toy L_Toy X_Rt P_Keyset.
Import ListNotations.
Open Scope string_scope.
Open Scope list_scope.

(** * C44 *)
Theorem C44_export_exact : forall rt h, float_codec rt -> wf_keyset (kh_keyset h) ->
  proto_size (serialize_keyset (kh_keyset h)) ->
  (forall text, from_public_keyset_handle rt h = Ok text ->
     ~ has_secret (kh_keyset h) /\
     exists docs, json_text rt (JDict [(ulit "keys", JList docs)]) text /\
       Forall2 (fun k doc => exists m kid, exported_jwk k m kid doc)
         (filter is_enabled (ks_key (kh_keyset h))) docs) /\
  (~ has_secret (kh_keyset h) ->
   forall docs, Forall2 (fun k doc => exists m kid, exported_jwk k m kid doc)
                  (filter is_enabled (ks_key (kh_keyset h))) docs ->
   exists text, from_public_keyset_handle rt h = Ok text) /\
  (has_secret (kh_keyset h) -> raises_tink (from_public_keyset_handle rt h)).
Proof. exact jwk_export_spec. Qed.
Print Assumptions C44_export_exact.
Theorem C44_export_errors : forall rt h e, float_codec rt -> wf_keyset (kh_keyset h) ->
  proto_size (serialize_keyset (kh_keyset h)) ->
  (forall k, In k (ks_key (kh_keyset h)) -> k_status k = ENABLED ->
     exists m, parse_jwt_public_key (kd_value (k_key_data k)) = Some m) ->
  from_public_keyset_handle rt h = Err e -> is_tink_error e = true.
Proof. exact jwk_export_errors. Qed.
Print Assumptions C44_export_errors.
Theorem C44_round_trip : forall rt h text, float_codec rt -> wf_keyset (kh_keyset h) ->
  proto_size (serialize_keyset (kh_keyset h)) ->
  from_public_keyset_handle rt h = Ok text -> small_text text ->
  (exists k, In k (ks_key (kh_keyset h)) /\ k_status k = ENABLED) ->
  (forall draws r, to_public_keyset_handle rt draws text = Some r ->
     exists h', r = Ok h' /\
       Forall2 imported_as (filter is_enabled (ks_key (kh_keyset h))) (ks_key (kh_keyset h')) /\
       NoDup (map k_key_id (ks_key (kh_keyset h'))) /\
       exists before k, ks_key (kh_keyset h') = before ++ [k] /\
         ks_primary_key_id (kh_keyset h') = k_key_id k) /\
  (forall ids, length ids = length (filter is_enabled (ks_key (kh_keyset h))) -> NoDup ids ->
     Forall (fun id => (1 <= id <= 2147483647)%N) ids ->
     exists draws h', to_public_keyset_handle rt draws text = Some (Ok h') /\
       map k_key_id (ks_key (kh_keyset h')) = ids).
Proof. exact jwk_round_trip. Qed.
Print Assumptions C44_round_trip.
Theorem C44_round_trip_no_enabled_key : forall rt h text draws, float_codec rt -> wf_keyset (kh_keyset h) ->
  proto_size (serialize_keyset (kh_keyset h)) ->
  from_public_keyset_handle rt h = Ok text ->
  ~ (exists k, In k (ks_key (kh_keyset h)) /\ k_status k = ENABLED) ->
  exists e, to_public_keyset_handle rt draws text = Some (Err e) /\ is_tink_error e = true.
Proof. exact jwk_round_trip_none. Qed.
Print Assumptions C44_round_trip_no_enabled_key.
Theorem C44_jwk_determines_key : forall doc t t' m m', public_jwk doc t m -> public_jwk doc t' m' -> t = t' /\ m = m'.
Proof. exact public_jwk_fun. Qed.
Print Assumptions C44_jwk_determines_key.

(** An EC key with Tink prefix, a disabled key, an RSA key with a custom kid outside of
    ASCII and a version, an RSA PSS key without kid. *)
Definition jwt_url (type : string) : pystr := ulit ("type.googleapis.com/google.crypto.tink." ++ type).
Definition ec_message : jwt_public_key := mk_jwt_public_key 0 2 [x00; xff; x01] [xfb; xf0] None.
Definition rs_message : jwt_public_key := mk_jwt_public_key 5 3 [x00; x80] [x01; x00; x01] (Some [233; 34; 128512]%N).
Definition ps_message : jwt_public_key := mk_jwt_public_key 0 1 [x09] [] None.
Definition jwt_key (type : string) (m : jwt_public_key) (status : Z) (id : N) (prefix : Z) : key :=
  mk_key (Some (mk_key_data (jwt_url type) (serialize_jwt_public_key m) ASYMMETRIC_PUBLIC)) status id prefix.
Definition jwk_example : keyset :=
  mk_keyset 3422552064
    [jwt_key "JwtEcdsaPublicKey" ec_message ENABLED 3422552064 TINK;
     jwt_key "JwtEcdsaPublicKey" ec_message 2 77 TINK;
     jwt_key "JwtRsaSsaPkcs1PublicKey" rs_message ENABLED 7 RAW;
     jwt_key "JwtRsaSsaPssPublicKey" ps_message ENABLED 7 RAW].
Lemma url_valid : forall t, In t ["JwtEcdsaPublicKey"; "JwtRsaSsaPkcs1PublicKey"; "JwtRsaSsaPssPublicKey"] ->
  valid_text (jwt_url t).
Proof.
  intros t Ht c Hc. assert (H : (c < 128)%N); [| lia].
  assert (A : forallb (fun c => (c <? 128)%N) (jwt_url t) = true).
  { cbn [In] in Ht. destruct Ht as [<- | [<- | [<- | []]]]; vmr. }
  rewrite forallb_forall in A. apply N.ltb_lt. apply A. exact Hc.
Qed.
Lemma jwk_example_wf : wf_keyset jwk_example.
Proof.
  split; [vmr |]. intros k [<- | [<- | [<- | [<- | []]]]]; unfold jwt_key; cbn [k_key_data_opt];
    (split; [intros d E; apply some_inj in E; subst d; split; [apply url_valid; cbn [In]; tauto | vm_compute; split; congruence]
            | repeat split; vm_compute; congruence]).
Qed.
Definition jwk_example_set : pystr :=
  ulit "{""keys"":[{""kty"":""EC"",""crv"":""P-384"",""x"":""AP8B"",""y"":""-_A"",""use"":""sig"",""alg"":""ES384"",""key_ops"":[""verify""],""kid"":""zAAAAA""},{""kty"":""RSA"",""n"":""AIA"",""e"":""AQAB"",""use"":""sig"",""alg"":""RS512"",""key_ops"":[""verify""],""kid"":""\u00e9\""\ud83d\ude00""},{""kty"":""RSA"",""n"":""CQ"",""e"":"""",""use"":""sig"",""alg"":""PS256"",""key_ops"":[""verify""]}]}".
Definition jwk_example_back : keyset :=
  mk_keyset 9
    [jwt_key "JwtEcdsaPublicKey" (mk_jwt_public_key 0 2 [x00; xff; x01] [xfb; xf0] (Some (ulit "zAAAAA"))) ENABLED 5 RAW;
     jwt_key "JwtRsaSsaPkcs1PublicKey" (mk_jwt_public_key 0 3 [x00; x80] [x01; x00; x01] (Some [233; 34; 128512]%N)) ENABLED 6 RAW;
     jwt_key "JwtRsaSsaPssPublicKey" ps_message ENABLED 9 RAW].
Definition exports (ks : keyset) (text : pystr) : bool :=
  match from_public_keyset_handle toy_rt (mk_handle ks) with Ok t => str_eqb t text | Err _ => false end.
Definition imports (draws : list (list N)) (text : pystr) (ks : keyset) : bool :=
  match to_public_keyset_handle toy_rt draws text with
  | Some (Ok h) => keyset_eqb (kh_keyset h) ks
  | _ => false
  end.
Example C44_hypotheses_met :
  float_codec toy_rt /\ wf_keyset jwk_example /\ proto_size (serialize_keyset jwk_example) /\
  exports jwk_example jwk_example_set = true /\ small_text jwk_example_set /\
  (* the second id drawn twice, so drawn again *)
  imports [[4]; [4; 5]; [8]]%N jwk_example_set jwk_example_back = true.
Proof.
  split; [exact toy_float_codec |]. split; [exact jwk_example_wf |]. split; [vmr |]. split; [vmr |].
  split; [vmr |]. vmr.
Qed.

(** Export is not total on public keysets: the exception of an unparsable key value is not
    converted. *)
Theorem C44_export_always_tink_error_refuted : exists ks,
  ~ has_secret ks /\ wf_keyset ks /\ from_public_keyset_handle toy_rt (mk_handle ks) = Err DecodeError.
Proof.
  exists (mk_keyset 1 [mk_key (Some (mk_key_data (jwt_url "JwtEcdsaPublicKey") [xff] ASYMMETRIC_PUBLIC)) ENABLED 1 TINK]).
  split; [| split; [| vmr]].
  - intros (k & [<- | []] & Hs). vm_compute in Hs. decompose [or] Hs; discriminate.
  - split; [vmr |]. intros k [<- | []]; cbn [k_key_data_opt].
    split; [intros d E; apply some_inj in E; subst d; split; [apply url_valid; cbn [In]; tauto | vm_compute; split; congruence]
            | repeat split; vm_compute; congruence].
Qed.
(** The version of a key is lost. *)
Theorem C44_round_trip_keeps_version_refuted : exists k m k' m' draws text h',
  from_public_keyset_handle toy_rt (mk_handle (mk_keyset 7 [k])) = Ok text /\
  to_public_keyset_handle toy_rt draws text = Some (Ok h') /\ ks_key (kh_keyset h') = [k'] /\
  parse_jwt_public_key (kd_value (k_key_data k)) = Some m /\
  parse_jwt_public_key (kd_value (k_key_data k')) = Some m' /\
  jpk_version m = 5%N /\ jpk_version m' = 0%N.
Proof.
  exists (jwt_key "JwtRsaSsaPkcs1PublicKey" rs_message ENABLED 7 RAW), rs_message,
    (jwt_key "JwtRsaSsaPkcs1PublicKey" (mk_jwt_public_key 0 3 [x00; x80] [x01; x00; x01] (Some [233; 34; 128512]%N)) ENABLED 1 RAW),
    (mk_jwt_public_key 0 3 [x00; x80] [x01; x00; x01] (Some [233; 34; 128512]%N)), [[0]]%N,
    (ulit "{""keys"":[{""kty"":""RSA"",""n"":""AIA"",""e"":""AQAB"",""use"":""sig"",""alg"":""RS512"",""key_ops"":[""verify""],""kid"":""\u00e9\""\ud83d\ude00""}]}"),
    (mk_handle (mk_keyset 1 [jwt_key "JwtRsaSsaPkcs1PublicKey" (mk_jwt_public_key 0 3 [x00; x80] [x01; x00; x01] (Some [233; 34; 128512]%N)) ENABLED 1 RAW])).
  split; [vmr |]. split; [vmr |]. split; [reflexivity |]. split; [vmr |]. split; [vmr |]. split; reflexivity.
Qed.

(** * C45 *)
Theorem C45_import_sound : forall rt draws text h, small_text text ->
  to_public_keyset_handle rt draws text = Some (Ok h) ->
  exists doc items, json_text rt doc text /\ member doc "keys" (JList items) /\
    keyset_of_jwks items (kh_keyset h).
Proof. exact jwk_import_sound. Qed.
Print Assumptions C45_import_sound.
Theorem C45_import_complete : forall rt doc text items, json_text rt doc text -> small_text text ->
  member doc "keys" (JList items) -> items <> [] ->
  Forall (fun j => exists type m, public_jwk j type m) items ->
  (forall draws r, to_public_keyset_handle rt draws text = Some r -> exists h, r = Ok h) /\
  (forall ids, length ids = length items -> NoDup ids ->
     Forall (fun id => (1 <= id <= 2147483647)%N) ids ->
     exists draws h, to_public_keyset_handle rt draws text = Some (Ok h) /\
       map k_key_id (ks_key (kh_keyset h)) = ids).
Proof. exact jwk_import_complete. Qed.
Print Assumptions C45_import_complete.
Theorem C45_import_rejects : forall rt draws doc text items j h, json_text rt doc text -> small_text text ->
  member doc "keys" (JList items) -> In j items -> bad_jwk j ->
  to_public_keyset_handle rt draws text <> Some (Ok h).
Proof. exact jwk_import_rejects. Qed.
Print Assumptions C45_import_rejects.
Theorem C45_import_errors : forall rt draws doc text items e, json_text rt doc text -> small_text text ->
  member doc "keys" (JList items) -> Forall typed_jwk items ->
  to_public_keyset_handle rt draws text = Some (Err e) -> is_tink_error e = true.
Proof. exact jwk_import_errors. Qed.
Print Assumptions C45_import_errors.
Theorem C45_not_a_set : forall rt draws text,
  (forall doc, json_text rt doc text -> (exists l, doc = JDict l) /\ ~ has_member doc "keys") ->
  exists e, to_public_keyset_handle rt draws text = Some (Err e) /\
    (is_tink_error e = true \/
     (e = ValueError "integer string conversion" /\ int_max_str_digits rt <> 0%N)).
Proof. exact jwk_import_not_a_set. Qed.
Print Assumptions C45_not_a_set.

(** A set in another layout, with members that are ignored, a repeated name and
    base64 with other unused bits. *)
Definition odd_jwk_set : pystr :=
  ulit " { ""keys"" : [ { ""alg"" : ""ES256"", ""kid"" : ""a"", ""kid"":""b"", ""x"":""AP9B"",
    ""y"" : ""AB"", ""kty"": ""EC"", ""x5c"": [1.0, null], ""crv"":""P-256"" } ] , ""other"" : { } } ".
Definition odd_jwk_keyset : keyset :=
  mk_keyset 2147483647
    [jwt_key "JwtEcdsaPublicKey" (mk_jwt_public_key 0 1 [x00; xff; x41] [x00] (Some (ulit "b"))) ENABLED 2147483647 RAW].
Example C45_accepts_met :
  small_text odd_jwk_set /\ imports [[2147483646]]%N odd_jwk_set odd_jwk_keyset = true.
Proof. split; vmr. Qed.

(** Refused, each for one reason, with TinkError. *)
Definition jwk_text (l : list (pystr * json)) : pystr :=
  match json_dumps toy_rt (JDict [(ulit "keys", JList [JDict l])]) with Ok t => t | Err _ => [] end.
Definition refused (r : option (result keyset_handle)) : bool :=
  match r with Some (Err e) => is_tink_error e | _ => false end.
Definition ec_members : list (pystr * json) :=
  [(ulit "kty", JStr (ulit "EC")); (ulit "crv", JStr (ulit "P-256")); (ulit "x", JStr (ulit "AA"));
   (ulit "y", JStr (ulit "AA")); (ulit "alg", JStr (ulit "ES256"))].
Definition rsa_members : list (pystr * json) :=
  [(ulit "kty", JStr (ulit "RSA")); (ulit "n", JStr (ulit "AA"));
   (ulit "e", JStr (ulit "AA")); (ulit "alg", JStr (ulit "PS512"))].
Example C45_rejects_met :
  forallb (fun l => negb (refused (to_public_keyset_handle toy_rt [[0]]%N (jwk_text l)))) [ec_members; rsa_members] &&
  forallb (fun l => refused (to_public_keyset_handle toy_rt [[0]]%N (jwk_text l)))
    ([ec_members ++ [(ulit "d", JStr (ulit "AA"))]; ec_members ++ [(ulit "use", JStr (ulit "enc"))];
      ec_members ++ [(ulit "key_ops", JList [])]; ec_members ++ [(ulit "alg", JStr (ulit "HS256"))];
      ec_members ++ [(ulit "alg", JStr (ulit "ES384"))]; ec_members ++ [(ulit "crv", JStr (ulit "P-384"))];
      ec_members ++ [(ulit "kty", JStr (ulit "RSA"))]; ec_members ++ [(ulit "alg", JStr (ulit "ES2567"))];
      ec_members ++ [(ulit "key_ops", JList [JStr (ulit "verify"); JStr (ulit "sign")])]] ++
     map (fun p => rsa_members ++ [(ulit p, JNull)]) ["d"; "p"; "q"; "dp"; "dq"; "qi"]) = true.
Proof. vmr. Qed.
Lemma typed_example : typed_jwk (JDict (ec_members ++ [(ulit "d", JNull)])).
Proof.
  assert (Hn : NoDup (map fst (ec_members ++ [(ulit "d", JNull)]))).
  { repeat (constructor; [cbn [map fst ec_members app In]; intros H; decompose [or] H; try contradiction;
      match goal with E : _ = _ |- _ => vm_compute in E; discriminate E end |]); constructor. }
  assert (M : forall name v, member (JDict (ec_members ++ [(ulit "d", JNull)])) name v <->
                In (ulit name, v) (ec_members ++ [(ulit "d", JNull)])).
  { intros. apply member_in. exact Hn. }
  split; [eauto |]. split; [| split; [| split]].
  - intros v Hv. apply M in Hv. cbn [ec_members app In] in Hv.
    repeat (destruct Hv as [Hv | Hv]; [first [discriminate (f_equal fst Hv) | apply (f_equal snd) in Hv; cbn [snd] in Hv; eauto] |]). destruct Hv.
  - intros v Hv. apply M in Hv. cbn [ec_members app In] in Hv.
    repeat (destruct Hv as [Hv | Hv]; [discriminate (f_equal fst Hv) |]). destruct Hv.
  - intros v Hv. apply M in Hv. cbn [ec_members app In] in Hv.
    repeat (destruct Hv as [Hv | Hv]; [discriminate (f_equal fst Hv) |]). destruct Hv.
  - intros f kty type n1 n2 priv name Hf Hk Hname. unfold jwk_families in Hf. cbn [In] in Hf.
    destruct Hf as [Hf | [Hf | [Hf | []]]]; injection Hf as _ <- _ <- <- _;
      [| exfalso; apply M in Hk; cbn [ec_members app In] in Hk;
         repeat (destruct Hk as [Hk | Hk]; [vm_compute in Hk; discriminate Hk |]); destruct Hk ..].
    exists (ulit "AA"). split.
    + apply M. destruct Hname as [-> | ->]; cbn [ec_members app In]; tauto.
    + apply ascii_valid. vmr.
Qed.
Example C45_errors_hypotheses_met :
  typed_jwk (JDict (ec_members ++ [(ulit "d", JNull)])) /\ bad_jwk (JDict (ec_members ++ [(ulit "d", JNull)])) /\
  refused (to_public_keyset_handle toy_rt [] (jwk_text (ec_members ++ [(ulit "d", JNull)]))) = true.
Proof.
  split; [exact typed_example |]. split; [| vmr].
  right. left. exists JNull. exists ec_members, []. split; [reflexivity | intros []].
Qed.

(** Members of other types are refused too, but with other exceptions. *)
Theorem C45_always_tink_error_refuted :
  to_public_keyset_handle toy_rt [] (ulit "{""keys"":[{""alg"":5}]}") = Some (Err AttributeError) /\
  to_public_keyset_handle toy_rt [] (ulit "{""keys"":[{""alg"":""ES256"",""kty"":""EC"",""crv"":""P-256""}]}") = Some (Err KeyError) /\
  (exists msg, to_public_keyset_handle toy_rt [] (ulit "5") = Some (Err (TypeError msg))).
Proof. split; [vmr |]. split; [vmr |]. eexists. vmr. Qed.
