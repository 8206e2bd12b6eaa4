(** The JWT managers of public and private keys of signatures. *)
From Coq Require Import Strings.Byte Strings.String List NArith ZArith Bool Lia.
From Verif Require Import M_Base L_Base M_Proto M_Utf8 M_Wire L_Wire S_Wire M_ProtoMsg S_ProtoMsg L_ProtoMsg M_KeyFormats M_Prims M_StreamTypes M_CcStream M_CcManagers M_CcAes
  M_CcStreamKeys M_CcModes M_CcSymmetric M_CcSymKeys M_CcEcies M_CcEciesKeys M_CcSignatures M_CcJwt S_Config S_CcAes S_CcStreamKeys S_CcModes S_CcSymmetric S_CcSymKeys S_CcSymHandles
  S_CcEcies S_CcEciesKeys S_CcSignatures S_CcJwt L_CcStreamKeys L_CcModes L_CcModes4 L_CcSymmetric L_CcSymmetric2 L_CcSymKeys L_CcSymKeys2 L_CcSymHandles L_CcEcies L_CcEcies2 L_CcEcies3 L_CcEciesKeys L_CcSigDer L_CcSignatures L_CcSigKeys L_CcSigKeys2.
Import ListNotations.
Open Scope string_scope.
Open Scope list_scope.
Open Scope nat_scope.

(** ** Algorithms *)
Lemma jwt_algorithm_facts : forall h z, jwt_algorithm h z -> jwt_validate_algorithm z = None /\ jwt_hash_for z = StOk h /\ jwt_curve_for z = StOk (jwt_curve h) /\
  jwt_salt_length_for z = StOk (Z.of_nat (hash_size h)) /\ safe_hash h /\ ecdsa_ok (jwt_curve h) h /\ jwt_curve h <> UNKNOWN_CURVE /\ (1 <= z <= 3)%Z /\
  jwt_minimum_key_size z = Some (Z.of_nat (hash_size h)).
Proof.
  intros h z [E | [E | [E | []]]]; injection E as <- <-; cbn; unfold safe_hash, ecdsa_ok; cbn; repeat (split; [tauto || lia || discriminate || reflexivity |]); tauto || lia || reflexivity.
Qed.
Lemma jwt_algorithm_read : forall z, jwt_validate_algorithm z = None -> exists h, jwt_algorithm h z.
Proof.
  intros z H. destruct z as [| p | p]; try discriminate H. destruct p as [[p | p |] | [p | p |] |]; try discriminate H; [exists M_CcAes.SHA512 | exists M_CcAes.SHA384 | exists M_CcAes.SHA256]; cbn; auto.
Qed.
Lemma jwt_algorithm_fun : forall h h' z, jwt_algorithm h z -> jwt_algorithm h' z -> h = h'.
Proof.
  intros h h' z H H'. destruct (jwt_algorithm_facts h z H) as (_ & E & _), (jwt_algorithm_facts h' z H') as (_ & E' & _). rewrite E in E'. exact (st_ok_inj _ _ _ E').
Qed.

(** ** Custom kids *)
Lemma kid_read : forall fs m path, holds_all fs m -> path_type (TMsg fs) (path ++ ["custom_kid"]) = Some (TMsg CustomKid) -> exists kid, kid_at fs m path kid.
Proof.
  intros fs m path HM T. destruct (has_at fs m (path ++ ["custom_kid"])) eqn:S; [| exists None; exact S].
  destruct (read_message _ _ _ _ HM T S) as (n & G & HN). destruct (read_path ["value"] _ _ TString (holds_msg _ _ HN) eq_refl) as (v & V & E). inversion V as [| | | | ? VT Q1 Q2 | |]; subst.
  exists (Some s). split; [exact S |]. unfold text. replace (path ++ ["custom_kid"; "value"]) with ((path ++ ["custom_kid"]) ++ ["value"]) by (rewrite <- app_assoc; reflexivity).
  rewrite (get_path_app _ ["value"] _ _ _ _ T G). exact E.
Qed.
Lemma kid_fun : forall fs m path k k', kid_at fs m path k -> kid_at fs m path k' -> k = k'.
Proof.
  intros fs m path [a |] [b |] H H'; cbn [kid_at] in *; try reflexivity.
  - destruct H as (_ & H), H' as (_ & H'). unfold text in *. rewrite H in H'. injection H' as <-. reflexivity.
  - destruct H as (H & _). rewrite H in H'. discriminate H'.
  - destruct H' as (H' & _). rewrite H in H'. discriminate H'.
Qed.

(** ** Public keys, at [path] *)
Definition jwt_validate_public (f : jwt_family) : schema -> (list string -> list string) -> message -> option cc_status :=
  match f with ES => jwt_ecdsa_validate_public | _ => jwt_rsa_validate_public end.
Section Public.
  Variables (fs : schema) (m : message) (at_ : list string -> list string) (path : list string).
  Hypothesis AT : forall q, at_ q = path ++ q.

  Lemma jwt_public_valid : forall k, jwt_public_at fs m path k -> (jwt_validate_public (public_family k) fs at_ m = None <-> valid_public (scheme k)).
  Proof.
    intros k (V & (z & A & A') & _ & H). destruct (jwt_algorithm_facts _ _ A') as (VA & _ & _ & _ & SH & EO & _).
    destruct k as [h X Y kid | h n e kid | h n e kid]; cbn [public_family jwt_validate_public scheme valid_public jwt_hash] in *.
    - unfold jwt_ecdsa_validate_public. rewrite !AT, (version_zero _ _ _ V), (num_at_number _ _ _ _ A), VA. cbn [and_then]. tauto.
    - destruct H as (HN & HE). unfold jwt_rsa_validate_public. rewrite !AT, (version_zero _ _ _ V), (num_at_number _ _ _ _ A), VA, (bytes_at_content _ _ _ _ HN), (bytes_at_content _ _ _ _ HE), !bin2bn_num. cbn [and_then].
      rewrite !and_then_none, modulus_none, exponent_none. tauto.
    - destruct H as (HN & HE). unfold jwt_rsa_validate_public. rewrite !AT, (version_zero _ _ _ V), (num_at_number _ _ _ _ A), VA, (bytes_at_content _ _ _ _ HN), (bytes_at_content _ _ _ _ HE), !bin2bn_num. cbn [and_then].
      rewrite !and_then_none, modulus_none, exponent_none. split; [intros (MO & EX & _); split; [exact SH |]; split; [reflexivity |]; split; [lia |]; split; assumption | tauto].
  Qed.
  Lemma jwt_public_read : forall f, holds_all fs m -> (forall q, path_type (TMsg fs) (path ++ q) = path_type (TMsg (jwt_public_schema f)) q) ->
    jwt_validate_public f fs at_ m = None -> exists k, public_family k = f /\ jwt_public_at fs m path k.
  Proof.
    intros f HM T V.
    assert (VA : validate_version (num_at fs m (path ++ ["version"])) 0 = None /\ jwt_validate_algorithm (num_at fs m (path ++ ["algorithm"])) = None).
    { rewrite <- !AT. destruct f; cbn [jwt_validate_public] in V; [unfold jwt_ecdsa_validate_public in V | unfold jwt_rsa_validate_public in V | unfold jwt_rsa_validate_public in V];
        rewrite ?and_then_none in V; tauto. }
    destruct VA as (V0 & VA). apply version_read in V0; [| exact HM | rewrite T; destruct f; reflexivity].
    destruct (read_enum fs m (path ++ ["algorithm"]) HM) as (z & Z); [rewrite T; destruct f; reflexivity |]. rewrite (num_at_number _ _ _ _ Z) in VA. destruct (jwt_algorithm_read z VA) as (h & A).
    destruct (kid_read fs m path HM) as (kid & K); [rewrite T; destruct f; reflexivity |].
    destruct f; cbn [jwt_public_schema] in T.
    - destruct (read_octets fs m (path ++ ["x"]) HM (T _)) as (X & HX), (read_octets fs m (path ++ ["y"]) HM (T _)) as (Y & HY). exists (EsPublic h X Y kid). split; [reflexivity |].
      split; [exact V0 |]. split; [exists z; auto |]. split; [exact K | auto].
    - destruct (read_octets fs m (path ++ ["n"]) HM (T _)) as (X & HX), (read_octets fs m (path ++ ["e"]) HM (T _)) as (Y & HY). exists (RsPublic h X Y kid). split; [reflexivity |].
      split; [exact V0 |]. split; [exists z; auto |]. split; [exact K | auto].
    - destruct (read_octets fs m (path ++ ["n"]) HM (T _)) as (X & HX), (read_octets fs m (path ++ ["e"]) HM (T _)) as (Y & HY). exists (PsPublic h X Y kid). split; [reflexivity |].
      split; [exact V0 |]. split; [exists z; auto |]. split; [exact K | auto].
  Qed.
  Lemma jwt_public_fun : forall k k', jwt_public_at fs m path k -> jwt_public_at fs m path k' -> public_family k = public_family k' -> k = k'.
  Proof.
    intros k k' (_ & (z & A & A') & K & H) (_ & (z' & B & B') & K' & H') F. rewrite (number_fun _ _ _ _ _ B A) in B'. pose proof (jwt_algorithm_fun _ _ _ A' B') as HH. pose proof (kid_fun _ _ _ _ _ K K') as KK.
    destruct k as [h X Y kid | h X Y kid | h X Y kid], k' as [h' X' Y' kid' | h' X' Y' kid' | h' X' Y' kid']; try discriminate F; cbn [jwt_hash jwt_kid] in HH, KK;
      destruct H as (HX & HY), H' as (HX' & HY'); subst h' kid'; rewrite (content_fun _ _ _ _ _ HX HX'), (content_fun _ _ _ _ _ HY HY'); reflexivity.
  Qed.
End Public.
Lemma jwt_encoded : forall k, encoded_ok (scheme k).
Proof. intros []; cbn; try exact I. discriminate. Qed.

(** ** The managers of public keys *)
Definition jwt_create_verify (ec : ec_crypto) (sg : sig_crypto) (f : jwt_family) : message -> st_or cc_verifier :=
  match f with
  | ES => jwt_ecdsa_create_verify ec sg
  | RS => jwt_pkcs1_create_verify sg JwtRsaPublicKey (fun q => q)
  | PS => jwt_pss_create_verify sg JwtRsaPublicKey (fun q => q)
  end.
Lemma jwt_verify_is : forall ec sg f, jwt_verify_cc_manager ec sg f =
  verify_manager_of (family_name f ++ "PublicKey") (jwt_public_schema f) (jwt_validate_public f (jwt_public_schema f) (fun q => q)) (jwt_create_verify ec sg f).
Proof. intros ec sg []; reflexivity. Qed.
Lemma jwt_public_created : forall ec sg k m, jwt_public_at (jwt_public_schema (public_family k)) m [] k -> jwt_create_verify ec sg (public_family k) m = verifier_of ec sg (scheme k).
Proof.
  intros ec sg k m (_ & (z & A & A') & _ & H). destruct (jwt_algorithm_facts _ _ A') as (_ & EH & EC & ES' & _).
  destruct k as [h X Y kid | h X Y kid | h X Y kid]; cbn [public_family jwt_create_verify verifier_of scheme jwt_public_schema app jwt_hash] in *; destruct H as (HX & HY).
  - unfold jwt_ecdsa_create_verify. cbn zeta. rewrite (num_at_number _ _ _ _ A), EC, EH, (bytes_at_content _ _ _ _ HX), (bytes_at_content _ _ _ _ HY). reflexivity.
  - unfold jwt_pkcs1_create_verify, rsa_public_of. rewrite (num_at_number _ _ _ _ A), EH, (bytes_at_content _ _ _ _ HX), (bytes_at_content _ _ _ _ HY), !bin2bn_num. reflexivity.
  - unfold jwt_pss_create_verify, rsa_public_of. rewrite (num_at_number _ _ _ _ A), EH, ES', (bytes_at_content _ _ _ _ HX), (bytes_at_content _ _ _ _ HY), !bin2bn_num. reflexivity.
Qed.
Lemma jwt_public_got : forall ec sg f d v, cl_get_primitive (jwt_verify_cc_manager ec sg f) d = StOk v ->
  exists k, public_family k = f /\ is_jwt_public d k /\ valid_public (scheme k) /\ verifier_of ec sg (scheme k) = StOk v.
Proof.
  intros ec sg f d v H. rewrite jwt_verify_is in H. cbn [verify_manager_of cl_get_primitive] in H. apply parse_key_ok in H. destruct H as (U & m & E & V & C). rewrite url_is in U.
  destruct (jwt_public_read (jwt_public_schema f) m (fun q => q) [] (fun q => eq_refl) f (parse_holds _ _ _ E) (fun q => eq_refl) V) as (k & K & P). subst f.
  exists k. split; [reflexivity |]. split; [split; [exact U | exists m; auto] |]. split; [exact (proj1 (jwt_public_valid _ m (fun q => q) [] (fun q => eq_refl) k P) V) |].
  rewrite <- (jwt_public_created ec sg k m P). exact C.
Qed.
Lemma jwt_public_get : forall ec sg d k, is_jwt_public d k -> valid_public (scheme k) -> cl_get_primitive (jwt_verify_cc_manager ec sg (public_family k)) d = verifier_of ec sg (scheme k).
Proof.
  intros ec sg d k (U & m & E & P) V. rewrite jwt_verify_is. cbn [verify_manager_of cl_get_primitive]. unfold parse_key. rewrite url_is, U, (proj2 (str_eqb_spec _ _) eq_refl). cbn [negb].
  rewrite E, (proj2 (jwt_public_valid _ m (fun q => q) [] (fun q => eq_refl) k P) V), (jwt_public_created ec sg k m P). reflexivity.
Qed.
Lemma is_jwt_public_fun : forall d k k', is_jwt_public d k -> is_jwt_public d k' -> public_family k = public_family k' -> k = k'.
Proof.
  intros d k k' (_ & m & E & P) (_ & m' & E' & P') K. rewrite <- K in E', P'. rewrite E in E'. injection E' as <-. exact (jwt_public_fun _ _ _ k k' P P' K).
Qed.
(** Verifiers are made exactly of the keys that are good keys of their scheme. *)
Theorem jwt_cc_verifier_made : forall ec sg f d,
  (exists v, cl_get_primitive (jwt_verify_cc_manager ec sg f) d = StOk v) <-> (exists k, public_family k = f /\ is_jwt_public d k /\ good_public ec (scheme k)).
Proof.
  intros ec sg f d. split.
  - intros (v & H). destruct (jwt_public_got ec sg f d v H) as (k & K & D & V & C). exists k. split; [exact K |]. split; [exact D |]. apply (verifier_made ec sg _ V). exists v. exact C.
  - intros (k & <- & D & G). rewrite (jwt_public_get ec sg d k D (proj1 G)). apply (verifier_made ec sg _ (proj1 G)), G.
Qed.
Theorem jwt_cc_verifies : forall ec sg d k v, sig_laws ec sg -> is_jwt_public d k -> cl_get_primitive (jwt_verify_cc_manager ec sg (public_family k)) d = StOk v ->
  forall x data, cv_verify v x data = StOk tt <-> valid_signature sg (scheme k) data x.
Proof.
  intros ec sg d k v L D H x data. destruct (jwt_public_got ec sg _ d v H) as (k' & K & D' & V & C). rewrite <- (is_jwt_public_fun d k k' D D' (eq_sym K)) in *. exact (verifier_verifies ec sg _ v data x L V (jwt_encoded k) C).
Qed.

(** ** The managers of private keys *)
Definition jwt_validate_private (f : jwt_family) : message -> option cc_status := match f with ES => jwt_ecdsa_validate_private | _ => jwt_rsa_validate_private end.
Definition jwt_create_sign (ec : ec_crypto) (sg : sig_crypto) (self_test : coins) (f : jwt_family) : message -> st_or cc_signer :=
  match f with ES => jwt_ecdsa_create_sign ec sg | RS => jwt_pkcs1_create_sign sg self_test | PS => jwt_pss_create_sign sg self_test end.
Definition jwt_validate_format (f : jwt_family) : message -> option cc_status :=
  match f with ES => jwt_ecdsa_validate_format | RS => jwt_rsa_validate_format JwtRsaSsaPkcs1KeyFormat | PS => jwt_rsa_validate_format JwtRsaSsaPssKeyFormat end.
Definition jwt_create_key (ec : ec_crypto) (sg : sig_crypto) (f : jwt_family) : coins -> message -> st_or message :=
  match f with ES => jwt_ecdsa_create_key ec | RS => jwt_rsa_create_key sg JwtRsaSsaPkcs1KeyFormat | PS => jwt_rsa_create_key sg JwtRsaSsaPssKeyFormat end.
Lemma jwt_sign_is : forall ec sg self_test f, jwt_sign_cc_manager ec sg self_test f =
  sign_manager_of (family_name f ++ "PrivateKey") (family_name f ++ "PublicKey") (jwt_private_schema f) (jwt_public_schema f) (jwt_format_schema f) (jwt_validate_private f) (jwt_validate_format f)
    (jwt_create_sign ec sg self_test f) (jwt_create_key ec sg f).
Proof. intros ec sg self_test []; reflexivity. Qed.
Definition jwt_private_at (m : message) (k : jwt_private) : Prop :=
  let fs := jwt_private_schema (private_family k) in
  number fs m ["version"] 0%Z /\ jwt_public_at fs m ["public_key"] (jwt_public_of k) /\ jwt_secret_at fs m k.
Lemma scheme_of_public : forall k, scheme (jwt_public_of k) = public_of (private_scheme k).
Proof. intros []; reflexivity. Qed.
Lemma jwt_valid_private : forall k, valid_private (private_scheme k) <-> valid_public (scheme (jwt_public_of k)).
Proof. intros k. unfold valid_private. rewrite <- scheme_of_public. destruct k; cbn [private_scheme]; tauto. Qed.
Lemma jwt_private_validates : forall f m, jwt_validate_private f m = None <->
  validate_version (num_at (jwt_private_schema f) m ["version"]) 0 = None /\ jwt_validate_public f (jwt_private_schema f) (cons "public_key") m = None.
Proof. intros f m. destruct f; cbn [jwt_validate_private jwt_private_schema jwt_validate_public]; [unfold jwt_ecdsa_validate_private | unfold jwt_rsa_validate_private | unfold jwt_rsa_validate_private]; rewrite and_then_none; tauto. Qed.
Lemma jwt_private_valid : forall k m, jwt_private_at m k -> (jwt_validate_private (private_family k) m = None <-> valid_private (private_scheme k)).
Proof.
  intros k m (V & P & S). rewrite jwt_private_validates, (version_zero _ _ _ V), jwt_valid_private. unfold private_family at 1. rewrite (jwt_public_valid _ m (cons "public_key") ["public_key"] (fun q => eq_refl) (jwt_public_of k) P). tauto.
Qed.
Lemma jwt_private_read : forall f m, holds_all (jwt_private_schema f) m -> jwt_validate_private f m = None -> exists k, private_family k = f /\ jwt_private_at m k.
Proof.
  intros f m HM V. apply jwt_private_validates in V. destruct V as (V & P).
  destruct (jwt_public_read (jwt_private_schema f) m (cons "public_key") ["public_key"] (fun q => eq_refl) f HM) as (p & K & PA); [intros q; destruct f; reflexivity | exact P |].
  assert (V0 : number (jwt_private_schema f) m ["version"] 0%Z) by (apply version_read; [exact HM | destruct f; reflexivity | exact V]).
  unfold jwt_private_at. destruct p as [h X Y kid | h n e kid | h n e kid]; cbn [public_family] in K; subst f.
  - destruct (read_octets _ _ ["key_value"] HM eq_refl) as (d & D). exists (EsPrivate h X Y d kid). split; [reflexivity |]. split; [exact V0 |]. split; [exact PA | exact D].
  - destruct (rsa_secret_read _ _ HM eq_refl eq_refl eq_refl eq_refl eq_refl eq_refl) as (t & T). exists (RsPrivate h n e t kid). split; [reflexivity |]. split; [exact V0 |]. split; [exact PA | exact T].
  - destruct (rsa_secret_read _ _ HM eq_refl eq_refl eq_refl eq_refl eq_refl eq_refl) as (t & T). exists (PsPrivate h n e t kid). split; [reflexivity |]. split; [exact V0 |]. split; [exact PA | exact T].
Qed.
Lemma jwt_private_fun : forall m k k', jwt_private_at m k -> jwt_private_at m k' -> private_family k = private_family k' -> k = k'.
Proof.
  intros m k k' (_ & P & S) (_ & P' & S') K. rewrite <- K in P', S'. pose proof (jwt_public_fun _ m _ _ _ P P' K) as E.
  assert (RF : forall fs t t', rsa_secret_at fs m t -> rsa_secret_at fs m t' -> t = t').
  { intros fs [d p q dp dq crt] [d' p' q' dp' dq' crt'] (A1 & A2 & A3 & A4 & A5 & A6) (B1 & B2 & B3 & B4 & B5 & B6). cbn in *.
    rewrite (content_fun _ _ _ _ _ A1 B1), (content_fun _ _ _ _ _ A2 B2), (content_fun _ _ _ _ _ A3 B3), (content_fun _ _ _ _ _ A4 B4), (content_fun _ _ _ _ _ A5 B5), (content_fun _ _ _ _ _ A6 B6). reflexivity. }
  destruct k, k'; try discriminate E; cbn [jwt_public_of] in E; injection E; intros; subst; cbn [jwt_secret_at private_family public_family jwt_public_of] in S, S'; f_equal; try exact (content_fun _ _ _ _ _ S S'); exact (RF _ _ _ S S').
Qed.
Lemma jwt_private_created : forall ec sg self_test k m, jwt_private_at m k -> jwt_create_sign ec sg self_test (private_family k) m = signer_of ec sg self_test (private_scheme k).
Proof.
  intros ec sg self_test k m (_ & P & S). destruct P as (_ & (z & A & A') & _ & H). destruct (jwt_algorithm_facts _ _ A') as (_ & EH & EC & ES' & _).
  destruct k as [h X Y d kid | h X Y t kid | h X Y t kid]; cbn [private_family public_family jwt_public_of jwt_create_sign signer_of private_scheme jwt_private_schema jwt_secret_at jwt_hash app] in *; destruct H as (HX & HY).
  - unfold jwt_ecdsa_create_sign. cbn zeta. rewrite (num_at_number _ _ _ _ A), EC, EH, (bytes_at_content _ _ _ _ HX), (bytes_at_content _ _ _ _ HY), (bytes_at_content _ _ _ _ S). reflexivity.
  - destruct S as (S1 & S2 & S3 & S4 & S5 & S6). unfold jwt_pkcs1_create_sign, jwt_pkcs1_create_verify, rsa_public_of, rsa_key_of. cbn zeta.
    rewrite (num_at_number _ _ _ _ A), EH, (bytes_at_content _ _ _ _ HX), (bytes_at_content _ _ _ _ HY), (bytes_at_content _ _ _ _ S1), (bytes_at_content _ _ _ _ S2), (bytes_at_content _ _ _ _ S3), (bytes_at_content _ _ _ _ S4), (bytes_at_content _ _ _ _ S5), (bytes_at_content _ _ _ _ S6), !bin2bn_num. reflexivity.
  - destruct S as (S1 & S2 & S3 & S4 & S5 & S6). unfold jwt_pss_create_sign, jwt_pss_create_verify, rsa_public_of, rsa_key_of. cbn zeta.
    rewrite (num_at_number _ _ _ _ A), EH, ES', (bytes_at_content _ _ _ _ HX), (bytes_at_content _ _ _ _ HY), (bytes_at_content _ _ _ _ S1), (bytes_at_content _ _ _ _ S2), (bytes_at_content _ _ _ _ S3), (bytes_at_content _ _ _ _ S4), (bytes_at_content _ _ _ _ S5), (bytes_at_content _ _ _ _ S6), !bin2bn_num. reflexivity.
Qed.
Lemma jwt_encoded_private : forall k, encoded_ok (public_of (private_scheme k)).
Proof. intros k. rewrite <- scheme_of_public. apply jwt_encoded. Qed.
Lemma jwt_private_got : forall ec sg self_test f d s, cl_get_primitive (jwt_sign_cc_manager ec sg self_test f) d = StOk s ->
  exists k, private_family k = f /\ is_jwt_private d k /\ valid_private (private_scheme k) /\ signer_of ec sg self_test (private_scheme k) = StOk s.
Proof.
  intros ec sg self_test f d s H. rewrite jwt_sign_is in H. cbn [sign_manager_of cl_get_primitive] in H. apply parse_key_ok in H. destruct H as (U & m & E & V & C). rewrite url_is in U.
  destruct (jwt_private_read f m (parse_holds _ _ _ E) V) as (k & K & P). subst f. exists k. split; [reflexivity |]. split; [split; [exact U | exists m; split; [exact E | exact P]] |].
  split; [exact (proj1 (jwt_private_valid k m P) V) |]. rewrite <- (jwt_private_created ec sg self_test k m P). exact C.
Qed.
Lemma jwt_private_get : forall ec sg self_test d k, is_jwt_private d k -> valid_private (private_scheme k) -> cl_get_primitive (jwt_sign_cc_manager ec sg self_test (private_family k)) d = signer_of ec sg self_test (private_scheme k).
Proof.
  intros ec sg self_test d k (U & m & E & P) V. rewrite jwt_sign_is. cbn [sign_manager_of cl_get_primitive]. unfold parse_key. rewrite url_is, U, (proj2 (str_eqb_spec _ _) eq_refl). cbn [negb].
  rewrite E, (proj2 (jwt_private_valid k m P) V), (jwt_private_created ec sg self_test k m P). reflexivity.
Qed.
Lemma is_jwt_private_fun : forall d k k', is_jwt_private d k -> is_jwt_private d k' -> private_family k = private_family k' -> k = k'.
Proof.
  intros d k k' (_ & m & E & P) (_ & m' & E' & P') K. rewrite <- K in E'. rewrite E in E'. injection E' as <-. exact (jwt_private_fun m k k' P P' K).
Qed.
Theorem jwt_cc_signer_made : forall ec sg self_test f d, sig_laws ec sg ->
  ((exists s, cl_get_primitive (jwt_sign_cc_manager ec sg self_test f) d = StOk s) <-> (exists k, private_family k = f /\ is_jwt_private d k /\ good_private ec sg (private_scheme k))).
Proof.
  intros ec sg self_test f d L. split.
  - intros (s & H). destruct (jwt_private_got ec sg self_test f d s H) as (k & K & D & V & C). exists k. split; [exact K |]. split; [exact D |]. apply (signer_made ec sg self_test _ L V (jwt_encoded_private k)). exists s. exact C.
  - intros (k & <- & D & G). assert (V : valid_private (private_scheme k)). { apply jwt_valid_private. rewrite scheme_of_public. apply G. }
    rewrite (jwt_private_get ec sg self_test d k D V). apply (signer_made ec sg self_test _ L V (jwt_encoded_private k)), G.
Qed.
Theorem jwt_cc_signs : forall ec sg self_test d k s, sig_laws ec sg -> is_jwt_private d k -> cl_get_primitive (jwt_sign_cc_manager ec sg self_test (private_family k)) d = StOk s ->
  forall rnd data, (exists x, cs_sign s rnd data = StOk x) /\ (forall x, cs_sign s rnd data = StOk x <-> signature_of sg (private_scheme k) rnd data x).
Proof.
  intros ec sg self_test d k s L D H rnd data. destruct (jwt_private_got ec sg self_test _ d s H) as (k' & K & D' & V & C). rewrite <- (is_jwt_private_fun d k k' D D' (eq_sym K)) in *.
  pose proof (signer_signs ec sg self_test _ s L V (jwt_encoded_private k) C rnd data) as S. split; [| exact S].
  destruct (signature_exists ec sg _ rnd data L (proj1 (signer_made ec sg self_test _ L V (jwt_encoded_private k)) (ex_intro _ s C)) (jwt_encoded_private k)) as (x & X). exists x. apply S, X.
Qed.
(** What a key signs is valid for its public key. *)
Theorem jwt_cc_round_trip : forall ec sg self_test d d' k, sig_laws ec sg -> is_jwt_private d k -> is_jwt_public d' (jwt_public_of k) -> good_private ec sg (private_scheme k) -> matching ec sg (private_scheme k) ->
  exists s v, cl_get_primitive (jwt_sign_cc_manager ec sg self_test (private_family k)) d = StOk s /\ cl_get_primitive (jwt_verify_cc_manager ec sg (private_family k)) d' = StOk v /\
    forall rnd data, exists x, cs_sign s rnd data = StOk x /\ cv_verify v x data = StOk tt.
Proof.
  intros ec sg self_test d d' k L D D' G M. destruct (proj2 (jwt_cc_signer_made ec sg self_test (private_family k) d L)) as (s & S); [exists k; auto |].
  destruct (proj2 (jwt_cc_verifier_made ec sg (private_family k) d')) as (v & V); [exists (jwt_public_of k); split; [reflexivity |]; split; [exact D' | rewrite scheme_of_public; apply G] |].
  exists s, v. split; [exact S |]. split; [exact V |]. intros rnd data. destruct (jwt_cc_signs ec sg self_test d k s L D S rnd data) as ((x & X) & E). exists x. split; [exact X |].
  apply (jwt_cc_verifies ec sg d' (jwt_public_of k) v L D' V). rewrite scheme_of_public. exact (signature_valid ec sg _ rnd data x L G (jwt_encoded_private k) M (proj1 (E x) X)).
Qed.

(** ** Public keys *)
Lemma jwt_public_within : forall fs m pre fs' n k, path_type (TMsg fs) pre = Some (TMsg fs') -> get_path (TMsg fs) (Some (VMsg m)) pre = Some (VMsg n) ->
  (jwt_public_at fs m pre k <-> jwt_public_at fs' n [] k).
Proof.
  intros fs m pre fs' n k T H.
  assert (E : forall q, get_path (TMsg fs) (Some (VMsg m)) (pre ++ q) = get_path (TMsg fs') (Some (VMsg n)) q) by (intros q; exact (get_path_app _ q _ _ _ _ T H)).
  unfold jwt_public_at, kid_at, text, has_at, number, octets. cbn [app]. destruct k as [h X Y [kid |] | h X Y [kid |] | h X Y [kid |]]; cbn [jwt_kid jwt_hash]; repeat setoid_rewrite E; reflexivity.
Qed.
Lemma jwt_public_set : forall k m, jwt_private_at m k -> has_at (jwt_private_schema (private_family k)) m ["public_key"] = true.
Proof.
  intros k m (_ & (_ & (z & A & A') & _) & _). destruct (jwt_algorithm_facts _ _ A') as (_ & _ & _ & _ & _ & _ & _ & B & _).
  apply (is_set _ m ["public_key"] ["algorithm"] (jwt_public_schema (private_family k)) (VNum z)); [destruct k; reflexivity | exact A |]. destruct k; cbn; intros E; injection E as E; lia.
Qed.
(** The public key of a private key says the same. *)
Theorem jwt_cc_public_key : forall ec sg self_test d k, is_jwt_private d k -> valid_private (private_scheme k) ->
  exists get d', cl_public_key_data (jwt_sign_cc_manager ec sg self_test (private_family k)) = Some get /\ get (kd_value d) = StOk d' /\
    kd_type_url d' = type_url (family_name (private_family k) ++ "PublicKey") /\ kd_key_material_type d' = ASYMMETRIC_PUBLIC /\
    (proto_size (kd_value d') -> is_jwt_public d' (jwt_public_of k)).
Proof.
  intros ec sg self_test d k (_ & m & E & P) V. rewrite jwt_sign_is. cbn [sign_manager_of cl_public_key_data]. eexists. eexists. split; [reflexivity |]. cbv beta. rewrite E, (proj2 (jwt_private_valid k m P) V). cbn [checked]. split; [reflexivity |].
  cbn [kd_type_url kd_key_material_type kd_value]. rewrite url_is. split; [reflexivity |]. split; [reflexivity |].
  assert (T : path_type (TMsg (jwt_private_schema (private_family k))) ["public_key"] = Some (TMsg (jwt_public_schema (private_family k)))) by (destruct (private_family k); reflexivity).
  destruct (read_message _ _ ["public_key"] _ (parse_holds _ _ _ E) T (jwt_public_set k m P)) as (n & G & HN). rewrite G. cbn [message_or_empty]. intros PS.
  split; [reflexivity |]. cbn [kd_value]. exists n. split; [apply message_round_trip; [clear; destruct (private_family k); reflexivity | exact HN | exact PS] |].
  exact (proj1 (jwt_public_within _ _ _ _ _ _ T G) (proj1 (proj2 P))).
Qed.
Theorem jwt_cc_public_only : forall ec sg self_test f get x d, cl_public_key_data (jwt_sign_cc_manager ec sg self_test f) = Some get -> get x = StOk d ->
  exists k, private_family k = f /\ is_jwt_private (mk_key_data (type_url (family_name f ++ "PrivateKey")) x ASYMMETRIC_PRIVATE) k /\ valid_private (private_scheme k).
Proof.
  intros ec sg self_test f get x d G H. rewrite jwt_sign_is in G. cbn [sign_manager_of cl_public_key_data] in G. injection G as <-. destruct (parse_message (jwt_private_schema f) x) as [m |] eqn:E; [| discriminate H].
  apply checked_ok in H. destruct H as (V & _). destruct (jwt_private_read f m (parse_holds _ _ _ E) V) as (k & <- & P). exists k. split; [reflexivity |]. split; [| exact (proj1 (jwt_private_valid k m P) V)].
  split; [reflexivity |]. exists m. split; [exact E | exact P].
Qed.
Theorem jwt_cc_no_new_public : forall ec sg f rnd x, exists s, cl_new_key_data (jwt_verify_cc_manager ec sg f) rnd x = StErr s.
Proof. intros ec sg [] rnd x; eexists; reflexivity. Qed.
