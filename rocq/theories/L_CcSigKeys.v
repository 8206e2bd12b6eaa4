(** Reading the keys of signatures from messages. *)
From Coq Require Import Strings.Byte Strings.String List NArith ZArith Bool Lia.
From Verif Require Import M_Base L_Base M_Proto M_Utf8 M_Wire L_Wire S_Wire M_ProtoMsg S_ProtoMsg L_ProtoMsg M_KeyFormats M_Prims M_StreamTypes M_CcStream M_CcManagers M_CcAes
  M_CcStreamKeys M_CcModes M_CcSymmetric M_CcSymKeys M_CcEcies M_CcEciesKeys M_CcSignatures S_Config S_CcAes S_CcStreamKeys S_CcModes S_CcSymmetric S_CcSymKeys S_CcSymHandles
  S_CcEcies S_CcEciesKeys S_CcSignatures L_CcStreamKeys L_CcModes L_CcModes4 L_CcSymmetric L_CcSymmetric2 L_CcSymKeys L_CcSymKeys2 L_CcSymHandles L_CcEcies L_CcEcies2 L_CcEcies3 L_CcEciesKeys L_CcSigDer L_CcSignatures.
Import ListNotations.
Open Scope string_scope.
Open Scope list_scope.
Open Scope nat_scope.

(** ** Numbers *)
Lemma safe_number : forall z, is_safe_for_signature (proto_to_subtle z) = None -> hash_number (proto_to_subtle z) z.
Proof.
  intros z H. unfold proto_to_subtle in *.
  repeat match goal with |- context [if ?b then _ else _] => destruct b eqn:?; try discriminate H end;
  destruct z as [| p | p]; try discriminate H; repeat (destruct p as [p | p |]; try discriminate H); cbn; auto 10.
Qed.
Lemma hash_number_inj : forall h h' z z', hash_number h z -> hash_number h' z' -> (z' = z <-> h' = h).
Proof.
  intros h h' z z' H H'. split.
  - intros ->. rewrite <- (hash_number_known _ _ H). symmetry. apply hash_number_known, H'.
  - intros ->. unfold hash_number in *. cbn in H, H'.
    repeat match goal with K : _ \/ _ |- _ => destruct K as [K | K] | K : False |- _ => contradiction K end; injection H as <- <-; injection H' as H'1; try discriminate H'1; congruence.
Qed.
Lemma encoding_number_subtle : forall enc z, encoding_number enc z -> encoding_proto_to_subtle z = enc /\ enc <> UNKNOWN_ENCODING.
Proof. intros enc z [E | [E | []]]; injection E as <- <-; split; (reflexivity || discriminate). Qed.
(** The checks of the parameters of ECDSA, on numbers *)
Definition ecdsa_checks (hash encoding curve : Z) : option cc_status :=
  and_then (check (negb ((encoding =? DER)%Z || (encoding =? IEEE_P1363)%Z)) "Unsupported signature encoding")
      (match curve with
       | 2 => check (negb (hash =? M_KeyFormats.SHA256)) "Only SHA256 is supported for NIST P256."
       | 3 => check (negb (hash =? M_KeyFormats.SHA384) && negb (hash =? M_KeyFormats.SHA512)) "Only SHA384 and SHA512 are supported for this curve."
       | 4 => check (negb (hash =? M_KeyFormats.SHA512)) "Only SHA512 is supported for this curve."
       | _ => Some (NotOk "Unsupported elliptic curve")
       end)%Z.
Lemma ecdsa_checks_of : forall c h enc zc zh ze, curve_number c zc -> hash_number h zh -> encoding_number enc ze ->
  (ecdsa_checks zh ze zc = None <-> ecdsa_ok c h).
Proof.
  intros c h enc zc zh ze C H E. unfold curve_number, hash_number, encoding_number, ecdsa_ok in *. cbn in C, H, E.
  repeat match goal with K : _ \/ _ |- _ => destruct K as [K | K] | K : False |- _ => contradiction K end;
  injection C as <- <-; injection H as <- <-; injection E as <- <-; cbn; split; intros K; try discriminate K; try reflexivity; auto 10;
  repeat match goal with K : _ \/ _ |- _ => destruct K as [K | K] | K : False |- _ => contradiction K end; discriminate K.
Qed.
Lemma ecdsa_checks_read : forall zc zh ze, ecdsa_checks zh ze zc = None -> exists c h enc, curve_number c zc /\ hash_number h zh /\ encoding_number enc ze.
Proof.
  intros zc zh ze H. unfold ecdsa_checks in H. apply and_then_none in H. destruct H as (E & H).
  apply check_none, negb_false_iff, orb_prop in E.
  assert (EE : exists enc, encoding_number enc ze).
  { destruct E as [E | E]; apply Z.eqb_eq in E; subst ze; [exists EncDer | exists EncIeee]; cbn; auto. }
  assert (CC : exists c, curve_number c zc).
  { destruct zc as [| p | p]; try discriminate H. destruct p as [[p | p |] | [p | [p | p |] |] |]; try discriminate H; [exists P384 | exists P521 | exists P256]; cbn; auto 10. }
  assert (HH : exists h, hash_number h zh).
  { assert (K : (zh =? M_KeyFormats.SHA256 = true \/ zh =? M_KeyFormats.SHA384 = true \/ zh =? M_KeyFormats.SHA512 = true)%Z).
    { destruct zc as [| p | p]; try discriminate H. destruct p as [[p | p |] | [p | [p | p |] |] |]; try discriminate H; apply check_none in H;
        destruct (zh =? M_KeyFormats.SHA256)%Z, (zh =? M_KeyFormats.SHA384)%Z, (zh =? M_KeyFormats.SHA512)%Z; cbn in H; try discriminate H; auto. }
    destruct K as [K | [K | K]]; apply Z.eqb_eq in K; subst zh; [exists M_CcAes.SHA256 | exists M_CcAes.SHA384 | exists M_CcAes.SHA512]; cbn; auto 10. }
  destruct EE as (enc & EE), CC as (c & CC), HH as (h & HH). exists c, h, enc. auto.
Qed.

(** ** Parameters, at [pp] *)
Section At.
  Variables (fs : schema) (m : message) (at_ : list string -> list string) (pp : list string).
  Hypothesis AT : forall q, at_ q = pp ++ q.

  Lemma ecdsa_params_valid : forall c h enc, ecdsa_params_at fs m pp c h enc -> (ecdsa_validate_params fs at_ m = None <-> ecdsa_ok c h).
  Proof.
    intros c h enc ((zc & C & C') & (zh & H & H') & (ze & E & E')). rewrite <- (ecdsa_checks_of c h enc zc zh ze C' H' E'). unfold ecdsa_validate_params. rewrite !AT.
    rewrite (num_at_number _ _ _ _ C), (num_at_number _ _ _ _ H), (num_at_number _ _ _ _ E). reflexivity.
  Qed.
  Lemma ecdsa_params_read : holds_all fs m -> path_type (TMsg fs) (pp ++ ["curve"]) = Some TEnum -> path_type (TMsg fs) (pp ++ ["hash_type"]) = Some TEnum ->
    path_type (TMsg fs) (pp ++ ["encoding"]) = Some TEnum -> ecdsa_validate_params fs at_ m = None -> exists c h enc, ecdsa_params_at fs m pp c h enc.
  Proof.
    intros HM T1 T2 T3 V. destruct (read_enum _ _ _ HM T1) as (zc & C). destruct (read_enum _ _ _ HM T2) as (zh & H). destruct (read_enum _ _ _ HM T3) as (ze & E).
    unfold ecdsa_validate_params in V. rewrite !AT in V. rewrite (num_at_number _ _ _ _ C), (num_at_number _ _ _ _ H), (num_at_number _ _ _ _ E) in V.
    destruct (ecdsa_checks_read zc zh ze V) as (c & h & enc & A1 & A2 & A3). exists c, h, enc. split; [exists zc; auto |]. split; [exists zh; auto | exists ze; auto].
  Qed.
  Lemma pkcs1_params_valid : forall h, pkcs1_params_at fs m pp h -> (pkcs1_validate_params fs at_ m = None <-> safe_hash h).
  Proof.
    intros h (z & H & H'). unfold pkcs1_validate_params. rewrite AT, (num_at_number _ _ _ _ H), (hash_number_known _ _ H'). apply safe_hash_none.
  Qed.
  Lemma pkcs1_params_read : holds_all fs m -> path_type (TMsg fs) (pp ++ ["hash_type"]) = Some TEnum -> pkcs1_validate_params fs at_ m = None -> exists h, pkcs1_params_at fs m pp h.
  Proof.
    intros HM T1 V. destruct (read_enum _ _ _ HM T1) as (z & H). unfold pkcs1_validate_params in V. rewrite AT, (num_at_number _ _ _ _ H) in V.
    exists (proto_to_subtle z), z. split; [exact H | exact (safe_number z V)].
  Qed.
  Lemma pss_params_valid : forall h g salt, pss_params_at fs m pp h g salt -> (pss_validate_params fs at_ m = None <-> safe_hash h /\ g = h /\ (0 <= salt)%Z).
  Proof.
    intros h g salt ((zh & H & H') & (zg & G & G') & S). unfold pss_validate_params. rewrite !AT, (num_at_number _ _ _ _ H), (num_at_number _ _ _ _ G), (num_at_number _ _ _ _ S), (hash_number_known _ _ H').
    rewrite !and_then_none, !check_none, safe_hash_none, negb_false_iff, Z.eqb_eq, Z.ltb_ge, (hash_number_inj h g zh zg H' G'). tauto.
  Qed.
  Lemma pss_params_read : holds_all fs m -> path_type (TMsg fs) (pp ++ ["sig_hash"]) = Some TEnum -> path_type (TMsg fs) (pp ++ ["mgf1_hash"]) = Some TEnum ->
    path_type (TMsg fs) (pp ++ ["salt_length"]) = Some TInt32 -> pss_validate_params fs at_ m = None -> exists h g salt, pss_params_at fs m pp h g salt.
  Proof.
    intros HM T1 T2 T3 V. destruct (read_enum _ _ _ HM T1) as (z & H). destruct (read_enum _ _ _ HM T2) as (z' & G).
    assert (S : exists s, number fs m (pp ++ ["salt_length"]) s).
    { destruct (read_path _ _ _ _ (holds_msg _ _ HM) T3) as (v & HV & E). unfold number. rewrite E. inversion HV; subst. eexists. reflexivity. }
    destruct S as (s & S). unfold pss_validate_params in V. rewrite !AT, (num_at_number _ _ _ _ H), (num_at_number _ _ _ _ G) in V. apply and_then_none in V. destruct V as (V & W). apply and_then_none in W. destruct W as (W & _).
    apply check_none, negb_false_iff, Z.eqb_eq in W. subst z'. pose proof (safe_number z V) as N. exists (proto_to_subtle z), (proto_to_subtle z), s. split; [exists z; auto |]. split; [exists z; auto | exact S].
  Qed.
End At.

(** ** Public keys, at [path] *)
Definition validate_public (kd : sig_kind) : schema -> (list string -> list string) -> message -> option cc_status :=
  match kd with
  | Ecdsa => ecdsa_validate_public
  | Ed25519 => ed25519_validate_public
  | Pkcs1 => rsa_validate_public pkcs1_validate_params
  | Pss => rsa_validate_public pss_validate_params
  end.
Section Public.
  Variables (fs : schema) (m : message) (at_ : list string -> list string) (path : list string).
  Hypothesis AT : forall q, at_ q = path ++ q.

  Lemma at_params : forall q, at_ ("params" :: q) = (path ++ ["params"]) ++ q.
  Proof. intros q. rewrite AT, <- app_assoc. reflexivity. Qed.
  Lemma public_valid : forall k, public_at fs m path k -> (validate_public (public_kind k) fs at_ m = None <-> valid_public k).
  Proof.
    intros k (V & H). destruct k as [c h enc X Y | A | h n e | h g salt n e]; cbn [public_kind validate_public valid_public].
    - destruct H as (P & _). unfold ecdsa_validate_public. rewrite AT, (version_zero _ _ _ V). cbn [and_then]. apply (ecdsa_params_valid fs m _ (path ++ ["params"]) at_params c h enc P).
    - unfold ed25519_validate_public. rewrite !AT, (version_zero _ _ _ V), (bytes_at_content _ _ _ _ H). cbn [and_then]. rewrite check_none, negb_false_iff, Nat.eqb_eq. reflexivity.
    - destruct H as (P & HN & HE). unfold rsa_validate_public. rewrite !AT, (version_zero _ _ _ V), (bytes_at_content _ _ _ _ HN), (bytes_at_content _ _ _ _ HE), !bin2bn_num. cbn [and_then].
      rewrite !and_then_none, modulus_none, exponent_none, (pkcs1_params_valid fs m _ (path ++ ["params"]) at_params h P). tauto.
    - destruct H as (P & HN & HE). unfold rsa_validate_public. rewrite !AT, (version_zero _ _ _ V), (bytes_at_content _ _ _ _ HN), (bytes_at_content _ _ _ _ HE), !bin2bn_num. cbn [and_then].
      rewrite !and_then_none, modulus_none, exponent_none, (pss_params_valid fs m _ (path ++ ["params"]) at_params h g salt P). tauto.
  Qed.
  Lemma public_read : forall kd, holds_all fs m -> (forall q, path_type (TMsg fs) (path ++ q) = path_type (TMsg (public_schema kd)) q) ->
    validate_public kd fs at_ m = None -> exists k, public_kind k = kd /\ public_at fs m path k.
  Proof.
    intros kd HM T V.
    assert (T' : forall q, path_type (TMsg fs) ((path ++ ["params"]) ++ q) = path_type (TMsg (public_schema kd)) ("params" :: q)) by (intros q; rewrite <- app_assoc; apply T).
    assert (VV : number fs m (path ++ ["version"]) 0%Z).
    { apply version_read; [exact HM | rewrite T; destruct kd; reflexivity |]. rewrite <- AT. destruct kd; cbn [validate_public] in V;
        [unfold ecdsa_validate_public in V | unfold ed25519_validate_public in V | unfold rsa_validate_public in V | unfold rsa_validate_public in V]; apply and_then_none in V; apply V. }
    destruct kd; cbn [validate_public] in V.
    - unfold ecdsa_validate_public in V. apply and_then_none in V. destruct V as (_ & V).
      destruct (ecdsa_params_read fs m _ (path ++ ["params"]) at_params HM (T' _) (T' _) (T' _) V) as (c & h & enc & P).
      destruct (read_octets fs m (path ++ ["x"]) HM (T _)) as (X & HX). destruct (read_octets fs m (path ++ ["y"]) HM (T _)) as (Y & HY).
      exists (EcdsaPublic c h enc X Y). split; [reflexivity |]. split; [exact VV |]. auto.
    - destruct (read_octets fs m (path ++ ["key_value"]) HM (T _)) as (A & HA). exists (Ed25519Public A). split; [reflexivity |]. split; [exact VV | exact HA].
    - unfold rsa_validate_public in V. apply and_then_none in V. destruct V as (_ & V). apply and_then_none in V. destruct V as (_ & V). apply and_then_none in V. destruct V as (_ & V).
      destruct (pkcs1_params_read fs m _ (path ++ ["params"]) at_params HM (T' _) V) as (h & P).
      destruct (read_octets fs m (path ++ ["n"]) HM (T _)) as (X & HX). destruct (read_octets fs m (path ++ ["e"]) HM (T _)) as (Y & HY).
      exists (Pkcs1Public h X Y). split; [reflexivity |]. split; [exact VV |]. auto.
    - unfold rsa_validate_public in V. apply and_then_none in V. destruct V as (_ & V). apply and_then_none in V. destruct V as (_ & V). apply and_then_none in V. destruct V as (_ & V).
      destruct (pss_params_read fs m _ (path ++ ["params"]) at_params HM (T' _) (T' _) (T' _) V) as (h & g & salt & P).
      destruct (read_octets fs m (path ++ ["n"]) HM (T _)) as (X & HX). destruct (read_octets fs m (path ++ ["e"]) HM (T _)) as (Y & HY).
      exists (PssPublic h g salt X Y). split; [reflexivity |]. split; [exact VV |]. auto.
  Qed.
  Lemma public_encoded : forall k, public_at fs m path k -> encoded_ok k.
  Proof.
    intros k (_ & H). destruct k as [c h enc X Y | | |]; cbn; try exact I. destruct H as ((_ & _ & ze & _ & E) & _). apply (encoding_number_subtle enc ze E).
  Qed.
  Lemma public_fun : forall k k', public_at fs m path k -> public_at fs m path k' -> public_kind k = public_kind k' -> k = k'.
  Proof.
    intros k k' (_ & H) (_ & H') K. destruct k as [c h enc X Y | A | h n e | h g salt n e], k' as [c' h' enc' X' Y' | A' | h' n' e' | h' g' salt' n' e']; try discriminate K.
    - destruct H as (((zc & C1 & C2) & (zh & H1 & H2) & (ze & E1 & E2)) & HX & HY), H' as (((zc' & C1' & C2') & (zh' & H1' & H2') & (ze' & E1' & E2')) & HX' & HY').
      rewrite <- (content_fun _ _ _ _ _ HX HX'), <- (content_fun _ _ _ _ _ HY HY'). pose proof (number_fun _ _ _ _ _ C1 C1'). pose proof (number_fun _ _ _ _ _ H1 H1'). pose proof (number_fun _ _ _ _ _ E1 E1'). subst zc' zh' ze'.
      rewrite <- (proj1 (curve_number_subtle _ _ C2)), <- (proj1 (curve_number_subtle _ _ C2')), <- (proj1 (encoding_number_subtle _ _ E2)), <- (proj1 (encoding_number_subtle _ _ E2')), <- (hash_number_known _ _ H2), <- (hash_number_known _ _ H2'). reflexivity.
    - f_equal. exact (content_fun _ _ _ _ _ H H').
    - destruct H as ((zh & H1 & H2) & HX & HY), H' as ((zh' & H1' & H2') & HX' & HY'). rewrite <- (content_fun _ _ _ _ _ HX HX'), <- (content_fun _ _ _ _ _ HY HY'). pose proof (number_fun _ _ _ _ _ H1 H1'). subst zh'.
      rewrite <- (hash_number_known _ _ H2), <- (hash_number_known _ _ H2'). reflexivity.
    - destruct H as (((zh & H1 & H2) & (zg & G1 & G2) & S) & HX & HY), H' as (((zh' & H1' & H2') & (zg' & G1' & G2') & S') & HX' & HY'). rewrite <- (content_fun _ _ _ _ _ HX HX'), <- (content_fun _ _ _ _ _ HY HY').
      pose proof (number_fun _ _ _ _ _ H1 H1'). pose proof (number_fun _ _ _ _ _ G1 G1'). pose proof (number_fun _ _ _ _ _ S S'). subst zh' zg' salt'.
      rewrite <- (hash_number_known _ _ H2), <- (hash_number_known _ _ H2'), <- (hash_number_known _ _ G2), <- (hash_number_known _ _ G2'). reflexivity.
  Qed.
End Public.

(** ** The managers of public keys *)
Definition create_verify (ec : ec_crypto) (sg : sig_crypto) (kd : sig_kind) : message -> st_or cc_verifier :=
  match kd with
  | Ecdsa => ecdsa_create_verify ec sg
  | Ed25519 => ed25519_create_verify sg
  | Pkcs1 => pkcs1_create_verify sg RsaSsaPkcs1PublicKey (fun q => q)
  | Pss => pss_create_verify sg RsaSsaPssPublicKey (fun q => q)
  end.
Lemma verify_manager_is : forall ec sg kd, verify_manager ec sg kd =
  verify_manager_of (kind_name kd ++ "PublicKey") (public_schema kd) (validate_public kd (public_schema kd) (fun q => q)) (create_verify ec sg kd).
Proof. intros ec sg []; reflexivity. Qed.
Lemma public_created : forall ec sg k m, public_at (public_schema (public_kind k)) m [] k -> create_verify ec sg (public_kind k) m = verifier_of ec sg k.
Proof.
  intros ec sg k m (V & H). destruct k as [c h enc X Y | A | h n e | h g salt n e]; cbn [public_kind create_verify verifier_of public_schema app] in *.
  - destruct H as (((zc & C1 & C2) & (zh & H1 & H2) & (ze & E1 & E2)) & HX & HY). unfold ecdsa_create_verify, ecdsa_curve, ecdsa_hash, ecdsa_encoding. cbn zeta.
    cbn [app] in *. rewrite (bytes_at_content _ _ _ _ HX), (bytes_at_content _ _ _ _ HY), (num_at_number _ _ _ _ C1), (num_at_number _ _ _ _ H1), (num_at_number _ _ _ _ E1).
    rewrite (proj1 (curve_number_subtle _ _ C2)), (proj1 (encoding_number_subtle _ _ E2)), (hash_number_known _ _ H2). reflexivity.
  - unfold ed25519_create_verify. rewrite (bytes_at_content _ _ _ _ H). reflexivity.
  - destruct H as ((zh & H1 & H2) & HX & HY). unfold pkcs1_create_verify, rsa_public_of. cbn [app] in *. rewrite (bytes_at_content _ _ _ _ HX), (bytes_at_content _ _ _ _ HY), (num_at_number _ _ _ _ H1), (hash_number_known _ _ H2), !bin2bn_num. reflexivity.
  - destruct H as (((zh & H1 & H2) & (zg & G1 & G2) & S) & HX & HY). unfold pss_create_verify, rsa_public_of. cbn [app] in *.
    rewrite (bytes_at_content _ _ _ _ HX), (bytes_at_content _ _ _ _ HY), (num_at_number _ _ _ _ H1), (hash_number_known _ _ H2), (num_at_number _ _ _ _ G1), (hash_number_known _ _ G2), (num_at_number _ _ _ _ S), !bin2bn_num. reflexivity.
Qed.
Lemma parse_key_ok : forall P url fs validate (create : message -> st_or P) d x, parse_key url fs validate create d = StOk x <->
  kd_type_url d = url /\ exists m, parse_message fs (kd_value d) = Some m /\ validate m = None /\ create m = StOk x.
Proof.
  intros P url fs validate create d x. unfold parse_key. destruct (str_eqb url (kd_type_url d)) eqn:U; cbn [negb].
  - apply str_eqb_spec in U. destruct (parse_message fs (kd_value d)) as [m |].
    + rewrite checked_ok. split; [intros (A & B); split; [auto | exists m; auto] |]. intros (_ & m' & E & A & B). injection E as <-. auto.
    + split; [intros H; discriminate H | intros (_ & m & H & _); discriminate H].
  - split; [intros H; discriminate H |]. intros (E & _). rewrite E, (proj2 (str_eqb_spec _ _) eq_refl) in U. discriminate U.
Qed.
Lemma public_got_sig : forall ec sg kd d v, cl_get_primitive (verify_manager ec sg kd) d = StOk v ->
  exists k, public_kind k = kd /\ is_sig_public d k /\ valid_public k /\ encoded_ok k /\ verifier_of ec sg k = StOk v.
Proof.
  intros ec sg kd d v H. rewrite verify_manager_is in H. cbn [verify_manager_of cl_get_primitive] in H. apply parse_key_ok in H. destruct H as (U & m & E & V & C). rewrite url_is in U.
  destruct (public_read (public_schema kd) m (fun q => q) [] (fun q => eq_refl) kd (parse_holds _ _ _ E) (fun q => eq_refl) V) as (k & K & P). subst kd.
  exists k. split; [reflexivity |]. split; [split; [exact U | exists m; auto] |]. split; [exact (proj1 (public_valid _ m (fun q => q) [] (fun q => eq_refl) k P) V) |]. split; [exact (public_encoded _ _ _ k P) |].
  rewrite <- (public_created ec sg k m P). exact C.
Qed.
Lemma public_get_sig : forall ec sg d k, is_sig_public d k -> valid_public k -> cl_get_primitive (verify_manager ec sg (public_kind k)) d = verifier_of ec sg k /\ encoded_ok k.
Proof.
  intros ec sg d k (U & m & E & P) V. split; [| exact (public_encoded _ _ _ k P)]. rewrite verify_manager_is. cbn [verify_manager_of cl_get_primitive]. unfold parse_key. rewrite url_is, U, (proj2 (str_eqb_spec _ _) eq_refl). cbn [negb].
  rewrite E, (proj2 (public_valid _ m (fun q => q) [] (fun q => eq_refl) k P) V), (public_created ec sg k m P). reflexivity.
Qed.
Lemma is_public_fun : forall d k k', is_sig_public d k -> is_sig_public d k' -> public_kind k = public_kind k' -> k = k'.
Proof.
  intros d k k' (_ & m & E & P) (_ & m' & E' & P') K. rewrite <- K in E', P'. rewrite E in E'. injection E' as <-. exact (public_fun _ _ _ k k' P P' K).
Qed.
(** Verifiers are made exactly of the good keys. *)
Theorem sig_verifier_made : forall ec sg kd d,
  (exists v, cl_get_primitive (verify_manager ec sg kd) d = StOk v) <-> (exists k, public_kind k = kd /\ is_sig_public d k /\ good_public ec k).
Proof.
  intros ec sg kd d. split.
  - intros (v & H). destruct (public_got_sig ec sg kd d v H) as (k & K & D & V & EO & C). exists k. split; [exact K |]. split; [exact D |]. apply (verifier_made ec sg k V). exists v. exact C.
  - intros (k & <- & D & G). destruct (public_get_sig ec sg d k D (proj1 G)) as (-> & _). apply (verifier_made ec sg k (proj1 G)), G.
Qed.
Theorem sig_verifies : forall ec sg d k v, sig_laws ec sg -> is_sig_public d k -> cl_get_primitive (verify_manager ec sg (public_kind k)) d = StOk v ->
  forall x data, cv_verify v x data = StOk tt <-> valid_signature sg k data x.
Proof.
  intros ec sg d k v L D H x data. destruct (public_got_sig ec sg _ d v H) as (k' & K & D' & V & EO & C). rewrite <- (is_public_fun d k k' D D' (eq_sym K)) in *. exact (verifier_verifies ec sg k v data x L V EO C).
Qed.
