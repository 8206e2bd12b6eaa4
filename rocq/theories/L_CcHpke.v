(** Proofs: HPKE, its keys and key managers. *)
From Coq Require Import Strings.Byte Strings.String List NArith ZArith Bool Lia.
From Verif Require Import M_Base L_Base M_Proto M_Utf8 M_Wire L_Wire S_Wire M_ProtoMsg S_ProtoMsg L_ProtoMsg M_KeyFormats M_Templates M_Prims M_StreamTypes M_CcStream M_CcManagers M_CcAes
  M_CcStreamKeys M_CcModes M_CcSymmetric M_CcSymKeys M_CcEcies M_CcEciesKeys M_CcSignatures M_CcHpke S_Config S_CcAes S_CcStreamKeys S_CcModes S_CcSymmetric S_CcSymKeys S_CcSymHandles
  S_CcEcies S_CcEciesKeys S_CcSignatures S_CcHpke L_CcStreamKeys L_CcModes L_CcModes4 L_CcSymmetric L_CcSymmetric2 L_CcSymKeys L_CcSymKeys2 L_CcSymHandles L_CcEcies L_CcEcies2 L_CcEcies3 L_CcEciesKeys
  L_CcSigDer L_CcSignatures L_CcSigKeys L_CcSigKeys2 L_CcSigNew.
Import ListNotations.
Open Scope string_scope.
Open Scope list_scope.
Open Scope nat_scope.

(** ** Algorithms *)
Lemma aead_chosen : forall z a, hpke_aead_proto_to_enum z = StOk a <-> hpke_aead_number a z.
Proof.
  intros z a. split.
  - intros H. destruct z as [| p | p]; try discriminate H. destruct p as [[p | p |] | [p | p |] |]; try discriminate H; injection H as <-; cbn; auto.
  - intros [H | [H | [H | []]]]; injection H as <- <-; reflexivity.
Qed.
Lemma suite_chosen : forall p a, hpke_params_proto_to_struct (hs_kem p) (hs_kdf p) (hs_aead p) = StOk a <-> suite_works p a.
Proof.
  intros p a. unfold hpke_params_proto_to_struct, suite_works. destruct (Z.eqb_spec (hs_kem p) 1) as [E | E]; cbn [negb]; [| split; [discriminate | tauto]].
  destruct (Z.eqb_spec (hs_kdf p) 1) as [F | F]; cbn [negb]; [| split; [discriminate | tauto]]. rewrite aead_chosen. tauto.
Qed.
Lemma aead_number_set : forall a z, hpke_aead_number a z -> z <> 0%Z.
Proof. intros a z [H | [H | [H | []]]]; injection H as <- <-; discriminate. Qed.
Lemma aead_number_fun : forall a b z, hpke_aead_number a z -> hpke_aead_number b z -> a = b.
Proof. intros a b z H K. apply aead_chosen in H, K. congruence. Qed.
Lemma suite_works_taken : forall p a, suite_works p a -> suite_taken p.
Proof. intros p a (A & B & C). split; [exact A |]. split; [exact B |]. exact (aead_number_set a _ C). Qed.
Lemma suite_works_fun : forall p a b, suite_works p a -> suite_works p b -> a = b.
Proof. intros p a b (_ & _ & A) (_ & _ & B). exact (aead_number_fun _ _ _ A B). Qed.

(** ** Encryption and decryption *)
Lemma hpke_encrypt_is : forall hc p pk rnd P info C, pk <> [] ->
  (hpke_encrypt hc (hs_kem p) (hs_kdf p) (hs_aead p) pk rnd P info = StOk C <-> exists a, suite_works p a /\ hpke_ciphertext hc a pk info rnd P C).
Proof.
  intros hc p pk rnd P info C NE. unfold hpke_encrypt. rewrite bind_st_ok. split.
  - intros (a & A & H). apply suite_chosen in A. exists a. split; [exact A |]. apply bind_st_ok in H. destruct H as ((enc & ctx) & S & H). apply bind_st_ok in H. destruct H as (c & X & H). apply st_ok_inj in H.
    unfold setup_sender in S. destruct pk as [| b pk]; [contradiction |]. destruct (hpke_setup_sender hc a (b :: pk) info rnd) as [ec |] eqn:E; [| discriminate S]. apply st_ok_inj in S. subst ec.
    unfold context_seal in X. destruct (hpke_seal hc ctx P []) as [c' |] eqn:E'; [| discriminate X]. apply st_ok_inj in X. subst c'. exists enc, ctx, c. auto.
  - intros (a & A & enc & ctx & c & S & X & ->). exists a. split; [apply suite_chosen, A |]. apply bind_st_ok. exists (enc, ctx). split.
    + unfold setup_sender. destruct pk as [| b pk]; [contradiction |]. rewrite S. reflexivity.
    + apply bind_st_ok. exists c. split; [| reflexivity]. unfold context_seal. rewrite X. reflexivity.
Qed.
Lemma hpke_decrypt_is : forall ec hc p sk C info P, hpke_laws ec hc ->
  (hpke_decrypt hc (hs_kem p) (hs_kdf p) (hs_aead p) sk C info = StOk P <-> exists a, suite_works p a /\ hpke_plaintext hc a sk info C P).
Proof.
  intros ec hc p sk C info P L. unfold hpke_decrypt. rewrite bind_st_ok. split.
  - intros (n & N & H). unfold hpke_encapsulated_key_length in N. destruct (hs_kem p =? 1)%Z; [| discriminate N]. apply st_ok_inj in N. subst n.
    destruct (Nat.ltb_spec (length C) 32) as [X | X]; [discriminate H |]. cbv zeta in H. apply bind_st_ok in H. destruct H as (a & A & H). apply suite_chosen in A. exists a. split; [exact A |].
    apply bind_st_ok in H. destruct H as (ctx & S & O). exists (firstn 32 C), ctx, (skipn 32 C). split; [symmetry; apply firstn_skipn |].
    assert (LE : length (firstn 32 C) = 32) by (rewrite firstn_length; lia). split; [exact LE |]. unfold setup_recipient in S.
    destruct sk as [| b sk]; [discriminate S |]. destruct (firstn 32 C) as [| e enc] eqn:EF; [discriminate S |]. destruct (hpke_key_init hc (b :: sk)) eqn:K; cbn [negb] in S; [| discriminate S].
    split; [apply (law_hpke_key _ _ L), K |]. destruct (hpke_setup_recipient hc a (b :: sk) (e :: enc) info) as [x |]; [| discriminate S]. apply st_ok_inj in S. subst x. split; [reflexivity |].
    unfold context_open in O. destruct (hpke_open hc ctx (skipn 32 C) []) as [x |]; [| discriminate O]. apply st_ok_inj in O. subst x. reflexivity.
  - intros (a & A & enc & ctx & c & -> & LE & LS & S & O). exists 32. split.
    + unfold hpke_encapsulated_key_length. destruct A as (-> & _). reflexivity.
    + rewrite app_length, LE. replace (Nat.ltb (32 + length c) 32) with false by (symmetry; apply Nat.ltb_ge; lia). cbv zeta. apply bind_st_ok. exists a. split; [apply suite_chosen, A |].
      replace (firstn 32 (enc ++ c)) with enc by (rewrite <- LE, firstn_app, Nat.sub_diag, firstn_all, firstn_O, app_nil_r; reflexivity).
      replace (skipn 32 (enc ++ c)) with c by (rewrite <- LE, skipn_app, Nat.sub_diag, skipn_all, skipn_O; reflexivity).
      apply bind_st_ok. exists ctx. split; [| unfold context_open; rewrite O; reflexivity]. unfold setup_recipient. rewrite (proj2 (law_hpke_key _ _ L sk) LS), S. cbn [negb].
      destruct sk; [discriminate LS |]. destruct enc; [discriminate LE | reflexivity].
Qed.
Lemma bind_st_defined : forall A B (a : st_or A) (f : A -> st_or B), a <> StErr Undefined -> (forall x, f x <> StErr Undefined) -> bind_st a f <> StErr Undefined.
Proof. intros A B [x | s] f H K; cbn; [apply K | intros E; apply H; injection E as ->; reflexivity]. Qed.
Lemma suite_defined : forall kem kdf aead, hpke_params_proto_to_struct kem kdf aead <> StErr Undefined.
Proof.
  intros kem kdf aead. unfold hpke_params_proto_to_struct. destruct (negb (kem =? 1)%Z); [discriminate |]. destruct (negb (kdf =? 1)%Z); [discriminate |].
  unfold hpke_aead_proto_to_enum. destruct aead as [| p | p]; try discriminate. destruct p as [[p | p |] | [p | p |] |]; discriminate.
Qed.
Lemma hpke_encrypt_defined : forall hc kem kdf aead pk rnd P info, hpke_encrypt hc kem kdf aead pk rnd P info <> StErr Undefined.
Proof.
  intros. unfold hpke_encrypt. apply bind_st_defined; [apply suite_defined |]. intros a. apply bind_st_defined.
  - unfold setup_sender. destruct pk; [discriminate |]. destruct (hpke_setup_sender _ _ _ _ _); discriminate.
  - intros (enc & ctx). apply bind_st_defined; [| discriminate]. unfold context_seal. destruct (hpke_seal _ _ _ _); discriminate.
Qed.
Lemma hpke_decrypt_defined : forall hc kem kdf aead sk C info, hpke_decrypt hc kem kdf aead sk C info <> StErr Undefined.
Proof.
  intros. unfold hpke_decrypt. apply bind_st_defined; [unfold hpke_encapsulated_key_length; destruct (kem =? 1)%Z; discriminate |]. intros n. destruct (Nat.ltb _ _); [discriminate |]. cbv zeta.
  apply bind_st_defined; [apply suite_defined |]. intros a. apply bind_st_defined; [| intros ctx; unfold context_open; destruct (hpke_open _ _ _ _); discriminate].
  unfold setup_recipient. destruct sk; [discriminate |]. destruct (firstn n C); [discriminate |]. destruct (negb _); [discriminate |]. destruct (hpke_setup_recipient _ _ _ _ _); discriminate.
Qed.

(** ** Reading keys *)
Lemma app_path : forall (p : list string) x q, (p ++ [x]) ++ q = p ++ (x :: q).
Proof. intros. rewrite <- app_assoc. reflexivity. Qed.
Lemma suite_fun : forall fs m p a b, hpke_suite_at fs m p a -> hpke_suite_at fs m p b -> a = b.
Proof.
  intros fs m p [a1 a2 a3] [b1 b2 b3] (A & B & C) (A' & B' & C'). cbn [hs_kem hs_kdf hs_aead] in *.
  rewrite (number_fun _ _ _ _ _ A A'), (number_fun _ _ _ _ _ B B'), (number_fun _ _ _ _ _ C C'). reflexivity.
Qed.
Lemma public_fun_hpke : forall fs m p a b, hpke_public_at fs m p a -> hpke_public_at fs m p b -> a = b.
Proof.
  intros fs m p [s x] [s' x'] (_ & A & B) (_ & A' & B'). cbn [hpub_suite hpub_key] in *. rewrite (suite_fun _ _ _ _ _ A A'), (content_fun _ _ _ _ _ B B'). reflexivity.
Qed.
Lemma suite_read : forall fs m p, holds_all fs m -> (forall q, path_type (TMsg fs) (p ++ q) = path_type (TMsg HpkeParams) q) -> exists s, hpke_suite_at fs m p s.
Proof.
  intros fs m p HM T. destruct (read_enum _ _ (p ++ ["kem"]) HM (T _)) as (a & A). destruct (read_enum _ _ (p ++ ["kdf"]) HM (T _)) as (b & B). destruct (read_enum _ _ (p ++ ["aead"]) HM (T _)) as (c & C).
  exists (mk_hpke_suite a b c). split; [exact A |]. split; [exact B | exact C].
Qed.
Lemma suite_valid : forall fs m at_ p s, (forall q, at_ q = p ++ q) -> hpke_suite_at fs m p s -> (hpke_validate_params fs at_ m = None <-> suite_stated s).
Proof.
  intros fs m at_ p s AT (A & B & C). unfold hpke_validate_params. rewrite !AT, (num_at_number _ _ _ _ A), (num_at_number _ _ _ _ B), (num_at_number _ _ _ _ C), !and_then_none, !check_none, !Z.eqb_neq. reflexivity.
Qed.
Lemma suite_present : forall fs m p s, path_type (TMsg fs) p = Some (TMsg HpkeParams) -> hpke_suite_at fs m p s -> suite_stated s -> has_at fs m p = true.
Proof.
  intros fs m p s T (A & _) (N & _). apply (is_set fs m p ["kem"] HpkeParams (VNum (hs_kem s)) T A). cbn. intros E. injection E as E. exact (N (eq_sym E)).
Qed.
Section Public.
  Variables (fs : schema) (m : message) (at_ : list string -> list string) (p : list string).
  Hypothesis AT : forall q, at_ q = p ++ q.
  Hypothesis T : forall q, path_type (TMsg fs) (p ++ q) = path_type (TMsg HpkePublicKey) q.

  Lemma hpke_public_valid : forall k, hpke_public_at fs m p k -> (hpke_validate_public fs at_ m = None <-> suite_stated (hpub_suite k)).
  Proof.
    intros k (V & S & _). unfold hpke_validate_public. rewrite !AT, (version_zero _ _ _ V). cbn [and_then].
    rewrite and_then_none, check_none, negb_false_iff, (suite_valid fs m _ (p ++ ["params"]) (hpub_suite k)); [| intros q; rewrite AT; symmetry; apply app_path | exact S].
    split; [tauto |]. intros ST. split; [| exact ST]. apply (suite_present fs m _ (hpub_suite k)); [rewrite T; reflexivity | exact S | exact ST].
  Qed.
  Lemma hpke_public_read : holds_all fs m -> hpke_validate_public fs at_ m = None -> exists k, hpke_public_at fs m p k.
  Proof.
    intros HM V. unfold hpke_validate_public in V. apply and_then_none in V. destruct V as (V & _). rewrite AT in V.
    assert (VV : number fs m (p ++ ["version"]) 0%Z) by (apply version_read; [exact HM | rewrite T; reflexivity | exact V]).
    destruct (suite_read fs m (p ++ ["params"]) HM) as (s & S); [intros q; rewrite app_path, T; reflexivity |]. destruct (read_octets _ _ (p ++ ["public_key"]) HM (T _)) as (x & X).
    exists (mk_hpke_public s x). split; [exact VV |]. split; [exact S | exact X].
  Qed.
End Public.

(** Beginning with the message *)
Lemma encrypt_new_is : forall hc m k, hpke_public_at HpkePublicKey m [] k -> suite_stated (hpub_suite k) ->
  (forall x, hpke_encrypt_new hc m = StOk x -> hpub_key k <> [] /\ suite_taken (hpub_suite k)) /\
  (hpub_key k <> [] -> suite_taken (hpub_suite k) -> hpke_encrypt_new hc m = StOk (mk_cc_hybrid_encrypt (fun rnd P info =>
     hpke_encrypt hc (hs_kem (hpub_suite k)) (hs_kdf (hpub_suite k)) (hs_aead (hpub_suite k)) (hpub_key k) rnd P info))).
Proof.
  intros hc m k (V & S & X) ST. assert (HP : has_at HpkePublicKey m ["params"] = true) by (apply (suite_present _ _ _ (hpub_suite k)); [reflexivity | exact S | exact ST]). unfold hpke_encrypt_new, empty_at. cbv zeta. cbn [app] in *.
  destruct S as (A & B & C). cbn [app] in *. rewrite (num_at_number _ _ _ _ A), (num_at_number _ _ _ _ B), (num_at_number _ _ _ _ C), (bytes_at_content _ _ _ _ X), HP. cbn [negb]. unfold suite_taken. destruct ST as (_ & _ & NA). split.
  - intros x H. destruct (hpub_key k) as [| b r]; [discriminate H |]. cbn [length Nat.eqb] in H. destruct (Z.eqb_spec (hs_kem (hpub_suite k)) 1); [| discriminate H]. destruct (Z.eqb_spec (hs_kdf (hpub_suite k)) 1); [| discriminate H]. split; [discriminate | auto].
  - intros NE (-> & -> & _). rewrite (proj2 (Z.eqb_neq _ _) NA). destruct (hpub_key k); [contradiction |]. reflexivity.
Qed.
Lemma decrypt_new_is : forall hc m k, number HpkePrivateKey m ["version"] 0%Z -> hpke_public_at HpkePrivateKey m ["public_key"] (hprv_public k) -> octets HpkePrivateKey m ["private_key"] (hprv_key k) ->
  suite_stated (hpub_suite (hprv_public k)) -> has_at HpkePrivateKey m ["public_key"] = true ->
  let s := hpub_suite (hprv_public k) in
  (forall x, hpke_decrypt_new hc m = StOk x -> hprv_key k <> [] /\ suite_taken s) /\
  (hprv_key k <> [] -> suite_taken s -> hpke_decrypt_new hc m = StOk (mk_cc_hybrid_decrypt (fun C info => hpke_decrypt hc (hs_kem s) (hs_kdf s) (hs_aead s) (hprv_key k) C info))).
Proof.
  intros hc m k V (V' & S & X) Y ST HK. cbn zeta. assert (HP : has_at HpkePrivateKey m ["public_key"; "params"] = true) by (apply (suite_present _ _ _ (hpub_suite (hprv_public k))); [reflexivity | exact S | exact ST]). unfold hpke_decrypt_new, empty_at. cbv zeta. cbn [app] in *.
  destruct S as (A & B & C). cbn [app] in *. rewrite (num_at_number _ _ _ _ A), (num_at_number _ _ _ _ B), (num_at_number _ _ _ _ C), (bytes_at_content _ _ _ _ Y), HP, HK. cbn [negb]. unfold suite_taken. destruct ST as (_ & _ & NA). split.
  - intros x H. destruct (hprv_key k) as [| b r]; [discriminate H |]. cbn [length Nat.eqb] in H. destruct (Z.eqb_spec (hs_kem (hpub_suite (hprv_public k))) 1); [| discriminate H]. destruct (Z.eqb_spec (hs_kdf (hpub_suite (hprv_public k))) 1); [| discriminate H]. split; [discriminate | auto].
  - intros NE (-> & -> & _). rewrite (proj2 (Z.eqb_neq _ _) NA). destruct (hprv_key k); [contradiction |]. reflexivity.
Qed.
Lemma taken_stated : forall s, suite_taken s -> suite_stated s.
Proof. intros s (A & B & C). split; [rewrite A; discriminate |]. split; [rewrite B; discriminate | exact C]. Qed.

(** ** The manager of public keys *)
Lemma hpke_public_got : forall hc d x, cl_get_primitive (hpke_public_key_manager hc) d = StOk x ->
  exists k, is_hpke_public d k /\ hpub_key k <> [] /\ suite_taken (hpub_suite k).
Proof.
  intros hc d x H. cbn [hpke_public_key_manager cl_get_primitive] in H. apply parse_key_ok in H. destruct H as (U & m & E & V & C). rewrite url_is in U.
  destruct (hpke_public_read HpkePublicKey m (fun q => q) [] (fun q => eq_refl) (fun q => eq_refl) (parse_holds _ _ _ E) V) as (k & K). exists k.
  pose proof (proj1 (hpke_public_valid HpkePublicKey m (fun q => q) [] (fun q => eq_refl) (fun q => eq_refl) k K) V) as ST.
  split; [split; [exact U | exists m; auto] |]. exact (proj1 (encrypt_new_is hc m k K ST) x C).
Qed.
Lemma hpke_public_get : forall hc d k, is_hpke_public d k -> hpub_key k <> [] -> suite_taken (hpub_suite k) -> let s := hpub_suite k in
  cl_get_primitive (hpke_public_key_manager hc) d = StOk (mk_cc_hybrid_encrypt (fun rnd P info => hpke_encrypt hc (hs_kem s) (hs_kdf s) (hs_aead s) (hpub_key k) rnd P info)).
Proof.
  intros hc d k (U & m & E & K) NE TK. cbn zeta. pose proof (taken_stated _ TK) as ST. cbn [hpke_public_key_manager cl_get_primitive]. apply parse_key_ok. split; [exact U |]. exists m. split; [exact E |].
  split; [exact (proj2 (hpke_public_valid HpkePublicKey m (fun q => q) [] (fun q => eq_refl) (fun q => eq_refl) k K) ST) |]. exact (proj2 (encrypt_new_is hc m k K ST) NE TK).
Qed.
Lemma is_hpke_public_fun : forall d k k', is_hpke_public d k -> is_hpke_public d k' -> k = k'.
Proof. intros d k k' (_ & m & E & K) (_ & m' & E' & K'). rewrite E in E'. injection E' as <-. exact (public_fun_hpke _ _ _ _ _ K K'). Qed.
(** Encrypters are made exactly of the keys with the algorithms that are taken. *)
Theorem hpke_encrypter_made : forall hc d,
  (exists x, cl_get_primitive (hpke_public_key_manager hc) d = StOk x) <-> (exists k, is_hpke_public d k /\ hpub_key k <> [] /\ suite_taken (hpub_suite k)).
Proof.
  intros hc d. split; [intros (x & H); exact (hpke_public_got hc d x H) |]. intros (k & K & NE & TK). eexists. exact (hpke_public_get hc d k K NE TK).
Qed.
Theorem hpke_encrypts : forall hc d k x, is_hpke_public d k -> cl_get_primitive (hpke_public_key_manager hc) d = StOk x ->
  forall rnd P info, (forall C, che_encrypt x rnd P info = StOk C <-> exists a, suite_works (hpub_suite k) a /\ hpke_ciphertext hc a (hpub_key k) info rnd P C) /\
    che_encrypt x rnd P info <> StErr Undefined.
Proof.
  intros hc d k x K H rnd P info. destruct (hpke_public_got hc d x H) as (k' & K' & NE & TK). rewrite <- (is_hpke_public_fun d k k' K K') in *.
  rewrite (hpke_public_get hc d k K NE TK) in H. apply st_ok_inj in H. subst x. cbn [che_encrypt]. split; [| apply hpke_encrypt_defined]. intros C. exact (hpke_encrypt_is hc (hpub_suite k) (hpub_key k) rnd P info C NE).
Qed.
(** With an AEAD that is not known, everything is refused only when it is encrypted. *)
Theorem hpke_unknown_aead : forall hc d k, is_hpke_public d k -> hpub_key k <> [] -> suite_taken (hpub_suite k) -> (forall a, ~ hpke_aead_number a (hs_aead (hpub_suite k))) ->
  exists x, cl_get_primitive (hpke_public_key_manager hc) d = StOk x /\ forall rnd P info, exists s, che_encrypt x rnd P info = StErr s /\ s <> Undefined.
Proof.
  intros hc d k K NE TK NA. destruct (proj2 (hpke_encrypter_made hc d)) as (x & H); [exists k; auto |]. exists x. split; [exact H |]. intros rnd P info. destruct (hpke_encrypts hc d k x K H rnd P info) as (E & D).
  destruct (che_encrypt x rnd P info) as [C | s] eqn:EC; [| exists s; split; [reflexivity | intros ->; exact (D eq_refl)]]. destruct (proj1 (E C) eq_refl) as (a & (_ & _ & A) & _). elim (NA a A).
Qed.

(** ** The manager of private keys *)
Lemma private_key_set : forall m k, hpke_public_at HpkePrivateKey m ["public_key"] k -> suite_stated (hpub_suite k) -> has_at HpkePrivateKey m ["public_key"] = true.
Proof.
  intros m k (_ & (A & _) & _) (N & _). apply (is_set HpkePrivateKey m ["public_key"] ["params"; "kem"] HpkePublicKey (VNum (hs_kem (hpub_suite k))) eq_refl A). cbn. intros E. injection E as E. exact (N (eq_sym E)).
Qed.
Lemma hpke_private_valid : forall m k, number HpkePrivateKey m ["version"] 0%Z -> hpke_public_at HpkePrivateKey m ["public_key"] k -> (hpke_validate_private m = None <-> suite_stated (hpub_suite k)).
Proof.
  intros m k V K. unfold hpke_validate_private. rewrite (version_zero _ _ _ V). cbn [and_then]. rewrite and_then_none, check_none, negb_false_iff.
  rewrite (hpke_public_valid HpkePrivateKey m (cons "public_key") ["public_key"] (fun q => eq_refl) (fun q => eq_refl) k K). split; [tauto |]. intros ST. split; [exact (private_key_set m k K ST) | exact ST].
Qed.
Lemma hpke_private_read : forall x m, parse_message HpkePrivateKey x = Some m -> hpke_validate_private m = None ->
  exists k, number HpkePrivateKey m ["version"] 0%Z /\ hpke_public_at HpkePrivateKey m ["public_key"] (hprv_public k) /\ octets HpkePrivateKey m ["private_key"] (hprv_key k) /\ suite_stated (hpub_suite (hprv_public k)).
Proof.
  intros x m E V. pose proof (parse_holds _ _ _ E) as HM. pose proof V as V0. unfold hpke_validate_private in V. apply and_then_none in V. destruct V as (V1 & V). apply and_then_none in V. destruct V as (_ & V).
  assert (VV : number HpkePrivateKey m ["version"] 0%Z) by (apply version_read; [exact HM | reflexivity | exact V1]).
  destruct (hpke_public_read HpkePrivateKey m (cons "public_key") ["public_key"] (fun q => eq_refl) (fun q => eq_refl) HM V) as (k & K). destruct (read_octets _ _ ["private_key"] HM eq_refl) as (s & S).
  exists (mk_hpke_private k s). split; [exact VV |]. split; [exact K |]. split; [exact S |]. exact (proj1 (hpke_private_valid m k VV K) V0).
Qed.
Lemma hpke_private_got : forall ec hc d x, cl_get_primitive (hpke_private_key_manager ec hc) d = StOk x ->
  exists k, is_hpke_private d k /\ hprv_key k <> [] /\ suite_taken (hpub_suite (hprv_public k)).
Proof.
  intros ec hc d x H. cbn [hpke_private_key_manager cl_get_primitive] in H. apply parse_key_ok in H. destruct H as (U & m & E & V & C). rewrite url_is in U.
  destruct (hpke_private_read _ m E V) as (k & VV & K & S & ST). exists k. split; [split; [exact U | exists m; auto] |].
  exact (proj1 (decrypt_new_is hc m k VV K S ST (private_key_set m _ K ST)) x C).
Qed.
Lemma hpke_private_get : forall ec hc d k, is_hpke_private d k -> hprv_key k <> [] -> suite_taken (hpub_suite (hprv_public k)) -> let s := hpub_suite (hprv_public k) in
  cl_get_primitive (hpke_private_key_manager ec hc) d = StOk (mk_cc_hybrid_decrypt (fun C info => hpke_decrypt hc (hs_kem s) (hs_kdf s) (hs_aead s) (hprv_key k) C info)).
Proof.
  intros ec hc d k (U & m & E & V & K & S) NE TK. cbn zeta. pose proof (taken_stated _ TK) as ST. cbn [hpke_private_key_manager cl_get_primitive]. apply parse_key_ok. split; [exact U |]. exists m. split; [exact E |].
  split; [exact (proj2 (hpke_private_valid m _ V K) ST) |]. exact (proj2 (decrypt_new_is hc m k V K S ST (private_key_set m _ K ST)) NE TK).
Qed.
Lemma is_hpke_private_fun : forall d k k', is_hpke_private d k -> is_hpke_private d k' -> k = k'.
Proof.
  intros d [k s] [k' s'] (_ & m & E & _ & K & S) (_ & m' & E' & _ & K' & S'). rewrite E in E'. injection E' as <-. cbn [hprv_public hprv_key] in *. rewrite (public_fun_hpke _ _ _ _ _ K K'), (content_fun _ _ _ _ _ S S'). reflexivity.
Qed.
Theorem hpke_decrypter_made : forall ec hc d,
  (exists x, cl_get_primitive (hpke_private_key_manager ec hc) d = StOk x) <-> (exists k, is_hpke_private d k /\ hprv_key k <> [] /\ suite_taken (hpub_suite (hprv_public k))).
Proof.
  intros ec hc d. split; [intros (x & H); exact (hpke_private_got ec hc d x H) |]. intros (k & K & NE & TK). eexists. exact (hpke_private_get ec hc d k K NE TK).
Qed.
Theorem hpke_decrypts : forall ec hc d k x, hpke_laws ec hc -> is_hpke_private d k -> cl_get_primitive (hpke_private_key_manager ec hc) d = StOk x ->
  forall C info, (forall P, chd_decrypt x C info = StOk P <-> exists a, suite_works (hpub_suite (hprv_public k)) a /\ hpke_plaintext hc a (hprv_key k) info C P) /\
    chd_decrypt x C info <> StErr Undefined.
Proof.
  intros ec hc d k x L K H C info. destruct (hpke_private_got ec hc d x H) as (k' & K' & NE & TK). rewrite <- (is_hpke_private_fun d k k' K K') in *.
  rewrite (hpke_private_get ec hc d k K NE TK) in H. apply st_ok_inj in H. subst x. cbn [chd_decrypt]. split; [| apply hpke_decrypt_defined]. intros P. exact (hpke_decrypt_is ec hc (hpub_suite (hprv_public k)) (hprv_key k) C info P L).
Qed.

(** ** What is encrypted is decrypted. *)
Lemma hpke_opens_sealed : forall ec hc a sk info rnd P C, hpke_laws ec hc -> length sk = 32 -> hpke_ciphertext hc a (x25519_public ec sk) info rnd P C -> hpke_plaintext hc a sk info C P.
Proof.
  intros ec hc a sk info rnd P C L LS (enc & ctx & c & S & X & ->). destruct (law_hpke_open _ _ L _ _ _ _ _ _ _ _ LS S X) as (ctx' & R & O). exists enc, ctx', c.
  split; [reflexivity |]. split; [exact (law_hpke_enc _ _ L _ _ _ _ _ _ S) |]. auto.
Qed.
Lemma hpke_seals : forall ec hc a sk info rnd P, hpke_laws ec hc -> length sk = 32 -> hpke_admits P -> exists C, hpke_ciphertext hc a (x25519_public ec sk) info rnd P C.
Proof.
  intros ec hc a sk info rnd P L LS AD. destruct (law_hpke_sender _ _ L a sk info rnd LS) as (enc & ctx & S). destruct (law_hpke_seal _ _ L _ _ _ _ _ _ P S AD) as (c & X). exists (enc ++ c), enc, ctx, c. auto.
Qed.
Lemma x25519_public_set : forall ec lib sk, ec_laws ec lib -> length sk = 32 -> x25519_public ec sk <> [].
Proof. intros ec lib sk L LS E. pose proof (law_x25519_public _ _ L sk LS) as H. rewrite E in H. discriminate H. Qed.
Theorem hpke_round_trip : forall ec lib hc d d' k a, ec_laws ec lib -> hpke_laws ec hc -> is_hpke_private d k -> is_hpke_public d' (hprv_public k) -> hpke_pair ec k -> suite_works (hpub_suite (hprv_public k)) a ->
  exists x y, cl_get_primitive (hpke_public_key_manager hc) d' = StOk x /\ cl_get_primitive (hpke_private_key_manager ec hc) d = StOk y /\
    forall rnd P info, (hpke_admits P -> exists C, che_encrypt x rnd P info = StOk C) /\ (forall C, che_encrypt x rnd P info = StOk C -> chd_decrypt y C info = StOk P).
Proof.
  intros ec lib hc d d' k a EL L K K' (LS & EP) W. pose proof (suite_works_taken _ _ W) as TK.
  destruct (proj2 (hpke_encrypter_made hc d')) as (x & X). { exists (hprv_public k). split; [exact K' |]. split; [rewrite EP; exact (x25519_public_set ec lib _ EL LS) | exact TK]. }
  destruct (proj2 (hpke_decrypter_made ec hc d)) as (y & Y). { exists k. split; [exact K |]. split; [intros E; rewrite E in LS; discriminate LS | exact TK]. }
  exists x, y. split; [exact X |]. split; [exact Y |]. intros rnd P info. destruct (hpke_encrypts hc d' _ x K' X rnd P info) as (E & _). rewrite EP in E. split.
  - intros AD. destruct (hpke_seals ec hc a _ info rnd P L LS AD) as (C & HC). exists C. apply E. exists a. auto.
  - intros C HC. apply E in HC. destruct HC as (b & Wb & HC). apply (proj1 (hpke_decrypts ec hc d k y L K Y C info)). exists b. split; [exact Wb |]. exact (hpke_opens_sealed ec hc b _ info rnd P C L LS HC).
Qed.

(** ** Public keys *)
Lemma public_within_hpke : forall fs m pre n k, path_type (TMsg fs) pre = Some (TMsg HpkePublicKey) -> get_path (TMsg fs) (Some (VMsg m)) pre = Some (VMsg n) ->
  (hpke_public_at fs m pre k <-> hpke_public_at HpkePublicKey n [] k).
Proof.
  intros fs m pre n k T H. unfold hpke_public_at, hpke_suite_at, number, octets. cbn [app]. rewrite !app_path, !(get_path_app _ _ _ _ _ _ T H). reflexivity.
Qed.
Theorem hpke_public_key : forall ec hc d k, is_hpke_private d k -> suite_stated (hpub_suite (hprv_public k)) ->
  exists get d', cl_public_key_data (hpke_private_key_manager ec hc) = Some get /\ get (kd_value d) = StOk d' /\
    kd_type_url d' = type_url "HpkePublicKey" /\ kd_key_material_type d' = ASYMMETRIC_PUBLIC /\ (proto_size (kd_value d') -> is_hpke_public d' (hprv_public k)).
Proof.
  intros ec hc d k (_ & m & E & V & K & S) ST. cbn [hpke_private_key_manager cl_public_key_data]. eexists. eexists. split; [reflexivity |]. cbv beta. rewrite E, (proj2 (hpke_private_valid m _ V K) ST). cbn [checked]. split; [reflexivity |].
  cbn [kd_type_url kd_key_material_type kd_value]. rewrite url_is. split; [reflexivity |]. split; [reflexivity |].
  destruct (read_message _ _ ["public_key"] HpkePublicKey (parse_holds _ _ _ E) eq_refl (private_key_set m _ K ST)) as (n & G & HN). rewrite G. cbn [message_or_empty]. intros PS.
  split; [reflexivity |]. cbn [kd_value]. exists n. split; [apply message_round_trip; [reflexivity | exact HN | exact PS] |]. exact (proj1 (public_within_hpke HpkePrivateKey m ["public_key"] n _ eq_refl G) K).
Qed.
Theorem hpke_public_only : forall ec hc get x d, cl_public_key_data (hpke_private_key_manager ec hc) = Some get -> get x = StOk d ->
  exists k, is_hpke_private (mk_key_data (type_url "HpkePrivateKey") x ASYMMETRIC_PRIVATE) k /\ suite_stated (hpub_suite (hprv_public k)).
Proof.
  intros ec hc get x d G H. cbn [hpke_private_key_manager cl_public_key_data] in G. injection G as <-. destruct (parse_message HpkePrivateKey x) as [m |] eqn:E; [| discriminate H]. apply checked_ok in H. destruct H as (V & _).
  destruct (hpke_private_read x m E V) as (k & VV & K & S & ST). exists k. split; [| exact ST]. split; [reflexivity |]. exists m. auto.
Qed.
Theorem hpke_no_new_public : forall hc rnd x, exists s, cl_new_key_data (hpke_public_key_manager hc) rnd x = StErr s.
Proof. intros hc rnd x. eexists. reflexivity. Qed.
