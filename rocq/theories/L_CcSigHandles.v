(** Proofs: signing and verifying with keysets. *)
From Coq Require Import Strings.Byte Strings.String List NArith ZArith Bool Lia.
From Verif Require Import M_Base M_Utf8 M_Proto M_Wire M_ProtoMsg M_KeyFormats M_Prims M_PrimitiveSet M_Registry M_KeysetHandle M_Wrappers M_StreamTypes M_CcStream M_CcManagers
  M_Templates M_CcAes M_CcStreamKeys M_CcModes M_CcSymmetric M_CcSymKeys M_CcEcies M_CcEciesKeys M_CcSignatures S_Keyset S_Handle S_Wrappers S_Wire S_Config S_CcLaws S_CcAes S_CcStreamKeys S_CcModes S_CcSymmetric
  S_CcSymKeys S_CcSymHandles S_CcEcies S_CcEciesKeys S_CcSignatures S_CcSigHandles L_Base L_Registry L_Wire L_PrimitiveSet L_Keyset L_Wrappers L_Wrappers2 L_Wrappers3 L_Handle L_Config L_Config2 L_Config3 L_Config4 L_Cli3
  L_CcStreamKeys L_CcModes L_CcSymKeys L_CcSymKeys2 L_CcSymHandles L_CcSymHandles2 L_CcSymHandles3 L_CcSymHandles4 L_CcEciesHandles L_CcSigDer L_CcSignatures L_CcSigKeys L_CcSigKeys2.
Import ListNotations.
Open Scope string_scope.
Open Scope list_scope.
Open Scope nat_scope.

(** ** The objects of the keys *)
Lemma sig_cc_keyset : forall P K c (lookup : pystr -> option (cc_lib_manager P)) (is_key : key_data -> K -> Prop) (good : K -> Prop) pkg,
  (forall d q, is_key d q -> good q -> exists name b m cc, In (name, c, b) (key_types pkg) /\ kd_type_url d = type_url name /\ lookup (type_url name) = Some m /\ cl_get_primitive m d = StOk cc) ->
  ~ In pkg [JwtMac; JwtSignature] ->
  forall ks l, sig_keyset is_key good ks l -> exists l', cc_keyset c lookup ks l' /\ Forall2 (made_for lookup is_key good) l l'.
Proof.
  intros P K c lookup is_key good pkg HP HJ ks l (V & E & F).
  assert (G : exists l', Forall2 (made_for lookup is_key good) l l' /\ Forall (fun kq => cc_key c (k_key_data (fst kq)) /\
    exists m, lookup (kd_type_url (k_key_data (fst kq))) = Some m /\ cl_get_primitive m (k_key_data (fst kq)) = StOk (snd kq)) l').
  { clear V E. induction F as [| (k & q) l (W & S & I & U & _) F IH]; [exists []; split; constructor |].
    destruct IH as (l' & IH1 & IH2). cbn [fst snd] in *. destruct (HP _ _ I U) as (name & b & m & cc & HK & EU & M & G).
    exists ((k, cc) :: l'). split; constructor; try assumption; cbn [fst snd].
    - split; [reflexivity |]. cbn [fst snd]. split; [exact I |]. split; [exact U |]. exists m. rewrite EU. auto.
    - split; [| exists m; rewrite EU; auto]. split; [exact W |]. split; [exact S |]. exists pkg, name, b. auto. }
  destruct G as (l' & G1 & G2). exists l'. split; [| exact G1]. split; [exact V |].
  assert (EM : map fst l' = map fst l).
  { clear - G1. induction G1 as [| x y l l' (H & _) _ IH]; [reflexivity |]. cbn. rewrite H, IH. reflexivity. }
  split; [split; [rewrite EM; exact E | exact G2] |].
  rewrite <- E. apply Forall_forall. intros k Hk. apply in_map_iff in Hk. destruct Hk as (x & <- & Hx).
  rewrite Forall_forall in F. destruct (F _ Hx) as (_ & _ & _ & _ & P'). exact P'.
Qed.
Lemma sign_types : forall kd, In (kind_name kd ++ "PrivateKey", ClsSign, true)%string (key_types Signature).
Proof. intros []; cbn; tauto. Qed.
Lemma verify_types : forall kd, In (kind_name kd ++ "PublicKey", ClsVerify, false)%string (key_types Signature).
Proof. intros []; cbn; tauto. Qed.
Lemma sig_key : forall K (is_key : key_data -> K -> Prop) (good : K -> Prop) ks l k q, sig_keyset is_key good ks l -> In (k, q) l -> is_key (k_key_data k) q /\ good q.
Proof. intros K is_key good ks l k q (_ & _ & F) I. rewrite Forall_forall in F. destruct (F _ I) as (_ & _ & A & B & _). split; assumption. Qed.

(** ** Signing *)
Theorem sign_handle_works : forall ec sg self_test w env r ks l, sig_world ec sg self_test w -> sig_laws ec sg ->
  configured w env Signature r -> sig_keyset is_sig_private (good_private ec sg) ks l ->
  exists a, handle_primitive r (mk_handle ks) ClsSign = Ok (PrimSign a) /\ sign_works sg ks l a.
Proof.
  intros ec sg self_test w env r ks l HW SL HC KS.
  assert (HP : forall d q, is_sig_private d q -> good_private ec sg q -> exists name b m cc, In (name, ClsSign, b) (key_types Signature) /\ kd_type_url d = type_url name /\
    cw_sign w (type_url name) = Some m /\ cl_get_primitive m d = StOk cc).
  { intros d q K G. destruct (proj2 (sig_signer_made ec sg self_test (private_kind q) d SL)) as (cc & E); [exists q; auto |].
    do 4 eexists. split; [apply (sign_types (private_kind q)) |]. split; [exact (proj1 K) |]. split; [apply (HW (private_kind q)) | exact E]. }
  destruct (sig_cc_keyset _ _ ClsSign (cw_sign w) is_sig_private (good_private ec sg) Signature HP ltac:(cbn; intuition discriminate) ks l KS) as (l' & CK & F2).
  destruct (signer_over_cc_ok w env r ks l' HC CK) as (a & HA & E & N). exists a. split; [exact HA |]. split.
  - intros k q (I & PI) rnd data. destruct (made_for_l _ _ _ _ _ _ _ _ _ F2 I) as (cc & I' & _ & K & G & m & M & CG). cbn [fst snd] in *.
    rewrite (proj1 K), (proj1 (HW _)) in M. injection M as <-. destruct (prefixed_stamped _ _ _ (E k cc (conj I' PI) rnd data)) as (T & S).
    destruct (sig_signs ec sg self_test _ _ cc SL K CG rnd (legacy_data k data)) as ((y & Y) & A). split.
    + destruct (E k cc (conj I' PI) rnd data) as (p & Hp & _). exists (p ++ y). apply S. exists y. split; [exact Y |]. exists p. auto.
    + intros x. rewrite S. split.
      * intros (c & X & Z). exists c. split; [exact Z |]. apply A, X.
      * intros (c & X & Z). exists c. split; [apply A, Z | exact X].
  - intros NP. apply N. intros k cc (I & PI). destruct (made_for_r _ _ _ _ _ _ _ _ _ F2 I) as (q & I' & _). exact (NP k q (conj I' PI)).
Qed.

(** ** Verification *)
Lemma der_value_long : forall tag content x, der_value tag content x -> 2 + length content <= length x.
Proof.
  intros tag content x (L & -> & H). rewrite !app_length. cbn [length]. assert (1 <= length L); [| lia].
  destruct H as [(_ & ->) | (_ & k & -> & _)]; cbn [be_bytes length app]; rewrite ?app_length; cbn [length]; lia.
Qed.
Lemma be_bytes_len : forall k n, length (be_bytes k n) = k.
Proof. intros k n. exact (L_CcModes.be_bytes_length k n). Qed.
Lemma valid_signature_long : forall sg ec k data x, rsa_sizes sg -> good_public ec k -> valid_signature sg k data x -> 5 < length x.
Proof.
  intros sg ec k data x RS (V & _) H. destruct k as [c h enc X Y | A | h n e | h g salt n e]; cbn [valid_signature valid_public] in *.
  - destruct H as (r & s & H & _). destruct enc; cbn [ecdsa_encoded] in H; [contradiction | |].
    + destruct H as (_ & ->). rewrite app_length, !be_bytes_len. destruct (ecdsa_ok_parts _ _ V) as ([<- | [<- | [<- | []]]] & _); cbn; lia.
    + destruct H as (cr & cs & R & S & (i & -> & _) & (j & -> & _) & HR & HS & HX). apply der_value_long in HR, HS, HX. rewrite app_length in HX. rewrite be_bytes_len in HR, HS. lia.
  - destruct H as (-> & _). lia.
  - rewrite (law_rsa_verify_size _ RS _ _ _ _ _ H). destruct V as (_ & M & _). unfold modulus_size, modulus_ok in *. rewrite <- size_ge in M.
    assert (256 <= (N.size (num n) + 7) / 8)%N by (apply N.div_le_lower_bound; lia). lia.
  - destruct H as (EM & H & _). rewrite (law_rsa_decrypt_size _ RS _ _ _ _ H). destruct V as (_ & _ & _ & M & _). unfold modulus_size, modulus_ok in *. rewrite <- size_ge in M.
    assert (256 <= (N.size (num n) + 7) / 8)%N by (apply N.div_le_lower_bound; lia). lia.
Qed.
Theorem verify_handle_works : forall ec sg self_test w env r ks l, sig_world ec sg self_test w -> sig_laws ec sg -> rsa_sizes sg ->
  configured w env Signature r -> sig_keyset is_sig_public (good_public ec) ks l ->
  exists a, handle_primitive r (mk_handle ks) ClsVerify = Ok (PrimVerify a) /\ verify_works sg l a.
Proof.
  intros ec sg self_test w env r ks l HW SL RS HC KS.
  assert (HP : forall d q, is_sig_public d q -> good_public ec q -> exists name b m cc, In (name, ClsVerify, b) (key_types Signature) /\ kd_type_url d = type_url name /\
    cw_verify w (type_url name) = Some m /\ cl_get_primitive m d = StOk cc).
  { intros d q K G. destruct (proj2 (sig_verifier_made ec sg (public_kind q) d)) as (cc & E); [exists q; auto |].
    do 4 eexists. split; [apply (verify_types (public_kind q)) |]. split; [exact (proj1 K) |]. split; [apply (HW (public_kind q)) | exact E]. }
  destruct (sig_cc_keyset _ _ ClsVerify (cw_verify w) is_sig_public (good_public ec) Signature HP ltac:(cbn; intuition discriminate) ks l KS) as (l' & CK & F2).
  destruct (verifier_over_cc_ok w env r ks l' HC CK) as (a & HA & SH & D). exists a. split; [exact HA |].
  assert (DE : forall T data, (5 < length T)%nat -> _)
    by (intros T data L; exact (keys_tried _ _ _ _ ks l' (fun k q body => cv_verify q body (legacy_data k data)) T _ CK (D T data L))).
  split.
  - intros T data. split.
    + intros EV. assert (L : 5 < length T).
      { destruct (Nat.le_gt_cases (length T) 5) as [L | L]; [| exact L]. destruct (SH T data L) as (e & X & _). congruence. }
      destruct (DE T data L) as (_ & DE1 & _). destruct (DE1 tt EV) as (k & cc & body & I & R & ED).
      destruct (made_for_r _ _ _ _ _ _ _ _ _ F2 I) as (q & I' & _ & K & G & m & M & CG). cbn [fst snd] in *. rewrite (proj1 K), (proj2 (HW _)) in M. injection M as <-.
      exists k, q, body. split; [exact I' |]. split; [apply reaches_stamped, R |]. apply (sig_verifies ec sg _ _ cc SL K CG). exact ED.
    + intros (k & q & y & I & S & X). destruct (made_for_l _ _ _ _ _ _ _ _ _ F2 I) as (cc & I' & _ & K & G & m & M & CG). cbn [fst snd] in *. rewrite (proj1 K), (proj2 (HW _)) in M. injection M as <-.
      pose proof (valid_signature_long _ _ _ _ _ RS G X) as LX.
      assert (L : 5 < length T) by (destruct S as (p & _ & ->); rewrite app_length; lia).
      destruct (DE T data L) as (_ & _ & DE2). destruct (DE2 k cc y tt I') as ([] & EV); [| apply (sig_verifies ec sg _ _ cc SL K CG), X | exact EV].
      apply (stamped_reaches _ _ _ S). intros ->. cbn in LX. lia.
  - intros T data. destruct (Nat.le_gt_cases (length T) 5) as [L | L]; [apply raises_total, SH, L | exact (proj1 (DE T data L))].
Qed.

(** ** What is signed with a private keyset is accepted by keysets with the public key. *)
Theorem signature_carries_over : forall ec sg ks l a l2 a2 k k2 q rnd data x, sig_laws ec sg ->
  sig_keyset is_sig_private (good_private ec sg) ks l -> sign_works sg ks l a -> is_primary ks l k q -> matching ec sg q -> verify_works sg l2 a2 ->
  In (k2, public_of q) l2 -> k_key_id k2 = k_key_id k -> k_output_prefix_type k2 = k_output_prefix_type k ->
  sign a rnd data = Ok x -> verify a2 x data = Ok tt.
Proof.
  intros ec sg ks l a l2 a2 k k2 q rnd data x SL KS (S & _) PR M (V & _) I EI ET ES. destruct (sig_key _ _ _ _ _ _ _ KS (proj1 PR)) as ((_ & m & _ & K) & G). apply (S k q PR rnd data) in ES. destruct ES as (y & ST & SI).
  apply V. exists k2, (public_of q), y. split; [exact I |]. split; [exact (same_stamp _ _ _ _ ET EI ST) |].
  assert (legacy_data k2 data = legacy_data k data) as -> by (unfold legacy_data; rewrite ET; reflexivity).
  exact (signature_valid ec sg q rnd _ y SL G (private_encoded m q K) M SI).
Qed.
