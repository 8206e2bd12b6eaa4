(** Helper lemmas for the examples over X_Stream. *)
From Coq Require Import Strings.Byte Strings.String List NArith ZArith Bool Lia.
From Verif Require Import M_Base L_Base M_Proto M_StreamTypes M_Prims M_Registry M_KeysetHandle M_Stream M_CcStream S_Keyset
  M_RawFile S_Stream S_CcStream S_RawFile L_RawFile L_Stream L_Stream2 L_CcStream L_CcStream2 L_CcStream3 L_CcStream4 L_CcStream5 L_Keyset X_Toy L_Toy X_Stream.
Import ListNotations.
Open Scope list_scope.
Open Scope Z_scope.

(** The toy file plays its content, from every state. *)
Lemma toy_plays : forall C p t, (p <= length C)%nat -> plays only_blocking (toy_source C) C (p, t) p.
Proof.
  intros C p0 t0 H0. exists (fun s p => fst s = p /\ (p <= length C)%nat). split; [auto |].
  intros (p' & t) p size (<- & Hp). cbn [fst] in *. split; [exact Hp |]. cbn [src_read toy_source]. unfold toy_read.
  destruct (Nat.eqb (Nat.modulo t 3) 0); [exists p'; split; [constructor | auto] |].
  destruct (Nat.eqb (Nat.modulo t 7) 1).
  { exists p'. split; [apply FR_error; [eexists; reflexivity | lia | auto] | auto]. }
  cbn [fst snd]. set (d := piece size (skipn p' C)).
  assert (Ld : firstn (length d) (skipn p' C) = d).
  { unfold d, piece. rewrite firstn_length. set (k := if size <? 0 then 2%nat else Nat.min 2 (Z.to_nat size)).
    destruct (Nat.min_spec k (length (skipn p' C))) as [(_ & ->) | (K & ->)]; [reflexivity |].
    rewrite firstn_all. symmetry. apply firstn_all2. exact K. }
  assert (Hle : (length d <= length C - p')%nat) by (rewrite <- Ld, firstn_length, skipn_length; lia).
  exists (p' + length d)%nat. split; [| split; [reflexivity | lia]].
  destruct d as [| b d'] eqn:Ed.
  - cbn [length]. rewrite Nat.add_0_r. apply FR_empty. unfold d, piece in Ed.
    destruct (skipn p' C) as [| c l] eqn:Es; [left; apply (f_equal (@length _)) in Es; rewrite skipn_length in Es; cbn in Es; lia |].
    destruct (Z.ltb_spec size 0); [discriminate |]. destruct (Z.to_nat size) as [| m] eqn:Em; [right; lia | discriminate].
  - rewrite <- Ed in *. apply FR_data; [rewrite Ed; discriminate | | exact Ld].
    destruct (Z.ltb_spec size 0) as [Hz | Hz]; [left; exact Hz | right].
    unfold d, piece. destruct (Z.ltb_spec size 0); [lia |]. rewrite firstn_length. lia.
Qed.

Lemma toy_clear : eof_is_clear toy_what only_blocking.
Proof. split; [reflexivity |]. intros e (n & ->) H. elim (H n). reflexivity. Qed.
Lemma toy_quiet : ~ raises only_blocking.
Proof. intros (e & (n & ->) & H). apply (H n). reflexivity. Qed.

Lemma toy_run_ok : forall A X (m : wio A) t W a t' W', toy_run m t W = Some (a, t', W') -> writes X W m a W'.
Proof.
  intros A X m. induction m as [x | d k IH | k IH |]; intros t W a t' W' H; cbn [toy_run] in H.
  - injection H as -> <- <-. constructor.
  - unfold toy_accepts in H. destruct (Nat.eqb (Nat.modulo t 3) 0).
    + econstructor; [apply FW_none | eapply IH; exact H].
    + econstructor; [| eapply IH; exact H].
      assert (K : 0 <= Z.of_nat (length (firstn 2 d)) <= Z.of_nat (length d)) by (rewrite firstn_length; lia).
      pose proof (FW_some X d _ K) as F. rewrite Nat2Z.id, firstn_length in F.
      replace (firstn (Nat.min 2 (length d)) d) with (firstn 2 d) in F; [rewrite firstn_length; exact F |].
      destruct (Nat.min_spec 2 (length d)) as [(_ & ->) | (K' & ->)]; [reflexivity |]. rewrite firstn_all. apply firstn_all2. exact K'.
  - apply (Writes_close X W k (Ok tt)); [intros e E; discriminate | eapply IH; exact H].
  - discriminate.
Qed.

(** The toy streaming AEAD has the properties of an encryption. *)
Lemma write_header_ok : forall F h n s r o, owrites F (OOpen [] s) (write_header h n) r o ->
  match r with StOk _ => o = OOpen [h] 0 | StErr _ => F end.
Proof.
  intros F h n. induction n as [| n IH]; intros s r o H; cbn [write_header] in H; [inversion H |].
  inversion H as [| ? ? x s1 ? ? Hn Hk | | |]; subst. inversion Hn as [T s0 junk | T s0 e Hf | | |]; subst; cbn [app] in *.
  - destruct junk as [| b junk]; cbn [length] in Hk; [eapply IH; exact Hk |].
    inversion Hk as [| | ? ? ? ? ? ? Hs | |]; subst. inversion Hs as [| | | ? ? ? ? ? Hb |]; subst. apply owrites_ret in Hb.
    destruct Hb as (-> & ->). cbn [ideal_store length Nat.add Nat.leb firstn skipn app]. cbn [ideal_oback_up length].
    rewrite Nat2Z.id. replace (_ - _)%nat with 1%nat by lia. reflexivity.
  - apply owrites_ret in Hk. destruct Hk as (-> & ->). exact Hf.
Qed.
Lemma toy_encrypts : forall F cap h ad, cc_encrypts F cap (toy_enc h) (toy_cc h) ad.
Proof.
  intros F cap h ad r o H. cbn [cc_new_encrypting_stream toy_cc] in H. apply owrites_bind in H. destruct H as (x & o1 & H1 & H2).
  apply owrites_ret in H2. destruct H2 as (-> & ->). pose proof (write_header_ok _ _ _ _ _ _ H1) as K. destruct x as [[] | s]; [| exact K].
  subst o1. exists (fun (b : bool) o p => match p with
                   | OOpen T s => if b then o = OOpen (h :: T) (Datatypes.S s) else T = [] /\ s = 0%nat /\ o = OOpen [h] 0
                   | OClosed T => o = OClosed (h :: T)
                   | OFailed T => o = OFailed (h :: T)
                   | OUnspecified => True
                   end).
  split; [cbn; auto |]. split; [| split; [| split; [| split]]].
  - intros st o p r st' o' Hj Hn. cbn in Hn. inversion Hn as [| ? ? x s1 ? ? Hx Hk | | |]; subst. apply owrites_ret in Hk.
    destruct Hk as (Hk & ->). injection Hk as -> ->. destruct p as [T s | T | T |].
    + assert (Ho : exists s', o = OOpen (h :: T) s').
      { destruct st; [eauto |]. destruct Hj as (-> & -> & ->). eauto. }
      destruct Ho as (s' & ->). inversion Hx; subst.
      * exists (OOpen (T ++ junk) (length T)). split; [constructor |]. reflexivity.
      * exists (OFailed T). split; [constructor; left; assumption |]. reflexivity.
    + subst o. inversion Hx; subst. exists (OClosed T). split; [constructor | reflexivity].
    + subst o. inversion Hx; subst. exists (OFailed T). split; [constructor | reflexivity].
    + exists OUnspecified. split; [constructor | exact I].
  - intros st o p i d st' o' Hj Hs. cbn in Hs. destruct st.
    + inversion Hs as [| | ? ? ? ? ? ? Hk | |]; subst. apply owrites_ret in Hk. destruct Hk as (-> & ->).
      destruct p as [T s | T | T |]; cbn [ideal_store]; subst; try reflexivity. cbn [length].
      cbn [Nat.add]. destruct (Nat.leb_spec (s + i + length d) (length T)) as [K | K].
      * unfold ideal_store. cbn [Nat.add length]. destruct (Nat.leb_spec (Datatypes.S (s + i + length d)) (Datatypes.S (length T))); [| lia].
        cbn [firstn skipn app]. reflexivity.
      * exact I.
    + apply owrites_ret in Hs. destruct Hs as (-> & ->). destruct p as [T s | T | T |]; cbn [ideal_store]; auto.
      destruct Hj as (-> & -> & ->). cbn [length]. destruct (Nat.leb_spec (0 + i + length d) 0); [| exact I].
      destruct i; [| cbn in *; lia]. destruct d; [| cbn in *; lia]. cbn. auto.
  - intros st o p c st' o' Hj Hs. cbn in Hs. destruct st.
    + inversion Hs as [| | | ? ? ? ? ? Hk |]; subst. apply owrites_ret in Hk. destruct Hk as (-> & ->).
      destruct p as [T s | T | T |]; cbn [ideal_oback_up]; subst; try reflexivity. cbn [ideal_oback_up length].
      replace (Datatypes.S (length T) - Nat.min (Z.to_nat c) (Datatypes.S (length T) - Datatypes.S s))%nat
        with (Datatypes.S (length T - Nat.min (Z.to_nat c) (length T - s))) by lia. reflexivity.
    + apply owrites_ret in Hs. destruct Hs as (-> & ->). destruct p as [T s | T | T |]; cbn [ideal_oback_up]; auto.
      destruct Hj as (-> & -> & ->). cbn. auto.
  - intros st o p r st' o' Hj Hn. cbn in Hn. inversion Hn as [| | | | ? ? x s1 ? ? Hx Hk]; subst. apply owrites_ret in Hk.
    destruct Hk as (Hk & ->). injection Hk as -> ->. destruct p as [T s | T | T |].
    + assert (Ho : exists s', o = OOpen (h :: T) s').
      { destruct st; [eauto |]. destruct Hj as (-> & -> & ->). eauto. }
      destruct Ho as (s' & ->). inversion Hx as [| ? ? ? ? ? [-> | ->] | | |]; subst.
      * exists (OClosed T). split; [constructor |]. reflexivity.
      * exists OUnspecified. split; [constructor; auto |]. exact I.
      * exists (OFailed T). split; [constructor; auto |]. reflexivity.
    + subst o. inversion Hx; subst. exists (OClosed T). split; [constructor | reflexivity].
    + subst o. inversion Hx; subst. exists (OFailed T). split; [constructor | reflexivity].
    + exists OUnspecified. split; [constructor | exact I].
  - intros st o P ->. exists (h :: P). split; reflexivity.
Qed.

Lemma toy_decrypts : forall F h ad P C, toy_enc h P C -> cc_decrypts F (toy_cc h) ad C P.
Proof.
  intros F h ad P C -> r i H. cbn [cc_new_decrypting_stream toy_cc] in H. apply ireads_ret in H. destruct H as (-> & ->).
  eexists. split; [reflexivity |].
  exists (fun (s : toy_dec_state) i p => match s with
                | Unchecked => i = Open 0 0 /\ p = Open 0 0
                | Checked w => exists a w', i = Open (Datatypes.S a) w' /\ p = Open a w /\ (w <= w')%nat /\ (w <= a)%nat
                | Stopped e => i = Ended e /\ p = Ended e
                end).
  split; [cbn; auto |]. split.
  - intros st i p r st' i' Hj Hn. destruct st as [| w | e]; cbn in Hn.
    + destruct Hj as (-> & ->). inversion Hn as [| ? ? x s1 ? ? Hx Hk |]; subst.
      inversion Hx as [? ? d Hd | ? ? He | ? ? m Hf |]; subst.
      * destruct d as [| b d].
        -- apply ireads_ret in Hk. destruct Hk as (Hk & ->). injection Hk as -> ->. exists (Open 0 0). split; [| cbn; auto].
           apply (IN_data F P 0 0 []). reflexivity.
        -- cbn in Hd. injection Hd as -> Hd. rewrite (proj2 (byte_eqb_spec b b) eq_refl) in Hk. apply ireads_ret in Hk. destruct Hk as (Hk & ->).
           injection Hk as -> ->. exists (Open (0 + length d) (length d)). split; [constructor; exact Hd |]. exists (length d), (Datatypes.S (length d)).
           cbn. repeat split; auto.
      * cbn in He. discriminate.
      * apply ireads_ret in Hk. destruct Hk as (Hk & ->). injection Hk as -> ->. eexists. split; [apply IN_error; exact Hf | auto].
    + destruct Hj as (a & w' & -> & -> & Hw & Ha). inversion Hn as [| ? ? x s1 ? ? Hx Hk |]; subst.
      apply ireads_ret in Hk. destruct Hk as (Hk & ->). injection Hk as -> ->.
      inversion Hx as [? ? d Hd | ? ? He | ? ? m Hf |]; subst.
      * exists (Open (a + length d) (length d)). split; [constructor; exact Hd |]. exists (a + length d)%nat, (length d). repeat split; auto; lia.
      * eexists. split; [apply IN_end; cbn in He; lia | auto].
      * eexists. split; [apply IN_error; exact Hf | auto].
    + destruct Hj as (-> & ->). apply ireads_ret in Hn. destruct Hn as (Hn & ->). injection Hn as -> ->.
      eexists. split; [constructor | auto].
  - intros st i p c st' i' Hj Hn. destruct st as [| w | e]; cbn in Hn.
    + destruct Hj as (-> & ->). apply ireads_ret in Hn. destruct Hn as (-> & ->). cbn. auto.
    + destruct Hj as (a & w' & -> & -> & Hw & Ha). inversion Hn as [| | ? ? ? ? ? Hk]; subst. apply ireads_ret in Hk. destruct Hk as (-> & ->).
      cbn [ideal_back_up]. rewrite Nat2Z.id. exists (a - Nat.min (Z.to_nat c) w)%nat, (w' - Nat.min (Z.to_nat c) w)%nat.
      split; [f_equal; lia |]. split; [f_equal; lia | lia].
    + destruct Hj as (-> & ->). apply ireads_ret in Hn. destruct Hn as (-> & ->). cbn. auto.
Qed.

Lemma toy_refuses : forall F h ad C, (forall P, C <> h :: P) -> cc_refuses F (toy_cc h) ad C.
Proof.
  intros F h ad C Hc r i H. cbn [cc_new_decrypting_stream toy_cc] in H. apply ireads_ret in H. destruct H as (-> & ->).
  eexists. split; [reflexivity |].
  exists (fun (s : toy_dec_state) i => match s with
                | Unchecked => i = Open 0 0
                | Checked w => False
                | Stopped e => exists m, e = NotOk m
                end).
  split; [reflexivity |]. intros st i r st' i' Hj Hn. destruct st as [| w | e]; cbn in Hn.
  - subst i. inversion Hn as [| ? ? x s1 ? ? Hx Hk |]; subst.
    inversion Hx as [? ? d Hd | ? ? He | ? ? m Hf |]; subst.
    + destruct d as [| b d].
      * apply ireads_ret in Hk. destruct Hk as (Hk & ->). injection Hk as -> ->. cbn. auto.
      * destruct (Byte.eqb b h) eqn:E.
        -- apply byte_eqb_spec in E. subst b. cbn [length skipn] in Hd. exfalso.
           destruct C as [| c C]; [discriminate |]. cbn in Hd. injection Hd as -> _. eapply Hc. reflexivity.
        -- apply ireads_ret in Hk. destruct Hk as (Hk & ->). injection Hk as -> ->. cbn. eauto.
    + apply ireads_ret in Hk. destruct Hk as (Hk & ->). injection Hk as -> ->. cbn. eauto.
    + apply ireads_ret in Hk. destruct Hk as (Hk & ->). injection Hk as -> ->. cbn. eauto.
  - destruct Hj.
  - destruct Hj as (m & ->). apply ireads_ret in Hn. destruct Hn as (Hn & ->). injection Hn as -> ->. cbn. eauto.
Qed.

(** The keys of the toy keyset, as primitives. *)
Lemma toy_raw_decrypts : forall h ad P, decrypts_to only_blocking (toy_raw h) ad (h :: P) P.
Proof.
  intros h ad P. apply raw_decrypts_to; [apply toy_clear | apply toy_quiet | discriminate | apply toy_decrypts; reflexivity].
Qed.
Lemma toy_raw_refuses : forall h ad C, (forall P, C <> h :: P) -> refuses only_blocking (toy_raw h) ad C.
Proof. intros h ad C H. apply raw_refuses; [apply toy_clear | discriminate | apply toy_refuses; exact H]. Qed.


Lemma plays_any : forall X S (src : py_source S) C s p, plays X src C s p -> plays any_exception src C s p.
Proof.
  intros X S src C s0 p0 (at_ & H0 & Hat). exists at_. split; [exact H0 |].
  intros s p size Ha. destruct (Hat s p size Ha) as (Hp & p' & Hr & Hs). split; [exact Hp |]. exists p'. split; [| exact Hs].
  destruct Hr as [d H1 H2 H3 | H1 | | e p1 H1 H2 H3];
    [apply FR_data | apply FR_empty | apply FR_none | apply FR_error]; auto. exact I.
Qed.

Lemma ok_run : forall A B (r : result A) (f : A -> option B) b,
  match r with Ok q => f q | Err _ => None end = Some b -> exists q, r = Ok q /\ f q = Some b.
Proof. intros A B [q | e] f b H; [eauto | discriminate]. Qed.

(** The runs of X_Stream are histories. *)
Lemma bad_plays : forall C bad p t, (p <= length C)%nat -> plays (fun e => exists t, bad t = Some e) (bad_source C bad) C (p, t) p.
Proof.
  intros C bad p0 t0 H0. exists (fun s p => fst s = p /\ (p <= length C)%nat). split; [auto |].
  intros (p' & t) p size (<- & Hp). cbn [fst] in *. split; [exact Hp |]. cbn [src_read bad_source].
  destruct (bad t) as [e |] eqn:Eb.
  { exists p'. split; [apply FR_error; [eauto | lia | auto] | auto]. }
  cbn [fst snd]. set (d := piece size (skipn p' C)).
  assert (Ld : firstn (length d) (skipn p' C) = d).
  { unfold d, piece. rewrite firstn_length. set (k := if size <? 0 then 2%nat else Nat.min 2 (Z.to_nat size)).
    destruct (Nat.min_spec k (length (skipn p' C))) as [(_ & ->) | (K & ->)]; [reflexivity |].
    rewrite firstn_all. symmetry. apply firstn_all2. exact K. }
  assert (Hle : (length d <= length C - p')%nat) by (rewrite <- Ld, firstn_length, skipn_length; lia).
  exists (p' + length d)%nat. split; [| split; [reflexivity | lia]].
  destruct d as [| b d'] eqn:Ed.
  - cbn [length]. rewrite Nat.add_0_r. apply FR_empty. unfold d, piece in Ed.
    destruct (skipn p' C) as [| c l] eqn:Es; [left; apply (f_equal (@length _)) in Es; rewrite skipn_length in Es; cbn in Es; lia |].
    destruct (Z.ltb_spec size 0); [discriminate |]. destruct (Z.to_nat size) as [| m] eqn:Em; [right; lia | discriminate].
  - rewrite <- Ed in *. apply FR_data; [rewrite Ed; discriminate | | exact Ld].
    destruct (Z.ltb_spec size 0) as [Hz | Hz]; [left; exact Hz | right].
    unfold d, piece. destruct (Z.ltb_spec size 0); [lia |]. rewrite firstn_length. lia.
Qed.

Lemma rw_run_ok : forall S (src : py_source S) fuel ops r l r', rw_run src fuel ops r = Some (l, r') ->
  rw_history src fuel r (combine ops l) r'.
Proof.
  intros S src fuel ops. induction ops as [| op ops IH]; intros r l r' H; cbn [rw_run] in H.
  - injection H as <- <-. constructor.
  - destruct op as [size | |].
    + destruct (rewindable_read src fuel r size) as [(x & r1) |] eqn:E; [| discriminate].
      destruct (rw_run src fuel ops r1) as [(l1 & r2) |] eqn:E1; [| discriminate]. injection H as <- <-. cbn [combine].
      econstructor; [exact E | apply IH; exact E1].
    + destruct (rewindable_rewind r) as [r1 | e] eqn:E.
      * destruct (rw_run src fuel ops r1) as [(l1 & r2) |] eqn:E1; [| discriminate]. injection H as <- <-. cbn [combine].
        econstructor; [exact E | apply IH; exact E1].
      * destruct (rw_run src fuel ops r) as [(l1 & r2) |] eqn:E1; [| discriminate]. injection H as <- <-. cbn [combine].
        apply RH_no_rewind; [exact E | apply IH; exact E1].
    + destruct (rw_run src fuel ops (rewindable_disable_rewind r)) as [(l1 & r2) |] eqn:E1; [| discriminate].
      injection H as <- <-. cbn [combine]. econstructor. apply IH. exact E1.
Qed.

Lemma wrapper_run_ok : forall S (src : py_source S) fuel sizes w l, wrapper_run src fuel sizes w = Some l ->
  exists w', wrapper_history src fuel w (combine sizes l) w'.
Proof.
  intros S src fuel sizes. induction sizes as [| z sizes IH]; intros w l H; cbn [wrapper_run] in H.
  - injection H as <-. eexists. constructor.
  - destruct (dec_wrapper_read src fuel w z) as [(x & w1) |] eqn:E; [| discriminate].
    destruct (wrapper_run src fuel sizes w1) as [l1 |] eqn:E1; [| discriminate]. injection H as <-. cbn [combine].
    destruct (IH _ _ E1) as (w' & Hw). exists w'. econstructor; [exact E | exact Hw].
Qed.
Lemma decrypt_run_ok : forall S (src : py_source S) fuel sizes m l, decrypt_run src fuel sizes m = Some l ->
  exists w w', m = Some (Ok w) /\ wrapper_history src fuel w (combine sizes l) w'.
Proof.
  intros S src fuel sizes [[w | e] |] l H; try discriminate. destruct (wrapper_run_ok _ _ _ _ _ _ H) as (w' & Hw). eauto.
Qed.

Lemma alone_run_ok : forall S X (src : py_source S) C (at_ : S -> nat -> Prop),
  (forall s p size, at_ s p -> (p <= length C)%nat /\
      exists p', file_read X C p size (fst (src_read src s size)) p' /\ at_ (snd (src_read src s size)) p') ->
  forall sizes s p l out, at_ s p -> alone_run src s sizes l = Some out ->
  exists p' l', stream_history X C p l (combine sizes out) p' l'.
Proof.
  intros S X src C at_ Hat sizes. induction sizes as [| z sizes IH]; intros s p l out Ha H; cbn [alone_run] in H.
  - injection H as <-. exists p, l. constructor.
  - destruct (run_rio _ _ _) as [((x & l1) & s1) |] eqn:E; [| discriminate].
    destruct (alone_run src s1 sizes l1) as [y |] eqn:E1; [| discriminate]. injection H as <-. cbn [combine].
    destruct (run_rio_reads X src C at_ Hat _ _ _ _ _ _ Ha E) as (q & Hq & Hs1).
    destruct (IH _ _ _ _ Hs1 E1) as (p' & l' & Hh). exists p', l'. econstructor; [exact Hq | exact Hh].
Qed.
Lemma key_run_ok : forall S X (src : py_source S) C s k ad sizes out, plays X src C s 0 ->
  key_run src s k ad sizes = Some out -> alone X C ad k (combine sizes out).
Proof.
  intros S X src C s k ad sizes out (at_ & Ha & Hat) H. unfold key_run in H.
  destruct (run_rio _ _ _) as [([o | e] & s1) |] eqn:E; try discriminate.
  destruct (run_rio_reads X src C at_ Hat _ _ _ _ _ _ Ha E) as (q & Hq & Hs1).
  destruct (alone_run_ok S X src C at_ Hat _ _ _ _ _ Hs1 H) as (p' & l' & Hh). exists o, q, p', l'. split; assumption.
Qed.

Lemma enc_run_ok : forall X e bs s t W C, enc_run e s t W bs = Some C -> encrypting_run X e s W bs C.
Proof.
  intros X e bs. induction bs as [| b bs IH]; intros s t W C H; cbn [enc_run] in H.
  - destruct (toy_run _ _ _) as [((([[] | x] & s') & t') & W') |] eqn:E; try discriminate. injection H as <-.
    econstructor. eapply toy_run_ok. exact E.
  - destruct (toy_run _ _ _) as [((([n | x] & s') & t') & W') |] eqn:E; try discriminate.
    econstructor; [eapply toy_run_ok; exact E | eapply IH; exact H].
Qed.
Lemma encrypt_run_ok : forall X m bs C, encrypt_run m bs = Some C ->
  exists e W, writes X [] m (Ok e) W /\ encrypting_run X e (res_init e) W bs C.
Proof.
  intros X m bs C H. unfold encrypt_run in H. destruct (toy_run m 0 []) as [(([e | x] & t) & W) |] eqn:E; try discriminate.
  exists e, W. split; [eapply toy_run_ok; exact E | eapply enc_run_ok; exact H].
Qed.

Lemma file_run_ok : forall S (src : py_source S) ops f l, file_run src ops f = Some l ->
  exists f', rf_history src f (combine ops l) f'.
Proof.
  intros S src ops. induction ops as [| op ops IH]; intros f l H; cbn [file_run] in H.
  - injection H as <-. exists f. constructor.
  - assert (K : exists x f1, rf_step src f op x f1 /\ exists l1, file_run src ops f1 = Some l1 /\ l = x :: l1).
    { destruct op as [z | z |].
      - destruct (raw_file_read src f z) as [(x & f1) |] eqn:E; [| discriminate].
        destruct (file_run src ops f1) eqn:E1; [| discriminate]. injection H as <-. exists x, f1. split; [constructor; exact E | eauto].
      - destruct (raw_file_readinto src f z) as [(x & f1) |] eqn:E; [| discriminate].
        destruct (file_run src ops f1) eqn:E1; [| discriminate]. injection H as <-. exists x, f1. split; [constructor; exact E | eauto].
      - destruct (raw_file_close src f) as ([[] | e] & f1) eqn:E; destruct (file_run src ops f1) eqn:E1; try discriminate;
          injection H as <-; eexists; exists f1; (split; [| eauto]); [apply RF_close | apply RF_close_fails]; exact E. }
    destruct K as (x & f1 & Hs & l1 & E1 & ->). destruct (IH _ _ E1) as (f' & Hf). exists f'. cbn [combine]. econstructor; eauto.
Qed.
