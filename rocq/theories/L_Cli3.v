(** Proofs: example programs, what they compute. *)
From Coq Require Import Strings.Byte Strings.String List NArith ZArith Bool Lia.
From Verif Require Import M_Base M_Utf8 M_Proto M_Prims M_PrimitiveSet M_Registry M_KeysetHandle M_KeysetIO
  M_Wrappers M_Kms M_JwtTypes M_Json M_JsonKeyset M_RawJwt M_JwtValidator M_JwtWrappers M_Jwk M_KmsIntegrations
  M_CcStream M_CcManagers M_KeyFormats M_Templates M_Cli
  S_Keyset S_Wrappers S_Wire S_Base64 S_Json S_JsonKeyset S_Config S_CcLaws S_Cli
  L_Base L_Utf8 L_JsonKeyset L_JsonKeyset2 L_JsonKeyset3 L_Keyset L_Wrappers L_Wrappers2 L_Config L_Config4 L_Cli L_Cli2.
Import ListNotations.
Open Scope string_scope.
Open Scope list_scope.

(** ** Running the statements *)
Lemma next_ok : forall A B (m : io A) (k : A -> io B) a fs fs', m fs = (Ok a, fs') -> next m k fs = k a fs'.
Proof. intros A B m k a fs fs' H. unfold next. rewrite H. reflexivity. Qed.
Lemma next_err : forall A B (m : io A) (k : A -> io B) e fs fs', m fs = (Err e, fs') -> next m k fs = (Err e, fs').
Proof. intros A B m k e fs fs' H. unfold next. rewrite H. reflexivity. Qed.
Lemma read_bytes_ok : forall p x fs, content fs p = Some x -> read_bytes p fs = (Ok x, fs).
Proof. intros p x fs H. unfold read_bytes. rewrite H. reflexivity. Qed.
Lemma read_text_ok : forall p x t fs, content fs p = Some x -> utf8_encode t = Some x ->
  read_text p fs = (Ok (universal_newlines t), fs).
Proof.
  intros p x t fs H E. unfold read_text. rewrite (next_ok _ _ _ _ x fs fs (read_bytes_ok _ _ _ H)).
  rewrite (utf8_decode_encode _ _ E). reflexivity.
Qed.
Lemma flag_bytes_ok : forall x y, flag_is x y -> flag_bytes x = Ok y.
Proof.
  intros [t |] y H; cbn in H; [| subst y; reflexivity].
  destruct t as [| c t]; [cbn in H; apply some_inj in H; subst y; reflexivity |].
  unfold flag_bytes. rewrite H. reflexivity.
Qed.
Lemma registered_ok : forall w env c p fs, sets_up c p -> (forall p', sets_up c p' -> cc_ready w p') ->
  unrelated c -> exists r, registered_by w env c fs = (Ok r, fs) /\ configured w env p r.
Proof.
  intros w env c p fs Hs Hr Hu. unfold registered_by.
  destruct (perform (setup_action w env 0 c) empty_registry) as [r x] eqn:E.
  assert (R : reached w env [c] r [x]).
  { split; [cbn; rewrite E; reflexivity |]. split.
    - intros c' p' [<- | []] Hp. apply Hr. exact Hp.
    - intros c' [<- | []]. exact Hu. }
  destruct (setup_complete _ _ _ _ _ R) as (F & _). inversion F as [| ? ? ? ? H0 _]. subst.
  rewrite (H0 (ex_intro _ p Hs)). exists r. split; [reflexivity |].
  exists [c], [x], c. split; [exact R | split; [left; reflexivity | exact Hs]].
Qed.
Lemma keyset_file_read : forall (w : cc_world) env pb fs path ks, holds_keyset (pe_rt env) fs path ks ->
  exists t, read_text path fs = (Ok t, fs) /\ parse_json_keyset env pb t = Ok (mk_handle ks).
Proof.
  intros _ env pb fs path ks (x & t & v & Hx & Ht & Hv & Hn & Hs & Hw & Hok).
  exists (universal_newlines t). split; [apply (read_text_ok _ x); assumption |].
  unfold parse_json_keyset. apply json_parse_spec. exists ks. split; [| auto].
  eapply json_reader_reads; eauto. apply json_text_newlines. exact Hv.
Qed.

(** ** Success of the keys *)
Lemma cc_prefixes : forall P c (lookup : pystr -> option (cc_lib_manager P)) ks l, cc_keyset c lookup ks l ->
  Forall (fun kp => exists q, has_prefix (k_output_prefix_type (fst kp)) (k_key_id (fst kp)) q) l.
Proof. intros P c lookup ks l (_ & [E _] & H). rewrite <- E in H. apply Forall_map_fst in H. exact H. Qed.
Lemma cc_single : forall P A c (lookup : pystr -> option (cc_lib_manager P)) ks l (f : key -> P -> bytes -> st_or A)
  k q x body v y, cc_keyset c lookup ks l -> In (k, q) l -> reaches k x body -> f k q body = StOk v ->
  (forall k' q' body', In (k', q') l -> k' <> k -> reaches k' x body' -> exists s, f k' q' body' = StErr s) ->
  first_success (attempts l x (fun k q body => of_status (f k q body))) y -> y = Ok v.
Proof.
  intros P A c lookup ks l f k q x body v y Hk Hi Hr Hv Ho (z & Hz & Hs).
  assert (z = Ok v).
  { pose proof (cc_prefixes _ _ _ _ _ Hk) as Hpf. eapply first_ok_agree; [exact Hz | |].
    - rewrite Forall_forall. intros r' Hr'. apply attempts_in in Hr'; [| exact Hpf].
      destruct Hr' as (k' & p' & body' & Hi' & Hre' & ->). destruct (key_eq_dec k' k) as [-> | Hne].
      + right. rewrite (reaches_fun _ _ _ _ Hre' Hr).
        assert (p' = q).
        { destruct Hk as (_ & [_ F] & _). rewrite Forall_forall in F.
          destruct (F _ Hi) as (_ & m & E1 & E2). destruct (F _ Hi') as (_ & m' & E1' & E2'). cbn [fst snd] in *.
          congruence. }
        subst p'. rewrite Hv. reflexivity.
      + left. destruct (Ho k' p' body' Hi' Hne Hre') as (s & ->). exists (TinkError ""). split; reflexivity.
    - apply attempts_in; [exact Hpf |]. exists k, q, body. rewrite Hv. auto. }
  subst z. apply same_outcome_ok in Hs. exact Hs.
Qed.
Lemma cc_success_iff : forall P c (lookup : pystr -> option (cc_lib_manager P)) ks l (f : key -> P -> bytes -> st_or unit)
  x y, cc_keyset c lookup ks l -> first_success (attempts l x (fun k q body => of_status (f k q body))) y ->
  tink_total y /\
  (y = Ok tt <-> exists k q body, In (k, q) l /\ reaches k x body /\ f k q body = StOk tt).
Proof.
  intros P c lookup ks l f x y Hk (z & Hz & Hs). pose proof (cc_prefixes _ _ _ _ _ Hk) as Hpf.
  pose proof (first_ok_total _ _ _ Hz (attempts_total _ _ _ _ _)) as Ht.
  assert (Hy : tink_total y) by (destruct Hs as [<- | [_ (e & -> & He)]]; [exact Ht | exact He]).
  split; [exact Hy |]. split.
  - intros ->. destruct Hs as [-> | [_ (e & E & _)]]; [| discriminate].
    assert (Hin : In (Ok tt) (attempts l x (fun k q body => of_status (f k q body)))).
    { clear - Hz. remember (Ok tt) as r. induction Hz; subst; try discriminate.
      - left. congruence.
      - right. auto. }
    apply attempts_in in Hin; [| exact Hpf]. destruct Hin as (k & q & body & Hi & Hr & E).
    exists k, q, body. split; [exact Hi |]. split; [exact Hr |].
    destruct (f k q body) as [[] | s]; [reflexivity | discriminate].
  - intros (k & q & body & Hi & Hr & E).
    destruct (first_ok_some _ _ z tt Hz (attempts_total _ _ _ _ _)) as ([] & -> & _).
    + apply attempts_in; [exact Hpf |]. exists k, q, body. rewrite E. auto.
    + apply same_outcome_ok in Hs. exact Hs.
Qed.

(** ** aead, deterministic_aead, cleartext_keyset, encrypted_keyset *)
Ltac ready := intros p' Hp'; cbn in Hp'; subst p'; assumption.

Lemma stores_ok : forall o out y fs, may_write o out = true ->
  stores (next (attempt y) (fun x => next (truncate o out) (fun _ => next (put_bytes out x) (fun _ => ret 0%Z))) fs) out y fs.
Proof.
  intros o out [x | e] fs H; cbn [stores].
  - rewrite (next_ok _ _ _ _ x fs fs eq_refl). rewrite write_run by exact H. split; [reflexivity | apply changed_store2].
  - unfold next, attempt. split; [reflexivity | apply same_refl].
Qed.
Lemma stores_or_empties_ok : forall o out y fs, may_write o out = true ->
  stores_or_empties (next (truncate o out) (fun _ => next (attempt y) (fun x => next (put_bytes out x) (fun _ => ret 0%Z))) fs) out y fs.
Proof.
  intros o out [x | e] fs H; unfold next, truncate, put_bytes, attempt; rewrite H; cbn [stores_or_empties];
    (split; [reflexivity |]); [apply changed_store2 | apply changed_store].
Qed.

Theorem aead_cli_spec : forall w env pb o rnd f fs ks l ad data, cc_ready w Aead ->
  holds_keyset (pe_rt env) fs (cf_keyset_path f) ks -> cc_keyset ClsAead (cw_aead w) ks l ->
  flag_is (cf_associated_data f) ad -> content fs (cf_input_path f) = Some data ->
  may_write o (cf_output_path f) = true ->
  exists y, aead_outcome ks l (cf_mode f) rnd data ad y /\
    stores (aead_cli w env pb o rnd f fs) (cf_output_path f) y fs.
Proof.
  intros w env pb o rnd f fs ks l ad data Hr Hh Hk Hf Hd Ho.
  destruct (registered_ok w env CallAead Aead fs eq_refl ltac:(ready) I) as (r & Er & Hc).
  destruct (keyset_file_read w env pb fs _ ks Hh) as (t & Et & Ep).
  destruct (aead_over_cc_ok _ _ _ _ _ Hc Hk) as (a & Ea & L1 & L2 & L3).
  exists (match cf_mode f with Encrypt => aead_encrypt a rnd data ad | Decrypt => aead_decrypt a data ad end).
  split; [unfold aead_outcome; destruct (cf_mode f); [split; [intros; apply L2; assumption | intros H; apply L3; exact H] | apply L1] |].
  unfold aead_cli. rewrite (flag_bytes_ok _ _ Hf).
  rewrite (next_ok _ _ _ _ ad fs fs eq_refl), (next_ok _ _ _ _ r fs fs Er), (next_ok _ _ _ _ t fs fs Et), Ep.
  cbn [or_return_1]. rewrite Ea. cbn [or_return_1]. rewrite (next_ok _ _ _ _ data fs fs (read_bytes_ok _ _ _ Hd)).
  cbn [call_encrypt call_decrypt].
  replace (match cf_mode f with Encrypt => aead_encrypt a rnd data ad | Decrypt => aead_decrypt a data ad end)
    with (match cf_mode f with Decrypt => aead_decrypt a data ad | Encrypt => aead_encrypt a rnd data ad end)
    by (destruct (cf_mode f); reflexivity).
  apply stores_ok. exact Ho.
Qed.
Theorem daead_cli_spec : forall w env pb o f fs ks l ad data, cc_ready w Daead ->
  holds_keyset (pe_rt env) fs (cf_keyset_path f) ks -> cc_keyset ClsDaead (cw_daead w) ks l ->
  flag_is (cf_associated_data f) ad -> content fs (cf_input_path f) = Some data ->
  may_write o (cf_output_path f) = true ->
  exists y, daead_outcome ks l (cf_mode f) data ad y /\
    stores (deterministic_aead_cli w env pb o f fs) (cf_output_path f) y fs.
Proof.
  intros w env pb o f fs ks l ad data Hr Hh Hk Hf Hd Ho.
  destruct (registered_ok w env CallDaead Daead fs eq_refl ltac:(ready) I) as (r & Er & Hc).
  destruct (keyset_file_read w env pb fs _ ks Hh) as (t & Et & Ep).
  destruct (daead_over_cc_ok _ _ _ _ _ Hc Hk) as (a & Ea & L1 & L2 & L3).
  exists (match cf_mode f with Encrypt => daead_encrypt a data ad | Decrypt => daead_decrypt a data ad end).
  split; [unfold daead_outcome; destruct (cf_mode f); [split; [intros; apply L2; assumption | intros H; apply L3; exact H] | apply L1] |].
  unfold deterministic_aead_cli. rewrite (flag_bytes_ok _ _ Hf).
  rewrite (next_ok _ _ _ _ ad fs fs eq_refl), (next_ok _ _ _ _ r fs fs Er), (next_ok _ _ _ _ t fs fs Et), Ep.
  cbn [or_return_1]. rewrite Ea. cbn [or_return_1]. rewrite (next_ok _ _ _ _ data fs fs (read_bytes_ok _ _ _ Hd)).
  cbn [call_encrypt_deterministically call_decrypt_deterministically].
  replace (match cf_mode f with Encrypt => daead_encrypt a data ad | Decrypt => daead_decrypt a data ad end)
    with (match cf_mode f with Decrypt => daead_decrypt a data ad | Encrypt => daead_encrypt a data ad end)
    by (destruct (cf_mode f); reflexivity).
  apply stores_ok. exact Ho.
Qed.
Theorem cleartext_cli_spec : forall w env pb o rnd f fs ks l data, cc_ready w Aead ->
  holds_keyset (pe_rt env) fs (cf_keyset_path f) ks -> cc_keyset ClsAead (cw_aead w) ks l ->
  content fs (cf_input_path f) = Some data -> may_write o (cf_output_path f) = true ->
  exists y, aead_outcome ks l (cf_mode f) rnd data (blit "envelope_example") y /\
    stores (cleartext_keyset_crypt w env pb o rnd f fs) (cf_output_path f) y fs.
Proof.
  intros w env pb o rnd f fs ks l data Hr Hh Hk Hd Ho.
  destruct (registered_ok w env CallAead Aead fs eq_refl ltac:(ready) I) as (r & Er & Hc).
  destruct (keyset_file_read w env pb fs _ ks Hh) as (t & Et & Ep).
  destruct (aead_over_cc_ok _ _ _ _ _ Hc Hk) as (a & Ea & L1 & L2 & L3).
  fold envelope_example.
  exists (match cf_mode f with Encrypt => aead_encrypt a rnd data envelope_example | Decrypt => aead_decrypt a data envelope_example end).
  split; [unfold aead_outcome; destruct (cf_mode f); [split; [intros; apply L2; assumption | intros H; apply L3; exact H] | apply L1] |].
  unfold cleartext_keyset_crypt.
  rewrite (next_ok _ _ _ _ r fs fs Er), (next_ok _ _ _ _ t fs fs Et), Ep.
  cbn [or_return_1]. rewrite Ea. cbn [or_return_1]. rewrite (next_ok _ _ _ _ data fs fs (read_bytes_ok _ _ _ Hd)).
  cbn [call_encrypt call_decrypt].
  replace (match cf_mode f with Encrypt => aead_encrypt a rnd data envelope_example | Decrypt => aead_decrypt a data envelope_example end)
    with (match cf_mode f with Decrypt => aead_decrypt a data envelope_example | Encrypt => aead_encrypt a rnd data envelope_example end)
    by (destruct (cf_mode f); reflexivity).
  apply stores_ok. exact Ho.
Qed.

(** ** hybrid *)
Theorem hybrid_cli_encrypt_spec : forall w env pb o rnd f fs ks l ci data, cc_ready w Hybrid -> cf_mode f = Encrypt ->
  holds_keyset (pe_rt env) fs (cf_keyset_path f) ks -> cc_keyset ClsHybridEncrypt (cw_hybrid_encrypt w) ks l ->
  flag_is (cf_associated_data f) ci -> content fs (cf_input_path f) = Some data ->
  may_write o (cf_output_path f) = true ->
  exists y, (forall k q, is_primary ks l k q -> prefixed k (che_encrypt q rnd data ci) y) /\
    ((forall k q, ~ is_primary ks l k q) -> raises_tink y) /\
    stores_or_empties (hybrid_cli w env pb o rnd f fs) (cf_output_path f) y fs.
Proof.
  intros w env pb o rnd f fs ks l ad data Hr Hm Hh Hk Hf Hd Ho.
  destruct (registered_ok w env CallHybrid Hybrid fs eq_refl ltac:(ready) I) as (r & Er & Hc).
  destruct (keyset_file_read w env pb fs _ ks Hh) as (t & Et & Ep).
  destruct (hybrid_encrypt_over_cc_ok _ _ _ _ _ Hc Hk) as (a & Ea & L2 & L3).
  exists (he_encrypt a rnd data ad). split; [intros; apply L2; assumption |]. split; [intros; apply L3; assumption |].
  unfold hybrid_cli. rewrite (flag_bytes_ok _ _ Hf).
  rewrite (next_ok _ _ _ _ ad fs fs eq_refl), (next_ok _ _ _ _ r fs fs Er), (next_ok _ _ _ _ t fs fs Et), Ep.
  cbn [or_return_1]. rewrite (next_ok _ _ _ _ data fs fs (read_bytes_ok _ _ _ Hd)), Hm, Ea. cbn [or_return_1].
  cbn [call_encrypt]. apply stores_or_empties_ok. exact Ho.
Qed.
Theorem hybrid_cli_decrypt_spec : forall w env pb o rnd f fs ks l ci data, cc_ready w Hybrid -> cf_mode f = Decrypt ->
  holds_keyset (pe_rt env) fs (cf_keyset_path f) ks -> cc_keyset ClsHybridDecrypt (cw_hybrid_decrypt w) ks l ->
  flag_is (cf_associated_data f) ci -> content fs (cf_input_path f) = Some data ->
  may_write o (cf_output_path f) = true ->
  exists y, first_success (attempts l data (fun _ q body => of_status (chd_decrypt q body ci))) y /\
    stores_or_empties (hybrid_cli w env pb o rnd f fs) (cf_output_path f) y fs.
Proof.
  intros w env pb o rnd f fs ks l ad data Hr Hm Hh Hk Hf Hd Ho.
  destruct (registered_ok w env CallHybrid Hybrid fs eq_refl ltac:(ready) I) as (r & Er & Hc).
  destruct (keyset_file_read w env pb fs _ ks Hh) as (t & Et & Ep).
  destruct (hybrid_decrypt_over_cc_ok _ _ _ _ _ Hc Hk) as (a & Ea & L).
  exists (hd_decrypt a data ad). split; [apply L |].
  unfold hybrid_cli. rewrite (flag_bytes_ok _ _ Hf).
  rewrite (next_ok _ _ _ _ ad fs fs eq_refl), (next_ok _ _ _ _ r fs fs Er), (next_ok _ _ _ _ t fs fs Et), Ep.
  cbn [or_return_1]. rewrite (next_ok _ _ _ _ data fs fs (read_bytes_ok _ _ _ Hd)), Hm, Ea. cbn [or_return_1].
  cbn [call_decrypt]. apply stores_or_empties_ok. exact Ho.
Qed.

(** ** Hexadecimal tags *)
Lemma unhex_digit_spec : forall c v, unhex_digit c = Some v <-> exists n, v = N.of_nat n /\ digit c n.
Proof.
  intros c v. split.
  - intros H. exists (N.to_nat v). rewrite N2Nat.id. split; [reflexivity |]. unfold digit.
    destruct c; vm_compute in H; try discriminate; injection H as <-; (left; reflexivity) || (right; reflexivity).
  - intros (n & -> & H). unfold digit in H.
    do 16 (destruct n as [| n]; [vm_compute in H; destruct H as [H | H]; injection H as <-; reflexivity |]).
    vm_compute in H. destruct H as [H | H]; destruct n; discriminate.
Qed.
Lemma digit_16 : forall c n, digit c n -> (n < 16)%nat.
Proof.
  intros c n H. unfold digit in H. destruct H as [H | H]; assert (nth_error lower_digits n <> None \/ nth_error upper_digits n <> None) as G
    by (rewrite H; auto; try (left; discriminate); right; discriminate).
  - destruct G as [G | G]; apply nth_error_Some in G; exact G.
  - destruct G as [G | G]; apply nth_error_Some in G; exact G.
Qed.
Lemma unhexlify_spec : forall t x, unhexlify t = Some x <-> hex_bytes x t.
Proof.
  assert (G : forall n t, (length t <= n)%nat -> forall x, unhexlify t = Some x <-> hex_bytes x t).
  { induction n as [| n IH]; intros t Hn x.
    - destruct t; [| cbn in Hn; lia]. cbn. split; [intros H; apply some_inj in H; subst; constructor | intros H; inversion H; reflexivity].
    - destruct t as [| a [| b t]]; cbn [unhexlify].
      + split; [intros H; apply some_inj in H; subst; constructor | intros H; inversion H; reflexivity].
      + split; [discriminate | intros H; inversion H].
      + split.
        * destruct (unhex_digit a) as [h |] eqn:Ea; [| discriminate].
          destruct (unhex_digit b) as [l |] eqn:Eb; [| discriminate].
          destruct (unhexlify t) as [r |] eqn:Er; [| discriminate]. intros H. apply some_inj in H. subst x.
          apply unhex_digit_spec in Ea. destruct Ea as (h' & -> & Ha). apply unhex_digit_spec in Eb. destruct Eb as (l' & -> & Hb).
          pose proof (digit_16 _ _ Ha). pose proof (digit_16 _ _ Hb).
          apply (Hex_byte _ _ h' l'); auto.
          -- apply Nat2N.inj. rewrite <- Byte.to_N_via_nat. rewrite to_N_of_small by lia. lia.
          -- apply IH; [cbn in Hn; lia | exact Er].
        * intros H. inversion H as [| a' b' h l c x' t' Ha Hb Hc Ht]. subst.
          rewrite (proj2 (unhex_digit_spec a (N.of_nat h))) by eauto.
          rewrite (proj2 (unhex_digit_spec b (N.of_nat l))) by eauto.
          rewrite (proj2 (IH t ltac:(cbn in Hn; lia) x') Ht). f_equal. f_equal.
          rewrite <- (byte_of_N_of_to_N c). f_equal. rewrite Byte.to_N_via_nat. lia. }
  intros t x. apply (G (length t)). lia.
Qed.
