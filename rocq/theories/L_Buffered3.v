(** The decrypting stream of a keyset in which one key gives some bytes and all others turn
    the ciphertext down. *)
From Coq Require Import Strings.String List NArith ZArith Bool Lia.
From Verif Require Import M_Base L_Base M_StreamTypes M_Stream M_Buffered S_Stream S_Buffered L_Stream L_Stream2 L_Buffered L_Buffered2.
Import ListNotations.
Open Scope list_scope.
Open Scope Z_scope.

Section Keys.
  Context (X : exn -> Prop) (F Fin : Prop) (C ad P : bytes) (prims : list raw_streaming_aead) (k : raw_streaming_aead).
  Hypothesis k_in : In k prims.
  Hypothesis k_gives : gives X F Fin k ad C P.
  Hypothesis others : forall k', In k' prims -> k' = k \/ turns_down X k' ad C.

  Definition live_at (k0 : raw_streaming_aead) (hk : list (Z * read_result)) (l : live_stream) (p : nat) : Prop :=
    nonzero hk /\ exists o p0, reads X C 0 (rsa_new_raw_decrypting_stream k0 ad) (Ok o) p0 /\
      stream_history X C p0 (new_live o) hk p l.
  Lemma live_snoc : forall k0 hk l p size r l' p', live_at k0 hk l p -> size <> 0 -> reads X C p (live_read l size) (r, l') p' ->
    live_at k0 (hk ++ [(size, r)]) l' p' /\ alone X C ad k0 (hk ++ [(size, r)]).
  Proof.
    intros k0 hk l p size r l' p' (N & o & p0 & R & H) Hz Hr.
    assert (H' : stream_history X C p0 (new_live o) (hk ++ [(size, r)]) p' l') by (eapply stream_history_snoc; eauto).
    split; [split; [apply nonzero_snoc; assumption | eauto] |]. exists o, p0, p', l'. auto.
  Qed.
  Definition has_error (h : list (Z * read_result)) : Prop := exists n e, In (n, Err e) h.

  (** [acc] has been returned; [bad]: an error has been raised. *)
  Definition dinv (acc : bytes) (bad : bool) (st : dstate) : Prop :=
    (bad = false -> exists rest, P = acc ++ rest) /\
    match st with
    | Trying ks l p => exists before k0 hk, prims = before ++ k0 :: ks /\ (In k before -> F) /\ live_at k0 hk l p /\
        no_data hk /\ (bad = false -> acc = []) /\ (bad = true -> ks = [] /\ F /\ has_error hk)
    | Reading l p => exists hk, live_at k hk l p /\ (bad = false -> data hk = acc) /\ (bad = true -> F /\ has_error hk)
    end.

  (** A read of the stream of a key. *)
  Lemma key_read : forall k0 hk l p size r l' p', In k0 prims -> live_at k0 hk l p -> size <> 0 ->
    reads X C p (live_read l size) (r, l') p' ->
    match r with
    | Ok (Some d) => k0 = k /\ ~ has_error hk /\ (d = [] -> data hk = P /\ Fin) /\ (exists rest, P = data hk ++ d ++ rest) /\
        (0 <= size -> Z.of_nat (length d) <= size)
    | Ok None => False
    | Err e => (k0 = k -> F) /\ is_tink_error e = true
    end.
  Proof.
    intros k0 hk l p size r l' p' Hin L Hz Hr. destruct (live_snoc _ _ _ _ _ _ _ _ L Hz Hr) as ((N & _) & A).
    destruct (others k0 Hin) as [-> | (_ & T)].
    - pose proof (proj2 k_gives _ _ _ A N) as K. destruct r as [[d |] | e]; [| exact K |].
      + destruct K as (K1 & K2 & K3 & K4). split; [reflexivity |]. split; [intros (n & e & Hi); exact (K1 _ _ Hi) |]. auto.
      + destruct K. auto.
    - destruct (T _ _ _ A N) as (e & -> & He). split; [| exact He]. intros ->.
      pose proof (proj2 k_gives _ _ _ A N) as K. apply K.
  Qed.

  Lemma has_error_snoc : forall h size e, has_error (h ++ [(size, Err e)]).
  Proof. intros h size e. exists size, e. apply in_or_app. right. left. reflexivity. Qed.
  Lemma data_snoc : forall h size r, data (h ++ [(size, r)]) = data h ++ data_of r.
  Proof. intros h size r. rewrite data_app. unfold data at 2. cbn. rewrite app_nil_r. reflexivity. Qed.

  Lemma dread_ok : forall st size r st', dread X C ad st size r st' -> forall acc bad, dinv acc bad st -> size <> 0 ->
    match r with
    | Ok (Some d) => bad = false /\ (0 <= size -> zlen d <= size) /\ (d = [] -> acc = P /\ Fin) /\ (exists rest, P = acc ++ d ++ rest) /\ dinv (acc ++ d) false st'
    | Ok None => False
    | Err e => F /\ is_tink_error e = true /\ dinv acc true st'
    end.
  Proof.
    intros st size r st' H.
    induction H as [st | l p size r l' p' Hz Hr | ks l p size d l' p' Hz Hr | ks l p size r l' p' Hz Hr Hd Ht
                 | l p size r l' p' e Hz Hr Ht He | k1 ks l p size r l' p' o p2 r2 st Hz Hr Ht Ho H IH
                 | k1 ks l p size r l' p' e p2 Hz Hr Ht Ho]; intros acc bad (Hp & T) Hnz.
    - elim Hnz. reflexivity.
    - destruct T as (hk & L & Hd & Hb). pose proof (key_read _ _ _ _ _ _ _ _ k_in L Hz Hr) as K.
      destruct (live_snoc _ _ _ _ _ _ _ _ L Hz Hr) as (L' & _). destruct r as [[d |] | e]; [| exact K |].
      + destruct K as (_ & K1 & K2 & (rest & K3) & K4). destruct bad; [destruct (Hb eq_refl); contradiction |]. rewrite (Hd eq_refl) in *.
        split; [reflexivity |]. split; [exact K4 |]. split; [exact K2 |]. split; [eauto |].
        split; [intros _; exists rest; rewrite <- app_assoc; exact K3 |]. exists (hk ++ [(size, Ok (Some d))]). split; [exact L' |].
        split; [intros _; rewrite data_snoc, (Hd eq_refl); reflexivity | discriminate].
      + destruct K as (K1 & K2). split; [auto |]. split; [exact K2 |]. split; [discriminate |]. exists (hk ++ [(size, Err e)]).
        split; [exact L' |]. split; [discriminate |]. intros _. split; [auto | apply has_error_snoc].
    - destruct T as (before & k0 & hk & E & Hbf & L & Nd & Hacc & Hb).
      assert (Hin : In k0 prims) by (rewrite E; apply in_or_app; right; left; reflexivity).
      destruct (key_read _ _ _ _ _ _ _ _ Hin L Hz Hr) as (-> & K1 & K2 & (rest & K3) & K4).
      destruct (live_snoc _ _ _ _ _ _ _ _ L Hz Hr) as (L' & _). destruct bad; [destruct (Hb eq_refl) as (_ & _ & ?); contradiction |].
      rewrite (Hacc eq_refl) in *. rewrite (no_data_data _ Nd) in *. split; [reflexivity |]. split; [exact K4 |]. split; [exact K2 |]. split; [eauto |].
      split; [intros _; exists rest; exact K3 |]. exists (hk ++ [(size, Ok (Some d))]). split; [exact L' |].
      split; [intros _; rewrite data_snoc, (no_data_data _ Nd); reflexivity | discriminate].
    - destruct T as (before & k0 & hk & E & Hbf & L & Nd & Hacc & Hb).
      assert (Hin : In k0 prims) by (rewrite E; apply in_or_app; right; left; reflexivity).
      pose proof (key_read _ _ _ _ _ _ _ _ Hin L Hz Hr) as K. destruct r as [[d |] | e]; [elim (Hd d); reflexivity | contradiction |].
      elim Ht. exists e. split; [reflexivity | apply K].
    - destruct T as (before & k0 & hk & E & Hbf & L & Nd & Hacc & Hb). destruct Ht as (e0 & -> & _).
      assert (Hin : In k0 prims) by (rewrite E; apply in_or_app; right; left; reflexivity).
      destruct (key_read _ _ _ _ _ _ _ _ Hin L Hz Hr) as (K1 & K2). destruct (live_snoc _ _ _ _ _ _ _ _ L Hz Hr) as (L' & _).
      assert (HF : F). { pose proof k_in as Hk. rewrite E in Hk. apply in_app_or in Hk. destruct Hk as [Hk | [Hk | []]]; auto. }
      split; [exact HF |]. split; [exact He |]. split; [discriminate |]. exists before, k0, (hk ++ [(size, Err e0)]).
      split; [exact E |]. split; [auto |]. split; [exact L' |]. split; [apply no_data_snoc; [exact Nd | discriminate] |].
      split; [discriminate |]. intros _. split; [reflexivity |]. split; [exact HF | apply has_error_snoc].
    - destruct T as (before & k0 & hk & E & Hbf & L & Nd & Hacc & Hb). destruct Ht as (e0 & -> & _).
      assert (Hin : In k0 prims) by (rewrite E; apply in_or_app; right; left; reflexivity).
      destruct (key_read _ _ _ _ _ _ _ _ Hin L Hz Hr) as (K1 & K2). destruct bad; [destruct (Hb eq_refl) as (Hks & _); discriminate |].
      apply IH; [| exact Hnz]. split; [exact Hp |]. exists (before ++ [k0]), k1, []. split; [rewrite E, <- app_assoc; reflexivity |].
      split. { intros Hi. apply in_app_or in Hi. destruct Hi as [Hi | [Hi | []]]; auto. }
      split. { split; [intros ? ? [] |]. exists o, p2. split; [exact Ho | constructor]. }
      split; [intros ? ? [] |]. split; [exact Hacc | discriminate].
    - destruct T as (before & k0 & hk & E & Hbf & L & Nd & Hacc & Hb).
      assert (Hin : In k1 prims) by (rewrite E; apply in_or_app; right; right; left; reflexivity).
      assert (Hc : creation_works X C ad k1). { destruct (others k1 Hin) as [-> | (Hc & _)]; [apply k_gives | exact Hc]. }
      destruct (Hc _ _ Ho) as (o & Eo). discriminate.
  Qed.
End Keys.

(** The stream that the user gets. *)
Theorem decrypting_stream_reads : forall S X (src : py_source S) fuel F Fin C ad P prims k s w h b',
  plays X src C s 0 -> In k prims -> gives X F Fin k ad C P ->
  (forall k', In k' prims -> k' = k \/ turns_down X k' ad C) ->
  dec_wrapper_init src fuel prims s ad = Some (Ok w) ->
  reader_history (decrypting_call src fuel) (mk_buffered_reader w []) h b' ->
  reads_as F Fin P h.
Proof.
  intros S X src fuel F Fin C ad P prims k s w h b' (at_ & Ha & Hs) Hin Hk Ho Hi Hh.
  destruct (init_refines X src C at_ Hs fuel prims s ad w Ha Hi) as (k0 & ks & o & p & E & R0 & Rel).
  set (R := fun acc bad w => exists st, related C at_ ad w st /\ dinv X F C ad P prims k acc bad st).
  assert (HR : R [] false w).
  { exists (Trying ks (new_live o) p). split; [exact Rel |]. split; [intros _; exists P; reflexivity |]. exists [], k0, [].
    split; [exact E |]. split; [intros [] |]. split; [split; [intros ? ? [] | exists o, p; split; [exact R0 | constructor]] |].
    split; [intros ? ? [] |]. split; [auto | discriminate]. }
  intros before c r after Eh.
  pose proof (history_reads default_buffer_size fuel _ (dec_wrapper_read src fuel) dw_closed F Fin P R) as K.
  specialize (K ltac:(reflexivity)). assert (K1 := K). clear K. rename K1 into K.
  match type of K with ?A -> _ => assert (Q : A) end.
  { intros acc bad w0 n r0 w1 (st & Rl & D) Hn Hr. destruct (read_refines X src C at_ Hs _ _ _ _ _ _ _ Rl Hr) as (st' & Dr & Rl').
    pose proof (dread_ok X F Fin C ad P prims k Hin Hk Ho _ _ _ _ Dr _ _ D ltac:(lia)) as Z0. destruct r0 as [[d |] | e]; [| exact Z0 |].
    - destruct Z0 as (-> & Z1 & Z2 & Z3 & Z4). split; [reflexivity |]. split; [apply Z1; lia |]. split; [exact Z2 |]. split; [exact Z3 |]. exists st'. auto.
    - destruct Z0 as (Z1 & Z2 & Z3). split; [exact Z1 |]. split; [exact Z2 |]. exists st'. auto. }
  specialize (K Q). clear Q. match type of K with ?A -> _ => assert (Q : A) end.
  { intros acc bad w0 (st & Rl & _). inversion Rl; subst; reflexivity. }
  specialize (K Q). clear Q. match type of K with ?A -> _ => assert (Q : A) end.
  { intros acc w0 (st & _ & (D & _)). apply D. reflexivity. }
  specialize (K Q h [] false (mk_buffered_reader w []) b' HR Hh before c r after Eh).
  destruct r as [[d |] | e]; [| exact K | exact K]. destruct K as (K1 & K2). split; [exact (K1 eq_refl) | auto].
Qed.
