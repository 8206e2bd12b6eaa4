(** Proofs: public keysets of ECIES keysets, and new handles for the predefined templates. *)
From Coq Require Import Strings.Byte Strings.String List NArith ZArith Bool Lia.
From Verif Require Import M_Base M_Utf8 M_Proto M_Wire M_ProtoMsg M_KeyFormats M_Prims M_PrimitiveSet M_Registry M_KeysetHandle M_Wrappers M_StreamTypes M_CcStream M_CcManagers
  M_Templates M_CcAes M_CcStreamKeys M_CcModes M_CcSymmetric M_CcSymKeys M_CcEcies M_CcEciesKeys S_Keyset S_Handle S_Wrappers S_Wire S_Config S_CcLaws S_CcAes S_CcStreamKeys S_CcModes S_CcSymmetric
  S_CcSymKeys S_CcSymHandles S_CcEcies S_CcEciesKeys S_CcEciesHandles L_Base L_Registry L_Wire L_PrimitiveSet L_Keyset L_Wrappers L_Wrappers2 L_Wrappers3 L_Handle L_Config L_Config2 L_Config3 L_Config4 L_Cli3
  L_CcStreamKeys L_CcSymKeys L_CcSymKeys2 L_CcSymHandles L_CcSymHandles2 L_CcSymHandles3 L_CcSymHandles4 L_CcEcies L_CcEcies2 L_CcEcies3 L_CcEcies4 L_CcEcies5 L_CcEciesKeys L_CcEciesKeys2
  L_CcEciesHandles.
Import ListNotations.
Open Scope string_scope.
Open Scope list_scope.
Open Scope nat_scope.

(** ** Public keysets *)
Lemma Forall2_nth : forall A B (R : A -> B -> Prop) l l' i y, Forall2 R l l' -> nth_error l' i = Some y -> exists x, nth_error l i = Some x /\ R x y.
Proof.
  intros A B R l l' i y F. revert i. induction F as [| x z l l' H F IH]; intros [| i] E; try discriminate E; cbn in *; [injection E as <-; eauto | auto].
Qed.
Lemma Forall2_in_r : forall A B (R : A -> B -> Prop) l l' y, Forall2 R l l' -> In y l' -> exists x, In x l /\ R x y.
Proof. intros A B R l l' y F. induction F as [| x z l l' H F IH]; [contradiction |]. intros [<- | I]; [exists x; split; [left |]; auto | destruct (IH I) as (x' & I' & R'); exists x'; split; [right |]; auto]. Qed.
Lemma Forall2_in_l : forall A B (R : A -> B -> Prop) l l' x, Forall2 R l l' -> In x l -> exists y, In y l' /\ R x y.
Proof. intros A B R l l' x F. induction F as [| z y l l' H F IH]; [contradiction |]. intros [<- | I]; [exists y; split; [left |]; auto | destruct (IH I) as (x' & I' & R'); exists x'; split; [right |]; auto]. Qed.
Lemma url_text : valid_text (type_url "EciesAeadHkdfPublicKey") /\ valid_text (type_url "EciesAeadHkdfPrivateKey").
Proof. split; apply low_text; vm_compute; reflexivity. Qed.

Theorem ecies_public_handle : forall ec lib random w env r ks l, ecies_world ec lib random w -> ec_laws ec lib -> configured w env Hybrid r ->
  valid_keyset ks -> all_private ks l -> (forall k, In k (ks_key ks) -> k_output_prefix_type k <> UNKNOWN_PREFIX /\ k_status k <> UNKNOWN_STATUS) ->
  (forall k, In k (ks_key ks) -> public_fits ec lib random k) ->
  exists ph l', public_keyset_handle r (mk_handle ks) = Ok ph /\ ks_primary_key_id (kh_keyset ph) = ks_primary_key_id ks /\
    map fst l' = ks_key (kh_keyset ph) /\ Forall2 public_half l l' /\ Forall (fun y => kd_key_material_type (k_key_data (fst y)) = ASYMMETRIC_PUBLIC) l' /\
    (hybrid_keyset is_private (good_private ec) ks (enabled_of l) -> hybrid_keyset is_public (good_public ec) (kh_keyset ph) (enabled_of l')).
Proof.
  intros ec lib random w env r ks l (HW & _) EL HC V (EM & F) KN PF.
  assert (G : exists l', Forall2 (fun x y => public_half x y /\ public_counterpart r (fst x) (fst y) /\ kd_key_material_type (k_key_data (fst y)) = ASYMMETRIC_PUBLIC /\
    wf_key_data (k_key_data (fst y)) /\ proto_size (serialize_key_data (k_key_data (fst y)))) l l').
  { assert (PF' : forall x, In x l -> public_fits ec lib random (fst x)) by (intros x I; apply PF; rewrite <- EM; apply in_map; exact I).
    clear KN PF EM V. induction F as [| (k & q) l (W & S & A & K) F IH]; [exists []; constructor |]. destruct IH as (l' & IH); [intros x I; apply PF'; right; exact I |].
    cbn [fst snd] in *. destruct (ecies_public_key ec lib random _ _ _ _ _ K) as (get & d' & G1 & G2 & U & MT & HP).
    destruct (PF' (k, q) (or_introl eq_refl) get d' G1 G2) as (S1 & S2).
    assert (WD : wf_key_data d') by (split; [rewrite U; apply url_text | rewrite MT; apply low_int; vm_compute; reflexivity]).
    exists ((mk_key (Some d') (k_status k) (k_key_id k) (k_output_prefix_type k), prv_public q) :: l'). constructor; [| exact IH].
    cbn [fst snd]. split; [| split; [| split; [exact MT |]; split; assumption]].
    - do 3 (split; [reflexivity |]). split; [exact (HP S1) | reflexivity].
    - split; [| auto]. exists d'. split; [reflexivity |]. apply registry_public_key_data_ok.
      assert (AN : answers (registry_public_key_data r (k_key_data k)) (get (kd_value (k_key_data k)))).
      { eapply (configured_public_key w env Hybrid r "EciesAeadHkdfPrivateKey" ClsHybridDecrypt); [exact HC | cbn; tauto | | exact (proj1 K) | exact A | exact W | exact S |].
        - cbn [cc_functions]. rewrite HW. cbn [manager_functions]. rewrite G1. reflexivity.
        - intros d2 E. rewrite G2 in E. injection E as <-. auto. }
      rewrite G2 in AN. exact AN. }
  destruct G as (l' & G). set (ks' := mk_keyset (ks_primary_key_id ks) (map fst l')).
  assert (G1 : Forall2 (fun x y => k_status y = k_status x /\ k_key_id y = k_key_id x /\ k_output_prefix_type y = k_output_prefix_type x /\ public_counterpart r x y) (ks_key ks) (map fst l')).
  { rewrite <- EM. clear - G. induction G as [| x y l l' (H & H' & _) G IH]; constructor; [| exact IH]. destruct H as (A & B & C & _). auto. }
  assert (V' : valid_keyset ks').
  { destruct V as ((k0 & I0 & D0) & _ & UQ & _).
    assert (PP : forall i, primary_positions ks' i -> primary_positions ks i).
    { intros i (k & N & S & E). cbn [ks_key ks_primary_key_id ks'] in *. destruct (Forall2_nth _ _ _ _ _ _ _ G1 N) as (k1 & N1 & A & B & C & _). exists k1. split; [exact N1 |]. split; congruence. }
    split; [| split; [| split]].
    - destruct (Forall2_in_l _ _ _ _ _ _ G1 I0) as (y & I & A & _). exists y. split; [exact I | congruence].
    - intros k I _. destruct (Forall2_in_r _ _ _ _ _ _ G1 I) as (x & IX & A & B & C & (d & ED & _) & _). destruct (KN _ IX). split; [exists d; exact ED |]. split; congruence.
    - intros i j A B. apply UQ; apply PP; assumption.
    - right. intros k I. apply in_map_iff in I. destruct I as (y & <- & I). destruct (Forall2_in_r _ _ _ _ _ _ G I) as (x & _ & _ & _ & M & _). exact M. }
  exists (mk_handle ks'), l'. split; [| split; [reflexivity |]; split; [reflexivity |]; split; [| split]].
  - apply public_keyset_handle_ok. cbn [kh_keyset ks_key ks_primary_key_id ks']. split; [reflexivity |]. split; [| split; [exact KN | exact V']].
    clear - G1. induction G1 as [| x y a b (_ & _ & _ & H) G1 IH]; constructor; assumption.
  - clear - G. induction G as [| x y l l' (H & _) G IH]; constructor; assumption.
  - clear - G. induction G as [| x y l l' (_ & _ & H & _) G IH]; constructor; assumption.
  - intros (_ & _ & FE). split; [exact V' |]. unfold enabled_of in *. cbn [kh_keyset].
    assert (EF : forall K (a : list (key * K)), map fst (filter (fun x => Z.eqb (k_status (fst x)) ENABLED) a) = filter is_enabled (map fst a)).
    { intros K a. induction a as [| x a IH]; [reflexivity |]. cbn [filter map]. unfold is_enabled at 1. destruct (Z.eqb (k_status (fst x)) ENABLED); cbn [map]; rewrite IH; reflexivity. }
    split; [apply EF |]. clear - EL G FE. induction G as [| x y l l' H G IH]; [constructor |]. destruct H as ((A & B & C & K & E) & _ & M & W & S).
    cbn [filter] in *. rewrite A. destruct (Z.eqb (k_status (fst x)) ENABLED); [| exact (IH FE)].
    inversion_clear FE as [| ? ? (_ & _ & _ & GP & (p & HP)) FE']. constructor; [| exact (IH FE')]. split; [exact W |]. split; [exact S |]. rewrite E. split; [exact K |].
    split; [exact (proj2 (proj2 (good_pair _ _ _ EL GP))) |]. exists p. rewrite B, C. exact HP.
Qed.
