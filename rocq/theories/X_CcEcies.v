(** A small library with elliptic curves for the examples: every NIST curve is the group of
    three elements whose points are (2, 3) and (4, 5), and X25519 is an exclusive or. Nothing
    here models code of /repo. *)
From Coq Require Import Strings.Byte Strings.String List NArith ZArith Bool Lia.
From Verif Require Import M_Base L_Base M_Proto M_Wire M_ProtoMsg M_KeyFormats M_Prims M_StreamTypes M_CcStream M_CcManagers M_CcAes
  M_CcStreamKeys M_CcModes M_CcSymmetric M_CcSymKeys M_CcEcies S_Config S_CcAes S_CcStreamKeys S_CcModes S_CcSymmetric S_CcSymKeys S_CcSymHandles S_CcEcies
  L_CcSymmetric L_CcSymmetric2 X_Aes X_CcSymmetric X_CcSymKeys.
Import ListNotations.
Open Scope string_scope.
Open Scope list_scope.
Open Scope nat_scope.

(** ** Curves *)
Definition toy_log (Q : N * N) : option N :=
  if (N.eqb (fst Q) 2 && N.eqb (snd Q) 3)%bool then Some 1%N else if (N.eqb (fst Q) 4 && N.eqb (snd Q) 5)%bool then Some 2%N else None.
Definition toy_exp (l : N) : option (N * N) := match l with 1%N => Some (2, 3)%N | 2%N => Some (4, 5)%N | _ => None end.
Definition toy_mul (d : N) (Q : N * N) : option (N * N) := match toy_log Q with Some l => toy_exp ((d * l) mod 3) | None => None end.
Definition toy_public (a : bytes) : bytes := map (fun b => byte_of_N (N.lor (Byte.to_N b) 1)) a.
Fixpoint xor_all (a b : bytes) : bytes := match a, b with x :: a', y :: b' => byte_of_N (N.lxor (Byte.to_N x) (Byte.to_N y)) :: xor_all a' b' | _, _ => [] end.
Definition toy_ec : ec_crypto := mk_ec_crypto
  (fun c Q => match toy_log Q with Some _ => true | None => false end)
  (fun c x odd => if (odd && (N.eqb x 2 || N.eqb x 4))%bool then Some (x + 1)%N else None)
  (fun c rnd => if N.odd rnd then (1%N, (2, 3)%N) else (2%N, (4, 5)%N))
  (fun c => (2, 3)%N)
  (fun c => toy_mul)
  (fun rnd => repeat (byte_of_N rnd) 32)
  toy_public
  (fun a b => if forallb (fun y => Byte.eqb y x00) b then None else Some (xor_all (toy_public a) b))
  (fun h ikm salt info n =>
     let hmac := evp_hmac sym_toy h in
     match read_bytes hmac (hmac salt ikm) info n n [] (update_ti hmac (hmac salt ikm) info (mk_hkdf_stream [] 0 0 false)) with
     | StOk K => Some K
     | StErr _ => None
     end).
Lemma toy_log_spec : forall Q l, toy_log Q = Some l <-> (Q = (2, 3)%N /\ l = 1%N) \/ (Q = (4, 5)%N /\ l = 2%N).
Proof.
  intros (x, y) l. unfold toy_log. cbn [fst snd].
  destruct (N.eqb_spec x 2), (N.eqb_spec y 3), (N.eqb_spec x 4), (N.eqb_spec y 5); cbn [andb];
    (split; [intros H; try discriminate H; injection H as <-; subst; try lia; auto |
             intros [(E & ->) | (E & ->)]; injection E as E1 E2; try lia; reflexivity]).
Qed.
Lemma toy_on_curve : forall c Q, ec_on_curve toy_ec c Q = true <-> Q = (2, 3)%N \/ Q = (4, 5)%N.
Proof.
  intros c Q. cbn [ec_on_curve toy_ec]. destruct (toy_log Q) as [l |] eqn:E.
  - apply toy_log_spec in E. split; [intros _; tauto | reflexivity].
  - split; [discriminate |]. intros [-> | ->]; discriminate E.
Qed.
Lemma toy_exp_spec : forall l Q, toy_exp l = Some Q <-> (l = 1%N /\ Q = (2, 3)%N) \/ (l = 2%N /\ Q = (4, 5)%N).
Proof.
  intros l Q. split.
  - destruct l as [| [p | [p | p |] |]]; cbn; try discriminate; intros H; injection H as <-; tauto.
  - intros [(-> & ->) | (-> & ->)]; reflexivity.
Qed.
Lemma toy_mul_generator : forall d Q, toy_mul d (2, 3)%N = Some Q -> (d mod 3 = 1 /\ Q = (2, 3))%N \/ (d mod 3 = 2 /\ Q = (4, 5))%N.
Proof. intros d Q. unfold toy_mul. cbn [toy_log fst snd N.eqb Pos.eqb andb]. rewrite N.mul_1_r. apply toy_exp_spec. Qed.
Lemma mul_mod3 : forall d l, ((d * l) mod 3 = ((d mod 3) * l) mod 3)%N.
Proof. intros d l. rewrite N.mul_mod_idemp_l by discriminate. reflexivity. Qed.
Lemma xor_all_comm : forall a b, xor_all a b = xor_all b a.
Proof. induction a as [| x a IH]; intros [| y b]; try reflexivity. cbn [xor_all]. rewrite IH, N.lxor_comm. reflexivity. Qed.
Lemma public_nonzero : forall a, length a = 32 -> forallb (fun y => Byte.eqb y x00) (toy_public a) = false.
Proof.
  intros [| b a] H; [discriminate H |]. cbn [toy_public map forallb].
  assert (Byte.eqb (byte_of_N (N.lor (Byte.to_N b) 1)) x00 = false) as -> by (destruct b; reflexivity). reflexivity.
Qed.
Theorem toy_ec_laws : ec_laws toy_ec sym_toy.
Proof.
  constructor.
  - intros c x y N H. apply toy_on_curve in H.
    assert (5 < 256 ^ N.of_nat (coordinate_size c))%N by (destruct c; vm_compute; reflexivity).
    destruct H as [H | H]; injection H as -> ->; lia.
  - intros c x odd y N. rewrite toy_on_curve. cbn [ec_decompress toy_ec]. split.
    + destruct odd; [| discriminate]. cbn [andb]. destruct (N.eqb_spec x 2) as [-> | A]; cbn [orb]; [intros H; injection H as <-; split; [left |]; reflexivity |].
      destruct (N.eqb_spec x 4) as [-> | B]; [| discriminate]. intros H. injection H as <-. split; [right |]; reflexivity.
    + intros ([H | H] & <-); injection H as -> ->; reflexivity.
  - intros c Q N. rewrite toy_on_curve. cbn [ec_point_mul ec_generator toy_ec]. split.
    + intros [-> | ->]; [exists 1%N | exists 2%N]; reflexivity.
    + intros (d & H). apply toy_mul_generator in H. tauto.
  - intros c d Q S N _ H. apply toy_on_curve. cbn [ec_point_mul toy_ec] in H. unfold toy_mul in H.
    destruct (toy_log Q); [| discriminate]. apply toy_exp_spec in H. tauto.
  - intros c d e P Q N. cbn [ec_point_mul ec_generator toy_ec]. intros HP HQ.
    apply toy_mul_generator in HP. apply toy_mul_generator in HQ.
    assert (M : forall d Q l r, (d mod 3 = r)%N -> toy_log Q = Some l -> toy_mul d Q = toy_exp ((r * l) mod 3)).
    { intros d' Q' l r E LG. unfold toy_mul. rewrite LG, mul_mod3, E. reflexivity. }
    destruct HP as [(D & ->) | (D & ->)], HQ as [(E & ->) | (E & ->)];
      (erewrite (M d _ _ _ D) by reflexivity); (erewrite (M e _ _ _ E) by reflexivity); eexists; split; reflexivity.
  - intros c rnd N. cbn [ec_point_mul ec_generator ec_generate_key toy_ec]. destruct (N.odd rnd); reflexivity.
  - intros rnd. apply repeat_length.
  - intros a H. cbn [x25519_public toy_ec]. unfold toy_public. rewrite map_length. exact H.
  - intros a b A B. cbn [x25519_public x25519_derive toy_ec]. rewrite (public_nonzero a A), (public_nonzero b B).
    eexists. split; [reflexivity |]. rewrite xor_all_comm. reflexivity.
  - intros h ikm salt info n K HU. cbn [evp_hkdf toy_ec].
    assert (P : 0 < hash_size h) by (destruct h; try contradiction; cbn; lia).
    assert (Hl : forall k d, length (evp_hmac sym_toy h k d) = hash_size h) by (intros; apply sym_toy_laws).
    rewrite (hkdf_compute (evp_hmac sym_toy h) (evp_hmac sym_toy h salt ikm) info (hash_size h) P Hl n).
    unfold hkdf_output. set (all := concat _). pose proof (all_length (evp_hmac sym_toy h) (evp_hmac sym_toy h salt ikm) info (hash_size h) P Hl) as AL. fold all in AL.
    destruct (Nat.leb_spec n (length all)) as [X | X].
    + split.
      * intros E. injection E as <-. split; [apply firstn_length_le; exact X |]. exists (skipn n all). apply firstn_skipn.
      * intros (Lo & rest & E). fold all in E. rewrite <- E, <- Lo, firstn_app, firstn_all, Nat.sub_diag. cbn [firstn]. rewrite app_nil_r. reflexivity.
    + split; [discriminate |]. intros (Lo & rest & E). fold all in E. apply (f_equal (@length byte)) in E. rewrite app_length in E. lia.
  - intros c rnd N. assert (5 < 256 ^ N.of_nat (coordinate_size c))%N by (destruct c; vm_compute; reflexivity).
    cbn [ec_generate_key toy_ec]. destruct (N.odd rnd); cbn [fst]; lia.
Qed.

(** ** Keys *)
Definition toy_format (k : sym_key) : bytes :=
  serialize_message (sk_format k)
    (match k with
     | GcmKey key => [vn (length key); Some (VNum 0)]
     | SivKey key => [vn (length key); Some (VNum 0)]
     | CtrHmacAeadKey k =>
         [Some (VMsg [Some (VMsg [vn (iv_size k)]); vn (length (aes_key k))]);
          Some (VMsg [Some (VMsg [Some (VNum (sym_hash (hmac_hash k))); vn (hmac_tag_size k)]); vn (length (hmac_key k)); Some (VNum 0)])]
     | _ => [Some (VNum 0)]
     end).
Definition toy_curve (c : curve_type) : Z := match c with P256 => 2 | P384 => 3 | P521 => 4 | CURVE25519 => 5 | _ => 0 end%Z.
Definition toy_point_format (f : point_format) : Z := match f with Uncompressed => 1 | Compressed => 2 | CrunchyUncompressed => 3 | _ => 0 end%Z.
Definition ecies_params_message (p : ecies_params) (url : pystr) (x : bytes) : message :=
  [Some (VMsg [Some (VNum (toy_curve (ep_curve p))); Some (VNum (sym_hash (ep_hash p))); vb (ep_salt p)]);
   Some (VMsg [Some (VMsg [Some (VString url); vb x; Some (VNum 3)])]); Some (VNum (toy_point_format (ep_format p)))].
Definition toy_public_message (p : ecies_params) (X Y : bytes) : message :=
  [Some (VNum 0); Some (VMsg (ecies_params_message p (type_url (sk_name (ep_dem p))) (toy_format (ep_dem p)))); vb X; vb Y].
Definition toy_private_message (p : ecies_params) (d X Y : bytes) : message :=
  [Some (VNum 0); Some (VMsg (toy_public_message p X Y)); vb d].
Definition gcm_params : ecies_params := mk_ecies_params P256 SHA256 [x01; x02] Compressed (GcmKey (repeat x00 16)).
Definition ctr_params : ecies_params :=
  mk_ecies_params P384 SHA1 [] Uncompressed (CtrHmacAeadKey (mk_ctr_hmac_key (repeat x00 16) 12 (repeat x00 32) SHA256 16)).
Definition siv_params : ecies_params := mk_ecies_params P521 SHA512 [x07] CrunchyUncompressed (SivKey (repeat x00 64)).
Definition x_params : ecies_params := mk_ecies_params CURVE25519 SHA384 [] Compressed (XChaChaKey (repeat x00 32)).
