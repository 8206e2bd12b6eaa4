(** A small HPKE library for the examples: a ciphertext shows the AEAD, the public key, the context and the plaintext.
    Nothing here models code of /repo. *)
From Coq Require Import Strings.Byte Strings.String List NArith ZArith Bool Lia.
From Verif Require Import M_Base L_Base M_Proto M_Wire M_ProtoMsg M_KeyFormats M_Prims M_StreamTypes M_CcStream M_CcManagers M_CcAes
  M_CcStreamKeys M_CcModes M_CcSymmetric M_CcSymKeys M_CcEcies M_CcEciesKeys M_CcSignatures M_CcHpke S_Config S_CcAes S_CcStreamKeys S_CcModes S_CcSymmetric S_CcSymKeys S_CcSymHandles S_CcEcies S_CcHpke
  L_CcModes X_CcSymmetric X_CcSymKeys X_CcEcies.
Import ListNotations.
Open Scope string_scope.
Open Scope list_scope.
Open Scope nat_scope.

Definition toy_header (a : hpke_aead) (pk enc info : bytes) : bytes :=
  (match a with HpkeAes128Gcm => x01 | HpkeAes256Gcm => x02 | HpkeChaCha20Poly1305 => x03 end) :: pk ++ enc ++ info.
Definition toy_hpke : hpke_crypto := mk_hpke_crypto bytes
  (fun a pk info rnd => if Nat.eqb (length pk) 32 then Some (be_bytes 32 rnd, toy_header a pk (be_bytes 32 rnd) info) else None)
  (fun sk => Nat.eqb (length sk) 32)
  (fun a sk enc info => Some (toy_header a (x25519_public toy_ec sk) enc info))
  (fun ctx P _ => Some (ctx ++ P))
  (fun ctx c _ => if bytes_eqb (firstn (length ctx) c) ctx then Some (skipn (length ctx) c) else None).
Lemma toy_open : forall h P : bytes, (if bytes_eqb (firstn (length h) (h ++ P)) h then Some (skipn (length h) (h ++ P)) else None) = Some P.
Proof.
  intros h P. rewrite firstn_app, Nat.sub_diag, firstn_all, firstn_O, app_nil_r. rewrite (proj2 (bytes_eqb_spec _ _) eq_refl), skipn_app, Nat.sub_diag, skipn_all, skipn_O. reflexivity.
Qed.
Theorem toy_hpke_laws : hpke_laws toy_ec toy_hpke.
Proof.
  constructor.
  - intros sk. apply Nat.eqb_eq.
  - intros a pk info rnd enc ctx. cbn [toy_hpke hpke_setup_sender]. destruct (Nat.eqb (length pk) 32); [| discriminate]. intros E. apply (f_equal (fun o => match o with Some (e, _) => e | None => [] end)) in E. cbv beta iota in E. rewrite <- E. apply be_bytes_length.
  - intros a sk info rnd L. cbn [toy_hpke hpke_setup_sender]. rewrite (law_x25519_public _ _ toy_ec_laws sk L). do 2 eexists. reflexivity.
  - intros. eexists. reflexivity.
  - intros a sk info rnd enc ctx P c L S X. cbn [toy_hpke hpke_setup_sender hpke_setup_recipient hpke_seal hpke_open] in *. rewrite (law_x25519_public _ _ toy_ec_laws sk L) in S. cbn [Nat.eqb] in S.
    assert (E1 := f_equal (fun o => match o with Some (e, _) => e | None => [] end) S). assert (E2 := f_equal (fun o => match o with Some (_, h) => h | None => [] end) S). cbv beta iota in E1, E2.
    apply (f_equal (fun o => match o with Some h => h | None => [] end)) in X. cbv beta iota in X. rewrite <- X, <- E1. eexists. split; [reflexivity |]. rewrite E2. apply toy_open.
Qed.
