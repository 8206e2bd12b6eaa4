(** What the primitive obtained from a keyset must do, for each kind of
    primitive. [l] lists the ENABLED keys in order with their own primitives. *)
From Coq Require Import Strings.Byte List NArith ZArith Bool.
From Verif Require Import M_Base M_Proto M_Prims M_Registry S_Keyset.
Import ListNotations.

(** Aead: decrypt obeys the candidate-order law, encrypt is the primary prefix
    followed by the primary's ciphertext, or TinkError without a primary. *)
Definition aead_spec (reg : registry) (ks : keyset) (a : aead) (l : list (key * aead)) : Prop :=
  keys_with PrimAead reg ClsAead ks l /\
  (forall ct ad, first_ok (attempts l ct (fun _ p body => aead_decrypt p body ad))
                   (aead_decrypt a ct ad)) /\
  (forall k p, is_primary ks l k p -> forall r pt ad,
     with_prefix_of k (aead_encrypt p r pt ad) (aead_encrypt a r pt ad)) /\
  ((forall k p, ~ is_primary ks l k p) -> forall r pt ad, raises_tink (aead_encrypt a r pt ad)).

(** DeterministicAead, same law. *)
Definition daead_spec (reg : registry) (ks : keyset) (a : daead) (l : list (key * daead)) : Prop :=
  keys_with PrimDaead reg ClsDaead ks l /\
  (forall ct ad, first_ok (attempts l ct (fun _ p body => daead_decrypt p body ad))
                   (daead_decrypt a ct ad)) /\
  (forall k p, is_primary ks l k p -> forall pt ad,
     with_prefix_of k (daead_encrypt p pt ad) (daead_encrypt a pt ad)) /\
  ((forall k p, ~ is_primary ks l k p) -> forall pt ad, raises_tink (daead_encrypt a pt ad)).

(** HybridDecrypt. *)
Definition hybrid_decrypt_spec (reg : registry) (ks : keyset) (a : hybrid_decrypt)
  (l : list (key * hybrid_decrypt)) : Prop :=
  keys_with PrimHybridDecrypt reg ClsHybridDecrypt ks l /\
  (forall ct ci, first_ok (attempts l ct (fun _ p body => hd_decrypt p body ci))
                   (hd_decrypt a ct ci)).

(** HybridEncrypt. *)
Definition hybrid_encrypt_spec (reg : registry) (ks : keyset) (a : hybrid_encrypt)
  (l : list (key * hybrid_encrypt)) : Prop :=
  keys_with PrimHybridEncrypt reg ClsHybridEncrypt ks l /\
  (forall k p, is_primary ks l k p -> forall r pt ci,
     with_prefix_of k (he_encrypt p r pt ci) (he_encrypt a r pt ci)) /\
  ((forall k p, ~ is_primary ks l k p) -> forall r pt ci, raises_tink (he_encrypt a r pt ci)).

(** Mac. *)
Definition mac_spec (reg : registry) (ks : keyset) (a : mac) (l : list (key * mac)) : Prop :=
  keys_with PrimMac reg ClsMac ks l /\
  (forall tag data, (length tag <= 5)%nat -> raises_tink (mac_verify a tag data)) /\
  (forall tag data, (5 < length tag)%nat ->
     first_ok (attempts l tag (fun k p body => mac_verify p body (legacy_data k data)))
       (mac_verify a tag data)) /\
  (forall k p, is_primary ks l k p -> forall data,
     with_prefix_of k (mac_compute p (legacy_data k data)) (mac_compute a data)) /\
  ((forall k p, ~ is_primary ks l k p) -> forall data, raises_tink (mac_compute a data)).

(** PublicKeySign. *)
Definition sign_spec (reg : registry) (ks : keyset) (a : signer) (l : list (key * signer)) : Prop :=
  keys_with PrimSign reg ClsSign ks l /\
  (forall k p, is_primary ks l k p -> forall r data,
     with_prefix_of k (sign p r (legacy_data k data)) (sign a r data)) /\
  ((forall k p, ~ is_primary ks l k p) -> forall r data, raises_tink (sign a r data)).

(** PublicKeyVerify. *)
Definition verify_spec (reg : registry) (ks : keyset) (a : verifier) (l : list (key * verifier))
  : Prop :=
  keys_with PrimVerify reg ClsVerify ks l /\
  (forall sg data, (length sg <= 5)%nat -> raises_tink (verify a sg data)) /\
  (forall sg data, (5 < length sg)%nat ->
     first_ok (attempts l sg (fun k p body => verify p body (legacy_data k data)))
       (verify a sg data)).

(** Last entry with a given id. *)
Definition last_with_id {P} (id : N) (l : list (key * P)) : option P :=
  fold_left (fun acc kp => if N.eqb (k_key_id (fst kp)) id then Some (snd kp) else acc) l None.

(** PrfSet: [pid], [all] and [prim0] are primary_id(), all() and primary(). *)
Definition prf_set_spec (reg : registry) (ks : keyset) (pid : result N) (all : list (N * prim))
  (prim0 : result prim) (l : list (key * prf)) : Prop :=
  keys_with PrimPrf reg ClsPrf ks l /\
  Forall (fun kp => k_output_prefix_type (fst kp) = RAW) l /\
  NoDup (map fst all) /\
  (forall id, dict_get N.eqb id all = option_map PrimPrf (last_with_id id l)) /\
  (forall k p, is_primary ks l k p ->
     pid = Ok (ks_primary_key_id ks) /\ prim0 = Ok (PrimPrf p)) /\
  ((forall k p, ~ is_primary ks l k p) -> raises_tink pid /\ raises_tink prim0).
