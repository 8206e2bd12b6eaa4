(** Streaming AEAD primitives of keysets. *)
From Coq Require Import List NArith ZArith Bool Lia Permutation.
From Verif Require Import M_Base M_Proto M_StreamTypes M_Prims M_PrimitiveSet M_Registry M_KeysetHandle M_Stream
  L_Base S_Keyset S_PrimitiveSet L_PrimitiveSet L_Keyset L_Wrappers S_Jwt L_Jwt6 S_Stream.
Import ListNotations.
Open Scope list_scope.

Lemma raw_streaming_inj : forall p, class_of p = ClsRawStreamingAead -> exists a, p = PrimRawStreamingAead a.
Proof. intros p H. destruct p; try discriminate. eauto. Qed.

Lemma all_raw_map : forall l, all_raw (map PrimRawStreamingAead l) = l.
Proof. induction l as [| p l IH]; [reflexivity |]. cbn. rewrite IH. reflexivity. Qed.

(** The streaming AEAD of a keyset tries the ENABLED keys, each once, in keyset order
    but with keys of the same prefix brought together, and encrypts with the primary
    key. *)
Theorem streaming_handle_spec : forall reg h Q,
  dict_get pclass_eqb ClsStreamingAead (r_wrappers reg) = Some streaming_aead_wrapper ->
  handle_primitive reg h ClsStreamingAead = Ok Q ->
  exists l, keys_with PrimRawStreamingAead reg ClsRawStreamingAead (kh_keyset h) l /\
    (forall S (src : py_source S) fuel s ad, new_decrypting_stream src fuel Q s ad =
       dec_wrapper_init src fuel (map snd (grouped [] l)) s ad) /\
    (forall k p ad, is_primary (kh_keyset h) l k p -> new_encrypting_stream Q ad = rsa_new_raw_encrypting_stream p ad) /\
    ((forall k p, ~ is_primary (kh_keyset h) l k p) -> forall ad, exists e, is_tink_error e = true /\ new_encrypting_stream Q ad = WRet (Err e)).
Proof.
  intros reg h Q Hw Hh.
  destruct (handle_primitive_typed _ PrimRawStreamingAead _ _ _ streaming_aead_wrapper _ raw_streaming_inj Hw Hh) as (Hv & l & Hk & Hg & HQ).
  cbn [w_input_primitive_class streaming_aead_wrapper w_wrap] in *. apply ok_inj in HQ. exists l. split; [exact Hk |].
  pose proof (all_grouped _ _ _ _ (ks_primary_key_id (kh_keyset h)) _ Hg) as G. subst Q. unfold wrapped_streaming_aead. split; [| split].
  - intros S src fuel s ad. unfold new_decrypting_stream. f_equal. rewrite G.
    rewrite map_map, map_map. cbn [entry_of e_primitive lift snd fst]. rewrite <- (all_raw_map (map snd (grouped [] l))), map_map. reflexivity.
  - intros k p ad Hp. destruct Hk as (Hl & _). cbn [new_encrypting_stream].
    rewrite (primary_pset_for _ _ _ _ _ _ _ _ Hv Hl Hg Hp). reflexivity.
  - intros Hn ad. rewrite (no_primary_pset_for _ _ _ _ _ Hn). cbn. eexists. split; [| reflexivity]. reflexivity.
Qed.
