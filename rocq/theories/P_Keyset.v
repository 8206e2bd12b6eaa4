(** C13-C22: keyset validation, generation, reading, writing, public handles. *)
From Coq Require Import Strings.Byte Strings.String List NArith ZArith Bool Lia.
From Verif Require Import M_Base M_Proto M_Wire M_Prims M_PrimitiveSet M_Registry M_KeysetHandle
  M_KeysetIO M_Wrappers S_Keyset S_Handle S_Wire L_Base L_Wire L_PrimitiveSet L_Keyset L_Wrappers
  L_Wrappers2 L_Wrappers3 L_Handle X_Toy L_Toy.
Import ListNotations.
Open Scope Z_scope.

(** * C13 *)
Theorem C13_create_iff_valid : forall ks h, create ks = Ok h <-> (valid_keyset ks /\ h = mk_handle ks).
Proof. exact create_ok. Qed.
Print Assumptions C13_create_iff_valid.
Theorem C13_create_error : forall ks e, create ks = Err e -> is_tink_error e = true /\ ~ valid_keyset ks.
Proof. exact create_err. Qed.
Print Assumptions C13_create_error.
Theorem C13_handles_are_valid : (forall reg rnd draws t h, generate_new reg rnd draws t = Some (Ok h) -> valid_keyset (kh_keyset h)) /\
  (forall r a ad h, read_with_associated_data r a ad = Ok h -> valid_keyset (kh_keyset h)) /\
  (forall r h, read_no_secret r = Ok h -> valid_keyset (kh_keyset h)) /\
  (forall ks h, cleartext_from_keyset ks = Ok h -> valid_keyset (kh_keyset h)) /\
  (forall r h, cleartext_read r = Ok h -> valid_keyset (kh_keyset h)) /\
  (forall ks t h, from_proto_keyset ks t = Ok h -> valid_keyset (kh_keyset h)) /\
  (forall reg h ph, public_keyset_handle reg h = Ok ph -> valid_keyset (kh_keyset ph)).
Proof. exact handles_are_valid. Qed.
Print Assumptions C13_handles_are_valid.

(** A keyset with an invalid DESTROYED key, an all-public keyset without primary,
    and rejected ones. *)
Example C13_accepted :
  valid_keyset (toy_keyset u_aead SYMMETRIC) /\
  valid_keyset (mk_keyset 1 [mk_key None DESTROYED 1 UNKNOWN_PREFIX;
                             toy_key u_aead SYMMETRIC "k" ENABLED 1 RAW]) /\
  valid_keyset (mk_keyset 1 [toy_key u_verify ASYMMETRIC_PUBLIC "k" ENABLED 2 TINK]).
Proof. split; [| split]; apply validate_keyset_ok; vmr. Qed.
Example C13_rejected :
  ~ valid_keyset (mk_keyset 1 [toy_key u_aead SYMMETRIC "k" ENABLED 2 TINK]) /\
  ~ valid_keyset (mk_keyset 1 [toy_key u_aead SYMMETRIC "k" ENABLED 1 TINK;
                               toy_key u_aead SYMMETRIC "k" ENABLED 1 RAW]) /\
  ~ valid_keyset (mk_keyset 1 [toy_key u_aead SYMMETRIC "k" DISABLED 1 TINK]) /\
  ~ valid_keyset (mk_keyset 1 []).
Proof.
  split; [| split; [| split]]; intro H; apply validate_keyset_ok in H; vm_compute in H; discriminate.
Qed.

(** * C14 *)
Theorem C14_generate_new : forall reg rnd raw draws t r,
  generate_new reg rnd (raw :: draws) t = Some r ->
  (forall h, r = Ok h <->
     exists km d, dict_get str_eqb (kt_type_url t) (r_key_managers reg) = Some (km, true) /\
       km_new_key_data km rnd t = Ok d /\ kt_output_prefix_type t <> UNKNOWN_PREFIX /\
       h = mk_handle (single_key_keyset d (1 + raw mod 2147483647) (kt_output_prefix_type t))).
Proof. exact generate_new_result. Qed.
Print Assumptions C14_generate_new.
Theorem C14_generate_new_terminates : forall reg rnd raw draws t,
  generate_new reg rnd (raw :: draws) t <> None.
Proof. exact generate_new_terminates. Qed.
Print Assumptions C14_generate_new_terminates.
Theorem C14_generate_new_error : forall reg rnd draws t e,
  generate_new reg rnd draws t = Some (Err e) ->
  (forall km b, dict_get str_eqb (kt_type_url t) (r_key_managers reg) = Some (km, b) ->
     tink_total (km_new_key_data km rnd t)) ->
  is_tink_error e = true.
Proof. exact generate_new_err. Qed.
Print Assumptions C14_generate_new_error.

Example C14_hypotheses_met :
  generate_new toy_registry 0%N [4294967295%N] (mk_key_template u_aead (blit "fmt") CRUNCHY) =
  Some (Ok (mk_handle (mk_keyset 2
    [mk_key (Some (mk_key_data u_aead (blit "fmt" ++ [x00]) SYMMETRIC)) ENABLED 2 CRUNCHY]))) /\
  exists e, generate_new toy_registry 0%N [5%N] (mk_key_template (ulit "none") [] CRUNCHY) =
    Some (Err e) /\ is_tink_error e = true.
Proof. split; [vmr |]. eexists. split; vmr. Qed.

(** * C15 C16 *)
Theorem C15_encrypted_binary_round_trip : forall h a rnd ad st st',
  valid_keyset (kh_keyset h) ->
  (forall pt ct, aead_encrypt a rnd pt ad = Ok ct -> ct <> []) ->
  write_with_associated_data h binary_keyset_writer a rnd ad st = (Ok tt, st') ->
  exists x, st' = st ++ x /\
    (proto_size x -> read_with_associated_data (binary_keyset_reader x) a ad = Ok h).
Proof. exact encrypted_binary_round_trip. Qed.
Print Assumptions C15_encrypted_binary_round_trip.
Theorem C16_write_encrypted : forall S h (w : keyset_writer S) a rnd ad st,
  (exists ct pt info, aead_encrypt a rnd (serialize_keyset (kh_keyset h)) ad = Ok ct /\
     aead_decrypt a ct ad = Ok pt /\ parse_keyset pt = Some (kh_keyset h) /\
     describes (kh_keyset h) info /\
     write_with_associated_data h w a rnd ad st =
       kw_write_encrypted w (mk_encrypted_keyset ct (Some info)) st) \/
  ((forall ct pt, aead_encrypt a rnd (serialize_keyset (kh_keyset h)) ad = Ok ct ->
      aead_decrypt a ct ad = Ok pt -> parse_keyset pt <> Some (kh_keyset h)) /\
   exists e, write_with_associated_data h w a rnd ad st = (Err e, st) /\
     (tink_total (aead_encrypt a rnd (serialize_keyset (kh_keyset h)) ad) ->
      (forall ct, tink_total (aead_decrypt a ct ad)) -> is_tink_error e = true)).
Proof. exact write_encrypted_spec. Qed.
Print Assumptions C16_write_encrypted.
Theorem C16_read_encrypted : forall r a ad h,
  read_with_associated_data r a ad = Ok h <->
  exists ek pt ks, kr_read_encrypted r = Ok ek /\ ek_encrypted_keyset ek <> [] /\
    aead_decrypt a (ek_encrypted_keyset ek) ad = Ok pt /\ parse_keyset pt = Some ks /\
    valid_keyset ks /\ h = mk_handle ks.
Proof. exact read_with_associated_data_ok. Qed.
Print Assumptions C16_read_encrypted.
Theorem C16_read_encrypted_error : forall r a ad e,
  read_with_associated_data r a ad = Err e ->
  tink_total (kr_read_encrypted r) ->
  (forall ct, tink_total (aead_decrypt a ct ad)) -> is_tink_error e = true.
Proof. exact read_with_associated_data_err. Qed.
Print Assumptions C16_read_encrypted_error.

Definition toy_master : aead := toy_aead (blit "master").
Example C15_hypotheses_met :
  let h := toy_handle u_aead SYMMETRIC in
  valid_keyset (kh_keyset h) /\
  (forall pt ct, aead_encrypt toy_master 0%N pt (blit "ad") = Ok ct -> ct <> []) /\
  exists x, write_with_associated_data h binary_keyset_writer toy_master 0%N (blit "ad") [] = (Ok tt, x) /\
    proto_size x /\
    read_with_associated_data (binary_keyset_reader x) toy_master (blit "ad") = Ok h /\
    raises_tink (read_with_associated_data (binary_keyset_reader x) toy_master (blit "da")).
Proof.
  cbv zeta. split; [apply validate_keyset_ok; vmr |]. split.
  { intros pt ct E. apply ok_inj in E. subst ct. discriminate. }
  eexists. split; [vmr |]. split; [unfold proto_size; vmr |]. split; [vmr | toy_raises].
Qed.

(** A key-encryption primitive whose ciphertexts do not decrypt back is refused
    and nothing is written. *)
Example C16_refusal_met :
  let bad := mk_aead (fun _ pt _ => Ok pt) (fun _ _ => Ok [x08; x01]) in
  exists e, write_with_associated_data (toy_handle u_aead SYMMETRIC) binary_keyset_writer bad 0%N []
    (blit "before") = (Err e, blit "before") /\ is_tink_error e = true.
Proof. cbv zeta. eexists. split; vmr. Qed.

(** * C17 *)
Theorem C17_write_no_secret : forall S h (w : keyset_writer S) st,
  (has_secret (kh_keyset h) -> exists e, write_no_secret h w st = (Err e, st) /\ is_tink_error e = true) /\
  (~ has_secret (kh_keyset h) -> write_no_secret h w st = kw_write w (kh_keyset h) st).
Proof. exact write_no_secret_spec. Qed.
Print Assumptions C17_write_no_secret.
Theorem C17_read_no_secret : forall r h,
  read_no_secret r = Ok h <->
  exists ks, kr_read r = Ok ks /\ ~ has_secret ks /\ valid_keyset ks /\ h = mk_handle ks.
Proof. exact read_no_secret_spec. Qed.
Print Assumptions C17_read_no_secret.
Theorem C17_read_no_secret_error : forall r e, read_no_secret r = Err e -> tink_total (kr_read r) ->
  is_tink_error e = true.
Proof. exact read_no_secret_err. Qed.
Print Assumptions C17_read_no_secret_error.
Theorem C17_serialize_without_secret : forall h,
  (has_secret (kh_keyset h) -> raises_tink (proto_serialize_without_secret h)) /\
  (~ has_secret (kh_keyset h) ->
   proto_serialize_without_secret h = Ok (serialize_keyset (kh_keyset h))).
Proof. exact proto_serialize_without_secret_spec. Qed.
Print Assumptions C17_serialize_without_secret.
Theorem C17_parse_without_secret : forall x h,
  proto_parse_without_secret x = Ok h <->
  x <> [] /\ exists ks, parse_keyset x = Some ks /\ ~ has_secret ks /\ valid_keyset ks /\
    h = mk_handle ks.
Proof. exact proto_parse_without_secret_spec. Qed.
Print Assumptions C17_parse_without_secret.
Theorem C17_no_secret_round_trip : forall h, valid_keyset (kh_keyset h) -> wf_keyset (kh_keyset h) ->
  ~ has_secret (kh_keyset h) -> proto_size (serialize_keyset (kh_keyset h)) ->
  exists x, proto_serialize_without_secret h = Ok x /\ proto_parse_without_secret x = Ok h.
Proof. exact no_secret_binary_round_trip. Qed.
Print Assumptions C17_no_secret_round_trip.

Lemma toy_wf : forall url m, valid_text url -> int32_range m -> wf_keyset (toy_keyset url m).
Proof.
  intros url m Hu Hm. split; [vmr |].
  assert (Hi : forall n, int32_range n -> True) by auto.
  intros k [<- | [<- | [<- | [<- | []]]]];
    (split; [intros d E; apply some_inj in E; subst d; split; assumption |]);
    repeat split; try (vm_compute; congruence).
Qed.
Lemma ascii_text : forall s, forallb (fun c => N.ltb c 128) s = true -> valid_text s.
Proof.
  intros s H c Hc. rewrite forallb_forall in H. specialize (H c Hc). apply N.ltb_lt in H. lia.
Qed.

Example C17_hypotheses_met :
  let h := toy_handle u_verify ASYMMETRIC_PUBLIC in
  valid_keyset (kh_keyset h) /\ wf_keyset (kh_keyset h) /\ ~ has_secret (kh_keyset h) /\
  proto_size (serialize_keyset (kh_keyset h)) /\
  (exists x, proto_serialize_without_secret h = Ok x /\ proto_parse_without_secret x = Ok h) /\
  has_secret (kh_keyset (toy_handle u_aead SYMMETRIC)) /\
  raises_tink (proto_serialize_without_secret (toy_handle u_aead SYMMETRIC)).
Proof.
  cbv zeta. split; [apply validate_keyset_ok; vmr |].
  split; [apply toy_wf; [apply ascii_text; vmr | vm_compute; split; congruence] |].
  split.
  { intros (k & Hk & Hs). cbn in Hk.
    destruct Hk as [<- | [<- | [<- | [<- | []]]]]; destruct Hs as [E | [E | E]]; discriminate. }
  split; [unfold proto_size; vmr |].
  split; [exists (serialize_keyset (toy_keyset u_verify ASYMMETRIC_PUBLIC)); split; vmr |].
  split; [| toy_raises].
  exists (toy_primary u_aead SYMMETRIC). split; [left; vmr | right; left; vmr].
Qed.

(** * C18 *)
Theorem C18_keyset_info_exact : forall h, describes (kh_keyset h) (handle_keyset_info h).
Proof. exact keyset_info_exact. Qed.
Print Assumptions C18_keyset_info_exact.
Theorem C18_keyset_info_no_key_material : forall h1 h2,
  same_public_view (kh_keyset h1) (kh_keyset h2) ->
  handle_keyset_info h1 = handle_keyset_info h2.
Proof. exact keyset_info_no_key_material. Qed.
Print Assumptions C18_keyset_info_no_key_material.
Theorem C18_encrypted_output_no_key_material : forall h1 h2 a1 a2 rnd1 rnd2 ad1 ad2 ct,
  aead_encrypt a1 rnd1 (serialize_keyset (kh_keyset h1)) ad1 = Ok ct ->
  aead_encrypt a2 rnd2 (serialize_keyset (kh_keyset h2)) ad2 = Ok ct ->
  forall st st1 st2,
  write_with_associated_data h1 binary_keyset_writer a1 rnd1 ad1 st = (Ok tt, st1) ->
  write_with_associated_data h2 binary_keyset_writer a2 rnd2 ad2 st = (Ok tt, st2) ->
  st1 = st2.
Proof. exact encrypted_output_no_key_material. Qed.
Print Assumptions C18_encrypted_output_no_key_material.

Example C18_hypotheses_met :
  let k v := toy_key u_aead SYMMETRIC v ENABLED 1 TINK in
  same_public_view (mk_keyset 1 [k "secret1"%string]) (mk_keyset 1 [k "other"%string]) /\
  mk_keyset 1 [k "secret1"%string] <> mk_keyset 1 [k "other"%string].
Proof.
  cbv zeta. split; [| discriminate]. split; [reflexivity |]. constructor; [| constructor].
  repeat split.
Qed.

(** * C19 *)
Theorem C19_token_required : forall t, t <> SecretKeyAccessToken ->
  (forall ks, raises_tink (from_proto_keyset ks t)) /\
  (forall h, raises_tink (to_proto_keyset h t)) /\
  (forall x, raises_tink (proto_parse x t)) /\
  (forall h, raises_tink (proto_serialize h t)).
Proof. exact token_required. Qed.
Print Assumptions C19_token_required.
Theorem C19_refusal_independent_of_keyset : forall t, t <> SecretKeyAccessToken ->
  (forall ks1 ks2, from_proto_keyset ks1 t = from_proto_keyset ks2 t) /\
  (forall h1 h2, to_proto_keyset h1 t = to_proto_keyset h2 t) /\
  (forall h1 h2, proto_serialize h1 t = proto_serialize h2 t).
Proof. exact token_refusal_uniform. Qed.
Print Assumptions C19_refusal_independent_of_keyset.
Theorem C19_token_accepted : (forall ks, from_proto_keyset ks SecretKeyAccessToken = create ks) /\
  (forall h, to_proto_keyset h SecretKeyAccessToken = Ok (kh_keyset h)) /\
  (forall h, valid_keyset (kh_keyset h) -> wf_keyset (kh_keyset h) ->
     proto_size (serialize_keyset (kh_keyset h)) ->
     exists x, proto_serialize h SecretKeyAccessToken = Ok x /\
               proto_parse x SecretKeyAccessToken = Ok h).
Proof. exact token_accepted. Qed.
Print Assumptions C19_token_accepted.

Example C19_hypotheses_met :
  OtherKeyAccess 3 <> SecretKeyAccessToken /\
  let h := toy_handle u_aead SYMMETRIC in
  valid_keyset (kh_keyset h) /\ wf_keyset (kh_keyset h) /\
  proto_size (serialize_keyset (kh_keyset h)).
Proof.
  split; [discriminate |]. cbv zeta. split; [apply validate_keyset_ok; vmr |].
  split; [apply toy_wf; [apply ascii_text; vmr | vm_compute; split; congruence] |].
  unfold proto_size; vmr.
Qed.

(** * C20 *)
Theorem C20_public_handle : forall reg h ph,
  public_keyset_handle reg h = Ok ph <->
  ks_primary_key_id (kh_keyset ph) = ks_primary_key_id (kh_keyset h) /\
  Forall2 (public_counterpart reg) (ks_key (kh_keyset h)) (ks_key (kh_keyset ph)) /\
  (forall k, In k (ks_key (kh_keyset h)) ->
     k_output_prefix_type k <> UNKNOWN_PREFIX /\ k_status k <> UNKNOWN_STATUS) /\
  valid_keyset (kh_keyset ph).
Proof. exact public_keyset_handle_ok. Qed.
Print Assumptions C20_public_handle.
Theorem C20_public_handle_error : forall reg h e,
  public_keyset_handle reg h = Err e ->
  (forall k km b f, In k (ks_key (kh_keyset h)) ->
     dict_get str_eqb (kd_type_url (k_key_data k)) (r_key_managers reg) = Some (km, b) ->
     km_public_key_data km = Some f -> tink_total (f (k_key_data k))) ->
  is_tink_error e = true.
Proof. exact public_keyset_handle_err. Qed.
Print Assumptions C20_public_handle_error.
Theorem C20_no_public_counterpart : forall reg h k,
  In k (ks_key (kh_keyset h)) -> (forall d, ~ public_data_of reg k d) ->
  forall ph, public_keyset_handle reg h <> Ok ph.
Proof. exact public_keyset_handle_refuses. Qed.
Print Assumptions C20_no_public_counterpart.

Example C20_hypotheses_met :
  public_keyset_handle toy_registry sign_handle =
    Ok (mk_handle (toy_keyset u_verify ASYMMETRIC_PUBLIC)) /\
  raises_tink (public_keyset_handle toy_registry (toy_handle u_aead SYMMETRIC)).
Proof. split; [vmr | toy_raises]. Qed.

(** * C21 *)
Theorem C21_keyset_round_trip : forall ks, wf_keyset ks -> proto_size (serialize_keyset ks) ->
  parse_keyset (serialize_keyset ks) = Some ks.
Proof. exact keyset_round_trip. Qed.
Print Assumptions C21_keyset_round_trip.
Theorem C21_encrypted_keyset_round_trip : forall e, wf_encrypted_keyset e ->
  proto_size (serialize_encrypted_keyset e) ->
  parse_encrypted_keyset (serialize_encrypted_keyset e) = Some e.
Proof. exact encrypted_keyset_round_trip. Qed.
Print Assumptions C21_encrypted_keyset_round_trip.
Theorem C21_key_data_round_trip : forall d, wf_key_data d -> proto_size (serialize_key_data d) ->
  parse_key_data (serialize_key_data d) = Some d.
Proof. exact key_data_round_trip. Qed.
Print Assumptions C21_key_data_round_trip.
Theorem C21_key_template_round_trip : forall t, wf_key_template t -> proto_size (serialize_key_template t) ->
  parse_key_template (serialize_key_template t) = Some t.
Proof. exact key_template_round_trip. Qed.
Print Assumptions C21_key_template_round_trip.
Theorem C21_parsed_keysets_are_representable : forall x ks, parse_keyset x = Some ks -> wf_keyset ks.
Proof. exact parse_keyset_wf. Qed.
Print Assumptions C21_parsed_keysets_are_representable.
Theorem C21_parsed_encrypted_keysets_are_representable : forall x e, parse_encrypted_keyset x = Some e ->
  wf_encrypted_keyset e.
Proof. exact parse_encrypted_keyset_wf. Qed.
Print Assumptions C21_parsed_encrypted_keysets_are_representable.
Theorem C21_serialize_injective : forall a b, wf_keyset a -> wf_keyset b ->
  proto_size (serialize_keyset a) -> serialize_keyset a = serialize_keyset b -> a = b.
Proof. exact serialize_keyset_inj. Qed.
Print Assumptions C21_serialize_injective.

(** Extreme values: unknown enum numbers, the largest id, absent key data and an
    empty key data. *)
Example C21_hypotheses_met :
  let ks := mk_keyset 4294967295
    [mk_key None (-1) 0 2147483647; mk_key (Some (mk_key_data [] [] 0)) 77 4294967295 (-2147483648);
     mk_key (Some (mk_key_data [233; 8364; 128512]%N [x00; xff] 2)) 1 128 3] in
  wf_keyset ks /\ proto_size (serialize_keyset ks) /\ parse_keyset (serialize_keyset ks) = Some ks /\
  parse_keyset [x08] = None.
Proof.
  cbv zeta. split.
  { split; [vmr |]. intros k [<- | [<- | [<- | []]]]; cbn [k_key_data_opt];
      (split; [intros d E; try discriminate E; apply some_inj in E; subst d |]);
      repeat split; try (vm_compute; congruence).
    - intros c [].
    - intros c [<- | [<- | [<- | []]]]; lia. }
  split; [unfold proto_size; vmr |]. split; vmr.
Qed.

(** * C22 *)
Theorem C22_binary_reader_total : forall x,
  tink_total (kr_read (binary_keyset_reader x)) /\
  tink_total (kr_read_encrypted (binary_keyset_reader x)).
Proof. exact binary_reader_total. Qed.
Print Assumptions C22_binary_reader_total.
Theorem C22_binary_parsers_total : forall x,
  (forall t, tink_total (proto_parse x t)) /\
  tink_total (proto_parse_without_secret x) /\
  tink_total (cleartext_read (binary_keyset_reader x)) /\
  (forall a ad, (forall ct, tink_total (aead_decrypt a ct ad)) -> tink_total (proto_parse_encrypted x a ad)).
Proof. exact binary_parsers_total. Qed.
Print Assumptions C22_binary_parsers_total.

Example C22_garbage :
  raises_tink (proto_parse_without_secret [xff; xff]) /\
  raises_tink (proto_parse_without_secret []) /\
  raises_tink (proto_parse_encrypted [x12; x01; x41] toy_master []).
Proof. repeat split; toy_raises. Qed.
