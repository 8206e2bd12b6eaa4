(** C60: keyset files that were not written completely, or were written twice. *)
From Coq Require Import Strings.Byte Strings.String List NArith ZArith Bool Lia.
From Verif Require Import M_Base L_Base M_Proto M_Wire M_Prims M_PrimitiveSet M_Registry M_KeysetHandle M_KeysetIO
  M_JwtTypes M_Json S_Json S_Wire S_Keyset S_Handle M_JsonKeyset S_JsonKeyset L_Keyset L_Handle
  M_KeysetStream S_Torn L_Torn L_Torn2 X_Toy L_Toy X_Rt P_Keyset P_JsonKeyset.
Import ListNotations.
Open Scope string_scope.
Open Scope list_scope.

(** * C60 *)
Theorem C60_encrypted_binary_file : forall St (io : out_stream byte St) content h a rnd ad st,
  stores_prefixes io content -> content st = [] ->
  (forall x, proto_serialize_encrypted h a rnd ad = Ok x -> proto_size x) ->
  let x := content (snd (write_with_associated_data h (binary_keyset_writer_on io) a rnd ad st)) in
  proto_serialize_encrypted h a rnd ad = Ok x \/
  forall a' ad', raises_tink (read_with_associated_data (binary_keyset_reader x) a' ad').
Proof. exact encrypted_binary_file. Qed.
Print Assumptions C60_encrypted_binary_file.
Theorem C60_cleartext_binary_file : forall St (io : out_stream byte St) content h st,
  stores_prefixes io content -> content st = [] ->
  wf_keyset (kh_keyset h) -> proto_size (serialize_keyset (kh_keyset h)) ->
  match cleartext_read (binary_keyset_reader (content (snd (cleartext_write (binary_keyset_writer_on io) h st)))) with
  | Ok h' => valid_keyset (kh_keyset h') /\ ks_primary_key_id (kh_keyset h') = ks_primary_key_id (kh_keyset h) /\
             exists rest, ks_key (kh_keyset h) = ks_key (kh_keyset h') ++ rest
  | Err e => is_tink_error e = true
  end.
Proof. exact cleartext_binary_file. Qed.
Print Assumptions C60_cleartext_binary_file.
Theorem C60_json_file : forall rt pb St (io : out_stream N St) content ks st, python_digit_limit rt ->
  stores_prefixes io content -> content st = [] -> wf_keyset ks ->
  let x := content (snd (kw_write (json_keyset_writer_on rt io) ks st)) in
  kw_write (json_keyset_writer rt) ks [] = (Ok tt, x) \/
  ((forall t, raises_tink (json_proto_parse rt pb x t)) /\
   raises_tink (json_proto_parse_without_secret rt pb x) /\
   raises_tink (cleartext_read (json_keyset_reader rt pb x)) /\
   (forall a ad, raises_tink (json_proto_parse_encrypted rt pb x a ad))).
Proof. exact json_file. Qed.
Print Assumptions C60_json_file.
Theorem C60_encrypted_json_file : forall rt pb St (io : out_stream N St) content h a rnd ad st, python_digit_limit rt ->
  stores_prefixes io content -> content st = [] ->
  let x := content (snd (write_with_associated_data h (json_keyset_writer_on rt io) a rnd ad st)) in
  json_proto_serialize_encrypted rt h a rnd ad = Ok x \/
  ((forall t, raises_tink (json_proto_parse rt pb x t)) /\
   raises_tink (json_proto_parse_without_secret rt pb x) /\
   raises_tink (cleartext_read (json_keyset_reader rt pb x)) /\
   (forall a' ad', raises_tink (json_proto_parse_encrypted rt pb x a' ad'))).
Proof. exact encrypted_json_file. Qed.
Print Assumptions C60_encrypted_json_file.
Theorem C60_binary_written_twice : forall h1 h2 st1 st2,
  wf_keyset (kh_keyset h1) -> wf_keyset (kh_keyset h2) -> proto_size st2 ->
  cleartext_write binary_keyset_writer h1 [] = (Ok tt, st1) ->
  cleartext_write binary_keyset_writer h2 st1 = (Ok tt, st2) -> st2 <> [] ->
  let both := mk_keyset (if N.eqb (ks_primary_key_id (kh_keyset h2)) 0 then ks_primary_key_id (kh_keyset h1)
                         else ks_primary_key_id (kh_keyset h2))
                (ks_key (kh_keyset h1) ++ ks_key (kh_keyset h2)) in
  (valid_keyset both -> cleartext_read (binary_keyset_reader st2) = Ok (mk_handle both)) /\
  (~ valid_keyset both -> raises_tink (cleartext_read (binary_keyset_reader st2))).
Proof. exact binary_written_twice. Qed.
Print Assumptions C60_binary_written_twice.
Theorem C60_encrypted_binary_written_twice : forall h1 a1 rnd1 ad1 h2 a2 rnd2 ad2 st1 st2,
  (forall pt ct, aead_encrypt a2 rnd2 pt ad2 = Ok ct -> ct <> []) ->
  write_with_associated_data h1 binary_keyset_writer a1 rnd1 ad1 [] = (Ok tt, st1) ->
  write_with_associated_data h2 binary_keyset_writer a2 rnd2 ad2 st1 = (Ok tt, st2) ->
  proto_size st2 ->
  exists x2, proto_serialize_encrypted h2 a2 rnd2 ad2 = Ok x2 /\
  forall a ad, read_with_associated_data (binary_keyset_reader st2) a ad = proto_parse_encrypted x2 a ad.
Proof. exact encrypted_binary_written_twice. Qed.
Print Assumptions C60_encrypted_binary_written_twice.
Theorem C60_json_written_twice : forall rt pb ks1 ks2 st1 st2, python_digit_limit rt -> wf_keyset ks1 -> wf_keyset ks2 ->
  kw_write (json_keyset_writer rt) ks1 [] = (Ok tt, st1) ->
  kw_write (json_keyset_writer rt) ks2 st1 = (Ok tt, st2) ->
  (forall t, raises_tink (json_proto_parse rt pb st2 t)) /\
  raises_tink (json_proto_parse_without_secret rt pb st2) /\
  raises_tink (cleartext_read (json_keyset_reader rt pb st2)) /\
  (forall a ad, raises_tink (json_proto_parse_encrypted rt pb st2 a ad)).
Proof. exact json_written_twice. Qed.
Print Assumptions C60_json_written_twice.
Theorem C60_memory_stream : forall rt ks ek (x : bytes) (s : pystr),
  kw_write binary_keyset_writer ks x = kw_write (binary_keyset_writer_on memory_stream) ks x /\
  kw_write_encrypted binary_keyset_writer ek x = kw_write_encrypted (binary_keyset_writer_on memory_stream) ek x /\
  kw_write (json_keyset_writer rt) ks s = kw_write (json_keyset_writer_on rt memory_stream) ks s /\
  kw_write_encrypted (json_keyset_writer rt) ek s = kw_write_encrypted (json_keyset_writer_on rt memory_stream) ek s.
Proof. exact memory_writers. Qed.
Print Assumptions C60_memory_stream.

(** A disk with room for n elements: stores what fits and raises when that is not all. *)
Definition small_disk {A} (n : nat) : out_stream A (list A) :=
  mk_out_stream
    (fun data st => ((if (length data <=? n - length st)%nat then Ok tt else Err (OtherError 28)),
                     st ++ firstn (n - length st) data))
    (fun st => (Ok tt, st)).
Lemma small_disk_prefixes : forall A n, stores_prefixes (@small_disk A n) (fun st => st).
Proof.
  intros A n. split; [| reflexivity]. intros data st. exists (firstn (n - length st) data). split; [| reflexivity].
  exists (skipn (n - length st) data). symmetry. apply firstn_skipn.
Qed.

(** Two keys; the primary key comes first. *)
Definition pair_keyset : keyset :=
  mk_keyset 7 [toy_key u_aead SYMMETRIC "ka" ENABLED 7 TINK; toy_key u_aead SYMMETRIC "kb" ENABLED 8 TINK].
Definition second_keyset : keyset := mk_keyset 9 [toy_key u_aead SYMMETRIC "kc" ENABLED 9 RAW].
Definition pair_handle : keyset_handle := mk_handle pair_keyset.
Lemma pair_wf : wf_keyset pair_keyset.
Proof.
  split; [vmr |]. intros k [<- | [<- | []]];
    (split; [intros d E; apply some_inj in E; subst d |]); repeat split; try (vm_compute; congruence);
    intros c Hc; cbn [kd_type_url] in Hc; apply N.ltb_lt || idtac; left;
    revert c Hc; apply Forall_forall; repeat constructor.
Qed.

(** The hypotheses are met by a disk that is too small, for every size. *)
Definition accepted {A} (r : result A) : bool := match r with Ok _ => true | Err _ => false end.
Definition stored {A} (n : nat) (w : out_stream A (list A) -> result unit * list A) : list A := snd (w (small_disk n)).
Definition sizes (n : nat) : list nat := seq 0 n.
Example C60_hypotheses_met :
  wf_keyset pair_keyset /\ proto_size (serialize_keyset pair_keyset) /\ valid_keyset pair_keyset /\
  python_digit_limit toy_rt /\
  (forall x, proto_serialize_encrypted pair_handle toy_master 0%N (blit "ad") = Ok x -> proto_size x) /\
  (* an encrypted file is read only when it is complete *)
  map (fun n => accepted (read_with_associated_data (binary_keyset_reader
         (stored n (fun io => write_with_associated_data pair_handle (binary_keyset_writer_on io) toy_master 0%N (blit "ad") [])))
         toy_master (blit "ad"))) [0; 1; 40; 200]%nat = [false; false; false; true] /\
  (* and so is a JSON file *)
  map (fun n => accepted (cleartext_read (json_keyset_reader toy_rt new_pb
         (stored n (fun io => kw_write (json_keyset_writer_on toy_rt io) second_keyset [])))))
    [0; 2; 100; 1000]%nat = [false; false; false; true].
Proof.
  split; [exact pair_wf |]. split; [unfold proto_size; vmr |].
  split; [apply (create_ok pair_keyset pair_handle); vmr |]. split; [exact toy_limit |].
  split; [| split; vmr]. intros x E. assert (T : match proto_serialize_encrypted pair_handle toy_master 0%N (blit "ad") with
    Ok y => (N.of_nat (length y) <? 2 ^ 31)%N | Err _ => true end = true) by vmr.
  rewrite E in T. apply N.ltb_lt. exact T.
Qed.

(** One might expect of a cleartext binary file, too, that it is read back completely or
    not at all. It is not so: a file that ends between two keys is accepted, and the
    handle lacks the second key. *)
Theorem C60_cleartext_binary_refuted :
  ~ (forall St (io : out_stream byte St) content h st h',
       stores_prefixes io content -> content st = [] -> valid_keyset (kh_keyset h) ->
       cleartext_read (binary_keyset_reader (content (snd (cleartext_write (binary_keyset_writer_on io) h st)))) = Ok h' ->
       h' = h).
Proof.
  intros H.
  set (n := length (serialize_keyset (mk_keyset 7 [toy_key u_aead SYMMETRIC "ka" ENABLED 7 TINK]))).
  specialize (H _ (small_disk n) (fun st => st) pair_handle []
    (mk_handle (mk_keyset 7 [toy_key u_aead SYMMETRIC "ka" ENABLED 7 TINK])) (small_disk_prefixes _ n) eq_refl).
  assert (V : valid_keyset (kh_keyset pair_handle)) by (apply (create_ok pair_keyset pair_handle); vmr).
  specialize (H V). discriminate H. vmr.
Qed.
Print Assumptions C60_cleartext_binary_refuted.

(** A second keyset written behind the first one: both keysets' keys, second primary. *)
Example C60_written_twice_hypotheses_met :
  let st := snd (cleartext_write binary_keyset_writer (mk_handle second_keyset)
                   (snd (cleartext_write binary_keyset_writer pair_handle []))) in
  cleartext_read (binary_keyset_reader st) =
    Ok (mk_handle (mk_keyset 9 (ks_key pair_keyset ++ ks_key second_keyset))).
Proof. vmr. Qed.
