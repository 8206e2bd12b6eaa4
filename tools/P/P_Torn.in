(** C60: keyset files that were not written completely, or were written twice. *)
From Coq Require Import Strings.Byte Strings.String List NArith ZArith Bool Lia.
From Verif Require Import M_Base L_Base M_Proto M_Wire M_Prims M_PrimitiveSet M_Registry M_KeysetHandle M_KeysetIO
  M_JwtTypes M_Json S_Json S_Wire S_Keyset S_Handle M_JsonKeyset S_JsonKeyset L_Keyset L_Handle
  M_KeysetStream S_Torn L_Torn L_Torn2 X_Toy L_Toy X_Rt P_Keyset P_JsonKeyset.
Import ListNotations.
Open Scope string_scope.
Open Scope list_scope.

(** * C60 *)
@thm C60_encrypted_binary_file encrypted_binary_file
@thm C60_cleartext_binary_file cleartext_binary_file
@thm C60_json_file json_file
@thm C60_encrypted_json_file encrypted_json_file
@thm C60_binary_written_twice binary_written_twice
@thm C60_encrypted_binary_written_twice encrypted_binary_written_twice
@thm C60_json_written_twice json_written_twice
@thm C60_memory_stream memory_writers

(** A disk with room for n elements: stores what fits and raises when that is not all. *)
Definition small_disk {A} (n : nat) : out_stream A (list A) :=
  mk_out_stream
    (fun data st => ((if (length data <=? n - length st)%nat then Ok tt else Err (OtherError 28)),
                     st ++ firstn (n - length st) data))
    (fun st => (Ok tt, st)).
Lemma small_disk_prefixes : forall A n, stores_prefixes (@small_disk A n) (fun st => st).
Proof.
  intros A n. split; [| reflexivity]. intros data st. exists (firstn (n - length st) data). split; [| reflexivity].
  exists (skipn (n - length st) data). symmetry. apply firstn_skipn.
Qed.

(** Two keys; the primary key comes first. *)
Definition pair_keyset : keyset :=
  mk_keyset 7 [toy_key u_aead SYMMETRIC "ka" ENABLED 7 TINK; toy_key u_aead SYMMETRIC "kb" ENABLED 8 TINK].
Definition second_keyset : keyset := mk_keyset 9 [toy_key u_aead SYMMETRIC "kc" ENABLED 9 RAW].
Definition pair_handle : keyset_handle := mk_handle pair_keyset.
Lemma pair_wf : wf_keyset pair_keyset.
Proof.
  split; [vmr |]. intros k [<- | [<- | []]];
    (split; [intros d E; apply some_inj in E; subst d |]); repeat split; try (vm_compute; congruence);
    intros c Hc; cbn [kd_type_url] in Hc; apply N.ltb_lt || idtac; left;
    revert c Hc; apply Forall_forall; repeat constructor.
Qed.

(** The hypotheses are met by a disk that is too small, for every size. *)
Definition accepted {A} (r : result A) : bool := match r with Ok _ => true | Err _ => false end.
Definition stored {A} (n : nat) (w : out_stream A (list A) -> result unit * list A) : list A := snd (w (small_disk n)).
Definition sizes (n : nat) : list nat := seq 0 n.
Example C60_hypotheses_met :
  wf_keyset pair_keyset /\ proto_size (serialize_keyset pair_keyset) /\ valid_keyset pair_keyset /\
  python_digit_limit toy_rt /\
  (forall x, proto_serialize_encrypted pair_handle toy_master 0%N (blit "ad") = Ok x -> proto_size x) /\
  (* an encrypted file is read only when it is complete *)
  map (fun n => accepted (read_with_associated_data (binary_keyset_reader
         (stored n (fun io => write_with_associated_data pair_handle (binary_keyset_writer_on io) toy_master 0%N (blit "ad") [])))
         toy_master (blit "ad"))) [0; 1; 40; 200]%nat = [false; false; false; true] /\
  (* and so is a JSON file *)
  map (fun n => accepted (cleartext_read (json_keyset_reader toy_rt new_pb
         (stored n (fun io => kw_write (json_keyset_writer_on toy_rt io) second_keyset [])))))
    [0; 2; 100; 1000]%nat = [false; false; false; true].
Proof.
  split; [exact pair_wf |]. split; [unfold proto_size; vmr |].
  split; [apply (create_ok pair_keyset pair_handle); vmr |]. split; [exact toy_limit |].
  split; [| split; vmr]. intros x E. assert (T : match proto_serialize_encrypted pair_handle toy_master 0%N (blit "ad") with
    Ok y => (N.of_nat (length y) <? 2 ^ 31)%N | Err _ => true end = true) by vmr.
  rewrite E in T. apply N.ltb_lt. exact T.
Qed.

(** One might expect of a cleartext binary file, too, that it is read back completely or
    not at all. It is not so: a file that ends between two keys is accepted, and the
    handle lacks the second key. *)
Theorem C60_cleartext_binary_refuted :
  ~ (forall St (io : out_stream byte St) content h st h',
       stores_prefixes io content -> content st = [] -> valid_keyset (kh_keyset h) ->
       cleartext_read (binary_keyset_reader (content (snd (cleartext_write (binary_keyset_writer_on io) h st)))) = Ok h' ->
       h' = h).
Proof.
  intros H.
  set (n := length (serialize_keyset (mk_keyset 7 [toy_key u_aead SYMMETRIC "ka" ENABLED 7 TINK]))).
  specialize (H _ (small_disk n) (fun st => st) pair_handle []
    (mk_handle (mk_keyset 7 [toy_key u_aead SYMMETRIC "ka" ENABLED 7 TINK])) (small_disk_prefixes _ n) eq_refl).
  assert (V : valid_keyset (kh_keyset pair_handle)) by (apply (create_ok pair_keyset pair_handle); vmr).
  specialize (H V). discriminate H. vmr.
Qed.
Print Assumptions C60_cleartext_binary_refuted.

(** A second keyset written behind the first one: both keysets' keys, second primary. *)
Example C60_written_twice_hypotheses_met :
  let st := snd (cleartext_write binary_keyset_writer (mk_handle second_keyset)
                   (snd (cleartext_write binary_keyset_writer pair_handle []))) in
  cleartext_read (binary_keyset_reader st) =
    Ok (mk_handle (mk_keyset 9 (ks_key pair_keyset ++ ks_key second_keyset))).
Proof. vmr. Qed.
