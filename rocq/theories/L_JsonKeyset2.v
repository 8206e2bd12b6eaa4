(** The JSON form of keysets: what the writer writes, and the readers and writers of Tink. *)
From Coq Require Import Strings.Byte Strings.String List NArith ZArith Bool Lia.
From Verif Require Import M_Base L_Base M_Utf8 L_Utf8 M_Base64 S_Base64 L_Base64 M_Proto M_Prims
  M_PrimitiveSet M_Registry M_KeysetHandle M_KeysetIO M_JwtTypes M_Json S_Json L_Json L_Json2
  L_Json3 S_Wire S_Keyset S_Handle M_Wire L_Wire L_Keyset L_Handle M_JsonKeyset S_JsonKeyset L_JsonKeyset.
Import ListNotations.
Open Scope string_scope.
Open Scope list_scope.

(** ** The printed value is well formed *)

Definition good_json (rt : py_rt) (v : json) : Prop := no_repeated_names v /\ printable rt v.

Lemma ascii_valid : forall x, forallb (fun c => c <? 128)%N x = true -> valid_unicode x.
Proof.
  intros x H. rewrite forallb_forall in H. apply Forall_forall. intros c Hc. specialize (H c Hc).
  apply N.ltb_lt in H. lia.
Qed.
Lemma valid_text_unicode : forall x, valid_text x -> valid_unicode x.
Proof. intros x H. apply Forall_forall. intros c Hc. specialize (H c Hc). lia. Qed.

Lemma good_str : forall rt x, valid_unicode x -> good_json rt (JStr x).
Proof.
  intros rt x H. split; [intros l Hl; apply within_atom in Hl; [discriminate | exact I] |].
  repeat split.
  - intros f Hf. apply within_atom in Hf; [discriminate | exact I].
  - intros z Hz. apply within_atom in Hz; [discriminate | exact I].
  - intros y [Hy | (l & w & Hl & _)]; [apply within_atom in Hy; [congruence | exact I] |].
    apply within_atom in Hl; [discriminate | exact I].
Qed.
Lemma good_int : forall rt z, python_digit_limit rt -> (Z.abs z < 2 ^ 33)%Z -> good_json rt (JInt z).
Proof.
  intros rt z Hlim H. split; [intros l Hl; apply within_atom in Hl; [discriminate | exact I] |].
  repeat split.
  - intros f Hf. apply within_atom in Hf; [discriminate | exact I].
  - intros y Hy. apply within_atom in Hy; [| exact I]. injection Hy as ->.
    destruct Hlim as [E | E]; [left; exact E | right].
    apply Z.lt_le_trans with (2 ^ 33)%Z; [exact H |].
    apply Z.le_trans with (10 ^ 33)%Z; [vm_compute; discriminate |].
    apply Z.pow_le_mono_r; lia.
  - intros y [Hy | (l & w & Hl & _)]; [apply within_atom in Hy; [discriminate | exact I] |].
    apply within_atom in Hl; [discriminate | exact I].
Qed.
Lemma good_list : forall rt l, Forall (good_json rt) l -> good_json rt (JList l).
Proof.
  intros rt l H. rewrite Forall_forall in H. split.
  - intros d Hd. apply within_list in Hd. destruct Hd as [Hd | (i & Hi & Hd)]; [discriminate |].
    apply (H i Hi). exact Hd.
  - repeat split.
    + intros f Hd. apply within_list in Hd. destruct Hd as [Hd | (i & Hi & Hd)]; [discriminate |].
      destruct (H i Hi) as [_ (Hf & _)]. exact (Hf f Hd).
    + intros z Hd. apply within_list in Hd. destruct Hd as [Hd | (i & Hi & Hd)]; [discriminate |].
      apply (H i Hi). exact Hd.
    + intros x [Hd | (d & w & Hd & Hx)]; apply within_list in Hd;
        (destruct Hd as [Hd | (i & Hi & Hd)]; [discriminate |]); apply (H i Hi); [left; exact Hd |].
      right. eauto.
Qed.
Lemma good_dict : forall rt l, NoDup (map fst l) ->
  Forall (fun kv => valid_unicode (fst kv) /\ good_json rt (snd kv)) l -> good_json rt (JDict l).
Proof.
  intros rt l Hn H. rewrite Forall_forall in H. split.
  - intros d Hd. apply within_dict in Hd. destruct Hd as [Hd | (k & i & Hi & Hd)]; [injection Hd as ->; exact Hn |].
    destruct (H (k, i) Hi) as [_ G]. apply G. exact Hd.
  - repeat split.
    + intros f Hd. apply within_dict in Hd. destruct Hd as [Hd | (k & i & Hi & Hd)]; [discriminate |].
      destruct (H (k, i) Hi) as [_ [_ (Hf & _)]]. exact (Hf f Hd).
    + intros z Hd. apply within_dict in Hd. destruct Hd as [Hd | (k & i & Hi & Hd)]; [discriminate |].
      destruct (H (k, i) Hi) as [_ [_ (_ & Hf & _)]]. exact (Hf z Hd).
    + intros x [Hd | (d & w & Hd & Hx)]; apply within_dict in Hd.
      * destruct Hd as [Hd | (k & i & Hi & Hd)]; [discriminate |].
        destruct (H (k, i) Hi) as [_ [_ (_ & _ & Hf)]]. apply Hf. left. exact Hd.
      * destruct Hd as [Hd | (k & i & Hi & Hd)].
        { injection Hd as ->. exact (proj1 (H (x, w) Hx)). }
        destruct (H (k, i) Hi) as [_ [_ (_ & _ & Hf)]]. apply Hf. right. eauto.
Qed.

Lemma good_enum : forall rt t z, python_digit_limit rt -> int32_range z -> good_table t ->
  good_json rt (enum_json (names_of t) z).
Proof.
  intros rt t z Hl Hr Ht. unfold enum_json. pose proof (table_find t z Ht) as G.
  destruct (find _ (names_of t)) as [[x y] |].
  - destruct G as (s & -> & Hi). apply good_str. apply ascii_valid.
    destruct Ht as [-> | [-> | ->]]; cbn [In status_table prefix_table material_table] in Hi;
      repeat (destruct Hi as [Hi | Hi]; [injection Hi as <- _; reflexivity |]); destruct Hi.
  - apply good_int; [exact Hl |]. unfold int32_range in Hr.
    change (- 2 ^ 31)%Z with (-2147483648)%Z in Hr. change (2 ^ 31)%Z with 2147483648%Z in Hr.
    change (2 ^ 33)%Z with 8589934592%Z. lia.
Qed.
Lemma good_uint : forall rt n, python_digit_limit rt -> uint32_range n -> good_json rt (JInt (Z.of_N n)).
Proof.
  intros rt n Hl Hr. apply good_int; [exact Hl |]. unfold uint32_range in Hr.
  change (2 ^ 32)%N with 4294967296%N in Hr. change (2 ^ 33)%Z with 8589934592%Z. lia.
Qed.
Lemma good_bytes : forall rt x, good_json rt (bytes_json x).
Proof.
  intros rt x. apply good_str. destruct (b64encode_padded x) as (d & p & Hb & -> & Hp & _).
  apply Forall_forall. intros c Hc. apply in_map_iff in Hc. destruct Hc as (b & <- & Hi).
  assert (Byte.to_N b < 128)%N; [| lia]. apply in_app_or in Hi. destruct Hi as [Hi | Hi].
  - eapply (digits_ascii std_alphabet x d b); [left; reflexivity | exact Hb | exact Hi].
  - destruct Hp as [-> | [-> | ->]]; repeat (destruct Hi as [<- | Hi]; [reflexivity |]); destruct Hi.
Qed.

Lemma when_in : forall c name v kv, In kv (when c name v) <-> c = true /\ kv = (ulit name, v).
Proof.
  intros [] name v kv; cbn [when In]; split; intros H; try tauto.
  - destruct H as [<- | []]. auto.
  - destruct H as [_ ->]. auto.
  - destruct H. discriminate.
Qed.

Lemma nodup_when : forall c name v l, no_member l name -> NoDup (map fst l) ->
  NoDup (map fst (when c name v ++ l)).
Proof. intros [] name v l Hn H; cbn [when app map fst]; [constructor; assumption | exact H]. Qed.
Lemma no_member_when : forall c n v l name, ulit n <> ulit name -> no_member l name ->
  no_member (when c n v ++ l) name.
Proof.
  intros [] n v l name Hne H; cbn [when app]; [| exact H]. intros [Hi | Hi]; [contradiction | exact (H Hi)].
Qed.
Lemma no_member_nil : forall name, no_member [] name. Proof. intros name []. Qed.
Lemma forall_when : forall (P : pystr * json -> Prop) c name v l, (c = true -> P (ulit name, v)) ->
  Forall P l -> Forall P (when c name v ++ l).
Proof. intros P [] name v l Hp H; cbn [when app]; [constructor; auto | exact H]. Qed.
Lemma when_nil : forall c name v, when c name v = when c name v ++ [].
Proof. intros. rewrite app_nil_r. reflexivity. Qed.
Lemma only_when : forall c name v l names, In name names -> only_members l names ->
  only_members (when c name v ++ l) names.
Proof.
  intros [] name v l names Hn H; cbn [when app]; [| exact H]. intros x [<- | Hx]; [eauto | apply H; exact Hx].
Qed.
Lemma only_nil : forall names, only_members [] names. Proof. intros names x []. Qed.
Lemma has_when_here : forall name v l, has_member (when true name v ++ l) name v.
Proof. intros. left. reflexivity. Qed.
Lemma has_when_there : forall c n w name v l, has_member l name v -> has_member (when c n w ++ l) name v.
Proof. intros. apply in_or_app. right. assumption. Qed.

(** A sub-message as a conditional member. *)
Definition opt_when {M} (o : option M) (name : string) (f : M -> json) : list (pystr * json) :=
  match o with Some d => [(ulit name, f d)] | None => [] end.
Lemma opt_as_when : forall M (o : option M) name f, opt_when o name f =
  when (match o with Some _ => true | None => false end) name
       (match o with Some d => f d | None => JNull end).
Proof. intros M [d |] name f; reflexivity. Qed.

Ltac members_tac :=
  repeat first
    [ apply no_member_nil | apply no_member_when; [ulit_neq |] | apply nodup_when | apply only_nil
    | apply only_when; [cbn; tauto |] | apply NoDup_nil ].

Section ShowsField.
  Variables (c : bool) (n : string).

  Lemma shows_uint_when : forall rest k, no_member rest n ->
    shows_uint (when (negb (N.eqb k 0)) n (JInt (Z.of_N k)) ++ rest) n k.
  Proof.
    intros rest k Hr. unfold shows_uint. destruct (N.eqb_spec k 0) as [-> | Hk]; cbn [negb].
    - left. auto.
    - right. split; [exact Hk | apply has_when_here].
  Qed.
  Lemma shows_string_when : forall rest x, no_member rest n ->
    shows_string (when (nonempty x) n (JStr x) ++ rest) n x.
  Proof.
    intros rest [| a x] Hr; unfold shows_string; cbn [nonempty]; [left; auto | right].
    split; [discriminate | apply has_when_here].
  Qed.
  Lemma shows_bytes_when : forall rest x, no_member rest n ->
    shows_bytes padded_base64 (when (nonempty x) n (bytes_json x) ++ rest) n x.
  Proof.
    intros rest [| a x] Hr; unfold shows_bytes; cbn [nonempty]; [left; auto | right].
    split; [discriminate |]. eexists. split; [apply b64encode_padded | apply has_when_here].
  Qed.
  Lemma shows_enum_when : forall rest t z, good_table t -> no_member rest n ->
    shows_enum t (when (negb (z =? 0)%Z) n (enum_json (names_of t) z) ++ rest) n z.
  Proof.
    intros rest t z Ht Hr. unfold shows_enum. destruct (Z.eqb_spec z 0) as [-> | Hz]; cbn [negb].
    - left. auto.
    - right. unfold enum_json. pose proof (table_find t z Ht) as G.
      destruct (find _ (names_of t)) as [[x y] |].
      + destruct G as (s & -> & Hi). left. split; [exact Hz |]. exists s. split; [exact Hi | apply has_when_here].
      + right. split; [exact Hz |]. split; [exact G | apply has_when_here].
  Qed.
  Lemma shows_list_when : forall M (shows : json -> M -> Prop) f rest (l : list M),
    (forall m, In m l -> shows (f m) m) -> no_member rest n ->
    shows_list shows (when (nonempty l) n (JList (map f l)) ++ rest) n l.
  Proof.
    intros M shows f rest l Hf Hr. unfold shows_list. destruct l as [| m l]; cbn [nonempty]; [left; auto | right].
    split; [discriminate |]. eexists. split; [apply has_when_here |].
    revert Hf. generalize (m :: l). clear. intros l Hf. induction l as [| m l IH]; cbn [map]; constructor.
    - apply Hf. left. reflexivity.
    - apply IH. intros. apply Hf. right. assumption.
  Qed.
  Lemma shows_message_when : forall M (shows : json -> M -> Prop) f rest (o : option M),
    (forall m, o = Some m -> shows (f m) m) -> no_member rest n ->
    shows_message shows (opt_when o n f ++ rest) n o.
  Proof.
    intros M shows f rest [m |] Hf Hr; cbn [opt_when shows_message]; [| exact Hr].
    exists (f m). split; [left; reflexivity | auto].
  Qed.
End ShowsField.

Lemma has_there : forall (l1 l2 : members) name v, has_member l2 name v -> has_member (l1 ++ l2) name v.
Proof. intros. apply in_or_app. right. assumption. Qed.
Lemma no_there : forall (c : bool) m w l2 name, ulit m <> ulit name -> no_member l2 name ->
  no_member (when c m w ++ l2) name.
Proof. exact no_member_when. Qed.

(** A field shown by the rest of the members is shown by all of them. *)
Section Skip.
  Variables (bt : bytes -> pystr -> Prop) (c : bool) (m : string) (w : json) (rest : members) (n : string).
  Hypothesis Hne : ulit m <> ulit n.
  Lemma skip_no : no_member rest n -> no_member (when c m w ++ rest) n.
  Proof. apply no_member_when. exact Hne. Qed.
  Lemma skip_has : forall v, has_member rest n v -> has_member (when c m w ++ rest) n v.
  Proof. intros v. apply has_there. Qed.
  Lemma skip_uint : forall k, shows_uint rest n k -> shows_uint (when c m w ++ rest) n k.
  Proof. intros k [[? ?] | [? ?]]; [left | right]; auto using skip_no, skip_has. Qed.
  Lemma skip_string : forall k, shows_string rest n k -> shows_string (when c m w ++ rest) n k.
  Proof. intros k [[? ?] | [? ?]]; [left | right]; auto using skip_no, skip_has. Qed.
  Lemma skip_bytes : forall k, shows_bytes bt rest n k -> shows_bytes bt (when c m w ++ rest) n k.
  Proof. intros k [[? ?] | (? & s & ? & ?)]; [left | right]; [auto using skip_no |]. split; [assumption |]. exists s. auto using skip_has. Qed.
  Lemma skip_enum : forall t k, shows_enum t rest n k -> shows_enum t (when c m w ++ rest) n k.
  Proof.
    intros t k [[? ?] | [(? & s & ? & ?) | (? & ? & ?)]]; [left | right; left | right; right]; auto using skip_no, skip_has.
    split; [assumption |]. exists s. auto using skip_has.
  Qed.
  Lemma skip_list : forall M (shows : json -> M -> Prop) k, shows_list shows rest n k -> shows_list shows (when c m w ++ rest) n k.
  Proof. intros M shows k [[? ?] | (? & s & ? & ?)]; [left | right]; [auto using skip_no |]. split; [assumption |]. exists s. auto using skip_has. Qed.
  Lemma skip_message : forall M (shows : json -> M -> Prop) k, shows_message shows rest n k -> shows_message shows (when c m w ++ rest) n k.
  Proof.
    intros M shows [k |]; cbn [shows_message]; [| apply skip_no].
    intros (v & ? & ?). exists v. auto using skip_has.
  Qed.
End Skip.

Ltac skip_tac :=
  repeat first [apply skip_uint; [ulit_neq |] | apply skip_string; [ulit_neq |] | apply skip_bytes; [ulit_neq |]
    | apply skip_enum; [ulit_neq |] | apply skip_list; [ulit_neq |] | apply skip_message; [ulit_neq |]].

(** Rewrites [A ++ when c n v] at the end to [A ++ when c n v ++ []]. *)
Lemma last_when : forall (l : members) c n v, l ++ when c n v = l ++ when c n v ++ [].
Proof. intros. rewrite app_nil_r. reflexivity. Qed.

Definition key_data_members (d : key_data) : members :=
  when (nonempty (kd_type_url d)) "typeUrl" (JStr (kd_type_url d))
  ++ when (nonempty (kd_value d)) "value" (bytes_json (kd_value d))
  ++ when (negb (kd_key_material_type d =? 0)%Z) "keyMaterialType"
       (enum_json (names_of material_table) (kd_key_material_type d)) ++ [].
Lemma key_data_json_members : forall d, key_data_json d = JDict (key_data_members d).
Proof. intros d. unfold key_data_json, key_data_members. rewrite app_nil_r. reflexivity. Qed.
Definition key_members (k : key) : members :=
  opt_when (k_key_data_opt k) "keyData" key_data_json
  ++ when (negb (k_status k =? 0)%Z) "status" (enum_json (names_of status_table) (k_status k))
  ++ when (negb (N.eqb (k_key_id k) 0)) "keyId" (JInt (Z.of_N (k_key_id k)))
  ++ when (negb (k_output_prefix_type k =? 0)%Z) "outputPrefixType"
       (enum_json (names_of prefix_table) (k_output_prefix_type k)) ++ [].
Lemma key_json_members : forall k, key_json k = JDict (key_members k).
Proof. intros k. unfold key_json, key_members. rewrite app_nil_r. reflexivity. Qed.
Definition keyset_members (ks : keyset) : members :=
  when (negb (N.eqb (ks_primary_key_id ks) 0)) "primaryKeyId" (JInt (Z.of_N (ks_primary_key_id ks)))
  ++ when (nonempty (ks_key ks)) "key" (JList (map key_json (ks_key ks))) ++ [].
Lemma keyset_json_members : forall k, keyset_json k = JDict (keyset_members k).
Proof. intros k. unfold keyset_json, keyset_members. rewrite app_nil_r. reflexivity. Qed.
Definition key_info_members (k : key_info) : members :=
  when (nonempty (ki_type_url k)) "typeUrl" (JStr (ki_type_url k))
  ++ when (negb (ki_status k =? 0)%Z) "status" (enum_json (names_of status_table) (ki_status k))
  ++ when (negb (N.eqb (ki_key_id k) 0)) "keyId" (JInt (Z.of_N (ki_key_id k)))
  ++ when (negb (ki_output_prefix_type k =? 0)%Z) "outputPrefixType"
       (enum_json (names_of prefix_table) (ki_output_prefix_type k)) ++ [].
Lemma key_info_json_members : forall k, key_info_json k = JDict (key_info_members k).
Proof. intros k. unfold key_info_json, key_info_members. rewrite app_nil_r. reflexivity. Qed.
Definition keyset_info_members (ks : keyset_info) : members :=
  when (negb (N.eqb (ksi_primary_key_id ks) 0)) "primaryKeyId" (JInt (Z.of_N (ksi_primary_key_id ks)))
  ++ when (nonempty (ksi_key_info ks)) "keyInfo" (JList (map key_info_json (ksi_key_info ks))) ++ [].
Lemma keyset_info_json_members : forall k, keyset_info_json k = JDict (keyset_info_members k).
Proof. intros k. unfold keyset_info_json, keyset_info_members. rewrite app_nil_r. reflexivity. Qed.
Definition encrypted_keyset_members (e : encrypted_keyset) : members :=
  when (nonempty (ek_encrypted_keyset e)) "encryptedKeyset" (bytes_json (ek_encrypted_keyset e))
  ++ opt_when (ek_keyset_info e) "keysetInfo" keyset_info_json ++ [].
Lemma encrypted_keyset_json_members : forall k, encrypted_keyset_json k = JDict (encrypted_keyset_members k).
Proof. intros k. unfold encrypted_keyset_json, encrypted_keyset_members. rewrite app_nil_r. reflexivity. Qed.

Lemma shows_key_data_json : forall d, shows_key_data padded_base64 (key_data_json d) d.
Proof.
  intros d. rewrite key_data_json_members. exists (key_data_members d). unfold key_data_members.
  split; [reflexivity |]. split; [members_tac |]. repeat split; skip_tac.
  - apply shows_string_when. members_tac.
  - apply shows_bytes_when. members_tac.
  - apply shows_enum_when; [right; right; reflexivity | members_tac].
Qed.
Lemma shows_key_json : forall d, shows_key padded_base64 (key_json d) d.
Proof.
  intros d. rewrite key_json_members. exists (key_members d). unfold key_members.
  split; [reflexivity |].
  split; [rewrite opt_as_when; members_tac |].
  split; [apply shows_message_when; [intros; apply shows_key_data_json | members_tac] |].
  rewrite opt_as_when. repeat split; skip_tac.
  - apply shows_enum_when; [left; reflexivity | members_tac].
  - apply shows_uint_when. members_tac.
  - apply shows_enum_when; [right; left; reflexivity | members_tac].
Qed.
Lemma shows_keyset_json : forall d, shows_keyset padded_base64 (keyset_json d) d.
Proof.
  intros d. rewrite keyset_json_members. exists (keyset_members d). unfold keyset_members.
  split; [reflexivity |]. split; [members_tac |]. repeat split; skip_tac.
  - apply shows_uint_when. members_tac.
  - apply shows_list_when; [intros; apply shows_key_json | members_tac].
Qed.
Lemma shows_key_info_json : forall d, shows_key_info (key_info_json d) d.
Proof.
  intros d. rewrite key_info_json_members. exists (key_info_members d). unfold key_info_members.
  split; [reflexivity |].
  split; [members_tac |]. repeat split; skip_tac.
  - apply shows_string_when. members_tac.
  - apply shows_enum_when; [left; reflexivity | members_tac].
  - apply shows_uint_when. members_tac.
  - apply shows_enum_when; [right; left; reflexivity | members_tac].
Qed.
Lemma shows_keyset_info_json : forall d, shows_keyset_info (keyset_info_json d) d.
Proof.
  intros d. rewrite keyset_info_json_members. exists (keyset_info_members d). unfold keyset_info_members.
  split; [reflexivity |]. split; [members_tac |]. repeat split; skip_tac.
  - apply shows_uint_when. members_tac.
  - apply shows_list_when; [intros; apply shows_key_info_json | members_tac].
Qed.
Lemma shows_encrypted_keyset_json : forall d, shows_encrypted_keyset padded_base64 (encrypted_keyset_json d) d.
Proof.
  intros d. rewrite encrypted_keyset_json_members. exists (encrypted_keyset_members d). unfold encrypted_keyset_members.
  split; [reflexivity |].
  split; [rewrite opt_as_when; members_tac |]. repeat split; skip_tac.
  - apply shows_bytes_when. rewrite opt_as_when. members_tac.
  - apply shows_message_when; [intros; apply shows_keyset_info_json | members_tac].
Qed.

Ltac good_members :=
  apply good_dict; [members_tac |];
  repeat (apply forall_when; [intros ?; cbn [fst snd]; split; [apply ascii_valid; reflexivity |] |]); [.. | constructor].

Lemma good_key_data : forall rt d, python_digit_limit rt -> wf_key_data d -> good_json rt (key_data_json d).
Proof.
  intros rt d Hl [H1 H2]. rewrite key_data_json_members. unfold key_data_members. good_members.
  - apply good_str, valid_text_unicode. exact H1.
  - apply good_bytes.
  - apply good_enum; [exact Hl | exact H2 | right; right; reflexivity].
Qed.
Lemma good_key : forall rt d, python_digit_limit rt -> wf_key d -> good_json rt (key_json d).
Proof.
  intros rt d Hl (H1 & H2 & H3 & H4). rewrite key_json_members. unfold key_members. rewrite opt_as_when. good_members.
  - destruct (k_key_data_opt d) as [kd |]; [| discriminate]. apply good_key_data; auto.
  - apply good_enum; [exact Hl | exact H2 | left; reflexivity].
  - apply good_uint; assumption.
  - apply good_enum; [exact Hl | exact H4 | right; left; reflexivity].
Qed.
Lemma good_keyset : forall rt d, python_digit_limit rt -> wf_keyset d -> good_json rt (keyset_json d).
Proof.
  intros rt d Hl (H1 & H2). rewrite keyset_json_members. unfold keyset_members. good_members.
  - apply good_uint; assumption.
  - apply good_list. apply Forall_forall. intros v Hv. apply in_map_iff in Hv. destruct Hv as (k & <- & Hk).
    apply good_key; auto.
Qed.
Lemma good_key_info : forall rt d, python_digit_limit rt -> wf_key_info d -> good_json rt (key_info_json d).
Proof.
  intros rt d Hl (H1 & H2 & H3 & H4). rewrite key_info_json_members. unfold key_info_members. good_members.
  - apply good_str, valid_text_unicode. exact H1.
  - apply good_enum; [exact Hl | exact H2 | left; reflexivity].
  - apply good_uint; assumption.
  - apply good_enum; [exact Hl | exact H4 | right; left; reflexivity].
Qed.
Lemma good_keyset_info : forall rt d, python_digit_limit rt -> wf_keyset_info d -> good_json rt (keyset_info_json d).
Proof.
  intros rt d Hl (H1 & H2). rewrite keyset_info_json_members. unfold keyset_info_members. good_members.
  - apply good_uint; assumption.
  - apply good_list. apply Forall_forall. intros v Hv. apply in_map_iff in Hv. destruct Hv as (k & <- & Hk).
    apply good_key_info; auto.
Qed.
Lemma good_encrypted_keyset : forall rt d, python_digit_limit rt -> wf_encrypted_keyset d ->
  good_json rt (encrypted_keyset_json d).
Proof.
  intros rt d Hl H. rewrite encrypted_keyset_json_members. unfold encrypted_keyset_members. rewrite opt_as_when. good_members.
  - apply good_bytes.
  - destruct (ek_keyset_info d) as [i |] eqn:E; [| discriminate]. apply good_keyset_info; auto.
Qed.

(** A looser notion of base64 text. *)
Lemma shows_bytes_mono : forall (b1 b2 : bytes -> pystr -> Prop), (forall x s, b1 x s -> b2 x s) ->
  forall l name x, shows_bytes b1 l name x -> shows_bytes b2 l name x.
Proof. intros b1 b2 H l name x [? | (? & s & ? & ?)]; [left; assumption | right; split; [assumption | eauto]]. Qed.
Lemma shows_key_data_mono : forall (b1 b2 : bytes -> pystr -> Prop), (forall x s, b1 x s -> b2 x s) ->
  forall v d, shows_key_data b1 v d -> shows_key_data b2 v d.
Proof. intros b1 b2 H v d (l & -> & Ho & H1 & H2 & H3). exists l. intuition. eapply shows_bytes_mono; eassumption. Qed.
Lemma shows_key_mono : forall (b1 b2 : bytes -> pystr -> Prop), (forall x s, b1 x s -> b2 x s) ->
  forall v d, shows_key b1 v d -> shows_key b2 v d.
Proof.
  intros b1 b2 H v d (l & -> & Ho & H1 & H2 & H3 & H4). exists l. intuition.
  unfold shows_message in *. destruct (k_key_data_opt d); [| assumption].
  destruct H1 as (w & ? & ?). exists w. split; [assumption |]. eapply shows_key_data_mono; eassumption.
Qed.
Lemma shows_keyset_mono : forall (b1 b2 : bytes -> pystr -> Prop), (forall x s, b1 x s -> b2 x s) ->
  forall v d, shows_keyset b1 v d -> shows_keyset b2 v d.
Proof.
  intros b1 b2 H v d (l & -> & Ho & H1 & H2). exists l. intuition.
  destruct H2 as [H2 | (Hn & vs & Hm & Hf)]; [left; assumption | right; split; [assumption |]].
  exists vs. split; [assumption |]. clear - H Hf. induction Hf; constructor; [| assumption]. eapply shows_key_mono; eassumption.
Qed.
Lemma shows_encrypted_keyset_mono : forall (b1 b2 : bytes -> pystr -> Prop), (forall x s, b1 x s -> b2 x s) ->
  forall v d, shows_encrypted_keyset b1 v d -> shows_encrypted_keyset b2 v d.
Proof. intros b1 b2 H v d (l & -> & Ho & H1 & H2). exists l. intuition. eapply shows_bytes_mono; eassumption. Qed.

(** ** What the writer writes *)

Lemma write_json_text : forall rt v st, good_json rt v ->
  exists t, write_json rt v st = (Ok tt, st ++ t) /\ json_text rt v t /\ no_repeated_names v.
Proof.
  intros rt v st [Hn Hp]. destruct (dumps_indent_text rt v 0 Hp) as (t & E & V).
  exists t. unfold write_json. rewrite E. split; [reflexivity |]. split; [| exact Hn].
  exists [], t, []. rewrite app_nil_r. repeat split; [constructor | exact V | constructor].
Qed.

Theorem json_writer_writes : forall rt ks st, python_digit_limit rt -> wf_keyset ks ->
  exists v t, kw_write (json_keyset_writer rt) ks st = (Ok tt, st ++ t) /\
    json_text rt v t /\ no_repeated_names v /\ shows_keyset padded_base64 v ks.
Proof.
  intros rt ks st Hl Hw. destruct (write_json_text rt (keyset_json ks) st (good_keyset rt ks Hl Hw)) as (t & E & Ht & Hn).
  exists (keyset_json ks), t. split; [exact E |]. split; [exact Ht |]. split; [exact Hn | apply shows_keyset_json].
Qed.
Theorem json_writer_writes_encrypted : forall rt ek st, python_digit_limit rt -> wf_encrypted_keyset ek ->
  exists v t, kw_write_encrypted (json_keyset_writer rt) ek st = (Ok tt, st ++ t) /\
    json_text rt v t /\ no_repeated_names v /\ shows_encrypted_keyset padded_base64 v ek.
Proof.
  intros rt ek st Hl Hw.
  destruct (write_json_text rt (encrypted_keyset_json ek) st (good_encrypted_keyset rt ek Hl Hw)) as (t & E & Ht & Hn).
  exists (encrypted_keyset_json ek), t. split; [exact E |]. split; [exact Ht |]. split; [exact Hn | apply shows_encrypted_keyset_json].
Qed.

(** C55: round trip of the messages. *)
Theorem json_keyset_round_trip : forall rt pb ks st, python_digit_limit rt -> wf_keyset ks ->
  exists t, kw_write (json_keyset_writer rt) ks st = (Ok tt, st ++ t) /\
    kr_read (json_keyset_reader rt pb t) = Ok ks.
Proof.
  intros rt pb ks st Hl Hw. destruct (json_writer_writes rt ks st Hl Hw) as (v & t & E & Ht & Hn & Hs).
  exists t. split; [exact E |]. eapply json_reader_reads; eauto. eapply shows_keyset_mono; [exact padded_any | exact Hs].
Qed.
Theorem json_encrypted_keyset_round_trip : forall rt pb ek st, python_digit_limit rt -> wf_encrypted_keyset ek ->
  exists t, kw_write_encrypted (json_keyset_writer rt) ek st = (Ok tt, st ++ t) /\
    kr_read_encrypted (json_keyset_reader rt pb t) = Ok ek.
Proof.
  intros rt pb ek st Hl Hw. destruct (json_writer_writes_encrypted rt ek st Hl Hw) as (v & t & E & Ht & Hn & Hs).
  exists t. split; [exact E |]. eapply json_reader_reads_encrypted; eauto. eapply shows_encrypted_keyset_mono; [exact padded_any | exact Hs].
Qed.
