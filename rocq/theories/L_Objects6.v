(** The theorems about runs, for every runtime and recursion limit. *)
From Coq Require Import Strings.Byte Strings.String List NArith ZArith Bool Arith Lia.
From Verif Require Import M_Base M_Proto M_Prims M_PrimitiveSet M_Registry M_KeysetHandle M_JwtTypes M_Json M_RawJwt M_Objects
  S_Objects L_Base L_Json2 L_Objects L_Objects2 L_Objects3 L_Objects4 L_Objects5.
Import ListNotations.
Open Scope nat_scope.
Open Scope string_scope.
Open Scope list_scope.

Theorem all_tokens_never_change : forall (rt : py_rt) (limit : nat) ops more i r, Forall audience_not_object (ops ++ more) ->
  token_shows (operate_all rt limit ops no_objects) i r ->
  token_shows (operate_all rt limit (ops ++ more) no_objects) i r.
Proof. intros rt limit. exact (tokens_never_change rt limit). Qed.
Theorem all_tokens_readable : forall (rt : py_rt) (limit : nat) ops i, Forall audience_not_object ops ->
  (i < length (o_tokens (operate_all rt limit ops no_objects)))%nat ->
  exists r, token_shows (operate_all rt limit ops no_objects) i r.
Proof. intros rt limit. exact (tokens_readable rt limit). Qed.
Theorem all_new_token_shows : forall (rt : py_rt) (limit : nat) s a b,
  knows_all s (args_refs a) = true -> args_show limit (o_heap s) a b ->
  match new_raw_jwt rt b with
  | Ok r => token_shows (operate rt limit s (NewRawJwt a)) (length (o_tokens s)) r
  | Err _ => o_tokens (operate rt limit s (NewRawJwt a)) = o_tokens s
  end.
Proof. intros rt limit. exact (new_token_shows rt limit). Qed.
Theorem all_verified_token_shows : forall (rt : py_rt) (limit : nat) s th x,
  match raw_jwt_from_json rt th x with
  | Ok r => token_shows (operate rt limit s (VerifyJwt th x)) (length (o_tokens s)) r
  | Err _ => o_tokens (operate rt limit s (VerifyJwt th x)) = o_tokens s
  end.
Proof. intros rt limit. exact (verified_token_shows rt limit). Qed.
Theorem all_audiences_shows : forall (rt : py_rt) (limit : nat) s i r, token_shows s i r ->
  match audiences r with
  | Ok l => exists a, o_known (operate rt limit s (Audiences i)) = a :: o_known s /\
      shows (o_heap (operate rt limit s (Audiences i))) (VRef a) (JList l)
  | Err _ => operate rt limit s (Audiences i) = s
  end.
Proof. intros rt limit. exact (audiences_shows rt limit). Qed.
Theorem all_custom_claim_shows : forall (rt : py_rt) (limit : nat) s i r name, token_shows s i r ->
  match custom_claim r name with
  | Ok (JList _ as j) | Ok (JDict _ as j) =>
      (nesting j <= limit)%nat ->
      exists a, o_known (operate rt limit s (CustomClaim i name)) = a :: o_known s /\
        shows (o_heap (operate rt limit s (CustomClaim i name))) (VRef a) j
  | _ => operate rt limit s (CustomClaim i name) = s
  end.
Proof. intros rt limit. exact (custom_claim_shows rt limit). Qed.
Theorem all_calls_keep_objects : forall (rt : py_rt) (limit : nat) s op a o, (forall x y, op <> ChangeObject x y) ->
  nth_error (o_heap s) a = Some o -> nth_error (o_heap (operate rt limit s op)) a = Some o.
Proof. intros rt limit. exact (calls_keep_objects rt limit). Qed.
Theorem all_handles_never_change : forall (rt : py_rt) (limit : nat) ops op more ks, let i := length (o_handles (operate_all rt limit ops no_objects)) in
  ~ takes_in op -> handle_at (operate_all rt limit (ops ++ [op]) no_objects) i = Some ks ->
  Forall (fun o => ~ hands_out i o) more ->
  handle_at (operate_all rt limit (ops ++ [op] ++ more) no_objects) i = Some ks.
Proof. intros rt limit. exact (handles_never_change rt limit). Qed.
Theorem all_handles_have_keysets : forall (rt : py_rt) (limit : nat) ops i, (i < length (o_handles (operate_all rt limit ops no_objects)))%nat ->
  exists ks, handle_at (operate_all rt limit ops no_objects) i = Some ks.
Proof. intros rt limit. exact (handles_have_keysets rt limit). Qed.
Theorem all_given_keyset_shared : forall (rt : py_rt) (limit : nat) ks ks' h, cleartext_from_keyset ks = Ok h ->
  let ops := [MakeObject (OKeyset ks); FromKeyset 0] in
  handle_at (operate_all rt limit ops no_objects) 0 = Some ks /\
  handle_at (operate_all rt limit (ops ++ [ChangeObject 0 (OKeyset ks')]) no_objects) 0 = Some ks'.
Proof. intros rt limit. exact (given_keyset_shared rt limit). Qed.
Theorem all_own_writer_shared : forall (rt : py_rt) (limit : nat) ks ks', create ks = Ok (mk_handle ks) -> assert_no_secret_key_material ks = Ok tt ->
  let ops := [ReadEncrypted (Ok ks); WriteNoSecret 0 true] in
  handle_at (operate_all rt limit ops no_objects) 0 = Some ks /\
  handle_at (operate_all rt limit (ops ++ [ChangeObject 0 (OKeyset ks')]) no_objects) 0 = Some ks'.
Proof. intros rt limit. exact (own_writer_shared rt limit). Qed.
Theorem all_audience_object_shared : forall (rt : py_rt) (limit : nat), exists ops more i r,
  token_shows (operate_all rt limit ops no_objects) i r /\ ~ token_shows (operate_all rt limit (ops ++ more) no_objects) i r.
Proof. intros rt limit. exact (audience_object_shared rt limit). Qed.
