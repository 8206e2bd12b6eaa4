(** C62: objects shared between the caller and the library. *)
From Coq Require Import Strings.Byte Strings.String List NArith ZArith Bool Arith Lia.
From Verif Require Import M_Base M_Proto M_Prims M_PrimitiveSet M_Registry M_KeysetHandle M_JwtTypes M_Json M_RawJwt M_Objects.
From Verif Require Import S_Objects L_Base L_Json2 L_Objects L_Objects2 L_Objects3 L_Objects4 L_Objects5 L_Objects6.
From Verif Require Import X_Toy X_Rt.
Import ListNotations.
Open Scope nat_scope.
Open Scope string_scope.
Open Scope list_scope.

@thm C62_tokens_never_change all_tokens_never_change
@thm C62_tokens_readable all_tokens_readable
@thm C62_new_token all_new_token_shows
@thm C62_verified_token all_verified_token_shows
@thm C62_audiences all_audiences_shows
@thm C62_custom_claim all_custom_claim_shows
@thm C62_calls_keep_objects all_calls_keep_objects
@thm C62_handles_never_change all_handles_never_change
@thm C62_handles_have_keysets all_handles_have_keysets
@thm C62_given_keyset_shared all_given_keyset_shared
@thm C62_own_writer_shared all_own_writer_shared
@thm C62_audience_object_unchanged_refuted all_audience_object_shared

(** The caller makes a list of audiences and a dict with a list in it, creates a token of
    them, and asks it for its audiences and for the claim. Then it changes all the lists
    and dicts that it has, the inner ones too. *)
Definition before : list operation :=
  [MakeObject (OList [VStr (ulit "you"); VStr (ulit "them")]);
   MakeObject (OList [VInt 1; VInt 2]);
   MakeObject (ODict [(ulit "x", VRef 1); (ulit "y", VNone)]);
   NewRawJwt (mk_token_args None (Some (VStr (ulit "me"))) None None (Some (VRef 0)) None None true None None
                [(NameStr (ulit "c"), Some (VRef 2))])].
Definition answers : list operation := [Audiences 0; CustomClaim 0 (ulit "c")].
Definition after_answers : objects := operate_all toy_rt 10 (before ++ answers) no_objects.
Definition changes : list operation :=
  let change a := match nth_error (o_heap after_answers) a with
                  | Some (OList _) => [ChangeObject a (OList [VStr (ulit "changed")])]
                  | Some (ODict ((_, VRef b) :: _)) => [TakeReference a b; ChangeObject b (OList []); ChangeObject a (ODict [])]
                  | Some (ODict _) => [ChangeObject a (ODict [])]
                  | _ => []
                  end in
  concat (map change (o_known after_answers)).
Definition the_token : raw_jwt :=
  mk_raw_jwt None [(ulit "iss", JStr (ulit "me")); (ulit "aud", JList [JStr (ulit "you"); JStr (ulit "them")]);
                   (ulit "c", JDict [(ulit "x", JList [JInt 1; JInt 2]); (ulit "y", JNull)])].
Lemma shows_dict_of : forall n h a j, view n h (VRef a) = Some (JDict j) -> shows h (VRef a) (JDict j).
Proof. intros n h a j. apply view_shows. Qed.
Example C62_hypotheses_met :
  Forall audience_not_object (before ++ answers ++ changes) /\
  token_shows (operate_all toy_rt 10 before no_objects) 0 the_token /\
  args_show 10 (o_heap (operate_all toy_rt 10 (firstn 3 before) no_objects))
    (mk_token_args None (Some (VStr (ulit "me"))) None None (Some (VRef 0)) None None true None None
                [(NameStr (ulit "c"), Some (VRef 2))])
    (mk_raw_jwt_args None (Some (JStr (ulit "me"))) None None (Some (JList [JStr (ulit "you"); JStr (ulit "them")])) None None true None None
                [(NameStr (ulit "c"), ClaimJson (JDict [(ulit "x", JList [JInt 1; JInt 2]); (ulit "y", JNull)]))]) /\
  (length (o_known after_answers) = 5)%nat /\ (7 <= length changes)%nat /\
  (let final := operate_all toy_rt 10 (before ++ answers ++ changes) no_objects in
   forallb (fun a => match nth_error (o_heap after_answers) a, nth_error (o_heap final) a with
                     | Some (OList l), Some (OList m) => negb (Nat.eqb (length l) (length m))
                     | Some (ODict l), Some (ODict m) => negb (Nat.eqb (length l) (length m))
                     | _, _ => false
                     end) (o_known after_answers)) = true.
Proof.
  split; [| split; [| split; [| split; [| split]]]].
  - apply Forall_forall. intros op Hop. vm_compute in Hop.
    repeat (destruct Hop as [<- | Hop]; [exact I |]). destruct Hop.
  - eexists. split; [vm_compute; reflexivity |]. split; [reflexivity |]. apply (shows_dict_of 5). vm_compute. reflexivity.
  - split; [reflexivity |]. do 5 (split; [vm_compute; (exact I || reflexivity) |]). do 4 (split; [reflexivity |]).
    constructor; [| constructor]. split; [reflexivity | vm_compute; reflexivity].
  - vm_compute. reflexivity.
  - vm_compute. repeat constructor.
  - vm_compute. reflexivity.
Qed.

(** Two handles: one the caller read from its own Keyset message, one that the library
    parsed; the caller changes its message, and gets the message of the first handle. *)
Definition own_keyset : keyset := toy_keyset u_aead SYMMETRIC.
Definition handle_ops : list operation :=
  [MakeObject (OKeyset own_keyset); FromKeyset 0; ToProtoKeyset 0 SecretKeyAccessToken; ChangeObject 0 (OKeyset (mk_keyset 0%N []))].
Example C62_handles_met :
  ~ takes_in (CleartextRead (ParsedKeyset (Ok own_keyset))) /\
  (length (o_handles (operate_all toy_rt 10 (firstn 2 handle_ops) no_objects)) = 1)%nat /\
  handle_at (operate_all toy_rt 10 (firstn 2 handle_ops ++ [CleartextRead (ParsedKeyset (Ok own_keyset))]) no_objects) 1 = Some own_keyset /\
  Forall (fun o => ~ hands_out 1 o) (skipn 2 handle_ops) /\
  (exists h, cleartext_from_keyset own_keyset = Ok h) /\
  handle_at (operate_all toy_rt 10 handle_ops no_objects) 0 = Some (mk_keyset 0%N []).
Proof.
  split; [intros [] |]. split; [vm_compute; reflexivity |]. split; [vm_compute; reflexivity |].
  split; [| split; [eexists |]; vm_compute; reflexivity].
  repeat constructor; cbn [hands_out]; [intros [E _]; discriminate | intros []].
Qed.
