(** Specification vocabulary for keysets and the primitives obtained from them.
    It mentions only the data types of the model (messages, registries, primitive
    interfaces), none of the functions under verification. *)
From Coq Require Import Strings.Byte List NArith ZArith Bool.
From Verif Require Import M_Base M_Proto M_Prims M_Registry.
Import ListNotations.
Open Scope Z_scope.

(** The output prefix of a key of prefix type [t] with id [id] is [p]: one start
    byte and the id as a 4-byte big-endian number, or nothing for RAW. *)
Definition has_prefix (t : Z) (id : N) (p : bytes) : Prop :=
  (t = RAW /\ p = []) \/
  (exists start b3 b2 b1 b0,
     p = [start; b3; b2; b1; b0] /\
     (Byte.to_N b3 * 2 ^ 24 + Byte.to_N b2 * 2 ^ 16 + Byte.to_N b1 * 2 ^ 8 + Byte.to_N b0 = id)%N /\
     ((t = TINK /\ start = x01) \/ ((t = LEGACY \/ t = CRUNCHY) /\ start = x00))).

(** Byte string [x] is the non-empty prefix of key [k] followed by at least one
    byte. *)
Definition carries_prefix (k : key) (x : bytes) : bool :=
  match x with
  | start :: b3 :: b2 :: b1 :: b0 :: _ :: _ =>
      (Byte.to_N b3 * 2 ^ 24 + Byte.to_N b2 * 2 ^ 16 + Byte.to_N b1 * 2 ^ 8 + Byte.to_N b0
         =? k_key_id k)%N
      && ((Byte.eqb start x01 && (k_output_prefix_type k =? TINK))
          || (Byte.eqb start x00 && ((k_output_prefix_type k =? LEGACY)
                                     || (k_output_prefix_type k =? CRUNCHY))))
  | _ => false
  end.

Definition is_raw_key (k : key) : bool := k_output_prefix_type k =? RAW.
Definition is_enabled (k : key) : bool := k_status k =? ENABLED.
Definition enabled_keys (ks : keyset) : list key := filter is_enabled (ks_key ks).

(** The registry provides primitive [p] of class [c] for key [k]: the manager
    registered for the key's type url has that primitive class and builds [p]. *)
Definition key_provides (reg : registry) (c : pclass) (k : key) (p : prim) : Prop :=
  exists km b,
    dict_get str_eqb (kd_type_url (k_key_data k)) (r_key_managers reg) = Some (km, b) /\
    km_primitive_class km = c /\
    km_primitive km (k_key_data k) = Ok p.

(** [l] lists the ENABLED keys of [ks] in keyset order, each with its own
    primitive; [inj] is the constructor of the primitive's kind. *)
Definition keys_with {P} (inj : P -> prim) (reg : registry) (c : pclass) (ks : keyset)
  (l : list (key * P)) : Prop :=
  map fst l = enabled_keys ks /\
  Forall (fun kp => key_provides reg c (fst kp) (inj (snd kp))) l.

(** [l]'s primary entry: the ENABLED key whose id is the keyset's primary id. *)
Definition is_primary {P} (ks : keyset) (l : list (key * P)) (k : key) (p : P) : Prop :=
  In (k, p) l /\ k_key_id k = ks_primary_key_id ks.

(** Outcome of trying attempts one after the other: the first success wins, a
    TinkError means "next", any other exception is raised at once, TinkError when
    nothing is left. *)
Inductive first_ok {A} : list (result A) -> result A -> Prop :=
| FO_none : forall e, is_tink_error e = true -> first_ok [] (Err e)
| FO_ok : forall a rest, first_ok (Ok a :: rest) (Ok a)
| FO_next : forall e rest r,
    is_tink_error e = true -> first_ok rest r -> first_ok (Err e :: rest) r
| FO_raise : forall e rest,
    is_tink_error e = false -> first_ok (Err e :: rest) (Err e).

(** The attempts on input [x]: first the keys whose prefix [x] carries, on the
    rest of [x] after the 5-byte prefix; then the RAW keys on all of [x]; keyset
    order within each group. *)
Definition attempts {P A} (l : list (key * P)) (x : bytes)
  (f : key -> P -> bytes -> result A) : list (result A) :=
  map (fun kp => f (fst kp) (snd kp) (skipn 5 x))
    (filter (fun kp => carries_prefix (fst kp) x) l)
  ++ map (fun kp => f (fst kp) (snd kp) x) (filter (fun kp => is_raw_key (fst kp)) l).

(** [x] reaches key [k] as [body]: RAW keys see all of it, others what follows
    their prefix (which must not be empty). *)
Definition reaches (k : key) (x body : bytes) : Prop :=
  (k_output_prefix_type k = RAW /\ body = x) \/
  (exists p, has_prefix (k_output_prefix_type k) (k_key_id k) p /\
             length p = 5%nat /\ x = p ++ body /\ body <> []).

(** A keyset a handle accepts. *)
Definition usable_key (k : key) : Prop :=
  (exists d, k_key_data_opt k = Some d) /\
  k_output_prefix_type k <> UNKNOWN_PREFIX /\ k_status k <> UNKNOWN_STATUS.
Definition primary_positions (ks : keyset) (i : nat) : Prop :=
  exists k, nth_error (ks_key ks) i = Some k /\ k_status k = ENABLED /\
            k_key_id k = ks_primary_key_id ks.
Definition valid_keyset (ks : keyset) : Prop :=
  (exists k, In k (ks_key ks) /\ k_status k <> DESTROYED) /\
  (forall k, In k (ks_key ks) -> k_status k <> DESTROYED -> usable_key k) /\
  (forall i j, primary_positions ks i -> primary_positions ks j -> i = j) /\
  ((exists i, primary_positions ks i) \/
   (forall k, In k (ks_key ks) -> kd_key_material_type (k_key_data k) = ASYMMETRIC_PUBLIC)).

(** The call returns or raises TinkError. *)
Definition tink_total {A} (r : result A) : Prop :=
  match r with Ok _ => True | Err e => is_tink_error e = true end.

(** Raised TinkError. *)
Definition raises_tink {A} (r : result A) : Prop :=
  exists e, r = Err e /\ is_tink_error e = true.

(** The two calls are indistinguishable except for the text of a TinkError. *)
Definition same_outcome {A} (r1 r2 : result A) : Prop :=
  r1 = r2 \/ (raises_tink r1 /\ raises_tink r2).

(** [l] is an interleaving of [l1] and [l2]. *)
Inductive interleave {X} : list X -> list X -> list X -> Prop :=
| IL_nil : interleave [] [] []
| IL_left : forall x l1 l2 l, interleave l1 l2 l -> interleave (x :: l1) l2 (x :: l)
| IL_right : forall x l1 l2 l, interleave l1 l2 l -> interleave l1 (x :: l2) (x :: l).

(** The output of the primary key [k]'s operation with its prefix in front. *)
Definition with_prefix_of (k : key) (own full : result bytes) : Prop :=
  exists p, has_prefix (k_output_prefix_type k) (k_key_id k) p /\
    full = match own with Ok c => Ok (p ++ c) | Err e => Err e end.

(** MACs and signatures of LEGACY keys are computed over the data and a zero
    byte. *)
Definition legacy_data (k : key) (data : bytes) : bytes :=
  if k_output_prefix_type k =? LEGACY then data ++ [x00] else data.
