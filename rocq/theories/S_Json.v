(** JSON texts (RFC 8259, with Python's NaN / Infinity / -Infinity) and what they
    denote. Independent of the parser and encoder of M_Json.v: of the model only the
    type [json] and the runtime parameters [py_rt] are used.

    In a [json] value a dict is a list of (name, value) pairs; for the value denoted
    by a text the list has all pairs of the text in their order, repeated names
    included. *)
From Coq Require Import Strings.Byte Strings.String List NArith ZArith Bool.
From Verif Require Import M_Base M_JwtTypes M_Json.
Import ListNotations.
Open Scope list_scope.
Open Scope N_scope.

Definition white (w : pystr) : Prop := Forall (fun c => c = 32 \/ c = 9 \/ c = 10 \/ c = 13) w.

(** ** Strings *)

Definition high_surrogate (c : N) : Prop := 55296 <= c <= 56319.
Definition low_surrogate (c : N) : Prop := 56320 <= c <= 57343.

Definition hex_value (c v : N) : Prop :=
  (48 <= c <= 57 /\ v = c - 48) \/ (97 <= c <= 102 /\ v = c - 97 + 10)
  \/ (65 <= c <= 70 /\ v = c - 65 + 10).

(** [\uXXXX] denotes the code unit u. *)
Definition u_text (t : pystr) (u : N) : Prop :=
  exists a b c d va vb vc vd, t = [92; 117; a; b; c; d] /\
    hex_value a va /\ hex_value b vb /\ hex_value c vc /\ hex_value d vd /\
    u = va * 4096 + vb * 256 + vc * 16 + vd.

(** backslash, quote, slash, b, f, n, r, t *)
Definition simple_escapes : list (N * N) :=
  [(34, 34); (92, 92); (47, 47); (98, 8); (102, 12); (110, 10); (114, 13); (116, 9)].

(** [string_body x t]: t, between quotes, is a JSON string that denotes x. Two
    adjacent escapes of a surrogate pair denote one character. *)
Inductive string_body : pystr -> pystr -> Prop :=
| SB_nil : string_body [] []
| SB_char : forall c x t, 32 <= c -> c <> 34 -> c <> 92 ->
    string_body x t -> string_body (c :: x) (c :: t)
| SB_escape : forall e c x t, In (e, c) simple_escapes ->
    string_body x t -> string_body (c :: x) (92 :: e :: t)
| SB_unit : forall e u x t, u_text e u ->
    (high_surrogate u -> forall e' u' t', u_text e' u' -> low_surrogate u' -> t <> e' ++ t') ->
    string_body x t -> string_body (u :: x) (e ++ t)
| SB_pair : forall e u e' u' x t, u_text e u -> high_surrogate u ->
    u_text e' u' -> low_surrogate u' ->
    string_body x t ->
    string_body ((65536 + (u - 55296) * 1024 + (u' - 56320)) :: x) (e ++ e' ++ t).

(** ** Numbers *)

Definition digits (d : pystr) : Prop := Forall (fun c => 48 <= c <= 57) d.
Fixpoint value_of_digits (acc : N) (d : pystr) : N :=
  match d with [] => acc | c :: r => value_of_digits (acc * 10 + (c - 48)) r end.
Definition int_part (i : pystr) : Prop :=
  i = [48] \/ exists c d, i = c :: d /\ 49 <= c <= 57 /\ digits d.
Definition frac_part (f : pystr) : Prop := exists d, f = 46 :: d /\ d <> [] /\ digits d.
Definition exp_part (e : pystr) : Prop :=
  exists x sg d, e = x :: sg ++ d /\ (x = 101 \/ x = 69) /\
    (sg = [] \/ sg = [43] \/ sg = [45]) /\ d <> [] /\ digits d.
(** A literal with fraction or exponent. *)
Definition float_literal (t : pystr) : Prop :=
  exists sg i f e, t = sg ++ i ++ f ++ e /\ (sg = [] \/ sg = [45]) /\ int_part i /\
    (frac_part f \/ f = []) /\ (exp_part e \/ e = []) /\ f ++ e <> [].

(** Python refuses integers of more than the configured number of digits. *)
Definition convertible (rt : py_rt) (i : pystr) : Prop :=
  int_max_str_digits rt = 0 \/ N.of_nat (length i) <= int_max_str_digits rt.

(** ** Values *)

Section Grammar.
  Variable rt : py_rt.

  Inductive json_value : json -> pystr -> Prop :=
  | V_null : json_value JNull (ulit "null")
  | V_true : json_value (JBool true) (ulit "true")
  | V_false : json_value (JBool false) (ulit "false")
  | V_nan : json_value (JFloat FNaN) (ulit "NaN")
  | V_inf : json_value (JFloat (FInf false)) (ulit "Infinity")
  | V_neginf : json_value (JFloat (FInf true)) (ulit "-Infinity")
  | V_int : forall i, int_part i -> convertible rt i ->
      json_value (JInt (Z.of_N (value_of_digits 0 i))) i
  | V_negint : forall i, int_part i -> convertible rt i ->
      json_value (JInt (- Z.of_N (value_of_digits 0 i))) (45 :: i)
  | V_float : forall t, float_literal t -> json_value (JFloat (float_parse rt t)) t
  | V_str : forall x t, string_body x t -> json_value (JStr x) (34 :: t ++ [34])
  | V_list0 : forall w, white w -> json_value (JList []) (91 :: w ++ [93])
  | V_list : forall l t, json_items l t -> json_value (JList l) (91 :: t ++ [93])
  | V_dict0 : forall w, white w -> json_value (JDict []) (123 :: w ++ [125])
  | V_dict : forall l t, json_members l t -> json_value (JDict l) (123 :: t ++ [125])
  with json_items : list json -> pystr -> Prop :=
  | I_one : forall w1 v t w2, white w1 -> json_value v t -> white w2 ->
      json_items [v] (w1 ++ t ++ w2)
  | I_more : forall w1 v t w2 l t', white w1 -> json_value v t -> white w2 ->
      json_items l t' -> json_items (v :: l) (w1 ++ t ++ w2 ++ 44 :: t')
  with json_members : list (pystr * json) -> pystr -> Prop :=
  | M_one : forall w1 k tk w2 w3 v t w4, white w1 -> string_body k tk -> white w2 -> white w3 ->
      json_value v t -> white w4 ->
      json_members [(k, v)] (w1 ++ 34 :: tk ++ 34 :: w2 ++ 58 :: w3 ++ t ++ w4)
  | M_more : forall w1 k tk w2 w3 v t w4 l t', white w1 -> string_body k tk -> white w2 ->
      white w3 -> json_value v t -> white w4 -> json_members l t' ->
      json_members ((k, v) :: l) (w1 ++ 34 :: tk ++ 34 :: w2 ++ 58 :: w3 ++ t ++ w4 ++ 44 :: t').

  (** The whole document. *)
  Definition json_text (v : json) (s : pystr) : Prop :=
    exists w1 t w2, white w1 /\ json_value v t /\ white w2 /\ s = w1 ++ t ++ w2.
End Grammar.

(** ** Properties of values *)

(** v occurs in w (w itself included). *)
Inductive within (v : json) : json -> Prop :=
| W_here : within v v
| W_list : forall l i, In i l -> within v i -> within v (JList l)
| W_dict : forall l k i, In (k, i) l -> within v i -> within v (JDict l).

(** No object, at any depth, has a repeated name. *)
Definition no_repeated_names (v : json) : Prop :=
  forall l, within (JDict l) v -> NoDup (map fst l).

(** A valid Unicode string: code points up to 0x10FFFF without surrogates. *)
Definition valid_unicode (x : pystr) : Prop :=
  Forall (fun c => c <= 1114111 /\ ~ (55296 <= c <= 57343)) x.

(** Names of object members, and the strings that are the value of a member or an
    item of a list that is the value of a member. *)
Definition member_string (x : pystr) (v : json) : Prop :=
  exists l, within (JDict l) v /\
    exists k w, In (k, w) l /\
      (x = k \/ w = JStr x \/ exists m, w = JList m /\ In (JStr x) m).

(** Every string of the value. *)
Definition any_string (x : pystr) (v : json) : Prop :=
  within (JStr x) v \/ exists l w, within (JDict l) v /\ In (x, w) l.

(** The floats that exist: multiples of a power of two with a 53-bit significand. *)
Definition is_double (f : pyfloat) : Prop :=
  match f with
  | FFin z => exists m e, (Z.abs m < 2 ^ 53)%Z /\ (0 <= e <= 2045)%Z /\ (z = m * 2 ^ e)%Z
  | _ => True
  end.

(** What is assumed of Python's float conversions: the text of a finite float is a
    number literal with a fraction or exponent, and reading it gives the float. *)
Definition float_codec (rt : py_rt) : Prop :=
  forall f, is_double f -> (forall b, f <> FInf b) -> f <> FNaN ->
    float_literal (float_repr rt f) /\ float_parse rt (float_repr rt f) = f.

(** Values that Python programs can build out of None, bool, int, float, str, list
    and dict with str keys. *)
Definition python_value (v : json) : Prop :=
  (forall f, within (JFloat f) v -> is_double f) /\ no_repeated_names v.

(** No integer of the value is over Python's digit limit. *)
Definition ints_convertible (rt : py_rt) (v : json) : Prop :=
  forall z, within (JInt z) v ->
    int_max_str_digits rt = 0 \/ (Z.abs z < 10 ^ Z.of_N (int_max_str_digits rt))%Z.

(** The dict made of pairs in the order of their first occurrence, each with its
    last value. *)
Definition last_wins (l : list (pystr * json)) (d : list (pystr * json)) : Prop :=
  NoDup (map fst d) /\
  (forall k v, In (k, v) d <-> exists l1 l2, l = l1 ++ (k, v) :: l2 /\ ~ In k (map fst l2)) /\
  (forall k1 k2 d1 d2 d3 v1 v2, d = d1 ++ (k1, v1) :: d2 ++ (k2, v2) :: d3 ->
     exists l1 l2 v, l = l1 ++ (k1, v) :: l2 /\ ~ In k2 (map fst l1)).
