(** Python's [json] module (CPython's C scanner and encoder) as used by
    jwt/_json_util.py, and that file itself.

    Simplifications: the nesting depth is not limited (CPython raises
    RecursionError, which json_loads turns into JwtInvalidError); the conversion
    between floats and their text is a parameter. *)
From Coq Require Import Strings.Byte Strings.String List NArith ZArith Bool.
From Verif Require Import M_Base M_Utf8 M_JwtTypes M_KmsIntegrations.
Import ListNotations.
Open Scope list_scope.
Open Scope N_scope.

(** What the Python runtime fixes: [float.__repr__] on finite floats, [float(text)],
    [sys.get_int_max_str_digits()] (0: no limit; int/str conversions of more decimal
    digits raise ValueError), and [datetime.fromtimestamp] on finite floats, in
    microseconds since the epoch. *)
Record py_rt := mk_py_rt {
  float_repr : pyfloat -> pystr;
  float_parse : pystr -> pyfloat;
  int_max_str_digits : N;
  float_us : pyfloat -> Z }.

(** ** Text of integers *)

Fixpoint dec_go (fuel : nat) (n : N) : pystr :=
  match fuel with
  | O => [48 + n]
  | S f => if n <? 10 then [48 + n] else dec_go f (n / 10) ++ [48 + n mod 10]
  end.
(** [str(n)] for n >= 0 *)
Definition dec_N (n : N) : pystr := dec_go (N.size_nat n) n.
(** [int.__repr__], without the digit limit *)
Definition dec_Z (z : Z) : pystr :=
  match z with Zneg p => 45 :: dec_N (Npos p) | _ => dec_N (Z.to_N z) end.

Definition is_digit (c : N) : bool := (48 <=? c) && (c <=? 57).
Definition digits_N (t : pystr) : N := fold_left (fun a c => a * 10 + (c - 48)) t 0.
Definition over_limit (rt : py_rt) (digits : pystr) : bool :=
  (0 <? int_max_str_digits rt) && (int_max_str_digits rt <? N.of_nat (length digits)).

(** ** json.dumps(x, separators=(',', ':')) *)

Definition hex_lower (d : N) : N := if d <? 10 then 48 + d else 97 + (d - 10).
(** '{0:04x}'.format(n) for n < 0x10000 *)
Definition hex4_lower (n : N) : pystr :=
  [hex_lower (n / 4096); hex_lower (n / 256 mod 16); hex_lower (n / 16 mod 16);
   hex_lower (n mod 16)].
Definition u_escape (n : N) : pystr := 92 :: 117 :: hex4_lower n.

(** json.encoder.py_encode_basestring_ascii: one character. *)
Definition escape_char (c : N) : pystr :=
  if c =? 34 then [92; 34]
  else if c =? 92 then [92; 92]
  else if c =? 10 then [92; 110]
  else if c =? 13 then [92; 114]
  else if c =? 9 then [92; 116]
  else if c =? 12 then [92; 102]
  else if c =? 8 then [92; 98]
  else if (32 <=? c) && (c <=? 126) then [c]
  else if c <? 65536 then u_escape c
  else let n := c - 65536 in u_escape (55296 + n / 1024) ++ u_escape (56320 + n mod 1024).
Definition encode_str (x : pystr) : pystr := 34 :: flat_map escape_char x ++ [34].

(** json.encoder.floatstr (allow_nan is True) *)
Definition float_text (rt : py_rt) (f : pyfloat) : pystr :=
  match f with
  | FNaN => ulit "NaN"
  | FInf false => ulit "Infinity"
  | FInf true => ulit "-Infinity"
  | _ => float_repr rt f
  end.

Definition int_text (rt : py_rt) (z : Z) : result pystr :=
  if over_limit rt (dec_N (Z.abs_N z)) then Err (ValueError "integer string conversion")
  else Ok (dec_Z z).

(** The encoder, for the values of type [json]. *)
Fixpoint dumps (rt : py_rt) (sep_item sep_key : pystr) (v : json) : result pystr :=
  match v with
  | JNull => Ok (ulit "null")
  | JBool true => Ok (ulit "true")
  | JBool false => Ok (ulit "false")
  | JInt z => int_text rt z
  | JFloat f => Ok (float_text rt f)
  | JStr x => Ok (encode_str x)
  | JList [] => Ok (ulit "[]")
  | JList (v0 :: l) =>
      t0 <- dumps rt sep_item sep_key v0 ;;
      t <- (fix go l := match l with
                        | [] => Ok [93]
                        | v1 :: r =>
                            t1 <- dumps rt sep_item sep_key v1 ;; t <- go r ;;
                            Ok (sep_item ++ t1 ++ t)
                        end) l ;;
      Ok (91 :: t0 ++ t)
  | JDict [] => Ok (ulit "{}")
  | JDict ((k0, v0) :: l) =>
      t0 <- dumps rt sep_item sep_key v0 ;;
      t <- (fix go l := match l with
                        | [] => Ok [125]
                        | (k1, v1) :: r =>
                            t1 <- dumps rt sep_item sep_key v1 ;; t <- go r ;;
                            Ok (sep_item ++ encode_str k1 ++ sep_key ++ t1 ++ t)
                        end) l ;;
      Ok (123 :: encode_str k0 ++ sep_key ++ t0 ++ t)
  end.

(** jwt/_json_util.py:22-23 *)
Definition json_dumps (rt : py_rt) (v : json) : result pystr := dumps rt [44] [58] v.
(** [json.dumps(v)] with the default separators *)
Definition json_dumps_default (rt : py_rt) (v : json) : result pystr :=
  dumps rt [44; 32] [58; 32] v.

(** ** json.loads(s, object_pairs_hook=hook) *)

Definition is_ws (c : N) : bool := (c =? 32) || (c =? 9) || (c =? 10) || (c =? 13).
Definition skip_ws (s : pystr) : pystr := snd (span is_ws s).

Definition hex_digit (c : N) : option N :=
  if is_digit c then Some (c - 48)
  else if (97 <=? c) && (c <=? 102) then Some (c - 87)
  else if (65 <=? c) && (c <=? 70) then Some (c - 55)
  else None.
Definition hex4 (a b c d : N) : option N :=
  match hex_digit a, hex_digit b, hex_digit c, hex_digit d with
  | Some a, Some b, Some c, Some d => Some (((a * 16 + b) * 16 + c) * 16 + d)
  | _, _, _, _ => None
  end.
Definition is_high (c : N) : bool := (55296 <=? c) && (c <=? 56319).
Definition is_low (c : N) : bool := (56320 <=? c) && (c <=? 57343).
Definition join_surrogates (h l : N) : N := 65536 + ((h - 55296) * 1024 + (l - 56320)).

(** The single-character escapes. *)
Definition unescape (e : N) : option N :=
  if e =? 34 then Some 34
  else if e =? 92 then Some 92
  else if e =? 47 then Some 47
  else if e =? 98 then Some 8
  else if e =? 102 then Some 12
  else if e =? 110 then Some 10
  else if e =? 114 then Some 13
  else if e =? 116 then Some 9
  else None.

Definition scons (c : N) (o : option (pystr * pystr)) : option (pystr * pystr) :=
  match o with Some (x, r) => Some (c :: x, r) | None => None end.

(** scanstring (strict): the text after the opening quote; returns the string and
    the text after the closing quote. None is JSONDecodeError. *)
Fixpoint scan_string (s : pystr) : option (pystr * pystr) :=
  match s with
  | [] => None
  | c :: r =>
      if c =? 34 then Some ([], r)
      else if c =? 92 then
        match r with
        | [] => None
        | e :: r1 =>
            if e =? 117 then
              match r1 with
              | a1 :: a2 :: a3 :: a4 :: r2 =>
                  match hex4 a1 a2 a3 a4 with
                  | None => None
                  | Some u =>
                      if is_high u then
                        match r2 with
                        | b :: u' :: c1 :: c2 :: c3 :: c4 :: r3 =>
                            if (b =? 92) && (u' =? 117) then
                              match hex4 c1 c2 c3 c4 with
                              | None => None
                              | Some w =>
                                  if is_low w then scons (join_surrogates u w) (scan_string r3)
                                  else scons u (scan_string r2)
                              end
                            else scons u (scan_string r2)
                        | _ => scons u (scan_string r2)
                        end
                      else scons u (scan_string r2)
                  end
              | _ => None
              end
            else match unescape e with
                 | Some c' => scons c' (scan_string r1)
                 | None => None
                 end
        end
      else if c <? 32 then None
      else scons c (scan_string r)
  end.

(** A number: sign and integer part, then the fraction and exponent, if any. *)
Definition scan_digits1 (s : pystr) : option (pystr * pystr) :=
  match span is_digit s with
  | ([], _) => None
  | (d, r) => Some (d, r)
  end.
(** [0|[1-9]\d*] *)
Definition scan_int (s : pystr) : option (pystr * pystr) :=
  match s with
  | c :: r => if c =? 48 then Some ([48], r) else scan_digits1 s
  | [] => None
  end.
(** [(\.\d+)?] *)
Definition scan_frac (s : pystr) : pystr * pystr :=
  match s with
  | c :: r => if c =? 46 then match scan_digits1 r with
                              | Some (d, r') => (46 :: d, r')
                              | None => ([], s)
                              end
              else ([], s)
  | [] => ([], s)
  end.
(** [([eE][-+]?\d+)?] *)
Definition scan_exp (s : pystr) : pystr * pystr :=
  match s with
  | e :: r =>
      if (e =? 101) || (e =? 69) then
        match r with
        | c :: r' =>
            if (c =? 45) || (c =? 43) then
              match scan_digits1 r' with
              | Some (d, r2) => (e :: c :: d, r2)
              | None => ([], s)
              end
            else match scan_digits1 r with
                 | Some (d, r2) => (e :: d, r2)
                 | None => ([], s)
                 end
        | [] => ([], s)
        end
      else ([], s)
  | [] => ([], s)
  end.

(** _match_number: JSONDecodeError if there is no number at the front. *)
Definition scan_number (rt : py_rt) (s : pystr) : result (json * pystr) :=
  let (sign, s1) := match s with
                    | c :: r => if c =? 45 then ([45], r) else ([], s)
                    | [] => ([], s)
                    end in
  match scan_int s1 with
  | None => Err JSONDecodeError
  | Some (i, s2) =>
      let (f, s3) := scan_frac s2 in
      let (e, s4) := scan_exp s3 in
      match f, e with
      | [], [] =>
          if over_limit rt i then Err (ValueError "integer string conversion")
          else Ok (JInt (match sign with
                         | [] => Z.of_N (digits_N i)
                         | _ => Z.opp (Z.of_N (digits_N i))
                         end), s4)
      | _, _ => Ok (JFloat (float_parse rt (sign ++ i ++ f ++ e)), s4)
      end
  end.

(** The constants; None: the text starts with none of them. *)
Definition scan_constant (s : pystr) : option (json * pystr) :=
  match strip_prefix (ulit "null") s with Some r => Some (JNull, r) | None =>
  match strip_prefix (ulit "true") s with Some r => Some (JBool true, r) | None =>
  match strip_prefix (ulit "false") s with Some r => Some (JBool false, r) | None =>
  match strip_prefix (ulit "NaN") s with Some r => Some (JFloat FNaN, r) | None =>
  match strip_prefix (ulit "Infinity") s with Some r => Some (JFloat (FInf false), r) | None =>
  match strip_prefix (ulit "-Infinity") s with Some r => Some (JFloat (FInf true), r) | None =>
  None end end end end end end.

Section Parser.
  Variable rt : py_rt.
  Variable hook : list (pystr * json) -> result json.
  Variable value : pystr -> result (json * pystr).

  (** JSONArray after the opening bracket and white space: the elements up to the
      closing bracket. *)
  Fixpoint parse_items (n : nat) (s : pystr) : result (list json * pystr) :=
    match n with
    | O => Err JSONDecodeError
    | S n' =>
        '(v, r) <- value s ;;
        match skip_ws r with
        | c :: r1 =>
            if c =? 93 then Ok ([v], r1)
            else if c =? 44 then
              '(l, r2) <- parse_items n' (skip_ws r1) ;; Ok (v :: l, r2)
            else Err JSONDecodeError
        | [] => Err JSONDecodeError
        end
    end.

  (** JSONObject from the opening quote of a property name. *)
  Fixpoint parse_members (n : nat) (s : pystr) : result (list (pystr * json) * pystr) :=
    match n with
    | O => Err JSONDecodeError
    | S n' =>
        match s with
        | q :: s1 =>
            if q =? 34 then
              match scan_string s1 with
              | None => Err JSONDecodeError
              | Some (k, r) =>
                  match skip_ws r with
                  | c :: r1 =>
                      if c =? 58 then
                        '(v, r2) <- value (skip_ws r1) ;;
                        match skip_ws r2 with
                        | d :: r3 =>
                            if d =? 125 then Ok ([(k, v)], r3)
                            else if d =? 44 then
                              '(l, r4) <- parse_members n' (skip_ws r3) ;;
                              Ok ((k, v) :: l, r4)
                            else Err JSONDecodeError
                        | [] => Err JSONDecodeError
                        end
                      else Err JSONDecodeError
                  | [] => Err JSONDecodeError
                  end
              end
            else Err JSONDecodeError
        | [] => Err JSONDecodeError
        end
    end.

  (** scan_once: one value at the front of the text. *)
  Definition parse_step (n : nat) (s : pystr) : result (json * pystr) :=
    match s with
    | [] => Err JSONDecodeError
    | c :: r =>
        if c =? 34 then
          match scan_string r with
          | Some (x, r1) => Ok (JStr x, r1)
          | None => Err JSONDecodeError
          end
        else if c =? 123 then
          match skip_ws r with
          | d :: r1 =>
              if d =? 125 then v <- hook [] ;; Ok (v, r1)
              else '(l, r2) <- parse_members n (skip_ws r) ;;
                   v <- hook l ;; Ok (v, r2)
          | [] => Err JSONDecodeError
          end
        else if c =? 91 then
          match skip_ws r with
          | d :: r1 =>
              if d =? 93 then Ok (JList [], r1)
              else '(l, r2) <- parse_items n (skip_ws r) ;; Ok (JList l, r2)
          | [] => Err JSONDecodeError
          end
        else match scan_constant s with
             | Some vr => Ok vr
             | None => scan_number rt s
             end
    end.
End Parser.

(** The recursion, with fuel; [loads] gives one more than the length of the text,
    which is always enough (theorem [loads_text]). *)
Fixpoint parse_value (rt : py_rt) (hook : list (pystr * json) -> result json) (fuel : nat)
    (s : pystr) : result (json * pystr) :=
  match fuel with
  | O => Err JSONDecodeError
  | S f => parse_step rt hook (parse_value rt hook f) f s
  end.

Definition loads (rt : py_rt) (hook : list (pystr * json) -> result json) (s : pystr)
  : result json :=
  if startswith s [65279] then Err JSONDecodeError
  else
    '(v, r) <- parse_value rt hook (S (length s)) (skip_ws s) ;;
    match skip_ws r with
    | [] => Ok v
    | _ => Err JSONDecodeError
    end.

(** [dict(pairs)] *)
Definition dict_of_pairs (l : list (pystr * json)) : list (pystr * json) :=
  fold_left (fun d kv => dict_set str_eqb (fst kv) (snd kv) d) l [].

(** [json.loads(s)] *)
Definition json_loads_plain (rt : py_rt) (s : pystr) : result json :=
  loads rt (fun l => Ok (JDict (dict_of_pairs l))) s.

(** jwt/_json_util.py:26-28 *)
Definition validate_str (x : pystr) : result unit :=
  match utf8_encode x with Some _ => Ok tt | None => Err UnicodeError end.

(** jwt/_json_util.py:31-40 *)
Definition validate_value (v : json) : result unit :=
  match v with
  | JStr x => validate_str x
  | JList l => for_each (fun i => match i with JStr x => validate_str x | _ => Ok tt end) l
  | _ => Ok tt
  end.

(** jwt/_json_util.py:43-54 *)
Fixpoint validate_pairs (keys : list pystr) (l : list (pystr * json)) : result unit :=
  match l with
  | [] => Ok tt
  | (k, v) :: r =>
      _ <- validate_str k ;;
      if existsb (str_eqb k) keys then Err (JwtInvalidError "duplicated key")
      else _ <- validate_value v ;; validate_pairs (k :: keys) r
  end.
Definition dict_with_validation (l : list (pystr * json)) : result json :=
  _ <- validate_pairs [] l ;; Ok (JDict (dict_of_pairs l)).

(** jwt/_json_util.py:57-66. (ValueError of the integer digit limit is not caught.) *)
Definition json_loads (rt : py_rt) (s : pystr) : result json :=
  match loads rt dict_with_validation s with
  | Err JSONDecodeError => Err (JwtInvalidError "Failed to parse JSON string")
  | Err UnicodeError => Err (JwtInvalidError "invalid character")
  | r => r
  end.
