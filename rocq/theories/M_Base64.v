(** Python's base64 and binascii as used by jwt/_jwt_format.py:32-62,
    jwt/_jwk_set_converter.py, integration/hcvault/_hcvault_kms_aead.py and by the
    JSON form of protobuf bytes fields. Models the Python library. *)
From Coq Require Import Strings.Byte Strings.String List NArith Bool.
From Verif Require Import M_Base.
Import ListNotations.
Open Scope list_scope.
Open Scope N_scope.

(** The base64 character of a value below 64, with the two last characters of the
    alphabet as arguments. *)
Definition b64_char (c62 c63 : byte) (n : N) : byte :=
  if n <? 26 then byte_of_N (65 + n)
  else if n <? 52 then byte_of_N (97 + (n - 26))
  else if n <? 62 then byte_of_N (48 + (n - 52))
  else if n =? 62 then c62 else c63.

Definition pad : byte := x3d.

Section Encode.
  Variables c62 c63 : byte.
  Let ch := b64_char c62 c63.

  (** binascii.b2a_base64 without the newline; [padded] adds the '=' characters. *)
  Fixpoint b64_encode_gen (padded : bool) (x : bytes) : bytes :=
    match x with
    | [] => []
    | [a] =>
        let a := Byte.to_N a in
        ch (a / 4) :: ch (a mod 4 * 16) :: if padded then [pad; pad] else []
    | [a; b] =>
        let a := Byte.to_N a in let b := Byte.to_N b in
        ch (a / 4) :: ch (a mod 4 * 16 + b / 16) :: ch (b mod 16 * 4)
          :: if padded then [pad] else []
    | a :: b :: c :: r =>
        let a := Byte.to_N a in let b := Byte.to_N b in let c := Byte.to_N c in
        ch (a / 4) :: ch (a mod 4 * 16 + b / 16) :: ch (b mod 16 * 4 + c / 64) :: ch (c mod 64)
          :: b64_encode_gen padded r
    end.
End Encode.

(** base64.b64encode *)
Definition b64encode (x : bytes) : bytes := b64_encode_gen x2b x2f true x.
(** base64.urlsafe_b64encode *)
Definition urlsafe_b64encode (x : bytes) : bytes := b64_encode_gen x2d x5f true x.

(** [x.rstrip(b'=')] *)
Fixpoint rstrip_eq (x : bytes) : bytes :=
  match x with
  | [] => []
  | c :: r =>
      match rstrip_eq r with
      | [] => if Byte.eqb c pad then [] else [c]
      | r' => c :: r'
      end
  end.

(** Value of a character of the standard alphabet (table_a2b_base64). *)
Definition b64_value (c : byte) : option N :=
  let n := Byte.to_N c in
  if (65 <=? n) && (n <=? 90) then Some (n - 65)
  else if (97 <=? n) && (n <=? 122) then Some (n - 97 + 26)
  else if (48 <=? n) && (n <=? 57) then Some (n - 48 + 52)
  else if n =? 43 then Some 62
  else if n =? 47 then Some 63
  else None.

(** binascii.a2b_base64 (non-strict): characters outside the alphabet are skipped,
    the first complete padding ends the data. [quad] is the number of characters of
    the current group, [left] the bits not yet written, [pads] the '=' seen. None
    is binascii.Error. *)
Fixpoint a2b_go (quad : N) (left : N) (pads : N) (x : bytes) : option bytes :=
  match x with
  | [] => if quad =? 0 then Some [] else None
  | c :: r =>
      if Byte.eqb c pad then
        if 2 <=? quad then
          if 4 <=? quad + (pads + 1) then Some [] else a2b_go quad left (pads + 1) r
        else a2b_go quad left pads r
      else
        match b64_value c with
        | None => a2b_go quad left pads r
        | Some v =>
            if quad =? 0 then a2b_go 1 v 0 r
            else if quad =? 1 then
              option_map (cons (byte_of_N (left * 4 + v / 16))) (a2b_go 2 (v mod 16) 0 r)
            else if quad =? 2 then
              option_map (cons (byte_of_N (left * 16 + v / 4))) (a2b_go 3 (v mod 4) 0 r)
            else
              option_map (cons (byte_of_N (left * 64 + v))) (a2b_go 0 0 0 r)
        end
  end.

(** base64.b64decode *)
Definition b64decode (x : bytes) : option bytes := a2b_go 0 0 0 x.
(** base64.urlsafe_b64decode: '-' and '_' are translated first. *)
Definition urlsafe_b64decode (x : bytes) : option bytes :=
  b64decode (map (fun c => if Byte.eqb c x2d then x2b
                           else if Byte.eqb c x5f then x2f else c) x).

(** jwt/_jwt_format.py:32-34 *)
Definition base64_encode (data : bytes) : bytes := rstrip_eq (urlsafe_b64encode data).

(** jwt/_jwt_format.py:37-46 *)
Definition is_valid_urlsafe_base64_char (c : byte) : bool :=
  let c := Byte.to_N c in
  if (97 <=? c) && (c <=? 122) then true
  else if (65 <=? c) && (c <=? 90) then true
  else if (48 <=? c) && (c <=? 57) then true
  else if (c =? 45) || (c =? 95) then true
  else false.

(** jwt/_jwt_format.py:49-62 *)
Definition base64_decode (encoded_data : bytes) : result bytes :=
  if negb (forallb is_valid_urlsafe_base64_char encoded_data) then
    Err (JwtInvalidError "invalid base64 encoding")
  else
    match urlsafe_b64decode (encoded_data ++ [pad; pad; pad]) with
    | Some x => Ok x
    | None => Err (JwtInvalidError "invalid base64 encoding")
    end.
