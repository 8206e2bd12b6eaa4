(** Strict UTF-8, as used by [str.encode('utf8')] and [bytes.decode('utf8')]
    (jwt/_jwt_format.py:70-107, jwt/_json_util.py:28-35) and by protobuf string
    fields. Models the Python runtime: lone surrogates cannot be encoded,
    overlong forms, surrogates and values above 0x10FFFF cannot be decoded. *)
From Coq Require Import List NArith Bool Strings.Byte.
From Verif Require Import M_Base.
Import ListNotations.
Open Scope N_scope.

(** A Unicode scalar value: a code point that is not a surrogate. *)
Definition is_scalar (c : N) : bool :=
  (c <? 55296) || ((57344 <=? c) && (c <? 1114112)).

(** UTF-8 bytes of one code point. *)
Definition utf8_encode_char (c : N) : option bytes :=
  if negb (is_scalar c) then None
  else if c <? 128 then Some [byte_of_N c]
  else if c <? 2048 then
    Some [byte_of_N (192 + c / 64); byte_of_N (128 + c mod 64)]
  else if c <? 65536 then
    Some [byte_of_N (224 + c / 4096); byte_of_N (128 + (c / 64) mod 64);
          byte_of_N (128 + c mod 64)]
  else
    Some [byte_of_N (240 + c / 262144); byte_of_N (128 + (c / 4096) mod 64);
          byte_of_N (128 + (c / 64) mod 64); byte_of_N (128 + c mod 64)].

(** [x.encode('utf8')]; [None] is UnicodeEncodeError. *)
Fixpoint utf8_encode (x : pystr) : option bytes :=
  match x with
  | [] => Some []
  | c :: r =>
      match utf8_encode_char c, utf8_encode r with
      | Some e, Some er => Some (e ++ er)
      | _, _ => None
      end
  end.

(** Value of a continuation byte 10xxxxxx. *)
Definition cont (c : byte) : option N :=
  let n := Byte.to_N c in
  if (128 <=? n) && (n <? 192) then Some (n - 128) else None.

Definition ocons {A} (a : A) (o : option (list A)) : option (list A) :=
  match o with Some l => Some (a :: l) | None => None end.

(** [x.decode('utf8')]; [None] is UnicodeDecodeError. *)
Fixpoint utf8_decode (x : bytes) : option pystr :=
  match x with
  | [] => Some []
  | c0 :: r0 =>
      let n := Byte.to_N c0 in
      if n <? 128 then ocons n (utf8_decode r0)
      else if n <? 194 then None
      else if n <? 224 then
        match r0 with
        | c1 :: r1 =>
            match cont c1 with
            | Some d1 => ocons ((n - 192) * 64 + d1) (utf8_decode r1)
            | None => None
            end
        | _ => None
        end
      else if n <? 240 then
        match r0 with
        | c1 :: c2 :: r2 =>
            match cont c1, cont c2 with
            | Some d1, Some d2 =>
                let v := (n - 224) * 4096 + d1 * 64 + d2 in
                if (v <? 2048) || negb (is_scalar v) then None
                else ocons v (utf8_decode r2)
            | _, _ => None
            end
        | _ => None
        end
      else if n <? 245 then
        match r0 with
        | c1 :: c2 :: c3 :: r3 =>
            match cont c1, cont c2, cont c3 with
            | Some d1, Some d2, Some d3 =>
                let v := (n - 240) * 262144 + d1 * 4096 + d2 * 64 + d3 in
                if (v <? 65536) || negb (is_scalar v) then None
                else ocons v (utf8_decode r3)
            | _, _, _ => None
            end
        | _ => None
        end
      else None
  end.
