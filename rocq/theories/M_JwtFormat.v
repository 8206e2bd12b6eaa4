(** jwt/_jwt_format.py (the base64 functions, lines 32-62, are in M_Base64.v) *)
From Coq Require Import Strings.Byte Strings.String List NArith ZArith Bool.
From Verif Require Import M_Base M_Utf8 M_Proto M_Base64 M_JwtTypes M_Json M_RawJwt M_JwtValidator.
Import ListNotations.
Open Scope list_scope.
Open Scope Z_scope.

(** jwt/_jwt_format.py:26-29 *)
Definition VALID_ALGORITHMS : list pystr :=
  map ulit ["HS256"; "HS384"; "HS512"; "ES256"; "ES384"; "ES512"; "RS256"; "RS384"; "RS512";
            "PS256"; "PS384"; "PS512"]%string.

(** jwt/_jwt_format.py:65-67 *)
Definition validate_algorithm (algorithm : pystr) : result unit :=
  if existsb (str_eqb algorithm) VALID_ALGORITHMS then Ok tt
  else Err (JwtInvalidError "Invalid algorithm").

(** jwt/_jwt_format.py:70-74 encode_header, 84-89 encode_payload *)
Definition encode_text (t : pystr) : result bytes :=
  match utf8_encode t with
  | Some x => Ok (base64_encode x)
  | None => Err (JwtInvalidError "invalid token")
  end.
(** jwt/_jwt_format.py:77-81 decode_header, 92-97 decode_payload *)
Definition decode_text (b : bytes) : result pystr :=
  x <- base64_decode b ;;
  match utf8_decode x with
  | Some t => Ok t
  | None => Err (JwtInvalidError "invalid token")
  end.

(** [if x: header[name] = x] *)
Definition set_if (name : string) (o : option json) (h : list (pystr * json)) :=
  set_opt name (truthy_opt o) h.

(** jwt/_jwt_format.py:110-119 *)
Definition create_header (rt : py_rt) (algorithm : pystr) (type_header : option json)
    (kid : option pystr) : result bytes :=
  _ <- validate_algorithm algorithm ;;
  let h := set_if "kid" (option_map JStr kid) [] in
  let h := dict_set str_eqb (ulit "alg") (JStr algorithm) h in
  let h := set_if "typ" type_header h in
  t <- json_dumps rt (JDict h) ;;
  encode_text t.

(** The ASCII text of bytes; the bytes given are base64url characters. *)
Definition ascii_text (b : bytes) : pystr := map Byte.to_N b.

(** jwt/_jwt_format.py:122-130. [prefix] is the value of the enum OutputPrefixType. *)
Definition get_kid (key_id : Z) (prefix : Z) : result (option pystr) :=
  if prefix =? RAW then Ok None
  else if prefix =? TINK then
    if (key_id <? 0) || (4294967296 <? key_id) then Err (JwtInvalidError "invalid key_id")
    else p <- pack_be32 (Z.to_N key_id) ;; Ok (Some (ascii_text (base64_encode p)))
  else Err (JwtInvalidError "unexpected output prefix type").

(** [encoded.rsplit(b'.', 1)]: the parts before and after the last dot; None if there
    is no dot (unpacking raises ValueError). *)
Definition dot : byte := x2e.
Fixpoint rsplit_dot (b : bytes) : option (bytes * bytes) :=
  match b with
  | [] => None
  | c :: r =>
      match rsplit_dot r with
      | Some (x, y) => Some (c :: x, y)
      | None => if Byte.eqb c dot then Some ([], r) else None
      end
  end.
(** [x.split(b'.')] *)
Fixpoint split_dot (b : bytes) : list bytes :=
  match b with
  | [] => [[]]
  | c :: r =>
      match split_dot r with
      | p :: ps => if Byte.eqb c dot then [] :: p :: ps else (c :: p) :: ps
      | [] => []
      end
  end.

(** jwt/_jwt_format.py:133-162. The argument is a str; anything else raises
    JwtInvalidError (line 145). *)
Definition split_signed_compact (compact : pystr) : result (bytes * pystr * pystr * bytes) :=
  match utf8_encode compact with
  | None => Err (JwtInvalidError "invalid token")
  | Some encoded =>
      match rsplit_dot encoded with
      | None => Err (JwtInvalidError "invalid token")
      | Some (unsigned, encoded_signature) =>
          signature <- base64_decode encoded_signature ;;
          match split_dot unsigned with
          | [encoded_header; encoded_payload] =>
              h <- decode_text encoded_header ;;
              p <- decode_text encoded_payload ;;
              Ok (unsigned, h, p, signature)
          | _ => Err (JwtInvalidError "invalid token")
          end
      end
  end.

(** [str.upper] of one character: exact for ASCII and for the other characters whose
    upper case contains an ASCII character; all others are left unchanged, which
    makes no difference to the comparison with an ASCII text. *)
Definition upper_char (c : N) : pystr :=
  if ((97 <=? c) && (c <=? 122))%N then [(c - 32)%N]
  else
    match dict_get N.eqb c
      [(223, [83; 83]); (305, [73]); (329, [700; 78]); (383, [83]); (496, [74; 780]);
       (7830, [72; 817]); (7831, [84; 776]); (7832, [87; 778]); (7833, [89; 778]);
       (7834, [65; 702]); (64256, [70; 70]); (64257, [70; 73]); (64258, [70; 76]);
       (64259, [70; 70; 73]); (64260, [70; 70; 76]); (64261, [83; 84]); (64262, [83; 84])]%N with
    | Some u => u
    | None => [c]
    end.
Definition upper (x : pystr) : pystr := flat_map upper_char x.

(** jwt/_jwt_format.py:165-191 *)
Definition validate_header (header : json) (algorithm : pystr) (tink_kid custom_kid : option pystr)
  : result unit :=
  _ <- validate_algorithm algorithm ;;
  match header with
  | JDict h =>
      alg <- match payload_get h "alg" with
             | None => Ok []
             | Some (JStr x) => Ok x
             | Some _ => Err AttributeError
             end ;;
      if negb (str_eqb (upper alg) algorithm) then Err (JwtInvalidError "Invalid algorithm")
      else if is_some (payload_get h "crit") then
        Err (JwtInvalidError "all tokens with crit headers are rejected")
      else if is_some tink_kid && is_some custom_kid then
        Err (JwtInvalidError "custom_kid can only be set for RAW keys")
      else
        _ <- match tink_kid with
             | None => Ok tt
             | Some k =>
                 match payload_get h "kid" with
                 | None => Err (JwtInvalidError "missing kid in header")
                 | Some v => if str_is k v then Ok tt else Err (JwtInvalidError "invalid kid header")
                 end
             end ;;
        match custom_kid with
        | None => Ok tt
        | Some k =>
            match payload_get h "kid" with
            | None => Ok tt
            | Some v => if str_is k v then Ok tt else Err (JwtInvalidError "invalid kid header")
            end
        end
  | _ => Err AttributeError
  end.

(** jwt/_jwt_format.py:194-195: [header.get('typ', None)]; a null is None too. *)
Definition get_type_header (header : json) : option json :=
  match header with
  | JDict h => match payload_get h "typ" with Some JNull => None | o => o end
  | _ => None
  end.

(** jwt/_jwt_format.py:198-204 *)
Definition create_unsigned_compact (rt : py_rt) (algorithm : pystr) (kid : option pystr) (r : raw_jwt)
  : result bytes :=
  header <- create_header rt algorithm (rj_type_header r) kid ;;
  t <- json_payload rt r ;;
  p <- encode_text t ;;
  Ok (header ++ dot :: p).

(** jwt/_jwt_format.py:207-208. The bytes are ASCII. *)
Definition create_signed_compact (unsigned signature : bytes) : pystr :=
  ascii_text (unsigned ++ dot :: base64_encode signature).
