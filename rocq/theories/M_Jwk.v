(** jwt/_jwk_set_converter.py *)
From Coq Require Import Strings.Byte Strings.String List NArith ZArith Bool.
From Verif Require Import M_Base M_Proto M_Utf8 M_Wire M_Base64 M_JwtTypes M_Prims M_Registry M_KeysetHandle
  M_KeysetIO M_Json M_JwtKeys M_JwtFormat M_KmsIntegrations.
Import ListNotations.
Open Scope string_scope.
Open Scope list_scope.
Open Scope Z_scope.

(** jwt/_jwk_set_converter.py:35-65: the algorithm tables (proto/jwt_ecdsa.proto,
    jwt_rsa_ssa_pkcs1.proto, jwt_rsa_ssa_pss.proto: 256, 384, 512 are 1, 2, 3). *)
Definition ECDSA_PARAMS : list (Z * (pystr * pystr)) :=
  [(1, (ulit "ES256", ulit "P-256")); (2, (ulit "ES384", ulit "P-384"));
   (3, (ulit "ES512", ulit "P-521"))].
Definition RSA_SSA_PKCS1_PARAMS : list (Z * pystr) :=
  [(1, ulit "RS256"); (2, ulit "RS384"); (3, ulit "RS512")].
Definition RSA_SSA_PSS_PARAMS : list (Z * pystr) :=
  [(1, ulit "PS256"); (2, ulit "PS384"); (3, ulit "PS512")].
Definition ECDSA_NAME_TO_ALGORITHM : list (pystr * Z) :=
  map (fun p => (fst (snd p), fst p)) ECDSA_PARAMS.
Definition RSA_SSA_PKCS1_NAME_TO_ALGORITHM : list (pystr * Z) :=
  map (fun p => (snd p, fst p)) RSA_SSA_PKCS1_PARAMS.
Definition RSA_SSA_PSS_NAME_TO_ALGORITHM : list (pystr * Z) :=
  map (fun p => (snd p, fst p)) RSA_SSA_PSS_PARAMS.

(** :68-69 *)
Definition jwk_base64_encode (data : bytes) : pystr := ascii_text (base64_encode data).
(** :72-73, for any JSON value: only strings have [encode]. *)
Definition jwk_base64_decode (data : json) : result bytes :=
  match data with
  | JStr x =>
      match utf8_encode x with
      | Some e => base64_decode e
      | None => Err UnicodeError
      end
  | _ => Err AttributeError
  end.

(** ** Export *)

(** :146-151, 170-175 and 194-199: the kid *)
Definition with_kid (k : key) (message : jwt_public_key) (output : list (pystr * json))
  : result json :=
  kid <- get_kid (Z.of_N (k_key_id k)) (k_output_prefix_type k) ;;
  match kid with
  | Some (c :: r) => Ok (JDict (output ++ [(ulit "kid", JStr (c :: r))]))
  | _ =>
      match jpk_custom_kid message with
      | Some v => Ok (JDict (output ++ [(ulit "kid", JStr v)]))
      | None => Ok (JDict output)
      end
  end.

(** :132-133, 157-158 and 181-182: [X.FromString(key.key_data.value)] *)
Definition jwt_public_key_from_string (x : bytes) : result jwt_public_key :=
  match parse_jwt_public_key x with Some m => Ok m | None => Err DecodeError end.

(** :129-151 *)
Definition convert_jwt_ecdsa_key (k : key) : result json :=
  message <- jwt_public_key_from_string (kd_value (k_key_data k)) ;;
  match dict_get Z.eqb (jpk_algorithm message) ECDSA_PARAMS with
  | None => Err (TinkError "unknown ecdsa algorithm")
  | Some (alg, crv) =>
      with_kid k message
        [(ulit "kty", JStr (ulit "EC")); (ulit "crv", JStr crv);
         (ulit "x", JStr (jwk_base64_encode (jpk_3 message)));
         (ulit "y", JStr (jwk_base64_encode (jpk_4 message)));
         (ulit "use", JStr (ulit "sig")); (ulit "alg", JStr alg);
         (ulit "key_ops", JList [JStr (ulit "verify")])]
  end.

(** :154-175 and :178-199: the same with other tables. *)
Definition convert_jwt_rsa_key (params : list (Z * pystr)) (k : key) : result json :=
  message <- jwt_public_key_from_string (kd_value (k_key_data k)) ;;
  match dict_get Z.eqb (jpk_algorithm message) params with
  | None => Err (TinkError "unknown RSA SSA algorithm")
  | Some alg =>
      with_kid k message
        [(ulit "kty", JStr (ulit "RSA"));
         (ulit "n", JStr (jwk_base64_encode (jpk_3 message)));
         (ulit "e", JStr (jwk_base64_encode (jpk_4 message)));
         (ulit "use", JStr (ulit "sig")); (ulit "alg", JStr alg);
         (ulit "key_ops", JList [JStr (ulit "verify")])]
  end.

(** :104-118: the body of the loop; None for the keys that are skipped. *)
Definition convert_key (k : key) : result (option json) :=
  if negb (k_status k =? ENABLED) then Ok None
  else if negb (kd_key_material_type (k_key_data k) =? ASYMMETRIC_PUBLIC) then
    Err (TinkError "wrong key material type")
  else if negb ((k_output_prefix_type k =? RAW) || (k_output_prefix_type k =? TINK)) then
    Err (TinkError "unsupported output prefix type")
  else
    let url := kd_type_url (k_key_data k) in
    if str_eqb url JWT_ECDSA_PUBLIC_KEY_TYPE then j <- convert_jwt_ecdsa_key k ;; Ok (Some j)
    else if str_eqb url JWT_RSA_SSA_PKCS1_PUBLIC_KEY_TYPE then
      j <- convert_jwt_rsa_key RSA_SSA_PKCS1_PARAMS k ;; Ok (Some j)
    else if str_eqb url JWT_RSA_SSA_PSS_PUBLIC_KEY_TYPE then
      j <- convert_jwt_rsa_key RSA_SSA_PSS_PARAMS k ;; Ok (Some j)
    else Err (TinkError "unknown key type").
Fixpoint convert_keys (l : list key) : result (list json) :=
  match l with
  | [] => Ok []
  | k :: r =>
      o <- convert_key k ;;
      js <- convert_keys r ;;
      Ok (match o with Some j => j :: js | None => js end)
  end.

(** :76-119 from_public_keyset_handle; from_keyset_handle (:123-126) is the same function. *)
Definition from_public_keyset_handle (rt : py_rt) (h : keyset_handle) : result pystr :=
  serialization <- proto_serialize_without_secret h ;;
  ks <- keyset_from_string serialization ;;
  keys <- convert_keys (ks_key ks) ;;
  json_dumps rt (JDict [(ulit "keys", JList keys)]).

(** ** Import *)

Fixpoint contains (x s : pystr) : bool :=
  startswith s x || match s with [] => false | _ :: r => contains x r end.

(** Python's [name in v], [v[name]] and iteration for the values of json.loads. *)
Definition py_in (name : pystr) (v : json) : result bool :=
  match v with
  | JDict l => Ok (existsb (fun kv => str_eqb name (fst kv)) l)
  | JList l => Ok (existsb (fun i => match i with JStr x => str_eqb name x | _ => false end) l)
  | JStr x => Ok (contains name x)
  | _ => Err (TypeError "argument is not iterable")
  end.
Definition py_getitem (v : json) (name : pystr) : result json :=
  match v with
  | JDict l => match dict_get str_eqb name l with Some w => Ok w | None => Err KeyError end
  | _ => Err (TypeError "not subscriptable by a string")
  end.
Definition py_iter (v : json) : result (list json) :=
  match v with
  | JList l => Ok l
  | JDict l => Ok (map (fun kv => JStr (fst kv)) l)
  | JStr x => Ok (map (fun c => JStr [c]) x)
  | _ => Err (TypeError "object is not iterable")
  end.
(** [v == x] for a str x *)
Definition is_str (x : pystr) (v : json) : bool :=
  match v with JStr y => str_eqb y x | _ => false end.
(** [key.get(name, None) == x] *)
Definition get_is (l : list (pystr * json)) (name : string) (x : pystr) : bool :=
  match dict_get str_eqb (ulit name) l with Some v => is_str x v | None => false end.
Definition has (l : list (pystr * json)) (name : string) : bool :=
  existsb (fun kv => str_eqb (ulit name) (fst kv)) l.

(** :267-274 *)
Definition validate_use_and_key_ops (l : list (pystr * json)) : result unit :=
  _ <- match dict_get str_eqb (ulit "key_ops") l with
       | None => Ok tt
       | Some (JList [v]) =>
           if is_str (ulit "verify") v then Ok tt else Err (TinkError "invalid key_ops")
       | Some (JList _) | Some (JStr _) => Err (TinkError "invalid key_ops")
       | Some (JDict [_]) => Err KeyError
       | Some (JDict _) => Err (TinkError "invalid key_ops")
       | Some _ => Err (TypeError "object has no len()")
       end ;;
  if has l "use" && negb (get_is l "use" (ulit "sig")) then Err (TinkError "invalid use") else Ok tt.

(** :295-296, 322-323, 349-350: assignment to the string field custom_kid.value, if
    'kid' is there. *)
Definition jwk_custom_kid (l : list (pystr * json)) : result (option pystr) :=
  match dict_get str_eqb (ulit "kid") l with
  | None => Ok None
  | Some (JStr x) => match utf8_encode x with Some _ => Ok (Some x) | None => Err UnicodeError end
  | Some _ => Err (TypeError "not a string")
  end.

(** :297-303, 324-330, 351-357: the key is RAW, ENABLED and public; its id
    is set later. *)
Definition public_proto_key (url : pystr) (message : jwt_public_key) : key :=
  mk_key (Some (mk_key_data url (serialize_jwt_public_key message) ASYMMETRIC_PUBLIC)) ENABLED 0 RAW.

(** :277-303. [alg] is key['alg'], a string here. *)
Definition convert_to_ecdsa_key (alg : pystr) (l : list (pystr * json)) : result key :=
  match dict_get str_eqb alg ECDSA_NAME_TO_ALGORITHM with
  | None => Err (TinkError "unknown ECDSA algorithm")
  | Some algorithm =>
      if negb (get_is l "kty" (ulit "EC")) then Err (TinkError "invalid kty") else
      match dict_get Z.eqb algorithm ECDSA_PARAMS with
      | None => Err KeyError
      | Some (_, crv) =>
          if negb (get_is l "crv" crv) then Err (TinkError "invalid crv") else
          _ <- validate_use_and_key_ops l ;;
          if has l "d" then Err (TinkError "cannot convert private ECDSA key") else
          vx <- py_getitem (JDict l) (ulit "x") ;; x <- jwk_base64_decode vx ;;
          vy <- py_getitem (JDict l) (ulit "y") ;; y <- jwk_base64_decode vy ;;
          kid <- jwk_custom_kid l ;;
          Ok (public_proto_key JWT_ECDSA_PUBLIC_KEY_TYPE (mk_jwt_public_key 0 algorithm x y kid))
      end
  end.

(** :306-330 and :333-357: the same with other tables and type url. *)
Definition convert_to_rsa_key (table : list (pystr * Z)) (url : pystr) (alg : pystr)
    (l : list (pystr * json)) : result key :=
  match dict_get str_eqb alg table with
  | None => Err (TinkError "unknown RSA SSA algorithm")
  | Some algorithm =>
      if negb (get_is l "kty" (ulit "RSA")) then Err (TinkError "invalid kty") else
      _ <- validate_use_and_key_ops l ;;
      if has l "p" || has l "q" || has l "dp" || has l "dq" || has l "d" || has l "qi" then
        Err (TinkError "importing RSA private keys is not implemented")
      else
        vn <- py_getitem (JDict l) (ulit "n") ;; n <- jwk_base64_decode vn ;;
        ve <- py_getitem (JDict l) (ulit "e") ;; e <- jwk_base64_decode ve ;;
        kid <- jwk_custom_kid l ;;
        Ok (public_proto_key url (mk_jwt_public_key 0 algorithm n e kid))
  end.

(** :236-246: one item of 'keys' *)
Definition jwk_to_key (v : json) : result key :=
  b <- py_in (ulit "alg") v ;;
  if negb b then Err (TinkError "invalid JWK: alg not found")
  else
    a <- py_getitem v (ulit "alg") ;;
    match a, v with
    | JStr alg, JDict l =>
        if startswith alg (ulit "ES") then convert_to_ecdsa_key alg l
        else if startswith alg (ulit "RS") then
          convert_to_rsa_key RSA_SSA_PKCS1_NAME_TO_ALGORITHM JWT_RSA_SSA_PKCS1_PUBLIC_KEY_TYPE alg l
        else if startswith alg (ulit "PS") then
          convert_to_rsa_key RSA_SSA_PSS_NAME_TO_ALGORITHM JWT_RSA_SSA_PSS_PUBLIC_KEY_TYPE alg l
        else Err (TinkError "unknown alg")
    | _, _ => Err AttributeError
    end.

(** :234-253: the loop. [draws] are the random choices of the calls of
    _generate_unused_key_id (:202-206, the same as in _keyset_handle.py); None when one of
    them needs more. *)
Fixpoint import_keys (draws : list (list N)) (keys : list json) (ks : keyset) {struct keys}
  : option (result keyset) :=
  match keys with
  | [] => Some (Ok ks)
  | v :: r =>
      match jwk_to_key v with
      | Err e => Some (Err e)
      | Ok k =>
          match draws with
          | [] => None
          | d :: ds =>
              match generate_unused_key_id d ks with
              | None => None
              | Some new_id =>
                  import_keys ds r
                    (mk_keyset new_id
                       (ks_key ks ++ [mk_key (k_key_data_opt k) (k_status k) new_id
                                        (k_output_prefix_type k)]))
              end
          end
      end
  end.

(** :228-235: the items of 'keys' *)
Definition jwk_set_keys (rt : py_rt) (jwk_set : pystr) : result (list json) :=
  keys_dict <- match json_loads_plain rt jwk_set with
               | Err JSONDecodeError => Err (TinkError "error parsing JWK set")
               | r => r
               end ;;
  b <- py_in (ulit "keys") keys_dict ;;
  if negb b then Err (TinkError "invalid JWK set: keys not found")
  else v <- py_getitem keys_dict (ulit "keys") ;; py_iter v.
(** :209-256 to_public_keyset_handle; to_keyset_handle (:260-264) is the same function. *)
Definition to_public_keyset_handle (rt : py_rt) (draws : list (list N)) (jwk_set : pystr)
  : option (result keyset_handle) :=
  match jwk_set_keys rt jwk_set with
  | Err e => Some (Err e)
  | Ok keys =>
      match import_keys draws keys (mk_keyset 0 []) with
      | None => None
      | Some (Err e) => Some (Err e)
      | Some (Ok ks) => Some (proto_parse_without_secret (serialize_keyset ks))
      end
  end.
