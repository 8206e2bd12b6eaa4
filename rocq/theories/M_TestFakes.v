(** testing/helper.py and testing/bytes_io.py *)
From Coq Require Import Strings.Byte Strings.String List NArith ZArith Bool.
From Verif Require Import M_Base M_Utf8 M_Proto M_Prims.
Import ListNotations.
Open Scope string_scope.
Open Scope list_scope.

Definition bar : byte := x7c.

(** [x.split(b'|')]: always at least one part. *)
Fixpoint split_bar (x : bytes) : list bytes :=
  match x with
  | [] => [[]]
  | c :: r =>
      match split_bar r with
      | [] => [[c]]
      | p :: ps => if Byte.eqb c bar then [] :: p :: ps else (c :: p) :: ps
      end
  end.

(** [self._name.encode()]; UnicodeEncodeError is [UnicodeError] *)
Definition encode_name (name : pystr) : result bytes :=
  match utf8_encode name with Some n => Ok n | None => Err UnicodeError end.
(** [raise core.TinkError('...' + x.decode())]; the message needs x to be UTF-8 *)
Definition raise_with {A} (what : string) (x : bytes) : result A :=
  match utf8_decode x with Some _ => Err (TinkError what) | None => Err UnicodeError end.

(** testing/helper.py:54-71 fake_key; the arguments have defaults (b'fakevalue', 'fakeurl',
    SYMMETRIC, 1234, ENABLED, TINK) *)
Definition fake_key (value : bytes) (type_url : pystr) (key_material_type : Z) (key_id : N)
    (status output_prefix_type : Z) : key :=
  mk_key (Some (mk_key_data type_url value key_material_type)) status key_id output_prefix_type.

(** testing/helper.py:74-85 *)
Definition FakeMac (name : pystr) : mac :=
  mk_mac
    (fun data => n <- encode_name name ;; Ok (data ++ [bar] ++ n))
    (fun mac_value data =>
       n <- encode_name name ;;
       if negb (bytes_eqb mac_value (data ++ [bar] ++ n)) then raise_with "invalid mac " mac_value else Ok tt).

(** The encryption of the fakes: helper.py:94-95, 112-114, 149-150 *)
Definition fake_encrypt (name : pystr) (plaintext associated_data : bytes) : result bytes :=
  n <- encode_name name ;; Ok (plaintext ++ [bar] ++ associated_data ++ [bar] ++ n).
(** and the decryption: helper.py:97-103, 116-124, 133-140. [or] stops at the first true
    operand. *)
Definition fake_decrypt (name : pystr) (ciphertext associated_data : bytes) : result bytes :=
  match split_bar ciphertext with
  | d0 :: d1 :: d2 :: _ =>
      if negb (bytes_eqb d1 associated_data) then raise_with "failed to decrypt ciphertext " ciphertext
      else
        n <- encode_name name ;;
        if negb (bytes_eqb d2 n) then raise_with "failed to decrypt ciphertext " ciphertext else Ok d0
  | _ => raise_with "failed to decrypt ciphertext " ciphertext
  end.

(** testing/helper.py:88-103 *)
Definition FakeAead (name : pystr) : aead := mk_aead (fun _ => fake_encrypt name) (fake_decrypt name).
(** testing/helper.py:106-124 *)
Definition FakeDeterministicAead (name : pystr) : daead := mk_daead (fake_encrypt name) (fake_decrypt name).
(** testing/helper.py:127-140 *)
Definition FakeHybridDecrypt (name : pystr) : hybrid_decrypt := mk_hybrid_decrypt (fake_decrypt name).
(** testing/helper.py:143-150 *)
Definition FakeHybridEncrypt (name : pystr) : hybrid_encrypt := mk_hybrid_encrypt (fun _ => fake_encrypt name).

(** testing/helper.py:153-160 *)
Definition FakePublicKeySign (name : pystr) : signer :=
  mk_signer (fun _ data => n <- encode_name name ;; Ok (data ++ [bar] ++ n)).
(** testing/helper.py:163-171 *)
Definition FakePublicKeyVerify (name : pystr) : verifier :=
  mk_verifier (fun signature data =>
    n <- encode_name name ;;
    if negb (bytes_eqb signature (data ++ [bar] ++ n)) then raise_with "invalid signature " signature else Ok tt).

(** [x[:n]] *)
Definition slice_to (x : bytes) (n : Z) : bytes :=
  if (n <? 0)%Z then firstn (Z.to_nat (Z.of_nat (length x) + n)) x else firstn (Z.to_nat n) x.

(** testing/helper.py:174-186 *)
Definition FakePrf (name : pystr) : prf :=
  mk_prf (fun input_data output_length =>
    if (32 <? output_length)%Z then Err (TinkError "invalid output_length")
    else
      n <- encode_name name ;;
      Ok (slice_to (input_data ++ [bar] ++ n ++ [bar] ++ repeat x2a (Z.to_nat output_length)) output_length)).

(** testing/helper.py:189-202 *)
Definition fake_prf_set_primary_id : N := 0.
Definition fake_prf_set_all (name : pystr) : list (N * prf) := [(0%N, FakePrf name)].
Definition fake_prf_set_primary (name : pystr) : prf := FakePrf name.

(** testing/helper.py:32-51. [environ]: os.environ; [join]: os.path.join; [exists_]:
    os.path.exists. FileNotFoundError is [OtherError 2]. *)
Definition tink_py_testdata_path (environ : pystr -> option pystr) (join : pystr -> pystr -> pystr)
    (exists_ : pystr -> bool) : result pystr :=
  let testdata_paths :=
    (match environ (ulit "TINK_PYTHON_ROOT_PATH") with Some p => [join p (ulit "testdata")] | None => [] end) ++
    (match environ (ulit "TEST_SRCDIR") with Some p => [join p (ulit "tink_py/testdata")] | None => [] end) in
  match testdata_paths with
  | testdata_path :: _ => if negb (exists_ testdata_path) then Err (OtherError 2) else Ok testdata_path
  | [] => Err (ValueError "No path environment variable set")
  end.

(** ** io.BytesIO: models the Python library *)
Record bytes_io := mk_bytes_io { bio_buf : bytes; bio_pos : nat; bio_closed : bool }.
Definition closed_error : exn := ValueError "I/O operation on closed file.".
Definition bio_new (initial_bytes : bytes) : bytes_io := mk_bytes_io initial_bytes 0 false.
Definition bio_getvalue (b : bytes_io) : result bytes :=
  if bio_closed b then Err closed_error else Ok (bio_buf b).
(** write: at the position, which may be behind the end *)
Definition bio_write (b : bytes_io) (x : bytes) : result N * bytes_io :=
  if bio_closed b then (Err closed_error, b)
  else match x with
       | [] => (Ok 0%N, b)
       | _ =>
           let p := bio_pos b in
           let before := firstn p (bio_buf b ++ repeat x00 (p - length (bio_buf b))) in
           (Ok (N.of_nat (length x)),
            mk_bytes_io (before ++ x ++ skipn (p + length x) (bio_buf b)) (p + length x) false)
       end.
(** read: [None] and negative sizes read everything *)
Definition bio_read (b : bytes_io) (size : option Z) : result bytes * bytes_io :=
  if bio_closed b then (Err closed_error, b)
  else
    let rest := skipn (bio_pos b) (bio_buf b) in
    let n := match size with Some z => if (z <? 0)%Z then length rest else Z.to_nat z | None => length rest end in
    (Ok (firstn n rest), mk_bytes_io (bio_buf b) (bio_pos b + length (firstn n rest)) false).
(** seek(pos) from the start. Simplification: no other [whence]. *)
Definition bio_seek (b : bytes_io) (pos : Z) : result Z * bytes_io :=
  if bio_closed b then (Err closed_error, b)
  else if (pos <? 0)%Z then (Err (ValueError "negative seek value"), b)
  else (Ok pos, mk_bytes_io (bio_buf b) (Z.to_nat pos) false).

(** ** testing/bytes_io.py:28-46 BytesIOWithValueAfterClose *)
Record value_io := mk_value_io { vio_io : bytes_io; vio_value_after_close : option bytes }.

(** bytes_io.py:31-36. [if initial_bytes]: None and b'' are the same. *)
Definition vio_new (initial_bytes : option bytes) : value_io :=
  mk_value_io (bio_new (match initial_bytes with Some x => x | None => [] end)) None.

(** bytes_io.py:38-41 *)
Definition vio_close (v : value_io) : value_io :=
  mk_value_io (mk_bytes_io (bio_buf (vio_io v)) (bio_pos (vio_io v)) true)
    (if bio_closed (vio_io v) then vio_value_after_close v else Some (bio_buf (vio_io v))).

(** bytes_io.py:43-46 *)
Definition vio_value (v : value_io) : result bytes :=
  if negb (bio_closed (vio_io v)) then Err (ValueError "call to value_after_close before close()")
  else match vio_value_after_close v with Some x => Ok x | None => Err AttributeError end.

(** Calls of such an object. *)
Inductive vio_call := VWrite (x : bytes) | VRead (size : option Z) | VSeek (pos : Z) | VClose.
Definition vio_step (v : value_io) (c : vio_call) : value_io :=
  match c with
  | VWrite x => mk_value_io (snd (bio_write (vio_io v) x)) (vio_value_after_close v)
  | VRead n => mk_value_io (snd (bio_read (vio_io v) n)) (vio_value_after_close v)
  | VSeek p => mk_value_io (snd (bio_seek (vio_io v) p)) (vio_value_after_close v)
  | VClose => vio_close v
  end.
Definition vio_run (v : value_io) (l : list vio_call) : value_io := fold_left vio_step l v.

(** ** testing/bytes_io.py:49-76 SlowBytesIO *)
Record slow_io := mk_slow_io { sio_io : bytes_io; sio_seekable : bool; sio_state : Z }.

(** bytes_io.py:52-55 *)
Definition sio_new (data : bytes) (seekable : bool) : slow_io := mk_slow_io (bio_new data) seekable (-1).

(** bytes_io.py:57-68. AssertionError is [OtherError 1]. *)
Definition sio_read (s : slow_io) (size : option Z) : result bytes * slow_io :=
  match size with
  | Some z =>
      if (0 <? z)%Z then
        let state := (sio_state s + 1)%Z in
        let s1 := mk_slow_io (sio_io s) (sio_seekable s) state in
        if (10000000 <? state)%Z then (Err (OtherError 1), s1)
        else if (state mod 3 =? 0)%Z then (Err (BlockingIOError 0), s1)
        else let (r, io) := bio_read (sio_io s) (Some (Z.min z 5)) in (r, mk_slow_io io (sio_seekable s) state)
      else let (r, io) := bio_read (sio_io s) size in (r, mk_slow_io io (sio_seekable s) (sio_state s))
  | None => let (r, io) := bio_read (sio_io s) size in (r, mk_slow_io io (sio_seekable s) (sio_state s))
  end.

(** bytes_io.py:70-73 *)
Definition sio_seek (s : slow_io) (pos : Z) : result Z * slow_io :=
  if sio_seekable s then
    let (r, io) := bio_seek (sio_io s) pos in (r, mk_slow_io io (sio_seekable s) (sio_state s))
  else (Err UnsupportedOperation, s).

(** Reads in sequence, with what they return. *)
Fixpoint sio_reads (s : slow_io) (sizes : list (option Z)) : list (result bytes) * slow_io :=
  match sizes with
  | [] => ([], s)
  | n :: l => let (r, s1) := sio_read s n in let (rs, s2) := sio_reads s1 l in (r :: rs, s2)
  end.

(** ** testing/bytes_io.py:79-111 SlowReadableRawBytes *)
Record slow_raw := mk_slow_raw { sr_io : bytes_io; sr_state : Z }.
Definition sr_new (data : bytes) : slow_raw := mk_slow_raw (bio_new data) (-1).

(** bytes_io.py:88-100 readinto(b) with a bytearray [b]: the slice assignment makes a
    shorter [b] longer. None: no data yet. The new content of [b] is returned too. *)
Definition sr_readinto (s : slow_raw) (b : bytes) : result (option N * bytes) * slow_raw :=
  let state := (sr_state s + 1)%Z in
  if (10000000 <? state)%Z then (Err (OtherError 1), mk_slow_raw (sr_io s) state)
  else if (state mod 3 =? 0)%Z then (Ok (None, b), mk_slow_raw (sr_io s) state)
  else
    match bio_read (sr_io s) (Some 5%Z) with
    | (Ok q, io) => (Ok (Some (N.of_nat (length q)), q ++ skipn (length q) b), mk_slow_raw io state)
    | (Err e, io) => (Err e, mk_slow_raw io state)
    end.
(** io.RawIOBase.read(size) for size >= 0: readinto a bytearray of [size] bytes, of which
    as many as it says are returned *)
Definition sr_read (s : slow_raw) (size : nat) : result (option bytes) * slow_raw :=
  match sr_readinto s (repeat x00 size) with
  | (Ok (Some n, b), s1) => (Ok (Some (firstn (N.to_nat n) b)), s1)
  | (Ok (None, _), s1) => (Ok None, s1)
  | (Err e, s1) => (Err e, s1)
  end.
Fixpoint sr_reads (s : slow_raw) (sizes : list nat) : list (result (option bytes)) * slow_raw :=
  match sizes with
  | [] => ([], s)
  | n :: l => let (r, s1) := sr_read s n in let (rs, s2) := sr_reads s1 l in (r :: rs, s2)
  end.
