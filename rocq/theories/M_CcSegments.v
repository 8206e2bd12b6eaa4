(** The streams of Tink's C++ streaming AEADs, which work on segments:
    /repo/cc/subtle/streaming_aead_encrypting_stream.cc,
    streaming_aead_decrypting_stream.cc, nonce_based_streaming_aead.cc,
    stream_segment_encrypter.h, stream_segment_decrypter.h.

    Not modelled: position_ (nobody reads it here), null pointers, and int overflow of
    sizes. *)
From Coq Require Import Strings.Byte Strings.String List NArith ZArith Bool.
From Verif Require Import M_Base M_StreamTypes M_CcStream.
Import ListNotations.
Open Scope string_scope.
Open Scope list_scope.

(** ** Segments *)

(** stream_segment_encrypter.h:65-106. EncryptSegment gets the current segment number; the
    class itself counts the segments, here the stream does (eg_number below). *)
Record segment_encrypter := mk_segment_encrypter {
  se_header : bytes;
  se_plaintext_segment_size : nat;
  se_ciphertext_offset : nat;
  se_encrypt : N -> bool -> bytes -> st_or bytes }.
(** stream_segment_decrypter.h:38-76. Init yields DecryptSegment. *)
Record segment_decrypter := mk_segment_decrypter {
  sd_header_size : nat;
  sd_ciphertext_segment_size : nat;
  sd_ciphertext_offset : nat;
  sd_init : bytes -> st_or (N -> bool -> bytes -> st_or bytes) }.

(** std::vector::resize *)
Definition resize (n : nat) (b : bytes) : bytes := firstn n b ++ repeat x00 (n - length b).

(** ** streaming_aead_encrypting_stream.cc *)

(** lines 47-67 WriteToStream, for [n] passes of the loop; [extra] is what the last Next
    made available beyond what was needed. *)
Fixpoint write_to_stream (n : nat) (remaining : bytes) (extra : nat) : oio (st_or unit) :=
  match remaining with
  | [] => if Nat.ltb 0 extra then OBackUp (Z.of_nat extra) (ORet (StOk tt)) else ORet (StOk tt)
  | _ :: _ =>
      match n with
      | O => ONever
      | Datatypes.S n' =>
          ONext (fun next_result =>
            match next_result with
            | StErr s => ORet (StErr s)
            | StOk available_space =>
                let available_bytes := Nat.min available_space (length remaining) in
                OStore 0 (firstn available_bytes remaining)
                  (write_to_stream n' (skipn available_bytes remaining) (available_space - available_bytes))
            end)
      end
  end.

(** The fields of StreamingAeadEncryptingStream, and the segment number of its segment
    encrypter. *)
Record enc_segments := mk_enc_segments {
  eg_pt_buffer : bytes;
  eg_pt_to_encrypt : bytes;
  eg_is_first : bool;
  eg_count_backedup : nat;
  eg_offset : nat;
  eg_number : N;
  eg_status : option cc_status }.

Definition eg_fail (st : enc_segments) (s : cc_status) : enc_segments :=
  mk_enc_segments (eg_pt_buffer st) (eg_pt_to_encrypt st) (eg_is_first st) (eg_count_backedup st)
    (eg_offset st) (eg_number st) (Some s).
Definition eg_started (st : enc_segments) : enc_segments :=
  mk_enc_segments (eg_pt_buffer st) (eg_pt_to_encrypt st) false 0 (eg_offset st) (eg_number st) (eg_status st).
Definition eg_counted (st : enc_segments) : enc_segments :=
  mk_enc_segments (eg_pt_buffer st) (eg_pt_to_encrypt st) (eg_is_first st) (eg_count_backedup st)
    (eg_offset st) (eg_number st + 1)%N (eg_status st).

(** EncryptSegment and WriteToStream, as in lines 140-144, 180-192 and 196-206. *)
Definition eg_write_segment (n : nat) (se : segment_encrypter) (st : enc_segments) (segment : bytes) (is_last : bool)
  : oio (st_or unit * enc_segments) :=
  match se_encrypt se (eg_number st) is_last segment with
  | StErr s => ORet (StErr s, eg_fail st s)
  | StOk ct =>
      oio_bind (write_to_stream n ct 0) (fun r =>
        match r with
        | StErr s => ORet (StErr s, eg_fail (eg_counted st) s)
        | StOk _ => ORet (StOk tt, eg_counted st)
        end)
  end.

(** lines 145-153 *)
Definition eg_fresh (se : segment_encrypter) (st : enc_segments) : st_or nat * enc_segments :=
  let pt_buffer := resize (se_plaintext_segment_size se) (eg_pt_to_encrypt st) in
  (StOk (length pt_buffer),
   mk_enc_segments pt_buffer (eg_pt_buffer st) (eg_is_first st) (eg_count_backedup st) 0 (eg_number st) (eg_status st)).
(** lines 106-154 Next *)
Definition eg_next (n : nat) (se : segment_encrypter) (st : enc_segments) : oio (st_or nat * enc_segments) :=
  match eg_status st with
  | Some s => ORet (StErr s, st)
  | None =>
      if eg_is_first st then
        oio_bind (write_to_stream n (se_header se) 0) (fun r =>
          match r with
          | StErr s => ORet (StErr s, eg_fail (eg_started st) s)
          | StOk _ => ORet (StOk (length (eg_pt_buffer st)), eg_started st)
          end)
      else if Nat.ltb 0 (eg_count_backedup st) then
        ORet (StOk (eg_count_backedup st),
              mk_enc_segments (eg_pt_buffer st) (eg_pt_to_encrypt st) false 0
                (length (eg_pt_buffer st) - eg_count_backedup st) (eg_number st) None)
      else
        match eg_pt_to_encrypt st with
        | [] => ORet (eg_fresh se st)
        | _ :: _ =>
            oio_bind (eg_write_segment n se st (eg_pt_to_encrypt st) false) (fun x =>
              match fst x with
              | StErr s => ORet (StErr s, snd x)
              | StOk _ => ORet (eg_fresh se (snd x))
              end)
        end
  end.
(** What the user stores behind the address that Next returned. A store outside of the
    space that is available is undefined in C++; here it is ignored. *)
Definition eg_store (st : enc_segments) (i : nat) (data : bytes) : enc_segments :=
  let at_ := (eg_offset st + i)%nat in
  if Nat.leb (at_ + length data) (length (eg_pt_buffer st) - eg_count_backedup st) then
    mk_enc_segments (firstn at_ (eg_pt_buffer st) ++ data ++ skipn (at_ + length data) (eg_pt_buffer st))
      (eg_pt_to_encrypt st) (eg_is_first st) (eg_count_backedup st) (eg_offset st) (eg_number st) (eg_status st)
  else st.
(** lines 156-162 BackUp *)
Definition eg_back_up (st : enc_segments) (count : Z) : enc_segments :=
  if (eg_is_first st || match eg_status st with Some _ => true | None => false end || (count <? 1)%Z)%bool then st
  else
    let curr_buffer_size := (length (eg_pt_buffer st) - eg_offset st)%nat in
    let actual_count := Nat.min (Z.to_nat count) (curr_buffer_size - eg_count_backedup st) in
    mk_enc_segments (eg_pt_buffer st) (eg_pt_to_encrypt st) (eg_is_first st) (eg_count_backedup st + actual_count)
      (eg_offset st) (eg_number st) (eg_status st).

(** [status_ = ...; if (!status_.ok()) { ct_destination_->Close().IgnoreError(); return
    status_; }] *)
Definition eg_or_close {A} (x : st_or unit * enc_segments) (k : enc_segments -> oio (st_or A * enc_segments))
  : oio (st_or A * enc_segments) :=
  match fst x with
  | StErr s => OClose (fun _ => ORet (StErr s, snd x))
  | StOk _ => k (snd x)
  end.
(** lines 171-208, after the header has been written *)
Definition eg_finish (n : nat) (se : segment_encrypter) (st : enc_segments) : oio (st_or unit * enc_segments) :=
  let in_buffer := firstn (length (eg_pt_buffer st) - eg_count_backedup st) (eg_pt_buffer st) in
  let last st segment :=
    oio_bind (eg_write_segment n se st segment true) (fun x =>
      eg_or_close x (fun st' => OClose (fun r => ORet (r, eg_fail st' (NotOk "Stream closed"))))) in
  if Nat.ltb (eg_count_backedup st) (length (eg_pt_buffer st)) then
    match eg_pt_to_encrypt st with
    | [] => last st in_buffer
    | _ :: _ =>
        oio_bind (eg_write_segment n se st (eg_pt_to_encrypt st) false) (fun x =>
          eg_or_close x (fun st' => last st' in_buffer))
    end
  else last st (eg_pt_to_encrypt st).
(** lines 164-209 Close *)
Definition eg_close (n : nat) (se : segment_encrypter) (st : enc_segments) : oio (st_or unit * enc_segments) :=
  match eg_status st with
  | Some s => ORet (StErr s, st)
  | None =>
      if eg_is_first st then
        oio_bind (write_to_stream n (se_header se) 0) (fun r =>
          match r with
          | StErr s => ORet (StErr s, eg_fail st s)
          | StOk _ => eg_finish n se st
          end)
      else eg_finish n se st
  end.

(** lines 72-104 New. The buffer has the size of the first segment, the header and the
    offset taken off. *)
Definition first_segment_size (se : segment_encrypter) : nat :=
  se_plaintext_segment_size se - se_ciphertext_offset se - length (se_header se).
Definition segment_encrypting_stream (n : nat) (se : segment_encrypter) : cc_enc_stream :=
  let first := first_segment_size se in
  mk_cc_enc_stream enc_segments (mk_enc_segments (resize first []) [] true first 0 0 None)
    (eg_next n se) (fun st i d => ORet (eg_store st i d)) (fun st c => ORet (eg_back_up st c)) (eg_close n se).
Definition new_segment_encrypting_stream (n : nat) (se : segment_encrypter) : st_or cc_enc_stream :=
  if Nat.eqb (first_segment_size se) 0 then StErr (NotOk "Size of the first segment must be greater than 0.")
  else StOk (segment_encrypting_stream n se).

(** ** streaming_aead_decrypting_stream.cc *)

(** lines 52-79 ReadFromStream, for [n] passes of the loop: the status, and the output,
    which matters only if the status is OK or OUT_OF_RANGE. *)
Fixpoint read_loop (n : nat) (bytes_to_be_read : nat) (output : bytes) (extra : nat) : iio (st_or unit * bytes) :=
  match bytes_to_be_read with
  | O => if Nat.ltb 0 extra then IBackUp (Z.of_nat extra) (IRet (StOk tt, output)) else IRet (StOk tt, output)
  | Datatypes.S _ =>
      match n with
      | O => INever
      | Datatypes.S n' =>
          INext (fun next_result =>
            match next_result with
            | StErr s => IRet (StErr s, output)
            | StOk buffer =>
                let needed_bytes := Nat.min (length buffer) bytes_to_be_read in
                read_loop n' (bytes_to_be_read - needed_bytes) (output ++ firstn needed_bytes buffer)
                  (length buffer - needed_bytes)
            end)
      end
  end.
Definition read_from_stream (n : nat) (count : nat) : iio (st_or unit * bytes) :=
  if Nat.eqb count 0 then IRet (StErr (NotOk "Illegal read from a stream"), [])
  else read_loop n count [] 0.

(** The fields of StreamingAeadDecryptingStream. ct_buffer_ matters only by its size;
    dg_decrypt is DecryptSegment once Init has succeeded. *)
Record dec_segments := mk_dec_segments {
  dg_ct_size : nat;
  dg_pt_buffer : bytes;
  dg_count_backedup : nat;
  dg_offset : nat;
  dg_number : N;
  dg_decrypt : option (N -> bool -> bytes -> st_or bytes);
  dg_read_last : bool;
  dg_status : option cc_status }.

Definition dg_fail (st : dec_segments) (s : cc_status) : dec_segments :=
  mk_dec_segments (dg_ct_size st) (dg_pt_buffer st) (dg_count_backedup st) (dg_offset st) (dg_number st)
    (dg_decrypt st) (dg_read_last st) (Some s).
(** lines 139-160 and 182-202: a segment that was read with status [status] *)
Definition dg_segment (st : dec_segments) (decrypt : N -> bool -> bytes -> st_or bytes) (x : st_or unit * bytes)
  : st_or bytes * dec_segments :=
  let set pt read_last :=
    mk_dec_segments (dg_ct_size st) pt (dg_count_backedup st) 0 (dg_number st) (dg_decrypt st) read_last None in
  let as_last :=
    match decrypt (dg_number st) true (snd x) with
    | StOk pt => (StOk pt, set pt true)
    | StErr s => (StErr s, dg_fail st s)
    end in
  match fst x with
  | StErr OutOfRange => as_last
  | StErr s => (StErr s, dg_fail st s)
  | StOk _ =>
      match decrypt (dg_number st) false (snd x) with
      | StOk pt => (StOk pt, set pt false)
      | StErr _ => as_last
      end
  end.
(** lines 118-202 Next; it returns the bytes at the returned address. *)
Definition dg_next (n : nat) (sd : segment_decrypter) (st : dec_segments) : iio (st_or bytes * dec_segments) :=
  match dg_status st with
  | Some s => IRet (StErr s, st)
  | None =>
      match dg_decrypt st with
      | None =>
          iio_bind (read_from_stream n (sd_header_size sd)) (fun x =>
            match fst x with
            | StErr OutOfRange =>
                IRet (StErr (NotOk "Could not read stream header."), dg_fail st (NotOk "Could not read stream header."))
            | StErr s => IRet (StErr s, dg_fail st s)
            | StOk _ =>
                match sd_init sd (snd x) with
                | StErr s => IRet (StErr s, dg_fail st s)
                | StOk decrypt =>
                    let st' := mk_dec_segments (dg_ct_size st) (dg_pt_buffer st) 0 (dg_offset st) (dg_number st)
                                 (Some decrypt) (dg_read_last st) None in
                    iio_bind (read_from_stream n (dg_ct_size st)) (fun y => IRet (dg_segment st' decrypt y))
                end
            end)
      | Some decrypt =>
          if Nat.ltb 0 (dg_count_backedup st) then
            let offset := (length (dg_pt_buffer st) - dg_count_backedup st)%nat in
            IRet (StOk (skipn offset (dg_pt_buffer st)),
                  mk_dec_segments (dg_ct_size st) (dg_pt_buffer st) 0 offset (dg_number st) (dg_decrypt st) (dg_read_last st) None)
          else if dg_read_last st then IRet (StErr OutOfRange, dg_fail st OutOfRange)
          else
            let st' := mk_dec_segments (sd_ciphertext_segment_size sd) (dg_pt_buffer st) (dg_count_backedup st) (dg_offset st)
                         (dg_number st + 1)%N (dg_decrypt st) (dg_read_last st) None in
            iio_bind (read_from_stream n (sd_ciphertext_segment_size sd)) (fun y => IRet (dg_segment st' decrypt y))
      end
  end.
(** lines 204-210 BackUp *)
Definition dg_back_up (st : dec_segments) (count : Z) : dec_segments :=
  if (match dg_decrypt st with None => true | Some _ => false end
      || match dg_status st with Some _ => true | None => false end || (count <? 1)%Z)%bool then st
  else
    let curr_buffer_size := (length (dg_pt_buffer st) - dg_offset st)%nat in
    let actual_count := Nat.min (Z.to_nat count) (curr_buffer_size - dg_count_backedup st) in
    mk_dec_segments (dg_ct_size st) (dg_pt_buffer st) (dg_count_backedup st + actual_count) (dg_offset st)
      (dg_number st) (dg_decrypt st) (dg_read_last st) (dg_status st).

(** lines 84-116 New *)
Definition first_ciphertext_size (sd : segment_decrypter) : nat :=
  sd_ciphertext_segment_size sd - sd_ciphertext_offset sd - sd_header_size sd.
Definition segment_decrypting_stream (n : nat) (sd : segment_decrypter) : cc_dec_stream :=
  let first := first_ciphertext_size sd in
  mk_cc_dec_stream dec_segments (mk_dec_segments first [] first 0 0 None false None)
    (dg_next n sd) (fun st c => IRet (dg_back_up st c)).
Definition new_segment_decrypting_stream (n : nat) (sd : segment_decrypter) : st_or cc_dec_stream :=
  if Nat.eqb (first_ciphertext_size sd) 0 then StErr (NotOk "Size of the first segment must be greater than 0.")
  else StOk (segment_decrypting_stream n sd).

(** ** nonce_based_streaming_aead.cc *)

(** lines 37-59. NewSegmentEncrypter draws random numbers; [new_encrypter] is what it
    makes of them. *)
Definition nonce_based_streaming_aead (n : nat) (new_encrypter : bytes -> st_or segment_encrypter)
  (new_decrypter : bytes -> st_or segment_decrypter) : cc_streaming_aead :=
  mk_cc_streaming_aead
    (fun ad => ORet (match new_encrypter ad with
                     | StErr s => StErr s
                     | StOk se => new_segment_encrypting_stream n se
                     end))
    (fun ad => IRet (match new_decrypter ad with
                     | StErr s => StErr s
                     | StOk sd => new_segment_decrypting_stream n sd
                     end)).
