(** Specification of the streaming AEAD example (C70, C71). *)
From Coq Require Import Strings.Byte Strings.String List NArith ZArith Bool.
From Verif Require Import M_Base M_Proto M_StreamTypes M_Prims M_PrimitiveSet M_Registry M_Stream M_CcStream M_CcManagers M_Cli
  S_Keyset S_Stream S_CcStream S_Config S_CcLaws S_Cli.
Import ListNotations.
Open Scope string_scope.
Open Scope list_scope.
Open Scope Z_scope.

(** A program that writes to a buffered file object which has received [W]: it takes all
    the bytes it is given, unless an exception of [X] is raised. *)
Inductive fills {A} (X : exn -> Prop) : bytes -> wio A -> A -> bytes -> Prop :=
| Fills_ret : forall W a, fills X W (WRet a) a W
| Fills_write : forall W d k a W', fills X (W ++ d) (k (Ok (Some (Z.of_nat (length d))))) a W' ->
    fills X W (WWrite d k) a W'
| Fills_error : forall W d j k e a W', X e -> fills X (W ++ firstn j d) (k (Err e)) a W' ->
    fills X W (WWrite d k) a W'
| Fills_close : forall W k r a W', (forall e, r = Err e -> X e) -> fills X W (k r) a W' ->
    fills X W (WClose k) a W'.

(** [W] is the front part of [P]. *)
Definition front (W P : bytes) : Prop := exists rest, P = W ++ rest.

(** A file object that can be read and closed. *)
Definition usable {S} (src : py_source S) : Prop :=
  (forall s, src_readable src s = true) /\ (forall s, fst (src_close src s) = Ok tt).

(** No exception at all: regular files. *)
Definition never (e : exn) : Prop := False.

(** The run ended with this exit status, [path] now contains [x], and every other file is
    as before. *)
Definition ends (run : result Z * files) (status : Z) (path : pystr) (x : bytes) (fs : files) : Prop :=
  exit_status (fst run) = status /\ changed_to path x fs (snd run).

(** What a run finds: C++ Tink is there, the keyset file holds [ks], whose enabled keys are
    [l], the associated data is [ad], the input file contains [data], and the output file
    can be written. *)
Definition finds (w : cc_world) (env : py_env) (o : os) (f : crypt_flags) (fs : files)
    (ks : keyset) (l : list (key * cc_streaming_aead)) (ad data : bytes) : Prop :=
  cc_ready w StreamingAead /\ holds_keyset (pe_rt env) fs (cf_keyset_path f) ks /\
  cc_keyset ClsRawStreamingAead (cw_streaming w) ks l /\
  flag_is (cf_associated_data f) ad /\ content fs (cf_input_path f) = Some data /\
  may_write o (cf_output_path f) = true.
(** The text of EOFError says so, and the buffer that C++ reads through is not empty. *)
Definition reads_files (env : py_env) : Prop :=
  str_contains (pe_what env EOFError) "EOFError" = true /\ pe_in_buffer env <> [].
