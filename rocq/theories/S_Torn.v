(** Incomplete files: what storage may do with the data of a write. *)
From Coq Require Import List.
From Verif Require Import M_Base M_KeysetStream.
Import ListNotations.

Definition prefix_of {A} (p x : list A) : Prop := exists q, x = p ++ q.
(** p is x with at least one element missing at the end. *)
Definition strict_prefix {A} (p x : list A) : Prop := exists q, q <> [] /\ x = p ++ q.

(** [content] reads a stream's file. A write that stores a prefix of its data: it may
    store everything, run out of space, be interrupted, or store less than it was given
    without raising (as unbuffered files do). It may raise or not, and so may flush. *)
Definition stores_prefixes {A St} (io : out_stream A St) (content : St -> list A) : Prop :=
  (forall data st, exists p, prefix_of p data /\
     content (snd (os_write io data st)) = content st ++ p) /\
  (forall st, content (snd (os_flush io st)) = content st).
