(** Specification of the templates that can be used for JWT keysets that are managed with a
    KeysetBuilder. *)
From Coq Require Import Strings.Byte Strings.String List NArith ZArith Bool.
From Verif Require Import M_Base M_Proto M_Wire M_Prims M_Registry M_KeysetHandle M_Templates S_Config.
Import ListNotations.
Open Scope string_scope.
Open Scope list_scope.

(** The predefined templates for MACs of tokens, and those for signatures of tokens *)
Definition asks_for_mac (x : string * result key_template) : bool :=
  match snd x with Ok t => str_eqb (kt_type_url t) (type_url "JwtHmacKey") | Err _ => false end.
Definition jwt_mac_templates : list (string * result key_template) := filter asks_for_mac jwt_templates.
Definition jwt_signature_templates : list (string * result key_template) := filter (fun x => negb (asks_for_mac x)) jwt_templates.
