(** Specification vocabulary for the AWS, GCP and Vault integrations. *)
From Coq Require Import Strings.Byte Strings.String List NArith ZArith Bool.
From Verif Require Import M_Base M_Prims M_KmsIntegrations S_Keyset.
Import ListNotations.
Open Scope list_scope.
Open Scope N_scope.

Definition char_of (alphabet : string) (c : N) : Prop := In c (ulit alphabet).

(** aws-kms://arn:aws:kms:<region>:<rest> *)
Definition aws_region (region : pystr) : Prop :=
  region <> [] /\ Forall (char_of "abcdefghijklmnopqrstuvwxyz0123456789-") region.
Definition aws_key_uri (uri : pystr) : Prop :=
  exists region rest,
    uri = ulit "aws-kms://arn:aws:kms:" ++ region ++ ulit ":" ++ rest /\ aws_region region.

(** Text of lower case hexadecimal digits, two per byte. *)
Definition hex_pair (b : byte) (t : pystr) : Prop :=
  exists h l, Byte.to_N b = 16 * h + l /\ l < 16 /\
    t = [nth (N.to_nat h) (ulit "0123456789abcdef") 0; nth (N.to_nat l) (ulit "0123456789abcdef") 0].
Definition hex_text (x : bytes) (t : pystr) : Prop :=
  exists pairs, Forall2 hex_pair x pairs /\ t = concat pairs.

(** A remote call whose error [err] is reported as TinkError. *)
Definition reported_as_tink_error {A} (err : exn) (remote here : result A) : Prop :=
  (remote = Err err -> raises_tink here) /\ (remote <> Err err -> here = remote).

(** projects/<project>/locations/<location>/keyRings/<ring>/cryptoKeys/<key> *)
Definition gcp_id (x : pystr) : Prop :=
  (1 <= length x <= 63)%nat /\
  Forall (char_of "abcdefghijklmnopqrstuvwxyzABCDEFGHIJKLMNOPQRSTUVWXYZ0123456789_-") x.
Definition gcp_key_name (name : pystr) : Prop :=
  exists project location ring key,
    name = ulit "projects/" ++ project ++ ulit "/locations/" ++ location ++ ulit "/keyRings/" ++ ring
           ++ ulit "/cryptoKeys/" ++ key /\
    project <> [] /\ ~ In 47 project /\ gcp_id location /\ gcp_id ring /\ gcp_id key.

(** Percent-encoding of a byte string: letters, digits and "_.-~/" stay, other bytes
    become % and two upper case hexadecimal digits. *)
Definition unreserved (c : N) : Prop :=
  char_of "abcdefghijklmnopqrstuvwxyzABCDEFGHIJKLMNOPQRSTUVWXYZ0123456789_.-~/" c.
Definition percent_byte (b : byte) (t : pystr) : Prop :=
  (unreserved (Byte.to_N b) /\ t = [Byte.to_N b]) \/
  (~ unreserved (Byte.to_N b) /\
   exists h l, Byte.to_N b = 16 * h + l /\ l < 16 /\
     t = [37; nth (N.to_nat h) (ulit "0123456789ABCDEF") 0;
          nth (N.to_nat l) (ulit "0123456789ABCDEF") 0]).
Definition percent_encoded (x : bytes) (t : pystr) : Prop :=
  exists parts, Forall2 percent_byte x parts /\ t = concat parts.

(** A Vault path "[/]<mount>/keys/<name>"; the mount is one or more nonempty
    segments separated by single slashes. *)
Inductive slash_path : pystr -> Prop :=
| SP_one : forall s, s <> [] -> ~ In 47 s -> slash_path s
| SP_more : forall s rest, s <> [] -> ~ In 47 s -> slash_path rest -> slash_path (s ++ 47 :: rest).
Definition vault_path (path mount name : pystr) : Prop :=
  (path = mount ++ ulit "/keys/" ++ name \/ path = ulit "/" ++ mount ++ ulit "/keys/" ++ name) /\
  slash_path mount /\ name <> [] /\ ~ In 47 name.

(** The EncryptionContext sent for associated data [ad]. *)
Definition aws_context (ad : bytes) (ctx : list (pystr * pystr)) : Prop :=
  (ad = [] /\ ctx = []) \/
  (ad <> [] /\ exists t, hex_text ad t /\ ctx = [(ulit "associatedData", t)]).

(** What an Aead of the AWS integration does: one call to the client, with the key
    ARN, the payload and the context of the associated data. *)
Definition aws_aead_for (client : boto3_client) (arn : pystr) (a : aead) : Prop :=
  (forall r pt ad ctx, aws_context ad ctx -> reported_as_tink_error ClientError
     (boto3_encrypt client r arn pt ctx) (aead_encrypt a r pt ad)) /\
  (forall ct ad ctx, aws_context ad ctx -> reported_as_tink_error ClientError
     (boto3_decrypt client arn ct ctx) (aead_decrypt a ct ad)).

(** What an Aead of the GCP integration does. *)
Definition gcp_aead_for (client : gcp_service) (name : pystr) (a : aead) : Prop :=
  (forall r pt ad, reported_as_tink_error GoogleAPIError
     (gcp_encrypt client r name pt ad) (aead_encrypt a r pt ad)) /\
  (forall ct ad, reported_as_tink_error GoogleAPIError
     (gcp_decrypt client name ct ad) (aead_decrypt a ct ad)).
