(** Vocabulary of C125 for messages with recipients. *)
From Coq Require Import NArith ZArith Bool.
From Coq Require Import Init.Byte List.
From Verif Require Import Bytes Value Registry Crypto Keys Headers Messages Recipients SpecLen.
Import ListNotations.

(** Recipients of the same class, with the same headers, content keys (if set beforehand) of the
    same length and keys of the same group; a key agreement recipient has its own key, since a
    generated one is put into its header. The same of the nested recipients. *)
Inductive same_recipient : rcpt -> rcpt -> Prop :=
| SR id id' rc c c' ctx ctx' subs subs' : same_shape c c' -> same_groups c c' ->
    (rc = RAgree \/ rc = RAgreeKW -> ckey c <> None /\ ckey c' <> None) -> Forall2 same_recipient subs subs' ->
    same_recipient (Rcpt id rc c ctx subs) (Rcpt id' rc c' ctx' subs').

(** RFC 3394: eight bytes more. RFC 8017: as many bytes as the modulus has (for keys of the same
    length, nothing more is needed). *)
Definition law_wrap_size (X : crypto) : Prop := forall k d w, x_wrap X k d = Ok w -> length w = (length d + 8)%nat.
Definition law_oaep_size (X : crypto) : Prop := forall h p p' s s' d d' w w', rsa_n p = rsa_n p' -> length d = length d' ->
  x_oaep_enc X h p s d = Ok w -> x_oaep_enc X h p' s' d' = Ok w' -> length w = length w'.
