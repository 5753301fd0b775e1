(** Vocabulary of C130: ideal primitives, whose outputs show nothing but lengths. *)
From Coq Require Import NArith ZArith Bool.
From Coq Require Import Init.Byte List.
From Verif Require Import Bytes Value Registry Crypto Keys Headers Messages.
Import ListNotations.

(** Plaintexts of the same length have the same ciphertext: the ciphertext shows neither the
    plaintext nor the key, the nonce or the authenticated data. (In place of "cannot be told
    apart", which is a claim about the primitives.) *)
Definition content_hidden (X : crypto) : Prop :=
  (forall k k' n n' p p' a a' c c', length p = length p' -> x_gcm_enc X k n p a = Ok c -> x_gcm_enc X k' n' p' a' = Ok c' -> c = c') /\
  (forall t k k' n n' p p' a a' c c', length p = length p' -> x_ccm_enc X t k n p a = Ok c -> x_ccm_enc X t k' n' p' a' = Ok c' -> c = c').

(** Wrapped keys show neither the key nor the wrapping key; OAEP shows the modulus. *)
Definition keys_hidden (X : crypto) : Prop :=
  (forall k k' d d' w w', length d = length d' -> x_wrap X k d = Ok w -> x_wrap X k' d' = Ok w' -> w = w') /\
  (forall h p p' s s' d d' w w', rsa_n p = rsa_n p' -> length d = length d' -> x_oaep_enc X h p s d = Ok w -> x_oaep_enc X h p' s' d' = Ok w' -> w = w').

(** Tags show neither the key nor the data. *)
Definition tags_hidden (X : crypto) : Prop :=
  (forall h k k' d d', x_hmac X h k d = x_hmac X h k' d') /\ (forall k k' b b', x_aes X k b = x_aes X k' b').

(** Signatures show the curve or the modulus, neither the key nor the data. *)
Definition signatures_hidden (X : crypto) : Prop :=
  (forall c h d d' t t' s s', x_ecdsa_sign X c h d t = Ok s -> x_ecdsa_sign X c h d' t' = Ok s' -> s = s') /\
  (forall c d d' t t' s s', x_ed_sign X c d t = Ok s -> x_ed_sign X c d' t' = Ok s' -> s = s') /\
  (forall pad h q q' n n' t t' s s', rsa_n (rsa_public q) = rsa_n (rsa_public q') ->
     x_rsa_sign X pad h q n t = Ok s -> x_rsa_sign X pad h q' n' t' = Ok s' -> s = s').
