(** Vocabulary of C125: how long an encoded message is. *)
From Coq Require Import NArith ZArith Bool.
From Coq Require Import Init.Byte List.
From Verif Require Import Bytes Value Registry Crypto Keys Headers Messages.
Import ListNotations.
Local Open Scope N_scope.

(** What a byte string of [n] bytes takes: its head (RFC 7049 section 2.1) and itself. *)
Definition field (n : N) : N :=
  n + (if n <? 24 then 1 else if n <? 2 ^ 8 then 2 else if n <? 2 ^ 16 then 3 else if n <? 2 ^ 32 then 5 else 9).
(** A payload or nil. *)
Definition opt_field (o : option bytes) : N := match o with Some b => field (blen b) | None => 1 end.

(** The tag lengths of the algorithms, in bytes: RFC 8152 tables 7 and 8, and 9 and 10. *)
Definition mac_tag_lengths : list (Z * N) := [ (4%Z, 8); (5%Z, 32); (6%Z, 48); (7%Z, 64); (14%Z, 8); (15%Z, 8); (25%Z, 16); (26%Z, 16) ].
Definition aead_tag_lengths : list (Z * N) :=
  [ (1%Z, 16); (2%Z, 16); (3%Z, 16); (10%Z, 8); (11%Z, 8); (12%Z, 8); (13%Z, 8); (30%Z, 16); (31%Z, 16); (32%Z, 16); (33%Z, 16) ].

(** The same headers, and payloads of the same length: payloads, external data and keys differ
    as they like. *)
Definition same_shape (c c' : core) : Prop :=
  phdr c = phdr c' /\ phdr_raw c = phdr_raw c' /\ uhdr c = uhdr c' /\ tstr c = tstr c' /\
  match payload c, payload c' with
  | Some p, Some p' => length p = length p'
  | None, None => True
  | _, _ => False
  end.

(** Keys with the same curve, or with the same modulus. *)
Definition same_group (k k' : key) : Prop := prop_get k PCrv = prop_get k' PCrv /\ prop_get k PN = prop_get k' PN.
Definition same_groups (c c' : core) : Prop := forall k k', ckey c = Some k -> ckey c' = Some k' -> same_group k k'.

(** The primitives' side: the length of a signature is that of the curve or the modulus, and a
    ciphertext is longer than the plaintext by the tag. *)
Definition law_sig_size (X : crypto) : Prop :=
  (forall c h d d' t t' s s', x_ecdsa_sign X c h d t = Ok s -> x_ecdsa_sign X c h d' t' = Ok s' -> length s = length s') /\
  (forall c d d' t t' s s', x_ed_sign X c d t = Ok s -> x_ed_sign X c d' t' = Ok s' -> length s = length s') /\
  (forall pad h q q' n n' t t' s s', rsa_n (rsa_public q) = rsa_n (rsa_public q') ->
     x_rsa_sign X pad h q n t = Ok s -> x_rsa_sign X pad h q' n' t' = Ok s' -> length s = length s').
Definition law_seal_size (X : crypto) : Prop :=
  (forall k n p a c, x_gcm_enc X k n p a = Ok c -> length c = (length p + 16)%nat) /\
  (forall t k n p a c, x_ccm_enc X t k n p a = Ok c -> length c = (length p + t)%nat).
