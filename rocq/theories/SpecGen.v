(** Vocabulary of the properties of generated and imported keys (C42, C76). *)
From Coq Require Import NArith ZArith Bool.
From Coq Require Import Init.Byte List.
From Verif Require Import Bytes Value Registry Crypto SpecCrypto Keys SpecKeys.
Import ListNotations.

(** What key generation of the [cryptography] package returns: a private value in range
    with its public point; raw keys that are not empty; a consistent RSA key. *)
Definition law_ec_gen (X : crypto) : Prop := forall c size seed, In (c, size) ec2_curves ->
  (x_ec_gen X c seed < 256 ^ N.of_nat size)%N /\
  exists x y, x_ec_pub X c (x_ec_gen X c seed) = Ok (x, y) /\
    (x < 256 ^ N.of_nat size)%N /\ (y < 256 ^ N.of_nat size)%N.

Definition law_okp_gen (X : crypto) : Prop := forall c seed, In c okp_curves ->
  x_okp_gen X c seed <> [] /\ x_okp_pub X c (x_okp_gen X c seed) <> [].

Definition rsa_positive (q : rsa_priv) : Prop :=
  rsa_n (rsa_public q) <> 0%N /\ rsa_e (rsa_public q) <> 0%N /\ rsa_d q <> 0%N /\ rsa_p q <> 0%N /\
  rsa_q q <> 0%N /\ rsa_dmp1 q <> 0%N /\ rsa_dmq1 q <> 0%N /\ rsa_iqmp q <> 0%N.

Definition law_rsa_gen (X : crypto) : Prop := forall bits seed q, x_rsa_gen X bits seed = Ok q ->
  rsa_consistent q /\ rsa_positive q.

(** The key limits neither algorithms nor operations. *)
Definition unrestricted (k : key) : Prop := param k KpAlg = None /\ param k KpKeyOps = None.
