(** Vocabulary of C128: algorithms that draw random numbers. *)
From Coq Require Import NArith ZArith.
From Coq Require Import List.
From Verif Require Import Bytes Value Registry Crypto Keys Algorithms Headers Messages Recipients SpecAlg.
Import ListNotations.

(** The algorithm of a message, signer or recipient is one of these. *)
Definition uses (l : list Z) (c : core) : Prop := exists z, In z l /\ get_attr c Algorithm = Ok (alg z).

(** PS256, PS384, PS512: the salt is random. *)
Definition pss_algs : list Z := [-37; -38; -39]%Z.

(** RSAES-OAEP with SHA-1, SHA-256, SHA-512: the seed is random. *)
Definition oaep_algs : list Z := [-40; -41; -42]%Z.

(** No recipient, however deeply nested, wraps its key with RSAES-OAEP. *)
Inductive no_oaep : rcpt -> Prop :=
| NO id rc c ctx subs : ~ uses oaep_algs c -> Forall no_oaep subs -> no_oaep (Rcpt id rc c ctx subs).

(** RSASSA-PKCS1-v1_5 draws no random numbers. *)
Definition law_pkcs1 (X : crypto) : Prop :=
  forall h q s s' d, x_rsa_sign X PKCS1v15 h q s d = x_rsa_sign X PKCS1v15 h q s' d.
