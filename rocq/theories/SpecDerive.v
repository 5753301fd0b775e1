(** Vocabulary of C98: recipients that share a secret with the sender. *)
From Coq Require Import NArith ZArith Bool String.
From Coq Require Import Init.Byte List.
From Verif Require Import Bytes Value Registry Crypto Keys Algorithms Headers Messages Recipients.
Import ListNotations.

(** The content key comes from a secret shared with each recipient (RFC 8152 section 12.1). *)
Definition shared_secret (rs : list rcpt) : Prop := rs <> [] /\ Forall (fun r => r_class r = RDirect) rs.

(** The algorithms of RFC 8152 section 12.1.2, direct key with KDF (table 12). *)
Definition direct_kdf : list Z := [-10; -11; -12; -13]%Z.
