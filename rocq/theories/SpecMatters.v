(** Vocabulary of C122: which parameters of a key matter. *)
From Coq Require Import NArith ZArith Bool String.
From Coq Require Import Init.Byte List.
From Verif Require Import Bytes Value Registry Crypto Keys Headers Messages Recipients.
Import ListNotations.

(** Two keys of the same class that may be used for the same things and whose listed attributes
    read the same (or fail in the same way). Everything else may differ: further parameters,
    the key identifier, what they were made from. *)
Definition alike (ps : list kprop) (k k' : key) : Prop :=
  k_cls k = k_cls k' /\ Forall (fun p => prop_get k p = prop_get k' p) (PAlg :: PKeyOps :: ps).

(** The attributes that make up the public part of a key, and what is needed beside it. *)
Definition public_part : list kprop := [PCrv; PX; PY; PN; PE].
Definition signing_part : list kprop := [PCrv; PD; PN; PE; PP; PQ; PDP; PDQ; PQInv].
Definition secret : list kprop := [PK].
Definition secret_and_base : list kprop := [PK; PBaseIV].
(** The key of a recipient: to wrap, or to agree on a key. *)
Definition sending_part : list kprop := [PK; PD; PN; PE].
Definition receiving_part : list kprop := [PK; PD; PN; PE; PP; PQ; PDP; PDQ; PQInv].
(** The public key of the other side. *)
Definition peer_part : list kprop := [PCrv; PX; PY].

(** The labels of the private parameters of asymmetric keys (RFC 8152 section 13, RFC 8230
    section 4). *)
Definition private_labels : list pyval :=
  map VClass [EC2KpD; OKPKpD; RSAKpD; RSAKpP; RSAKpQ; RSAKpDP; RSAKpDQ; RSAKpQInv].

(** The key without its private parameters. *)
Definition published (k : key) : key :=
  Key (k_cls k) (filter (fun e => negb (existsb (keyeq (fst e)) private_labels)) (k_store k)) (k_extra k).

(** The labels any operation looks at. *)
Definition used_labels : list pyval :=
  map VClass [KpAlg; KpKeyOps; KpBaseIV; SymKpK; EC2KpCurve; EC2KpX; EC2KpY; EC2KpD; OKPKpCurve; OKPKpX; OKPKpD;
              RSAKpN; RSAKpE; RSAKpD; RSAKpP; RSAKpQ; RSAKpDP; RSAKpDQ; RSAKpQInv].
(** All attributes any operation reads. *)
Definition used : list kprop := [PBaseIV; PCrv; PX; PY; PD; PK; PN; PE; PP; PQ; PDP; PDQ; PQInv].

(** A key with one more or another parameter. *)
Definition tagged (k : key) (l v : pyval) : key := Key (k_cls k) (dset (k_store k) l v) (k_extra k).

(** A recipient with another key, and one with another key of the other side. *)
Definition holding (r : rcpt) (k : key) : rcpt := Rcpt (r_id r) (r_class r) (with_key (r_core r) (Some k)) (r_ctx r) (r_subs r).
Definition addressing (r : rcpt) (k : key) : rcpt :=
  Rcpt (r_id r) (r_class r) (with_local (r_core r) (dset (local (r_core r)) StaticKey (kval k))) (r_ctx r) (r_subs r).
