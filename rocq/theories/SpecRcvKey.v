(** Vocabulary of C108: dictionaries that describe a key, as received or as written by a program. *)
From Coq Require Import NArith ZArith Bool String.
From Coq Require Import Init.Byte List.
From Verif Require Import Bytes Value SpecData Registry Keys SpecRegistry SpecKeys SpecTrip.
Import ListNotations.

(** A label: an integer, an attribute class, the full name of a registered parameter, or a text
    that names none in any mixture of cases. *)
Definition key_label (c : kclass) (a : pyval) : Prop :=
  (exists z, a = VInt z) \/ (exists p n, a = VClass p /\ In (p, n) (registered (params_of c))) \/
  (exists u, a = VStr u /\ (unknown_attr (params_of c) a \/ exists p, In (p, u) (registered (params_of c)))).

(** The value of a parameter: the algorithm is not a list, the elements of the key operations are
    not lists, and kid, base IV and unregistered parameters are plain data. What the other
    parameters are is for the library to check. *)
Definition key_value (c : kclass) (a v : pyval) : Prop :=
  (spells KpAlg (bs "ALG") a -> forall l, v <> VList l) /\
  (spells KpKeyOps (bs "KEY_OPS") a -> forall l l', v = VList l -> ~ In (VList l') l) /\
  (spells KpKid (bs "KID") a \/ spells KpBaseIV (bs "BASE_IV") a \/ unknown_attr (params_of c) a -> plain v).

Definition key_map (c : kclass) (d : dict) : Prop :=
  distinct_keys d = true /\ Forall (fun e => key_label c (fst e) /\ key_value c (fst e) (snd e)) d.

(** No parameter of a multi-prime RSA key. *)
Definition two_primes (d : dict) : Prop :=
  forall p, In p [RSAKpOther; RSAKpRi; RSAKpDi; RSAKpTi] ->
    dget d (VClass p) = None /\ dget d (VInt (c_id p)) = None /\ dget d (VStr (cls_fullname p)) = None.
