(** Vocabulary of C110: equality of keys. *)
From Coq Require Import NArith ZArith Bool String.
From Coq Require Import Init.Byte List.
From Verif Require Import Bytes Value SpecData Registry Crypto Keys Algorithms Headers Messages SpecKeys.
Import ListNotations.

(** Values as Python can hold them: the labels of a dict are hashable and differ. *)
Fixpoint well_formed (v : pyval) : bool :=
  match v with
  | VList l | VTuple l => forallb well_formed l
  | VTag _ x | VOther _ x => well_formed x
  | VDict d | VKey _ d _ =>
    distinct_keys d && forallb (fun e => match e with (k, x) => hashable k && well_formed x end) d
  | _ => true
  end.

(** Two keys are equal, for [==]. *)
Definition equal_keys (k k' : key) : Prop := key_eq k k' = Ok true.

(** Two keys with which every cryptographic operation gives the same result. *)
Definition interchangeable (X : crypto) (k k' : key) : Prop :=
  (forall seed a t, alg_sign X seed a k t = alg_sign X seed a k' t) /\
  (forall a t s, alg_verify X a k t s = alg_verify X a k' t s) /\
  (forall a t, alg_compute_tag X a k t = alg_compute_tag X a k' t) /\
  (forall a n d t, alg_encrypt X a k n d t = alg_encrypt X a k' n d t) /\
  (forall a n d t, alg_decrypt X a k n d t = alg_decrypt X a k' n d t) /\
  (forall seed a d, alg_key_wrap X seed a k d = alg_key_wrap X seed a k' d) /\
  (forall a d, alg_key_unwrap X a k d = alg_key_unwrap X a k' d) /\
  (forall c p, ecdh X c k p = ecdh X c k' p) /\ (forall c p, ecdh X c p k = ecdh X c p k') /\
  (forall c a ops, key_verify k c a ops = key_verify k' c a ops).

(** The message with another key. *)
Definition rekey (c : core) (k : key) : core :=
  Core (phdr c) (phdr_raw c) (uhdr c) (local c) (tstr c) (payload c) (aad c) (Some k).
