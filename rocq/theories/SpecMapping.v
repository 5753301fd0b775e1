(** Vocabulary of the properties of keys as mappings (C91). *)
From Coq Require Import NArith ZArith Bool String.
From Coq Require Import Init.Byte List.
From Verif Require Import Bytes Value Registry Crypto Keys SpecRegistry SpecKeys.
Import ListNotations.

(** A key object at some point of its life: made by a constructor, then put through any
    sequence of property assignments, item assignments, deletions, pops, clears and updates. *)
Definition reachable (X : crypto) (k : key) : Prop :=
  exists k0 ops, constructed X k0 /\ k = key_run k0 ops.

(** [a] and [b] are spellings of the same parameter, or of different ones. *)
Definition same_param (k : key) (a b : pyval) : Prop :=
  exists s t, stands_for (params_of (k_cls k)) a s /\ stands_for (params_of (k_cls k)) b t /\ keyeq s t = true.
Definition other_param (k : key) (a b : pyval) : Prop :=
  exists s t, stands_for (params_of (k_cls k)) a s /\ stands_for (params_of (k_cls k)) b t /\ keyeq s t = false.

(** [a] is a coordinate of an EC2 key: x and y are deleted together. *)
Definition coordinate (k : key) (a : pyval) : Prop :=
  k_cls k = KEC2 /\ (denotes KEC2 a EC2KpX \/ denotes KEC2 a EC2KpY).

(** A list of parameters without repetitions, up to Python's [==]. *)
Definition distinct (l : list pyval) : Prop :=
  forall i j a b, nth_error l i = Some a -> nth_error l j = Some b -> keyeq a b = true -> i = j.

(** Two optional values that are both missing, or both there and equal. *)
Definition agree (a b : option pyval) : Prop :=
  match a, b with
  | Some v, Some w => pyeq v w = true
  | None, None => True
  | _, _ => False
  end.
