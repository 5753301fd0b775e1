(** Vocabulary for the class of a new key. *)
From Coq Require Import NArith ZArith Bool String.
From Coq Require Import Init.Byte List.
From Verif Require Import Bytes Value Registry Keys SpecKeys SpecHdr SpecRegistry SpecInit.
Import ListNotations.

(** [k] is an object of class [c] and says so in its key type. *)
Definition key_is (c : kclass) (k : key) : Prop := k_cls k = c /\ param k KpKty = Some (type_of c).

(** The labels that stand for the key type: 1, KTY in any letter case, the class. *)
Definition kty_label (a : pyval) : Prop := spells KpKty (bs "KTY") a.

(** The key type that a value in a map names: 4, Symmetric in any letter case, the class. *)
Definition names_type (c : kclass) (v : pyval) : Prop := attribute_value FKty v (type_of c).

(** The value under the first of the labels the class, 1 and "KTY" that is in the map. *)
Definition first_type (d : dict) (v : pyval) : Prop :=
  dget d (VClass KpKty) = Some v \/
  dget d (VClass KpKty) = None /\ dget d (VInt 1) = Some v \/
  dget d (VClass KpKty) = None /\ dget d (VInt 1) = None /\ dget d (VStr (bs "KTY")) = Some v.
