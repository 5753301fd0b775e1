(** Vocabulary of C99: header maps written the way messages keep them. *)
From Coq Require Import NArith ZArith Bool String.
From Coq Require Import Init.Byte List.
From Verif Require Import Bytes Value Cbor Registry Crypto Keys Algorithms Headers SpecData SpecRegistry SpecHdr.
Import ListNotations.

(** The value is already what a message keeps for header [c]: a registered algorithm's class, a
    byte string, a list of labels, and so on. Keys (the ephemeral and static keys of key
    agreement) are left out. *)
Definition settled_value (c : cls) (v : pyval) : Prop :=
  (c_id c = 1%Z -> is_known_algorithm v) /\
  (In (c_id c) bstr_headers -> is_bytes_value v) /\
  (c_id c = 2%Z -> is_label_array v) /\
  (c_id c = 3%Z -> is_uint_or_text v) /\
  c_id c <> (-1)%Z /\ c_id c <> (-2)%Z.

(** A header map whose registered headers are written with their classes and whose values are
    settled; other labels only where the message allows them. *)
Definition settled_headers (allow : bool) (d : dict) : Prop :=
  distinct_keys d = true /\
  forall k v, In (k, v) d ->
    (exists c n, In (c, n) (registered FHdr) /\ k = VClass c /\ settled_value c v) \/
    (allow = true /\ unknown_attr FHdr k).
