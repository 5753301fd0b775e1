(** Vocabulary of the property about the parts of a message: its recipients and signers
    (C28, C30, C94). *)
From Coq Require Import NArith ZArith Bool String.
From Coq Require Import Init.Byte List.
From Verif Require Import Bytes Value Cbor Registry Keys Headers Messages Recipients.
Import ListNotations.

(** An algorithm registered under the name [n], as text or as a number. *)
Definition alg_item (text : bool) (a : cls) (n : bytes) : pyval := if text then VStr n else VInt (c_id a).

(** [w] is what a part with the fields [c] is on the wire: its protected algorithm is written
    as text if [ptext] says so, its unprotected one if [utext] does. *)
Definition part_on_wire (ptext utext : bool) (c : core) (w : pyval) : Prop :=
  exists p d rest, w = VList (VBytes p :: VDict d :: rest) /\
    (forall a n, In (a, n) (registered FAlg) -> phdr_raw c = None -> dget (phdr c) Algorithm = Some (VClass a) ->
       exists pd, loads_bytes p = Ok (VDict pd) /\ dget pd (VInt 1) = Some (alg_item ptext a n)) /\
    (forall a n, In (a, n) (registered FAlg) -> dget (uhdr c) Algorithm = Some (VClass a) ->
       dget d (VInt 1) = Some (alg_item utext a n)).

(** All header parameters other than keys arrive with their values. *)
Definition kept (c c' : core) : Prop :=
  forall k, keyeq k EphemeralKey = false -> keyeq k StaticKey = false ->
    dget (phdr c') k = dget (phdr c) k /\ dget (uhdr c') k = dget (uhdr c) k.

(** The recipients arrive in their order with their classes and headers. *)
Definition recipients_kept (l l' : list rcpt) : Prop :=
  Forall2 (fun r r' => r_class r' = r_class r /\ kept (r_core r) (r_core r')) l l'.
