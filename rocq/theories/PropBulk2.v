(** C131: decoding does not inflate what was received, for keys. *)
From Coq Require Import NArith ZArith Bool String.
From Coq Require Import Init.Byte List.
From Verif Require Import Bytes Value Cbor Registry Crypto Toy Keys SpecBulk BulkKeyProofs.
Import ListNotations.

(** A key decoded from bytes is larger than these by a constant at most, whatever its type and its
    parameters: two coordinates that are computed, of at most 66 bytes each, and a few names. *)
Theorem C131_key : forall X b k, key_decode X (VBytes b) = Ok k -> weight (kval k) <= length b + 144.
Proof. exact key_decode_weight. Qed.
Print Assumptions C131_key.

(** A symmetric key with an unknown parameter. *)
Example C131_key_example : exists k,
  key_decode toy (VBytes ([xa3; x01; x04; x20; x50] ++ repeat x07 16 ++ [x61; x7a; x82; x01; x02])) = Ok k /\
  weight (kval k) = 26.
Proof. eexists. split; vm_compute; reflexivity. Qed.

(** A private EC2 key without its coordinates: these are added. *)
Example C131_coordinates_example : exists k,
  key_decode toy (VBytes [xa3; x01; x02; x20; x01; x23; x41; x05]) = Ok k /\ 8 + 64 < weight (kval k).
Proof. eexists. split; [vm_compute; reflexivity|]. vm_compute. repeat constructor. Qed.
