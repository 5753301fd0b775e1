(** C131: decoding does not inflate what was received. *)
From Coq Require Import NArith ZArith Bool String.
From Coq Require Import Init.Byte List.
From Verif Require Import Bytes Value Cbor Registry Crypto Toy Keys Headers Messages Recipients SpecBulk BulkProofs.
Import ListNotations.

(** Whatever CBOR bytes decode to, it has no more objects, bytes and characters than bytes were given. *)
Theorem C131_value : forall b v, loads_bytes b = Ok v -> weight v <= length b.
Proof. exact loads_weight. Qed.
Print Assumptions C131_value.

(** So has a message, with all its recipients or signers, whichever class decodes it. *)
Theorem C131_message : forall X expected allow b m, decode X expected allow (VBytes b) = Ok m -> size m < length b.
Proof. exact decode_bulk. Qed.
Print Assumptions C131_message.

(** [\[\[\], h'0102', "a"\]]: the bound on values is met. *)
Example C131_value_example : exists v,
  loads_bytes [x83; x80; x42; x01; x02; x61; x61] = Ok v /\ weight v = 7.
Proof. eexists. split; vm_compute; reflexivity. Qed.

(** A COSE_Mac message with a direct recipient. *)
Example C131_message_example : exists m,
  decode toy (Some 97%N) false (VBytes
    [xd8; x61; x85; x40; xa0; x41; x01; x41; x02; x81; x83; x40; xa1; x01; x25; x40]) = Ok m /\
  length (layers m) = 2 /\ size m = 7.
Proof. eexists. split; [vm_compute; reflexivity|]. split; vm_compute; reflexivity. Qed.

(** An array that claims more elements than there are bytes is not decoded at all. *)
Example C131_claim_example : exists e,
  decode toy None false (VBytes [xd2; x9b; x00; x00; x00; xff; xff; xff; xff; xff]) = Err e.
Proof. eexists. vm_compute. reflexivity. Qed.
