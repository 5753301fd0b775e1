(** C22, calling decode on a message class. *)
From Coq Require Import NArith ZArith Bool String.
From Coq Require Import Init.Byte List.
From Verif Require Import Bytes Value ValueProofs Cbor Registry Crypto Toy Keys Headers Messages Recipients SpecHdr.
Import ListNotations.

(** The class on which decode is called only selects. A message of another class is refused with
    TypeError, and what is refused anyway is refused with the same exception. *)
Theorem C22_only_selects : forall X t allow v,
  (forall m, decode X None allow v = Ok m -> tag_of_class m <> t -> decode X (Some t) allow v = Err TypeError) /\
  (forall e, decode X None allow v = Err e -> decode X (Some t) allow v = Err e).
Proof.
  intros X t allow v. unfold decode. destruct (loads v) as [w|x]; [|split; [discriminate|auto]].
  destruct w as [|b|z|fl|s| | |b|u|l|l|d|t' w|t' w|cl|kc ks ke]; try (split; [discriminate|auto]; fail).
  destruct w as [|b|z|fl|s| | |b|u|l|l|d|t2 w|t2 w|cl|kc ks ke]; try (split; [discriminate|auto]; fail).
  destruct (from_cose_obj X allow t' l) as [m|x]; cbn [bind]; [|split; [discriminate|auto]]. split; [|discriminate].
  intros m' E HT. injection E as <-.
  assert (E : message_tag m = tag_of_class m) by (destruct m; reflexivity). rewrite E.
  destruct (N.eqb_spec (tag_of_class m) t); [contradiction|reflexivity].
Qed.
Print Assumptions C22_only_selects.

(** A COSE_Mac0 message given to Sign1Message.decode, and bytes that are no message. *)
Example C22_only_selects_example :
  let b := VBytes [xd1; x84; x40; xa0; x41; x01; x41; x02] in
  (exists m, decode toy None true b = Ok m /\ tag_of_class m = 17%N) /\
  decode toy (Some 18%N) true b = Err TypeError /\
  decode toy None true (VBytes [xd1; x81; x40]) = Err IndexError /\
  decode toy (Some 18%N) true (VBytes [xd1; x81; x40]) = Err IndexError.
Proof. cbv zeta. split; [eexists; split; vm_compute; reflexivity|]. vm_compute. repeat split. Qed.
