(** The exceptions of decode (C80). *)
From Coq Require Import NArith ZArith Bool String.
From Coq Require Import Init.Byte List.
From Verif Require Import Bytes Value Cbor Registry Crypto Toy Keys Headers Messages Recipients SpecErr ErrProofs.
Import ListNotations.

(** Whatever the input, decode returns a message or raises one of the listed exceptions;
    anything else is raised by the elliptic curve library. *)
Theorem C80_exceptions_partial : forall X expected allow v x, decode X expected allow v = Err x ->
  In x documented \/ In x undocumented \/ curve_failure X x.
Proof. intros X expected allow v x H. exact (decode_W X expected allow v x H). Qed.
Print Assumptions C80_exceptions_partial.

(** Each of the exceptions that are not documented is raised for some bytes. *)
Theorem C80_undocumented_refuted : forall x, In x undocumented -> exists b, decode toy None true (VBytes b) = Err x.
Proof.
  intros x H. unfold undocumented in H. cbn [In] in H.
  (* null, {} and the unprotected headers [l] of a COSE_Sign1 message *)
  pose (s1 := fun l : list N => map byte_of_N ([0xd2; 0x84; 0x40] ++ l ++ [0xf6; 0x40])%N).
  destruct H as [<-|[<-|[<-|[<-|[<-|[<-|[<-|[<-|[]]]]]]]]].
  - exists []. vm_compute. reflexivity.
  - exists (map byte_of_N [0xd2; 0x80])%N. vm_compute. reflexivity.
  - (* {1: 99}: no such algorithm *) exists (s1 [0xa1; 0x01; 0x18; 0x63])%N. vm_compute. reflexivity.
  - (* {-1: {}}: a key without a type *) exists (s1 [0xa1; 0x20; 0xa0])%N. vm_compute. reflexivity.
  - (* {-1: {1: 4}}: a symmetric key without a value *) exists (s1 [0xa1; 0x20; 0xa1; 0x01; 0x04])%N. vm_compute. reflexivity.
  - (* {-1: {1: 2, -1: 6, -2: h'01'}}: Ed25519 in an EC2 key *)
    exists (s1 [0xa1; 0x20; 0xa3; 0x01; 0x02; 0x20; 0x06; 0x21; 0x41; 0x01])%N. vm_compute. reflexivity.
  - (* 96([h'', {}, h'', [[h'', {1: -6}, h'01']]]): a direct recipient with a ciphertext *)
    exists (map byte_of_N [0xd8; 0x60; 0x84; 0x40; 0xa0; 0x40; 0x81; 0x83; 0x40; 0xa1; 0x01; 0x25; 0x41; 0x01])%N. vm_compute. reflexivity.
  - (* {-1: {1: 2, -1: 1, -2: h'01', -3: h'02', -4: h'03'}}: a private key of another point *)
    exists (s1 [0xa1; 0x20; 0xa5; 0x01; 0x02; 0x20; 0x01; 0x21; 0x41; 0x01; 0x22; 0x41; 0x02; 0x23; 0x41; 0x03])%N. vm_compute. reflexivity.
Qed.
Print Assumptions C80_undocumented_refuted.

(** The documented ones occur, too. *)
Example C80_example : forall x, In x documented -> exists v, decode toy None true v = Err x.
Proof.
  intros x H. unfold documented in H. cbn [In] in H. destruct H as [<-|[<-|[<-|[<-|[<-|[]]]]]].
  - exists (VBytes (map byte_of_N [0xa0]))%N. vm_compute. reflexivity.
  - exists (VBytes (map byte_of_N [0x1c]))%N. vm_compute. reflexivity.
  - exists (VBytes (map byte_of_N [0xc9; 0x80]))%N. vm_compute. reflexivity.
  - exists (VInt 5). vm_compute. reflexivity.
  - exists (VBytes (map byte_of_N [0xd2; 0x84; 0x41; 0x1c; 0xa0; 0xf6; 0x40]))%N. vm_compute. reflexivity.
Qed.
