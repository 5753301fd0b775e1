(** Vocabulary of C81 and C82. *)
From Coq Require Import NArith ZArith Bool String.
From Coq Require Import Init.Byte List.
From Verif Require Import Bytes Value Cbor SpecData Registry Crypto Keys Algorithms Headers Messages Recipients
  SpecRegistry SpecKeys SpecAlg SpecHdr SpecTrip SpecMsg SpecRcpt SpecRcptTrip.
Import ListNotations.

(** The recipients whose key comes from a key agreement. *)
Definition agreement (r : rcpt) : Prop := r_class r = RAgree \/ r_class r = RAgreeKW.

(** The sender's ephemeral or static key is among the protected headers. *)
Definition protected_sender_key (c : core) : Prop :=
  dget (phdr c) EphemeralKey <> None \/ dget (phdr c) StaticKey <> None.

(** The recipients of a message. *)
Definition message_rcpts (m : message) : list rcpt :=
  match m with
  | MEnc m => e_rcpts m
  | MMac m => match mm_rcpts m with Some rs => rs | None => [] end
  | _ => []
  end.

(** A recipient object after its key and local attributes were set. *)
Definition given (r : rcpt) (k : option key) (lo : dict) : rcpt := r_with r (with_local (with_key (r_core r) k) lo).
