(** Vocabulary of C127: the kinds of bytes the library makes. *)
From Coq Require Import NArith ZArith Bool String.
From Coq Require Import Init.Byte List.
From Verif Require Import Bytes Value Registry Crypto Keys Headers Messages Recipients.

(** The results of the [encode] methods of the six message classes, with or without the tag. *)
Inductive sent_message (X : crypto) : bool -> bytes -> Prop :=
| S_sign1 : forall seed m tag sign d b, sign1_encode X seed m tag sign d = Ok b -> sent_message X tag b
| S_sign : forall seed m tag d b, sign_encode X seed m tag d = Ok b -> sent_message X tag b
| S_enc0 : forall c tag encrypt b, enc0_encode X c tag encrypt = Ok b -> sent_message X tag b
| S_mac0 : forall m tag mac b, snd (mac0_encode X m tag mac) = Ok b -> sent_message X tag b
| S_enc : forall n m tag encrypt b, snd (encm_encode X n m tag encrypt) = Ok b -> sent_message X tag b
| S_mac : forall n m tag mac b, snd (macm_encode X n m tag mac) = Ok b -> sent_message X tag b.

(** Nobody takes these bytes, or what begins with them, for a message, or for a key. *)
Definition no_message (b : bytes) : Prop := forall X expected allow s m, decode X expected allow (VBytes (b ++ s)) <> Ok m.
Definition no_key (b : bytes) : Prop := forall X s k, key_decode X (VBytes (b ++ s)) <> Ok k.
