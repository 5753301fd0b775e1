(** Vocabulary of C123: what the library writes. *)
From Coq Require Import NArith ZArith Bool String.
From Coq Require Import Init.Byte List.
From Verif Require Import Bytes Value Registry Crypto Keys Headers Messages Recipients.

(** The results of the [encode] methods of the six message classes and of keys. *)
Inductive encoded (X : crypto) : bytes -> Prop :=
| E_sign1 : forall seed m tag sign d b, sign1_encode X seed m tag sign d = Ok b -> encoded X b
| E_sign : forall seed m tag d b, sign_encode X seed m tag d = Ok b -> encoded X b
| E_enc0 : forall c tag encrypt b, enc0_encode X c tag encrypt = Ok b -> encoded X b
| E_mac0 : forall m tag mac b, snd (mac0_encode X m tag mac) = Ok b -> encoded X b
| E_enc : forall n m tag encrypt b, snd (encm_encode X n m tag encrypt) = Ok b -> encoded X b
| E_mac : forall n m tag mac b, snd (macm_encode X n m tag mac) = Ok b -> encoded X b
| E_key : forall k b, key_encode k = Ok b -> encoded X b.
