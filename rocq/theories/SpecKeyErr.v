(** Vocabulary of C100: how keys are refused. *)
From Coq Require Import NArith ZArith Bool String.
From Coq Require Import Init.Byte List.
From Verif Require Import Bytes Value Registry Crypto Keys SpecKeys SpecErr.
Import ListNotations.

(** The exceptions of pycose/exceptions.py with which keys are refused: [CoseException] itself and
    three subclasses. *)
Definition cose_refusals : list exn := [CoseException; CoseIllegalKeyType; CoseInvalidKey; CoseUnsupportedCurve].

(** The other exceptions that occur: those of cbor2, and Python's own. *)
Definition other_refusals : list exn :=
  [CBORDecodeEOF; CBORDecodeValueError; TypeError; ValueError; KeyError; IndexError; AssertionError; AttributeError].

(** The parameter kty in its three spellings. *)
Definition kty_labels : list pyval := [VClass KpKty; VInt 1; VStr (bs "KTY")].
(** The map has none of them. *)
Definition no_kty (d : dict) : Prop := forall k v l, In (k, v) d -> In l kty_labels -> keyeq l k = false.
(** Its value is none of the four key types, as class, number or name. *)
Definition bad_kty (d : dict) : Prop :=
  exists l v, In l kty_labels /\ dget d l = Some v /\ (forall l', In l' kty_labels -> l' = l \/ dget d l' = None) /\
    hashable v = true /\
    forall t, In t [1; 2; 3; 4]%Z -> keyeq v (VInt t) = false /\ keyeq v (VClass (Cls FKty t)) = false /\ keyeq v (VStr (cls_fullname (Cls FKty t))) = false.
