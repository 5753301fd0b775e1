(** Vocabulary of C105: the exceptions of [encode] for recipients of any class. *)
From Coq Require Import NArith ZArith Bool String.
From Coq Require Import Init.Byte List.
From Verif Require Import Bytes Value Registry Crypto Keys Headers Messages Recipients SpecKeys SpecStruct SpecAlg SpecAccept SpecCheck SpecSend SpecIncomplete.
Import ListNotations.

(** A recipient of any class, complete or not, with any recipients of its own. Its keys have
    parameters of the documented types and its headers can be serialised. *)
Inductive any_recipient (r : rcpt) : Prop :=
| recipient : typed_key (r_core r) -> sendable_headers (r_core r) ->
    (forall p, dget (local (r_core r)) StaticKey = Some (kval p) -> typed p) ->
    Forall any_recipient (r_subs r) -> any_recipient r.

(** The exceptions of [encode] other than COSE exceptions: those of the primitives, five of
    Python and of the CBOR encoder, and, for a COSE_Mac message, one more. *)
Definition other_exception (X : crypto) (x : exn) : Prop :=
  any_failure X x \/ In x [AttributeError; ValueError; TypeError; CBOREncodeTypeError; OverflowError].
