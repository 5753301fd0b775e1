(** Vocabulary of C105: the exceptions of [encode] for messages with recipients. *)
From Coq Require Import NArith ZArith Bool String.
From Coq Require Import Init.Byte List.
From Verif Require Import Bytes Value Registry Crypto Keys Headers Messages Recipients SpecKeys SpecStruct SpecAlg SpecAccept SpecCheck SpecSend SpecIncomplete.
Import ListNotations.

(** What else than a COSE exception can come out of wrapping the content key for a recipient:
    failures of the primitives, and the exceptions for a recipient that has no content key to
    wrap, or whose algorithm or key is not one that wraps. *)
Definition wrap_refusal (X : crypto) (c : core) (x : exn) : Prop :=
  wrap_failure X x \/ (x = TypeError /\ payload c = None) \/ (In x [AttributeError; ValueError; TypeError] /\ ~ wrapping c) \/ x = OverflowError.

(** Recipients without recipients of their own, with keys and headers of the documented types. *)
Definition plain_recipient (rc : rclass) (r : rcpt) : Prop :=
  r_class r = rc /\ r_subs r = [] /\ typed_key (r_core r) /\ sendable_headers (r_core r).

(** What else than a COSE exception can come out of [encode] with direct recipients; with key
    wrap recipients, a missing IV is a COSE exception. *)
Definition sealed_refusal (X : crypto) (c : core) (x : exn) : Prop :=
  seal_failure X x \/ (x = AttributeError /\ ~ declares c enc_algorithm) \/ (x = TypeError /\ payload c = None) \/ x = OverflowError.
