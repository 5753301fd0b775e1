(** Vocabulary of C119: messages that differ in their unprotected headers. *)
From Coq Require Import NArith ZArith Bool String.
From Coq Require Import Init.Byte List.
From Verif Require Import Bytes Value Registry Crypto Keys Headers Messages Recipients.
Import ListNotations.

(** [c'] is [c] after somebody has rewritten its unprotected header on the way: everything else
    is the same, and the listed parameters were left alone (present with the same value, or
    absent in both). *)
Definition rewritten (but : list pyval) (c c' : core) : Prop :=
  phdr c = phdr c' /\ phdr_raw c = phdr_raw c' /\ tstr c = tstr c' /\ local c = local c' /\ payload c = payload c' /\
  aad c = aad c' /\ ckey c = ckey c' /\
  Forall (fun a => dget (uhdr c) a = dget (uhdr c') a) but.

(** The parameters that say how to check or decrypt. *)
Definition how_to_check : list pyval := [Algorithm].
Definition how_to_decrypt : list pyval := [Algorithm; IV; PartialIV].
(** Those that say how a recipient gets at the content key. *)
Definition how_to_unwrap (rc : rclass) : list pyval :=
  match rc with
  | RDirect => []
  | RKeyWrap => [Algorithm]
  | RAgree | RAgreeKW =>
    [Algorithm; EphemeralKey; StaticKey; PartyUID; PartyUNonce; PartyUOther; PartyVID; PartyVNonce; PartyVOther]
  end.

(** The same for a recipient and the recipients in it. *)
Inductive rewritten_rcpt : rcpt -> rcpt -> Prop :=
| RewrittenRcpt : forall id rc c c' x x' s s', rewritten (how_to_unwrap rc) c c' -> Forall2 rewritten_rcpt s s' ->
  rewritten_rcpt (Rcpt id rc c x s) (Rcpt id rc c' x' s').
