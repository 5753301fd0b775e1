(** Vocabulary of the recipient properties (C15-C19, C45-C51, C57-C60). *)
From Coq Require Import NArith ZArith Bool String.
From Coq Require Import Init.Byte List.
From Verif Require Import Bytes Value Cbor SpecData Registry Crypto Keys Algorithms Headers Messages Recipients
  SpecRegistry SpecKeys SpecAlg SpecHdr SpecTrip SpecMsg.
Import ListNotations.

(** ** Recipient trees *)

(** Object [t] occurs in a forest, at any depth. *)
Inductive in_forest (t : N) : list rcpt -> Prop :=
| IF_here r rs : In r rs -> r_id r = t -> in_forest t rs
| IF_below r rs : In r rs -> in_forest t (r_subs r) -> in_forest t rs.

(** At each level at most one recipient has nested ones. *)
Inductive chain : list rcpt -> Prop :=
| Ch_flat rs : (forall r, In r rs -> r_subs r = []) -> chain rs
| Ch_below before r after : (forall x, In x before -> r_subs x = []) -> (forall x, In x after -> r_subs x = []) ->
    chain (r_subs r) -> chain (before ++ r :: after).

(** The algorithms a recipient of each class may declare. *)
Definition class_algs (rc : rclass) : list Z :=
  match rc with
  | RDirect => [-6; -10; -13]%Z
  | RKeyWrap => [-3; -4; -5; -40; -41; -42]%Z
  | RAgree => [-25; -26; -27; -28]%Z
  | RAgreeKW => [-29; -30; -31; -32; -33; -34]%Z
  end.

(** The rule of RFC 8152 section 12.5.1 on mixing recipient classes, as the library
    documents it. *)
Definition may_mix (rs : list rcpt) : Prop :=
  ((exists r, In r rs /\ r_class r = RDirect) -> forall r, In r rs -> r_class r = RDirect) /\
  ((exists r, In r rs /\ r_class r = RAgree) -> length rs = 1).

(** The recipient list of an EncMessage after a history of assignments. *)
Definition assign (m : encmsg) (args : list (option (list (option rcpt)))) : encmsg :=
  fold_left (fun m a => fst (enc_set_recipients m a)) args m.

(** A recipient without a key of its own, with nested recipients. *)
Definition layered (r : rcpt) : Prop := r_class r = RKeyWrap /\ ckey (r_core r) = None /\ r_subs r <> [].

(** The recipients of a message use key wrap. *)
Definition key_wrapped (rs : list rcpt) : Prop :=
  rs <> [] /\ forall r, In r rs -> r_class r = RKeyWrap \/ r_class r = RAgreeKW.
