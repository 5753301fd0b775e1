(** Vocabulary of C83 to C85: local attributes, and messages as they arrive, as CBOR items. *)
From Coq Require Import NArith ZArith Bool String.
From Coq Require Import Init.Byte List.
From Verif Require Import Bytes Value Cbor Registry Crypto Keys Headers Messages Recipients SpecRegistry SpecHdr.
Import ListNotations.

(** The bytes of a message with CBOR tag [t] and the given array elements. *)
Definition sent (t : N) (items : list cbor) : pyval := VBytes (enc (CTag t (CArr items))).
(** These elements have an encoding. *)
Definition sendable (t : N) (items : list cbor) : Prop := wfc (CTag t (CArr items)) = true.

(** RFC 8152 section 1.4: a label is an integer or text. *)
Definition label (k : cbor) : Prop := match k with CUint _ | CNint _ | CText _ => True | _ => False end.

(** The label [k] on the wire names the header parameter [c], registered under [n]. *)
Definition labels (c : cls) (n : bytes) (k : cbor) : Prop := exists v, lift true k = Ok v /\ spells c n v.

(** RFC 8152 sections 4-6: the number of elements of a message array. *)
Definition full_length (t : N) : nat :=
  (if N.eqb t 16 then 3 else if N.eqb t 97 then 5 else 4)%nat.

(** ** Local attributes (C83) *)

(** The recipient, and those nested in it, with other local attributes: [f] gives those of
    each recipient object. *)
Fixpoint relocate (f : N -> dict) (r : rcpt) : rcpt :=
  match r with
  | Rcpt id rc c ctx subs => Rcpt id rc (with_local c (f id)) ctx (map (relocate f) subs)
  end.

(** No key agreement in the tree of recipients. *)
Fixpoint no_agreement (r : rcpt) : bool :=
  match r with
  | Rcpt _ rc _ _ subs =>
    match rc with RDirect | RKeyWrap => forallb no_agreement subs | _ => false end
  end.

(** The message with local attributes [lo], its recipients with those of [f]. *)
Definition relocate_enc (f : N -> dict) (m : encmsg) (lo : dict) : encmsg :=
  EncMsg (with_local (e_core m) lo) (map (relocate f) (e_rcpts m)).
Definition relocate_mac (f : N -> dict) (m : macmsg) (lo : dict) : macmsg :=
  MacMsg (with_local (mm_core m) lo) (mm_tag m) (option_map (map (relocate f)) (mm_rcpts m)).
