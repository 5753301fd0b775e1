(** Vocabulary of C121: the other signers and recipients of a message. *)
From Coq Require Import NArith ZArith Bool String.
From Coq Require Import Init.Byte List.
From Verif Require Import Bytes Value Registry Crypto Keys Headers Messages Recipients.
Import ListNotations.

(** Two recipient objects with the same content: class, headers, payload, key and nested
    recipients. They may be different objects, at different positions of different messages. *)
Definition same_entry (r r' : rcpt) : Prop := r_class r = r_class r' /\ r_core r = r_core r' /\ r_subs r = r_subs r'.

(** A list with one element exchanged. *)
Definition put {A} (l : list A) (i : nat) (x : A) : list A := firstn i l ++ x :: skipn (S i) l.

(** What the receiver adds to a message before decrypting: a key, and the external data. *)
Definition ready (c : core) (o : option key) (a : bytes) : core := with_aad (with_key c o) a.
