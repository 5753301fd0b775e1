(** Vocabulary of C124: base64 texts and the bytes they stand for (RFC 4648). *)
From Coq Require Import NArith PeanoNat Bool String.
From Coq Require Import Init.Byte List.
From Verif Require Import Bytes.
Import ListNotations.

(** The alphabet: the character of value [v] is the [v]-th one; minus and underscore are the
    URL-safe characters for 62 and 63. *)
Definition alphabet : bytes := bs "ABCDEFGHIJKLMNOPQRSTUVWXYZabcdefghijklmnopqrstuvwxyz0123456789+/".
Definition digit (c : byte) (v : nat) : Prop := nth_error alphabet v = Some c \/ (c = x2d /\ v = 62) \/ (c = x5f /\ v = 63).

(** A text of nothing but digits. *)
Definition digits (u : bytes) (l : list nat) : Prop := Forall2 digit u l.

(** An ASCII character that is neither a digit nor the padding character. *)
Definition foreign (c : byte) : Prop := (b2N c < 128)%N /\ c <> x3d /\ forall v, ~ digit c v.

(** Digits with foreign characters between them. *)
Inductive noisy : bytes -> list nat -> Prop :=
| N_nil : noisy [] []
| N_digit : forall c v u l, digit c v -> noisy u l -> noisy (c :: u) (v :: l)
| N_foreign : forall c u l, foreign c -> noisy u l -> noisy (c :: u) l.

(** The number the digits denote in base 64. *)
Definition number (l : list nat) : N := fold_left (fun a v => a * 64 + N.of_nat v)%N l 0%N.

(** The digits are 6 bits each; the bytes are as many whole groups of 8 of these bits as there
    are, from the left. *)
Definition stands_for (l : list nat) (b : bytes) : Prop :=
  length b = (6 * length l) / 8 /\ of_be b = (number l / 2 ^ N.of_nat (6 * length l - 8 * length b))%N.

(** The padding of a text of [n] digits. *)
Definition padding (n : nat) : bytes := repeat x3d ((4 - n mod 4) mod 4).
