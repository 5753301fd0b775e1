(** Vocabulary of C129: what is drawn from the random source. *)
From Coq Require Import NArith ZArith Bool.
From Coq Require Import Init.Byte List.
From Verif Require Import Bytes Value Registry Crypto Keys Headers Messages Recipients SpecTrip SpecKeys SpecMsg.
Import ListNotations.

(** All the recipients of a list of messages, the nested ones after the one they belong to. *)
Fixpoint household (r : rcpt) : list rcpt := match r with Rcpt _ _ _ _ subs => r :: flat_map household subs end.
Definition everyone (w : list encmsg) : list rcpt := flat_map (fun m => flat_map household (e_rcpts m)) w.

(** The random source does not repeat itself from its position [lo] up to its position [hi]. *)
Definition new_private_keys (X : crypto) (lo hi : N) : Prop := forall crv i j,
  (lo <= i < hi)%N -> (lo <= j < hi)%N -> i <> j -> x_ec_gen X crv i <> x_ec_gen X crv j.
Definition new_key_bytes (X : crypto) (lo hi : N) : Prop := forall i j len len', In len [16; 24; 32] -> In len' [16; 24; 32] ->
  (lo <= i < hi)%N -> (lo <= j < hi)%N -> i <> j -> x_urandom X i len <> x_urandom X j len'.

(** Any number of calls of encode(), on messages of a program in any order and any number of times,
    with any arguments, whether they succeed or not; others may use the random source in between. *)
Inductive history (X : crypto) : N -> list encmsg -> N -> list encmsg -> Prop :=
| H_start n w : history X n w n w
| H_call n w n1 a m b n2 tag encrypt n3 m' x : history X n w n1 (a ++ m :: b) -> (n1 <= n2)%N ->
    encm_encode X n2 m tag encrypt = ((n3, m'), x) -> history X n w n3 (a ++ m' :: b).

(** The private number of a recipient's own key on a curve. *)
Definition private_number (r : rcpt) (crv : Z) (d : N) : Prop := exists k b, ckey (r_core r) = Some k /\
  param k EC2KpCurve = Some (VClass (Cls FCrv crv)) /\ bytes_param k EC2KpD b /\ of_be b = d.

(** No content key has been given to the recipients. *)
Definition no_content_key (m : encmsg) : Prop := Forall (fun r => payload (r_core r) = Some []) (e_rcpts m).
(** The content key a recipient of the message has been given. *)
Definition was_given (m : encmsg) (K : bytes) : Prop := K <> [] /\ exists r, In r (e_rcpts m) /\ payload (r_core r) = Some K.
