(** Vocabulary of C131: how large a decoded object is. *)
From Coq Require Import NArith ZArith Bool String.
From Coq Require Import Init.Byte List.
From Verif Require Import Bytes Value Registry Crypto Keys Headers Messages Recipients.
Import ListNotations.

(** The number of objects a value consists of, and of the bytes and characters in them. *)
Fixpoint weight (v : pyval) : nat :=
  match v with
  | VBytes b | VStr b => S (length b)
  | VList l | VTuple l => S (list_sum (map weight l))
  | VDict d => S (list_sum (map (fun e => match e with (a, b) => weight a + weight b end) d))
  | VTag _ w | VOther _ w => S (weight w)
  | VKey _ s e =>
    S (list_sum (map (fun e => match e with (a, b) => weight a + weight b end) s) +
       list_sum (map (fun e => match e with (a, b) => weight a + weight b end) e))
  | _ => 1
  end.

(** A recipient, and the recipients in it. *)
Fixpoint nested (r : rcpt) : list core := match r with Rcpt _ _ c _ rs => c :: flat_map nested rs end.

(** The layers of a message: itself, and its recipients or signers. *)
Definition layers (m : message) : list core :=
  match m with
  | MSign1 s => [s1_core s]
  | MSign s => sm_core s :: sm_signers s
  | MEnc0 c => [c]
  | MMac0 s => [m0_core s]
  | MEnc s => e_core s :: flat_map nested (e_rcpts s)
  | MMac s => mm_core s :: match mm_rcpts s with Some rs => flat_map nested rs | None => [] end
  end.

(** The signature or the tag. *)
Definition seal (m : message) : list pyval :=
  match m with MSign1 s => [s1_sig s] | MMac0 s => [m0_tag s] | MMac s => [mm_tag s] | _ => [] end.

(** A header parameter: its name and its value. A key counts as one object here. *)
Definition parameter (e : pyval * pyval) : nat :=
  match e with (a, VKey _ _ _) => weight a + 1 | (a, v) => weight a + weight v end.

(** One for the object, its header parameters and the bytes of its payload. *)
Definition bulk (c : core) : nat :=
  1 + list_sum (map parameter (phdr c)) + list_sum (map parameter (uhdr c)) +
  match payload c with Some b => length b | None => 0 end.

Definition size (m : message) : nat := list_sum (map bulk (layers m)) + list_sum (map weight (seal m)).
