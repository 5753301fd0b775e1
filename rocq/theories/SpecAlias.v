(** Vocabulary of C114: messages and the objects of the program. *)
From Coq Require Import NArith ZArith Bool String.
From Coq Require Import Init.Byte List.
From Verif Require Import Bytes Value Registry Crypto Keys Headers SpecRegistry Alias.
Import ListNotations.

(** With the objects [f], the reference [x] has the value [v]. *)
Definition reads (f : N -> obj) (x : hv) (v : pyval) : Prop := exists n, view n f x = Some v.

(** The objects [l1 <= l < l2]. *)
Definition between (l1 l2 l : N) : Prop := (l1 <= l /\ l < l2)%N.

(** The reference, all references in the object: to objects that exist. *)
Definition exists_at (m : mem) (x : hv) : Prop := match x with At l => (l < m_next m)%N | Imm _ => True end.
Definition exists_in (m : mem) (o : obj) : Prop := Forall (fun e => exists_at m (snd e)) (o_items o).

(** What a program can do in the state [w]: it has references to existing objects only, and a
    dict stays a dict. *)
Definition possible (w : shared) (o : aop) : Prop :=
  let m := s_mem w in
  match o with
  | New p u _ => exists_at m p /\ exists_at m u
  | SetP g x | SetU g x | UpdP g x | UpdU g x | SetL g x => (g < s_count w)%N /\ exists_at m x
  | Make o => exists_in m o
  | Change l o => (l < m_next m)%N /\ o_kind o = o_kind (m_obj m l) /\ exists_in m o
  end.

(** The states a program can reach. *)
Inductive reached (X : crypto) (depth : nat) : shared -> Prop :=
| ReachedStart : reached X depth nothing
| ReachedStep w o : reached X depth w -> possible w o -> reached X depth (fst (astep X depth w o)).

(** The three dicts of a message. *)
Definition buckets (b : msgobj) : list N := [b_phdr b; b_uhdr b; b_local b].

(** The operation is none on message [g], and does not change the object [l]. *)
Definition not_on (g l : N) (o : aop) : Prop :=
  match o with
  | SetP g' _ | SetU g' _ | UpdP g' _ | UpdU g' _ | SetL g' _ => g' <> g
  | Change l' _ => l' <> l
  | New _ _ _ | Make _ => True
  end.

(** The header classes whose parser makes a new object: the algorithm and the two keys. *)
Definition remade (a : pyval) : Prop := a = Algorithm \/ a = EphemeralKey \/ a = StaticKey.

(** The dicts of a message, and the calls that assign to one and that update one. *)
Inductive side := Protected | Unprotected | Local.
Definition dict_of (s : side) (b : msgobj) : N :=
  match s with Protected => b_phdr b | Unprotected => b_uhdr b | Local => b_local b end.
Definition assign (s : side) (g : N) (x : hv) : aop :=
  match s with Protected => SetP g x | Unprotected => SetU g x | Local => SetL g x end.
Definition update (s : side) (g : N) (x : hv) : aop :=
  match s with Protected => UpdP g x | Unprotected => UpdU g x | Local => SetL g x end.
Definition bucket (s : side) (w : shared) (g : N) : hv := At (dict_of s (s_msg w g)).
Definition entries_of (s : side) (w : shared) (g : N) : list (pyval * hv) := o_items (m_obj (s_mem w) (dict_of s (s_msg w g))).

(** In the state [w], header [a] of message [g] has the value [v]. *)
Definition header_value (s : side) (w : shared) (g : N) (a v : pyval) : Prop :=
  exists y, hget (entries_of s w g) a = Some y /\ reads (m_obj (s_mem w)) y v.

(** The entry that counts when a key is there twice: the last (a dict has each key once). *)
Definition last_entry (its : list (pyval * hv)) (k : pyval) : option hv := hget (rev its) k.

(** A series of operations, and whether a program can carry them out. *)
Fixpoint run (X : crypto) (depth : nat) (w : shared) (os : list aop) : shared :=
  match os with [] => w | o :: r => run X depth (fst (astep X depth w o)) r end.
Fixpoint all_possible (X : crypto) (depth : nat) (w : shared) (os : list aop) : Prop :=
  match os with [] => True | o :: r => possible w o /\ all_possible X depth (fst (astep X depth w o)) r end.

(** The objects that came into being between two states. *)
Definition made (w w' : shared) (l : N) : Prop := between (m_next (s_mem w)) (m_next (s_mem w')) l.

(** The objects to be found from [l], following the references. *)
Inductive reaches (f : N -> obj) (l : N) : N -> Prop :=
| ReachSelf : reaches f l l
| ReachNext a k c : reaches f l a -> In (k, At c) (o_items (f a)) -> reaches f l c.

(** The object with every address replaced. *)
Definition rename (ren : N -> N) (x : hv) : hv := match x with At l => At (ren l) | Imm v => Imm v end.
Definition renamed (ren : N -> N) (o : obj) : obj := Obj (o_kind o) (map (fun e => (fst e, rename ren (snd e))) (o_items o)).
