(** Vocabulary of C112: what is left of an object after a call that raised. *)
From Coq Require Import NArith ZArith Bool String.
From Coq Require Import Init.Byte List.
From Verif Require Import Bytes Value Registry Crypto Keys Algorithms Headers Messages Recipients SpecKeys SpecMapping SpecLife.
Import ListNotations.

(** ** Keys *)

(** A call of a method or setter of a key: the key afterwards, and how the call ended. *)
Definition done {A} (s : key * result A) : key * result unit :=
  (fst s, match snd s with Ok _ => Ok tt | Err e => Err e end).
Definition key_call (k : key) (o : key_op) : key * result unit :=
  match o with
  | KSetProp p v => prop_set k p v
  | KSetItem a v => item_set k a v
  | KDelItem a => item_del k a
  | KPop a => done (item_pop k a)
  | KPopitem => done (item_popitem k)
  | KClear => item_clear (S (length (k_store k))) k
  | KUpdate d => item_update k d
  | KSetDefault a v => done (item_setdefault k a v)
  end.

(** What a failed call may leave behind: the key operations although one of them was refused;
    the entries of an update before the one that was refused; no x coordinate although there
    was no y coordinate to delete with it. *)
Inductive half_done (k : key) : key_op -> key -> Prop :=
| HalfOps l ops : mapM (from_id FOps false) l = Ok ops ->
    half_done k (KSetProp PKeyOps (VList l)) (store_set k KpKeyOps (VList ops))
| HalfUpdate d1 a v d2 k' : d1 <> [] -> item_update k d1 = (k', Ok tt) -> half_done k (KUpdate (d1 ++ (a, v) :: d2)) k'
| HalfPair o a : o = KDelItem a \/ o = KPop a -> coordinate k a ->
    has k EC2KpD -> has k EC2KpX -> ~ has k EC2KpY ->
    half_done k o (with_store k (ddel (k_store k) (VClass EC2KpX))).

(** ** Messages *)

(** A recipient of a class that agrees on keys was given its own key, and so were those in it. *)
Inductive own_key : rcpt -> Prop :=
| OwnKey id rc c ctx subs : (rc = RAgree \/ rc = RAgreeKW -> ckey c <> None) -> Forall own_key subs ->
    own_key (Rcpt id rc c ctx subs).

(** Nothing has to be made up for the recipients when the message is encoded: no key pair, and
    no content key. *)
Definition prepared (rs : list rcpt) : Prop :=
  Forall own_key rs /\
  (has_class RDirect rs = true \/ has_class RAgree rs = true \/ Forall (fun r => payload (r_core r) <> Some []) rs).
