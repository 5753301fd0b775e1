(** Vocabulary of the registry properties (C24, C25, C67). *)
From Coq Require Import NArith ZArith Bool String.
From Coq Require Import Init.Byte List.
From Verif Require Import Bytes Value Registry Crypto Keys Algorithms SpecIana.
Import ListNotations.

(** Equal up to the case of ASCII letters. *)
Definition lower_letter (b : byte) : N :=
  let n := b2N b in if ((65 <=? n) && (n <=? 90))%N then (n + 32)%N else n.
Definition same_letters (u n : bytes) : Prop := map lower_letter u = map lower_letter n.

(** The value [k] is a spelling of the attribute with class [c] and full name [n]: its
    id, its name in any letter case, or a class with its id. Python's True and False are
    the integers 1 and 0. *)
Definition spells (c : cls) (n : bytes) (k : pyval) : Prop :=
  match k with
  | VInt z => z = c_id c
  | VBool b => (if b then 1 else 0)%Z = c_id c
  | VStr u => upper u = n
  | VClass c' => c_id c' = c_id c
  | _ => False
  end.

(** [v] denotes no registered attribute: an integer that is no id, a text whose
    upper-case form is no name, a class whose id is no id, or anything that is not an
    integer, a text, a class or a list. Python's True and False are the integers 1, 0. *)
Definition int_value (v : pyval) : option Z :=
  match v with VInt z => Some z | VBool b => Some (if b then 1 else 0)%Z | VClass c => Some (c_id c) | _ => None end.

Definition unknown_attr (f : fam) (v : pyval) : Prop :=
  match v with
  | VList _ => False
  | VStr u => forall c n, In (c, n) (registered f) -> upper u <> n
  | _ => forall z, int_value v = Some z -> forall c n, In (c, n) (registered f) -> c_id c <> z
  end.

(** What the key [a] of a dictionary stands for: the registered attribute it spells, or
    else itself. *)
Definition stands_for (f : fam) (a s : pyval) : Prop :=
  (exists c n, In (c, n) (registered f) /\ spells c n a /\ s = VClass c) \/ (unknown_attr f a /\ s = a).

(** [w] is the registered attribute that [v] spells, or the list of those that the
    elements of the list [v] spell. *)
Inductive names (f : fam) : pyval -> pyval -> Prop :=
| N_one v c n : In (c, n) (registered f) -> spells c n v -> names f v (VClass c)
| N_list l l' : Forall2 (names f) l l' -> names f (VList l) (VList l').

(** The ids and key lengths of AES Key Wrap, RFC 8152 table 17. *)
Definition key_wraps : list (Z * nat) := [((-3)%Z, 16); ((-4)%Z, 24); ((-5)%Z, 32)].

(** An algorithm implementation has the kind and the lengths of its registry entry. *)
Definition kind_matches (i : iana_kind) (k : algk) : bool :=
  match i, k with
  | ISig, (ARsa _ _ | AEcdsa _ _ | AEdDSA) => true
  | IHash, (AHash _ _ | AShake) => true
  | IKeyTransport, AOaep _ => true
  | IDerive, (AEcdhHkdf _ | ADirect) => true
  | IKeyWrap n, AKw m => Nat.eqb n m
  | IKeyWrap n, AEcdhKW kw => existsb (fun e => Z.eqb (fst e) kw && Nat.eqb (snd e) n) key_wraps
  | IAead key tag, AGcm k => Nat.eqb key k && Nat.eqb tag 16
  | IAead key tag, ACcm t k => Nat.eqb key k && Nat.eqb tag t
  | IMac tag, AHmac _ t => Nat.eqb tag t
  | IAesMac key tag, ACbcMac t k => Nat.eqb key k && Nat.eqb tag t
  | _, _ => false
  end.

(** The hash function an algorithm implementation calls. *)
Definition kind_hash (k : algk) : option hash :=
  match k with
  | ARsa _ h | AOaep h | AEcdsa _ h | AHash h _ | AHmac h _ | AEcdhHkdf h => Some h
  | AEcdhKW _ => Some SHA256
  | _ => None
  end.

