(** Vocabulary for what a new key holds: the values given to a constructor, an import or a
    key generation, and where they are found again. *)
From Coq Require Import NArith ZArith Bool String.
From Coq Require Import Init.Byte List.
From Verif Require Import Bytes Value Registry Crypto Keys SpecKeys SpecHdr SpecRegistry SpecGen.
Import ListNotations.

(** The class, or list of classes, of family [f] that a value names by class, identifier or
    full name. *)
Inductive attribute_value (f : fam) : pyval -> pyval -> Prop :=
| AT_one v c n : In (c, n) (registered f) -> spells c n v -> attribute_value f v (VClass c)
| AT_list l l' : Forall2 (attribute_value f) l l' -> attribute_value f (VList l) (VList l').

(** What is stored for value [v] of parameter [p]: algorithms, key operations and curves as
    classes, anything else unchanged. *)
Definition param_value (p : cls) (v w : pyval) : Prop :=
  (p = KpAlg -> attribute_value FAlg v w) /\
  (p = KpKeyOps -> attribute_value FOps v w) /\
  (p = OKPKpCurve \/ p = EC2KpCurve -> attribute_value FCrv v w) /\
  (~ In p [KpAlg; KpKeyOps; OKPKpCurve; EC2KpCurve] -> w = v).

(** The [optional_params] argument stands for dictionary [d]. *)
Definition options (opt : pyval) (d : dict) : Prop := opt = VDict d \/ opt = VNone /\ d = [].

(** [k] is a key of class [c] that holds the parameters in [d], apart from those in [own]:
    the last value given for a parameter under any spelling, and nothing for a parameter that
    is not given. An empty list of key operations counts as not given. Labels that name no
    parameter are kept with their values. *)
Definition keeps (c : kclass) (own : list cls) (d : dict) (k : key) : Prop :=
  k_cls k = c /\ param k KpKty = Some (type_of c) /\
  (forall p n, In (p, n) (registered (params_of c)) -> p <> KpKty -> ~ In p own ->
     (forall v, last_value (spells p n) d v -> exists w, param_value p v w /\
        (param k p = Some w \/ p = KpKeyOps /\ w = VList [] /\ param k p = None)) /\
     (no_value (spells p n) d -> param k p = None)) /\
  (forall a, unknown_attr (params_of c) a -> (exists z, a = VInt z) \/ (exists u, a = VStr u) ->
     (forall v, last_value (fun b => keyeq a b = true) d v -> dget (k_store k) a = Some v) /\
     (no_value (fun b => keyeq a b = true) d -> dget (k_store k) a = None)).

(** The arguments that are neither empty nor [None]. *)
Definition supplied (l : list (cls * pyval)) : list (cls * pyval) := filter (fun e => truthy (snd e)) l.

Definition holds (k : key) (l : list (cls * pyval)) : Prop :=
  Forall (fun e => param k (fst e) = Some (snd e)) l.

(** The parameters that make up the key itself, with those for further RSA primes. *)
Definition numbers (c : kclass) : list cls :=
  match c with
  | KSym => [SymKpK]
  | KOKP => [OKPKpCurve; OKPKpX; OKPKpD]
  | KEC2 => [EC2KpCurve; EC2KpX; EC2KpY; EC2KpD]
  | KRSA => [RSAKpN; RSAKpE; RSAKpD; RSAKpP; RSAKpQ; RSAKpDP; RSAKpDQ; RSAKpQInv; RSAKpOther; RSAKpRi; RSAKpDi; RSAKpTi]
  end.

(** [d] says nothing about the numbers of the key: no label is a spelling of one of them or
    equal to its identifier (as a float may be). *)
Definition silent (c : kclass) (d : dict) : Prop :=
  forall p n, In p (numbers c) -> In (p, n) (registered (params_of c)) ->
  no_value (fun b => spells p n b \/ keyeq (VInt (c_id p)) b = true) d.

(** What is imported from a key of the [cryptography] package. *)
Definition class_of (e : extkey) : kclass :=
  match e with ExtOKP _ _ _ => KOKP | ExtEC _ _ _ _ => KEC2 | _ => KRSA end.

Definition imported (e : extkey) (k : key) : Prop :=
  match e with
  | ExtOKP c pub priv =>
    param k OKPKpCurve = Some (VClass (Cls FCrv c)) /\ (pub <> [] -> param k OKPKpX = Some (VBytes pub)) /\
    match priv with
    | Some (b :: r) => param k OKPKpD = Some (VBytes (b :: r))
    | _ => param k OKPKpD = None
    end
  | ExtEC c x y priv =>
    exists cv, c = Some cv /\ param k EC2KpCurve = Some (VClass (Cls FCrv cv)) /\
    forall size, In (cv, size) ec2_curves ->
      stored_sized k EC2KpX size x /\ stored_sized k EC2KpY size y /\
      match priv with Some d => stored_sized k EC2KpD size d | None => param k EC2KpD = None end
  | ExtRSA pub priv =>
    stored_min k RSAKpN (rsa_n pub) /\ stored_min k RSAKpE (rsa_e pub) /\
    match priv with
    | Some q => Forall (fun e => snd e <> 0%N -> stored_min k (fst e) (snd e))
        [(RSAKpD, rsa_d q); (RSAKpP, rsa_p q); (RSAKpQ, rsa_q q); (RSAKpDP, rsa_dmp1 q); (RSAKpDQ, rsa_dmq1 q);
         (RSAKpQInv, rsa_iqmp q)]
    | None => Forall (fun p => param k p = None) [RSAKpD; RSAKpP; RSAKpQ; RSAKpDP; RSAKpDQ; RSAKpQInv]
    end
  | ExtOther => False
  end.
