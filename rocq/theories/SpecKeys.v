(** Vocabulary of the key properties (C31, C33-C39, C42, C43, C61-C63). *)
From Coq Require Import NArith ZArith Bool String.
From Coq Require Import Init.Byte List.
From Verif Require Import Bytes Value Registry Crypto Keys SpecRegistry.
Import ListNotations.

(** A parameter of a key: absent or a value. *)
Definition param (k : key) (p : cls) : option pyval := dget (k_store k) (VClass p).

(** The registry of the parameters of keys of class [c], the common ones included. *)
Definition params_of (c : kclass) : fam :=
  match c with KSym => FSym | KOKP => FOKP | KEC2 => FEC2 | KRSA => FRSA end.

(** The key type (RFC 8152, table 21; RFC 8230, table 4) of keys of class [c]. *)
Definition type_number (c : kclass) : Z :=
  match c with KOKP => 1 | KEC2 => 2 | KRSA => 3 | KSym => 4 end.
Definition type_of (c : kclass) : pyval := VClass (Cls FKty (type_number c)).

(** Bytes of a coordinate of the curves of EC2 keys (RFC 8152 section 13.1, RFC 8812). *)
Definition ec2_curves : list (Z * nat) := [(1%Z, 32); (2%Z, 48); (3%Z, 66); (8%Z, 32)].
(** The curves of OKP keys. *)
Definition okp_curves : list Z := [4; 5; 6; 7]%Z.

(** The spelling [a] (class, id, name) denotes parameter [p] for keys of class [c]. *)
Definition denotes (c : kclass) (a : pyval) (p : cls) : Prop := stands_for (params_of c) a (VClass p).

(** A key made by one of the four constructors, whatever the arguments. *)
Inductive constructed (X : crypto) : key -> Prop :=
| ConSym kv opt allow k : sym_init kv opt allow = Ok k -> constructed X k
| ConOKP crv x d opt allow k : okp_init crv x d opt allow = Ok k -> constructed X k
| ConEC2 crv x y d opt allow k : ec2_init X crv x y d opt allow = Ok k -> constructed X k
| ConRSA a opt allow k : rsa_init a opt allow = Ok k -> constructed X k.

(** The item assignments [key[a] = v] an operation consists of. *)
Definition op_items (o : key_op) : dict :=
  match o with
  | KSetItem a v | KSetDefault a v => [(a, v)]
  | KUpdate d => d
  | _ => []
  end.

(** Property assignments and deletions only: no [key[a] = v], [update], [setdefault]. *)
Definition no_item_assignment (o : key_op) : Prop := op_items o = [].

(** [key.kty = ...] *)
Definition assigns_kty (o : key_op) : Prop := exists v, o = KSetProp PKty v.

(** Item assignments to parameter [p] only store values in [good]. *)
Definition items_good (c : kclass) (p : cls) (good : pyval -> Prop) (o : key_op) : Prop :=
  forall a v, In (a, v) (op_items o) -> denotes c a p -> good v.

(** A symmetric key value of a legal size. *)
Definition legal_k (v : pyval) : Prop :=
  exists b, v = VBytes b /\ In (length b) [16; 24; 32].

(** A curve for keys of the given class. *)
Definition curve_ids (c : kclass) : list Z :=
  match c with KEC2 => map fst ec2_curves | KOKP => okp_curves | _ => [] end.
Definition curve_of (c : kclass) (v : pyval) : Prop :=
  exists z, v = VClass (Cls FCrv z) /\ In z (curve_ids c).

(** [o] deletes parameter [p], under whatever spelling. *)
Definition deletes (c : kclass) (p : cls) (o : key_op) : Prop :=
  match o with KDelItem a | KPop a => denotes c a p | _ => False end.

(** "Present": the parameter is in the store. *)
Definition has (k : key) (p : cls) : Prop := param k p <> None.

(** The parameter is in the store with a value in [good]. *)
Definition holds (k : key) (p : cls) (good : pyval -> Prop) : Prop :=
  exists v, param k p = Some v /\ good v.

(** [o] does not break the key type: no [key.kty = ...], and an item assignment to it
    stores the right one. *)
Definition kty_safe (c : kclass) (o : key_op) : Prop :=
  ~ assigns_kty o /\ items_good c KpKty (fun v => v = type_of c) o.

(** [o] is a spelling of key operation [z] that the setters accept. *)
Definition names_op (z : Z) (o : pyval) : Prop :=
  o = VClass (Cls FOps z) \/ o = VInt z \/ o = VStr (cls_fullname (Cls FOps z)).

(** The operations (RFC 8152, table 4) the library allows for a type of key. *)
Definition legal_op (c : kclass) (z : Z) : Prop :=
  match c with
  | KSym =>
    z = 3%Z (* encrypt *) \/ z = 4%Z (* decrypt *) \/ z = 5%Z (* wrap key *) \/ z = 6%Z (* unwrap key *) \/
    z = 9%Z (* MAC create *) \/ z = 10%Z (* MAC verify *)
  | _ => z = 1%Z (* sign *) \/ z = 2%Z (* verify *) \/ z = 7%Z (* derive key *) \/ z = 8%Z (* derive bits *)
  end.

Definition supported (c : kclass) (o : pyval) : Prop := exists z, legal_op c z /\ names_op z o.

(** Key operations that are written as a class, an integer or a text. *)
Definition proper_op (o : pyval) : Prop :=
  match o with VClass _ | VInt _ | VStr _ => True | _ => False end.

(** The value that property [p] of a key of class [c] has after [v] is assigned: the
    algorithm or curve that [v] names, otherwise [v]. *)
Definition normalised (c : kclass) (p : kprop) (v w : pyval) : Prop :=
  match p, c with
  | PAlg, _ => names FAlg v w
  | PCrv, (KOKP | KEC2) => names FCrv v w
  | _, _ => v = w
  end.

(** When a key may be used: C31. *)
Definition type_ok (k : key) (c : kclass) : Prop := k_cls k = c.
Definition alg_ok (k : key) (alg : cls) : Prop :=
  param k KpAlg = None \/ param k KpAlg = Some VNone \/ exists a, param k KpAlg = Some (VClass a) /\ c_id a = c_id alg.
Definition ops_ok (k : key) (required : list cls) : Prop :=
  param k KpKeyOps = None \/ param k KpKeyOps = Some (VList []) \/
  exists l o, param k KpKeyOps = Some (VList l) /\ In o required /\ In (VClass o) l.

(** RSA components, RFC 8230 section 4. *)
Definition absent (v : pyval) : Prop := v = VBytes [] \/ v = VList [] \/ v = VNone.
Definition rsa_public_form (a : rsa_args) : Prop :=
  Forall (fun v => ~ absent v) [ra_n a; ra_e a] /\
  Forall absent [ra_d a; ra_p a; ra_q a; ra_dp a; ra_dq a; ra_qinv a; ra_other a; ra_ri a; ra_di a; ra_ti a].
Definition rsa_two_prime_form (a : rsa_args) : Prop :=
  Forall (fun v => ~ absent v) [ra_n a; ra_e a; ra_d a; ra_p a; ra_q a; ra_dp a; ra_dq a; ra_qinv a] /\
  Forall absent [ra_other a; ra_ri a; ra_di a; ra_ti a].
Definition rsa_multi_prime_form (a : rsa_args) : Prop :=
  Forall (fun v => ~ absent v) [ra_n a; ra_e a; ra_d a; ra_p a; ra_q a; ra_dp a; ra_dq a; ra_qinv a;
                                ra_other a; ra_ri a; ra_di a; ra_ti a].

(** Arguments of the right Python types: byte strings, and a list for [other]. *)
Definition rsa_typed (a : rsa_args) : Prop :=
  Forall (fun v => exists b, v = VBytes b)
    [ra_n a; ra_e a; ra_d a; ra_p a; ra_q a; ra_dp a; ra_dq a; ra_qinv a; ra_ri a; ra_di a; ra_ti a] /\
  (ra_other a = VNone \/ exists l, ra_other a = VList l).

(** [b] is the shortest big-endian form of [n]. *)
Definition minimal_be (b : bytes) (n : N) : Prop := of_be b = n /\ hd x01 b <> x00.

(** The stored value of component [p] of an imported RSA key: [n] in minimal form. *)
Definition stored_min (k : key) (p : cls) (n : N) : Prop :=
  exists b, param k p = Some (VBytes b) /\ minimal_be b n.

(** The stored value of coordinate [p]: [n] in exactly [size] bytes. *)
Definition stored_sized (k : key) (p : cls) (size : nat) (n : N) : Prop :=
  exists b, param k p = Some (VBytes b) /\ length b = size /\ of_be b = n.

(** The key operations are stored as a list (item assignment could store anything). *)
Definition is_list (v : pyval) : Prop := exists l, v = VList l.
