(** The KDF context classes as mutable objects: pycose/messages/context.py. References are
    numbers; the world maps them to objects. *)
From Coq Require Import NArith ZArith Bool String.
From Coq Require Import Init.Byte List.
From Verif Require Import Bytes Value Cbor Registry Crypto Keys Algorithms Headers Messages Recipients.
Import ListNotations.
Local Open Scope result_scope.

(** [PartyInfo], context.py:12-21. *)
Record party := Party { pi_identity : pyval; pi_nonce : pyval; pi_other : pyval }.
(** [SuppPubInfo], context.py:24-28: [_key_data_length] is an [int] (other types are not
    modelled), [protected] a dict. *)
Record pubinfo := PubInfo { pu_len : Z; pu_protected : dict; pu_other : pyval }.
(** [CoseKDFContext], context.py:62-68: references to the three parts. *)
Record context := Context { cx_alg : pyval; cx_pub : N; cx_u : N; cx_v : N; cx_priv : pyval }.

(** All the objects; [w_next] is a reference not yet in use. context.py:12-69. *)
Record world := World {
  w_party : N -> party; w_pub : N -> pubinfo; w_ctx : N -> context; w_next : N }.

(** Assignment to one attribute of one object (attrs classes, context.py:12,24,63). *)
Definition upd {A} (f : N -> A) (i : N) (x : A) : N -> A := fun j => if N.eqb j i then x else f j.

(** [PartyInfo()], context.py:14-16. *)
Definition no_party : party := Party VNone VNone VNone.

(** The defaults of [party_u_info] and [party_v_info] are two objects made once, when the
    class is defined (context.py:66-67): references 0 and 1. *)
Definition default_u : N := 0.
Definition default_v : N := 1.
Definition world0 : world :=
  World (fun _ => no_party) (fun _ => PubInfo 16 [] (VBytes [])) (fun _ => Context VNone 0 0 0 (VBytes [])) 2.

(** The attributes of PartyInfo, context.py:14-16. *)
Inductive field := Identity | Nonce | Other.
(** Assignment to an attribute of PartyInfo, context.py:14-16. *)
Definition set_field (p : party) (f : field) (v : pyval) : party :=
  match f with
  | Identity => Party v (pi_nonce p) (pi_other p)
  | Nonce => Party (pi_identity p) v (pi_other p)
  | Other => Party (pi_identity p) (pi_nonce p) v
  end.

(** [in [16, 24, 32]], context.py:38 and 46. *)
Definition length_ok (z : Z) : bool := existsb (Z.eqb z) [16; 24; 32]%Z.

(** What a program can do with these classes. context.py:12-80. *)
Inductive cop :=
| NewParty (p : party)                                   (* PartyInfo(...) *)
| SetParty (i : N) (f : field) (v : pyval)               (* p.identity = v, ... *)
| NewPub (z : Z) (d : dict) (o : pyval)                  (* SuppPubInfo(...) *)
| SetLength (i : N) (z : Z)                              (* s.key_data_length = z *)
| SetProtected (i : N) (d : dict)                        (* s.protected = d *)
| SetPubOther (i : N) (o : pyval)                        (* s.other = o *)
| NewContext (a : pyval) (s : N) (u v : option N) (o : pyval)   (* CoseKDFContext(...) *)
| SetAlgorithm (i : N) (a : pyval) | SetPub (i : N) (s : N) | SetU (i : N) (u : N) | SetV (i : N) (v : N)
| SetPriv (i : N) (o : pyval).

(** Assignment to an attribute of SuppPubInfo, context.py:26-43. *)
Definition set_pub (w : world) (i : N) (p : pubinfo) : world := World (w_party w) (upd (w_pub w) i p) (w_ctx w) (w_next w).
(** Assignment to an attribute of CoseKDFContext, context.py:65-69. *)
Definition set_ctx (w : world) (i : N) (c : context) : world := World (w_party w) (w_pub w) (upd (w_ctx w) i c) (w_next w).

(** One step; the reference of the new object, if there is one. [SuppPubInfo(...)] checks
    nothing: the method at context.py:45-47 is called [__attrs_post__init__], which attrs
    does not know ([__attrs_post_init__] it would be). The setter does check (34-43). *)
Definition cstep (w : world) (o : cop) : world * result (option N) :=
  match o with
  | NewParty p => (World (upd (w_party w) (w_next w) p) (w_pub w) (w_ctx w) (N.succ (w_next w)), Ok (Some (w_next w)))
  | SetParty i f v => (World (upd (w_party w) i (set_field (w_party w i) f v)) (w_pub w) (w_ctx w) (w_next w), Ok None)
  | NewPub z d o => (World (w_party w) (upd (w_pub w) (w_next w) (PubInfo z d o)) (w_ctx w) (N.succ (w_next w)), Ok (Some (w_next w)))
  | SetLength i z =>
    if length_ok z then (set_pub w i (PubInfo z (pu_protected (w_pub w i)) (pu_other (w_pub w i))), Ok None) else (w, Err ValueError)
  | SetProtected i d => (set_pub w i (PubInfo (pu_len (w_pub w i)) d (pu_other (w_pub w i))), Ok None)
  | SetPubOther i o => (set_pub w i (PubInfo (pu_len (w_pub w i)) (pu_protected (w_pub w i)) o), Ok None)
  | NewContext a s u v o =>
    let d x dflt := match x with Some i => i | None => dflt end in
    (World (w_party w) (w_pub w) (upd (w_ctx w) (w_next w) (Context a s (d u default_u) (d v default_v) o)) (N.succ (w_next w)), Ok (Some (w_next w)))
  | SetAlgorithm i a => let c := w_ctx w i in (set_ctx w i (Context a (cx_pub c) (cx_u c) (cx_v c) (cx_priv c)), Ok None)
  | SetPub i s => let c := w_ctx w i in (set_ctx w i (Context (cx_alg c) s (cx_u c) (cx_v c) (cx_priv c)), Ok None)
  | SetU i u => let c := w_ctx w i in (set_ctx w i (Context (cx_alg c) (cx_pub c) u (cx_v c) (cx_priv c)), Ok None)
  | SetV i v => let c := w_ctx w i in (set_ctx w i (Context (cx_alg c) (cx_pub c) (cx_u c) v (cx_priv c)), Ok None)
  | SetPriv i o => let c := w_ctx w i in (set_ctx w i (Context (cx_alg c) (cx_pub c) (cx_u c) (cx_v c) o), Ok None)
  end.

(** A history of operations on these objects, context.py:12-80. *)
Definition cruns (w : world) (l : list cop) : world := fold_left (fun w o => fst (cstep w o)) l w.

(** [PartyInfo.encode], context.py:18-21. *)
Definition party_encode (p : party) : pyval := VList [pi_identity p; pi_nonce p; pi_other p].
(** [SuppPubInfo.encode], context.py:49-56. *)
Definition pub_encode (p : pubinfo) : result pyval :=
  prot <- dumps cls_fullname HIdent (VDict (pu_protected p)) ;;
  Ok (VList ([VInt (pu_len p * 8); VBytes prot] ++ if veqb (pu_other p) (VBytes []) then [] else [pu_other p])).
(** [CoseKDFContext.encode], context.py:70-80. *)
Definition ctx_encode (w : world) (i : N) : result bytes :=
  let c := w_ctx w i in
  match identifier_of (cx_alg c) with
  | None => Err AttributeError
  | Some n =>
    s <- pub_encode (w_pub w (cx_pub c)) ;;
    dumps_plain (VList ([VInt n; party_encode (w_party w (cx_u c)); party_encode (w_party w (cx_v c)); s]
                        ++ if veqb (cx_priv c) (VBytes []) then [] else [cx_priv c]))
  end.
