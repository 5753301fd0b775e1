(** Message, key and recipient classes registered at run time: the decorators
    [record_cbor_tag], [record_kty] and [record_rc], and the lookups in what they fill. *)
From Coq Require Import NArith ZArith Bool String.
From Coq Require Import Init.Byte List.
From Verif Require Import Bytes Value Registry Crypto Keys Recipients Register.
Import ListNotations.

(** ** Classes *)

(** Classes of the library that matter here: messages (cosemessage.py:17, enc0message.py:22,
    encmessage.py:21, mac0message.py:20, macmessage.py:29, sign1message.py:19,
    signmessage.py:96), recipients (recipient.py:45,189,249,374,468) and keys (cosekey.py:25,
    symmetric.py:16, okp.py:21, ec2.py:19, rsa.py:22). *)
Inductive lib := LMessage | LEnc0 | LEnc | LMac0 | LMac | LSign1 | LSign | LRecipient | LRcpt (r : rclass) | LCoseKey | LKey (c : kclass).

(** The other ancestors of a library class; same lines. Left out: base classes that are not
    in [lib], such as [EncCommon]. *)
Definition ancestors (p : lib) : list lib :=
  match p with
  | LMessage | LCoseKey => []
  | LEnc0 | LEnc | LMac0 | LMac | LSign1 | LSign | LRecipient => [LMessage]
  | LRcpt _ => [LRecipient; LMessage]
  | LKey _ => [LCoseKey]
  end.

(** A class: one of the library's, a program's class derived from another (the number tells
    classes apart), or one derived from neither messages nor keys.
    Simplification: one base class each. cosemessage.py:28, cosekey.py:51, recipient.py:53. *)
Inductive pclass := PLib (p : lib) | PUser (i : N) (base : pclass) | POther (i : N).

Definition rclass_dec : forall a b : rclass, {a = b} + {a <> b}. Proof. decide equality. Defined. (* recipient.py:189,249,374,468 *)
Definition kclass_dec : forall a b : kclass, {a = b} + {a <> b}. Proof. decide equality. Defined. (* cosekey.py:54-56 *)
Definition lib_dec : forall a b : lib, {a = b} + {a <> b}. (* cosemessage.py:28 *)
Proof. decide equality; [apply rclass_dec|apply kclass_dec]. Defined.
Definition pclass_dec : forall a b : pclass, {a = b} + {a <> b}. (* cosemessage.py:28 *)
Proof. decide equality; [apply lib_dec|apply N.eq_dec|apply N.eq_dec]. Defined.

(** [issubclass(c, d)], cosemessage.py:28,69, cosekey.py:52, recipient.py:53. *)
Fixpoint issub (c d : pclass) : bool :=
  (if pclass_dec c d then true else false) ||
  match c with
  | PLib p => match d with PLib q => if in_dec lib_dec q (ancestors p) then true else false | _ => false end
  | PUser _ b => issub b d
  | POther _ => false
  end.

(** ** Dicts *)
Section Table.
Context {K V : Type} (dec : forall a b : K, {a = b} + {a <> b}).
(** [d[k]], cosemessage.py:64, cosekey.py:90-94, recipient.py:73-75. *)
Fixpoint tget (d : list (K * V)) (k : K) : option V :=
  match d with [] => None | (k', v) :: r => if dec k k' then Some v else tget r k end.
(** [d[k] = v], cosemessage.py:30, cosekey.py:54-56, recipient.py:57: a key that is there keeps its place. *)
Fixpoint tset (d : list (K * V)) (k : K) (v : V) : list (K * V) :=
  match d with [] => [(k, v)] | (k', v') :: r => if dec k k' then (k', v) :: r else (k', v') :: tset r k v end.
End Table.

Definition aclass_dec : forall a b : aclass, {a = b} + {a <> b}. (* utils.py:7; classes are compared by identity *)
Proof. decide equality; [decide equality; [apply Z.eq_dec|apply fam_eq_dec]|apply (list_eq_dec Byte.byte_eq_dec)|apply Z.eq_dec|apply N.eq_dec]. Defined.

(** The keys of [_key_types]: the identifier, the name as it is, and the class of a key type,
    cosekey.py:54-56. *)
Inductive kkey := KkId (z : Z) | KkName (u : bytes) | KkClass (a : aclass).
Definition kkey_dec : forall a b : kkey, {a = b} + {a <> b}. (* cosekey.py:54-56 *)
Proof. decide equality; [apply Z.eq_dec|apply (list_eq_dec Byte.byte_eq_dec)|apply aclass_dec]. Defined.

(** ** The state: [_COSE_MSG_ID] (cosemessage.py:21), [_key_types] (cosekey.py:28),
    [_RCPT_CLASSES] (recipient.py:46), and the registries of attributes (utils.py:14-17). *)
Record plugins := Plugins {
  p_tags : list (Z * pclass);
  p_ktys : list (kkey * pclass);
  p_rcpts : list (aclass * pclass);
  p_attrs : regs }.

(** An element of the list given to [record_rc], as [issubclass(alg_cls, CoseAlgorithm)] sees it
    (recipient.py:56): an algorithm, another class, or no class. *)
Inductive rc_arg := RcAlg (a : aclass) | RcClass | RcValue.

Inductive pop :=
| RecordTag (z : Z) (c : pclass)                (* @CoseMessage.record_cbor_tag(z), cosemessage.py:23-34 *)
| RecordKty (a : aclass) (c : pclass)           (* @CoseKey.record_kty(a), cosekey.py:41-58 *)
| RecordRc (l : list rc_arg) (c : pclass)       (* @CoseRecipient.record_rc(l), recipient.py:48-60 *)
| Attribute (o : rop).                          (* @X.register_attribute(), utils.py:19-27 *)

(** The loop of [record_rc], recipient.py:55-57: what was recorded before an exception stays. *)
Fixpoint rc_loop (d : list (aclass * pclass)) (l : list rc_arg) (c : pclass) : list (aclass * pclass) * option exn :=
  match l with
  | [] => (d, None)
  | RcAlg a :: r => rc_loop (tset aclass_dec d a c) r c
  | RcClass :: r => rc_loop d r c
  | RcValue :: _ => (d, Some TypeError)
  end.

(** One registration: cosemessage.py:27-31, cosekey.py:50-57, recipient.py:52-58, utils.py:21-24. *)
Definition pstep (s : plugins) (o : pop) : plugins * option exn :=
  match o with
  | RecordTag z c =>
    if issub c (PLib LMessage) then (Plugins (tset Z.eq_dec (p_tags s) z c) (p_ktys s) (p_rcpts s) (p_attrs s), None)
    else (s, Some ValueError)
  | RecordKty a c =>
    if issub c (PLib LCoseKey) then
      (Plugins (p_tags s)
         (tset kkey_dec (tset kkey_dec (tset kkey_dec (p_ktys s) (KkId (ident a)) c) (KkName (name_of a)) c) (KkClass a) c)
         (p_rcpts s) (p_attrs s), None)
    else (s, Some ValueError)
  | RecordRc l c =>
    if issub c (PLib LRecipient) then
      let '(d, e) := rc_loop (p_rcpts s) l c in (Plugins (p_tags s) (p_ktys s) d (p_attrs s), e)
    else (s, Some ValueError)
  | Attribute o => (Plugins (p_tags s) (p_ktys s) (p_rcpts s) (rstep (p_attrs s) o), None)
  end.

(** A program's registrations, exceptions caught; cosemessage.py:23-34. *)
Definition psteps (s : plugins) (l : list pop) : plugins := fold_left (fun s o => fst (pstep s o)) l s.

(** ** [import pycose] *)

(** The decorators in the library's modules, in the order of import (keys/__init__.py:1-4,
    messages/__init__.py:1-7; recipient.py:188,247-248,373,467). *)
Definition lib_ops : list pop :=
  [RecordKty (Lib (Cls FKty 2)) (PLib (LKey KEC2)); RecordKty (Lib (Cls FKty 1)) (PLib (LKey KOKP));
   RecordKty (Lib (Cls FKty 3)) (PLib (LKey KRSA)); RecordKty (Lib (Cls FKty 4)) (PLib (LKey KSym));
   RecordTag 16 (PLib LEnc0)] ++
  map (fun e => RecordRc (map (fun z => RcAlg (Lib (Cls FAlg z))) (fst e)) (PLib (LRcpt (snd e))))
    [([-6; -10; -13], RDirect); ([-3; -4; -5; -42; -41; -40], RKeyWrap); ([-25; -26; -27; -28], RAgree);
     ([-29; -30; -31; -32; -33; -34], RAgreeKW)]%Z ++
  [RecordTag 96 (PLib LEnc); RecordTag 17 (PLib LMac0); RecordTag 97 (PLib LMac); RecordTag 18 (PLib LSign1); RecordTag 98 (PLib LSign)].

(** The state after the import, same lines. *)
Definition plug_import : plugins := psteps (Plugins [] [] [] imported) lib_ops.

(** ** Lookups *)

(** [cls.decode] from the tag on, cosemessage.py:62-71. [build c] is the class of the object that
    [c.from_cose_obj(...)] returns for the array received, or its exception. *)
Definition decode_as (s : plugins) (cls : pclass) (build : pclass -> result pclass) (tag : Z) : result pclass :=
  match tget Z.eq_dec (p_tags s) tag with
  | None => Err KeyError
  | Some c => match build c with Err e => Err e | Ok o => if issub o cls then Ok o else Err TypeError end
  end.

(** What is looked up in [_key_types] for a value: cosekey.py:89-94. *)
Definition kkey_of (q : query) : option kkey :=
  match q with
  | Class a => Some (KkClass a)
  | Val v => match knorm v with VInt z => Some (KkId z) | VStr u => Some (KkName u) | VClass c => Some (KkClass (Lib c)) | _ => None end
  end.
Definition key_class (s : plugins) (q : query) : option pclass := (* cosekey.py:89-94 *)
  match kkey_of q with Some k => tget kkey_dec (p_ktys s) k | None => None end.

(** [CoseKey._from_cryptography_key], cosekey.py:144-147: the first class that supports the key;
    [supports c] is [c._supports_cryptography_key_type(ext_key)]. *)
Definition import_class (s : plugins) (supports : pclass -> bool) : result pclass :=
  match List.find (fun e => supports (snd e)) (p_ktys s) with Some e => Ok (snd e) | None => Err CoseIllegalKeyType end.

(** The class of a received recipient, recipient.py:62-77: [v] is the value of its algorithm header,
    which is parsed (algorithms.py:1423) and then looked up. *)
Definition rcpt_class (s : plugins) (q : query) : result pclass :=
  match Register.find (p_attrs s) FAlg false q with
  | Err e => Err e
  | Ok None => Err CoseException
  | Ok (Some a) => match tget aclass_dec (p_rcpts s) a with Some c => Ok c | None => Err KeyError end
  end.

(** [verify_recipients], recipient.py:91-104, on the classes of the recipients. *)
Definition verify_classes (l : list pclass) : result unit :=
  let types := nodup pclass_dec l in
  let has r := if in_dec pclass_dec (PLib (LRcpt r)) types then true else false in
  if has RDirect && Nat.ltb 1 (length types) then Err CoseException
  else if has RAgree && Nat.ltb 1 (length l) then Err CoseException
  else Ok tt.
