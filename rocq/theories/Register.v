(** Registration of attributes at run time: [_CoseAttribute.register_attribute] and the
    registries as mutable state (pycose/utils.py:19-44). *)
From Coq Require Import NArith ZArith Bool String.
From Coq Require Import Init.Byte List.
From Verif Require Import Bytes Value Registry.
Import ListNotations.

(** A class with the attributes [identifier] and [fullname]: one of the library's, or one
    defined by a user of the library (the number tells user classes apart), utils.py:46-53.
    Simplification: the identifier of a user class is an integer. *)
Inductive aclass := Lib (c : cls) | User (i : N) (z : Z) (n : bytes).

(** [the_class.identifier], utils.py:22,46-48. *)
Definition ident (a : aclass) : Z := match a with Lib c => c_id c | User _ z _ => z end.
(** [the_class.fullname], utils.py:23,50-53. *)
Definition name_of (a : aclass) : bytes := match a with Lib c => cls_fullname c | User _ _ n => n end.

(** The keys of a registry: identifiers and upper-case names, utils.py:22-23. *)
Inductive akey := KId (z : Z) | KName (u : bytes).

(** [==] of registry keys (dict lookup at utils.py:30-38). *)
Definition akey_eqb (a b : akey) : bool :=
  match a, b with KId x, KId y => Z.eqb x y | KName x, KName y => bytes_eqb x y | _, _ => false end.

(** [_registered_algorithms], headers.py:8, algorithms.py:38, keyparam.py:17,59,96,127,212:
    a dict from keys to classes. *)
Definition areg := list (akey * aclass).

(** [reg[k]], utils.py:31,33,38. *)
Fixpoint rget (d : areg) (k : akey) : option aclass :=
  match d with [] => None | (k', a) :: r => if akey_eqb k k' then Some a else rget r k end.

(** [reg[k] = a], utils.py:22-23. *)
Fixpoint rset (d : areg) (k : akey) (a : aclass) : areg :=
  match d with [] => [(k, a)] | (k', a') :: r => if akey_eqb k k' then (k', a) :: r else (k', a') :: rset r k a end.

(** The registries of all base classes, utils.py:14-17. *)
Definition regs := fam -> areg.

(** Assignment to one of them, utils.py:22-23. *)
Definition rupd (s : regs) (f : fam) (d : areg) : regs := fun g => if fam_eq_dec g f then d else s g.

(** What changes the registries: a class registered with a base class, and the statement
    [_registered_algorithms.update(KeyParam.get_registered_classes())] in the definition of a
    base class (keyparam.py:60,97,128,213). *)
Inductive rop := Register (f : fam) (a : aclass) | CopyCommon (f : fam).

(** [register_attribute], utils.py:19-27, and [dict.update]. *)
Definition rstep (s : regs) (o : rop) : regs :=
  match o with
  | Register f a => rupd s f (rset (rset (s f) (KId (ident a)) a) (KName (upper (name_of a))) a)
  | CopyCommon f => rupd s f (fold_left (fun d e => rset d (fst e) (snd e)) (s FKP) (s f))
  end.

(** A sequence of these; utils.py:20-26. *)
Definition rsteps (s : regs) (l : list rop) : regs := fold_left rstep l s.

(** What importing the library registers with a base class: headers.py:15-156,
    algorithms.py:348-1419, keytype.py, keyops.py, curves.py, keyparam.py. *)
Definition declared (f : fam) : list rop := map (fun e => Register f (Lib (Cls f (fst e)))) (own_table f).

(** The import of the library: the modules one after the other, keyparam.py in source order.
    The registries of different base classes are different dicts, so the order of the other
    modules does not matter. *)
Definition import_ops : list rop :=
  declared FHdr ++ declared FAlg ++ declared FKP ++ [CopyCommon FEC2] ++ declared FEC2 ++ [CopyCommon FOKP] ++ declared FOKP ++
  [CopyCommon FRSA] ++ declared FRSA ++ [CopyCommon FSym] ++ declared FSym ++ declared FKty ++ declared FOps ++ declared FCrv.

(** The registries after [import pycose]; headers.py, algorithms.py, keys/*.py. *)
Definition imported : regs := rsteps (fun _ => []) import_ops.

(** The argument of [from_id]: a value, or a user's class; utils.py:29. *)
Inductive query := Val (v : pyval) | Class (a : aclass).

(** [from_id], utils.py:29-44, on the present registries: the class found, or [None] if the
    argument is returned as it is. Simplification: lists (which are looked up element by
    element) are not arguments here; see [Registry.from_id]. *)
Definition find (s : regs) (f : fam) (allow : bool) (q : query) : result (option aclass) :=
  let unknown := if allow then Ok None else Err CoseException in
  let found k := match rget (s f) k with Some a => Ok (Some a) | None => unknown end in
  match q with
  | Val (VInt z) => found (KId z)
  | Val (VBool b) => found (KId (if b then 1 else 0))
  | Val (VStr u) => found (KName (upper u))
  | Val (VClass c) => found (KId (c_id c))
  | Class a => found (KId (ident a))
  | Val _ => unknown
  end.
