(** Model of attribute objects, i.e. instances of the attribute classes such as [KID()], and of
    their comparison operators (utils.py:29-43, 55-77). *)
From Coq Require Import ZArith Bool String Decimal DecimalString.
From Coq Require Import Init.Byte List.
From Verif Require Import Bytes Value Registry.
Import ListNotations.
Local Open Scope result_scope.

(** What can be compared: an instance of an attribute class, or anything else. The class
    attributes [identifier] and [fullname] are those of its class (headers.py:16-20 and the like). *)
Inductive operand := AttrObj (c : cls) | Other (v : pyval).

(** [other.identifier], utils.py:56,59,62,65,68,71: instances and classes of attributes have it. *)
Definition identifier (o : operand) : result Z :=
  match o with
  | AttrObj c => Ok (c_id c)
  | Other (VClass c) => Ok (c_id c)
  | Other _ => Err AttributeError
  end.

Inductive operator := OpEq | OpNe | OpLt | OpLe | OpGt | OpGe.

(** [__eq__], [__ne__], [__lt__], [__le__], [__gt__], [__ge__], utils.py:55-71. *)
Definition method (op : operator) (self : cls) (other : operand) : result bool :=
  i <- identifier other ;;
  Ok (match op with
      | OpEq => Z.eqb (c_id self) i
      | OpNe => negb (Z.eqb (c_id self) i)
      | OpLt => Z.ltb (c_id self) i
      | OpLe => Z.leb (c_id self) i
      | OpGt => Z.ltb i (c_id self)
      | OpGe => Z.leb i (c_id self)
      end).

(** The operator Python tries on the right operand when the left one does not know the other's
    type; the operators of utils.py:55-71 are their own counterparts. *)
Definition reflected (op : operator) : operator :=
  match op with OpEq => OpEq | OpNe => OpNe | OpLt => OpGt | OpLe => OpGe | OpGt => OpLt | OpGe => OpLe end.

(** [a == b] and so on, at least one an attribute object; [None] when neither is (not code of
    utils.py:55-71). *)
Definition compare (op : operator) (a b : operand) : option (result bool) :=
  match a, b with
  | AttrObj c, _ => Some (method op c b)
  | _, AttrObj c => Some (method (reflected op) c a)
  | _, _ => None
  end.

(** [hash(obj)]: a class that defines [__eq__] and no [__hash__] (utils.py:55,73-74, where it is
    commented out) makes objects that cannot be hashed, so they cannot be keys of a dict. *)
Definition obj_hash (o : operand) : result unit :=
  match o with
  | AttrObj _ => Err TypeError
  | Other v => if hashable v then Ok tt else Err TypeError
  end.

(** [cls.from_id(obj)] for an attribute object, utils.py:37-43: no int, str or list, but with an
    identifier; the result is the class found, or the object itself when unknown ones are allowed. *)
Definition from_id_obj (f : fam) (allow : bool) (c : cls) : result operand :=
  match dget (registry f) (VInt (c_id c)) with
  | Some v => Ok (Other v)
  | None => if allow then Ok (AttrObj c) else Err CoseException
  end.

(** [repr(obj)], utils.py:76-77. *)
Definition obj_repr (c : cls) : bytes :=
  bs "<" ++ cls_fullname c ++ bs ": " ++ bs (NilZero.string_of_int (Z.to_int (c_id c))) ++ bs ">".
