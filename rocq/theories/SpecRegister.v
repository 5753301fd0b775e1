(** Vocabulary of C97. *)
From Coq Require Import NArith ZArith Bool.
From Coq Require Import Init.Byte List.
From Verif Require Import Bytes Value Registry SpecRegistry Register.
Import ListNotations.

(** The query names the attribute with identifier [z] and full name [n]: by its identifier, by
    its name in any letter case, or by a class with its identifier. *)
Definition by_id (z : Z) (q : query) : Prop :=
  match q with
  | Val (VInt x) => x = z
  | Val (VBool b) => (if b then 1 else 0)%Z = z
  | Val (VClass c) => c_id c = z
  | Class a => ident a = z
  | Val _ => False
  end.
Definition by_name (n : bytes) (q : query) : Prop := match q with Val (VStr u) => upper u = upper n | _ => False end.

(** The operation registers another class with family [f] under the same identifier or the
    same name; or it is the definition of the base class itself. *)
Definition replaces (f : fam) (z : Z) (n : bytes) (o : rop) : Prop :=
  match o with
  | Register g b => g = f /\ (ident b = z \/ upper (name_of b) = upper n)
  | CopyCommon g => g = f
  end.
