(** Vocabulary for classes registered at run time. *)
From Coq Require Import NArith ZArith Bool.
From Coq Require Import Init.Byte List.
From Verif Require Import Bytes Value Registry SpecRegistry Register SpecRegister Plugin.
Import ListNotations.

(** Being a subclass: through zero or more base classes. *)
Inductive subclass : pclass -> pclass -> Prop :=
| SC_same c : subclass c c
| SC_lib p q : In q (ancestors p) -> subclass (PLib p) (PLib q)
| SC_user i b c : subclass b c -> subclass (PUser i b) c.

(** The registration is for the CBOR tag [z]. *)
Definition for_tag (z : Z) (o : pop) : Prop := exists c, o = RecordTag z c /\ subclass c (PLib LMessage).

(** The query names key type [a] by its identifier (a float or True will do), its name (in
    this spelling), or the class. *)
Definition type_query (a : aclass) (q : query) : Prop :=
  match q with
  | Val v => keyeq v (VInt (ident a)) = true \/ v = VStr (name_of a) \/ exists c, v = VClass c /\ a = Lib c
  | Class b => b = a
  end.

(** The registration is for a key type with the same identifier, name or class. *)
Definition for_type (a : aclass) (o : pop) : Prop :=
  exists b c, o = RecordKty b c /\ subclass c (PLib LCoseKey) /\ (ident b = ident a \/ name_of b = name_of a \/ b = a).

(** The registration is for recipients with algorithm [a]. *)
Definition for_alg (a : aclass) (o : pop) : Prop :=
  exists l c, o = RecordRc l c /\ subclass c (PLib LRecipient) /\ In (RcAlg a) l.

(** The state that a program has made by some registrations after importing the library. *)
Definition reached (before : list pop) : plugins := psteps plug_import before.

(** The registrations of attributes among them. *)
Definition attributes (l : list pop) : list rop := flat_map (fun o => match o with Attribute r => [r] | _ => [] end) l.
