(** Vocabulary of C117: what a program passes to a constructor, by name or by position. *)
From Coq Require Import NArith ZArith Bool String.
From Coq Require Import Init.Byte List.
From Verif Require Import Bytes Value Registry Crypto Keys Headers Recipients Construct.
Import ListNotations.
Open Scope string_scope.

(** The documented names of the arguments of each class, in their order ... *)
Definition documented (k : kind) : list string :=
  match k with
  | NSign1 | NEnc0 | NMac0 => ["phdr"; "uhdr"; "payload"; "external_aad"; "key"]
  | NSign => ["phdr"; "uhdr"; "payload"; "signers"]
  | NSigner => ["phdr"; "uhdr"; "signature"; "external_aad"; "key"]
  | NEnc | NMac | NRcpt => ["phdr"; "uhdr"; "payload"; "external_aad"; "key"; "recipients"]
  end.
(** ... and the options every class has. *)
Definition options : list string := ["phdr_encoded"; "alg_tstr_encoding"; "allow_unknown_attributes"].

(** Names that a class sets itself. *)
Definition taken (k : kind) : list string :=
  match k with
  | NSign => ["self"; "external_aad"; "key"]
  | NSigner => ["self"; "payload"]
  | _ => ["self"]
  end.

(** Every name with a meaning to the class. *)
Definition meaningful (k : kind) : list string := documented k ++ options ++ taken k.

(** Each argument is passed once. *)
Definition each_once (kw : list (string * arg)) : Prop := NoDup (map fst kw).

(** The value passed under a name, if there is one. *)
Definition passed (kw : list (string * arg)) (n : string) (d : arg) (a : arg) : Prop :=
  In (n, a) kw \/ (~ In n (map fst kw) /\ a = d).

(** What a payload, external data or a key may be, and the field it becomes. *)
Inductive is_payload : arg -> option bytes -> Prop :=
| NoPayload : is_payload (AVal VNone) None
| SomePayload b : is_payload (AVal (VBytes b)) (Some b).
Inductive is_aad : arg -> bytes -> Prop := IsAad b : is_aad (AVal (VBytes b)) b.
Inductive is_key : arg -> option key -> Prop :=
| NoKey : is_key (AVal VNone) None
| SomeKey c s e : is_key (AVal (VKey c s e)) (Some (Key c s e)).

(** The names under which the three are passed to a class, and the value taken if nothing is
    passed. *)
Definition payload_name (k : kind) : string := match k with NSigner => "signature" | _ => "payload" end.
Definition payload_default (k : kind) : arg :=
  match k with NSign1 | NSign => AVal VNone | _ => AVal (VBytes []) end.
