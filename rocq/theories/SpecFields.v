(** Vocabulary of C118: what was assigned to a message last. *)
From Coq Require Import NArith ZArith Bool String.
From Coq Require Import Init.Byte List.
From Verif Require Import Bytes Value Registry Crypto Keys Headers Messages Fields.
Import ListNotations.

(** The last of the values a history gives to a field, or the value before. *)
Fixpoint latest {A} (gives : msg_op -> option A) (before : A) (l : list msg_op) : A :=
  match l with
  | [] => before
  | o :: r => latest gives (match gives o with Some a => a | None => before end) r
  end.

(** What a statement gives to the payload, the external data, the key: byte strings, keys and
    None; nothing else is accepted. *)
Definition gives_payload (o : msg_op) : option (option bytes) :=
  match o with
  | OPayload VNone => Some None
  | OPayload (VBytes b) | OSignature (VBytes b) => Some (Some b)
  | _ => None
  end.
Definition gives_aad (o : msg_op) : option bytes := match o with OAad (VBytes b) => Some b | _ => None end.
Definition gives_key (o : msg_op) : option (option key) :=
  match o with
  | OKey VNone => Some None
  | OKey (VKey c s e) => Some (Some (Key c s e))
  | _ => None
  end.
Definition gives_tstr (o : msg_op) : option bool := match o with OTstr v => Some (truthy v) | _ => None end.
(** Local attributes add up: the value given to one of them, in a dict or in a key, which is
    a mapping too. *)
Definition gives_local (a : pyval) (o : msg_op) : option (option pyval) :=
  match o with
  | OLocal (VDict d) | OLocal (VKey _ d _) => match dget d a with Some v => Some (Some v) | None => None end
  | _ => None
  end.
(** The changes of the headers in a history. *)
Definition header_ops (l : list msg_op) : list hdr_op :=
  flat_map (fun o => match o with OHeader h => [h] | _ => [] end) l.

(** Exceptions of refused assignments. *)
Inductive refused_with : msg_op -> exn -> Prop :=
| RPayload v : v <> VNone -> (forall b, v <> VBytes b) -> refused_with (OPayload v) TypeError
| RSignature v : (forall b, v <> VBytes b) -> refused_with (OSignature v) TypeError
| RAad v : (forall b, v <> VBytes b) -> refused_with (OAad v) TypeError
| RKey v : v <> VNone -> (forall c s e, v <> VKey c s e) -> refused_with (OKey v) CoseInvalidKey
| RLocal v : (forall d, v <> VDict d) -> (forall c s e, v <> VKey c s e) -> refused_with (OLocal v) AttributeError.
