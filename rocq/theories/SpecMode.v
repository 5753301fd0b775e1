(** Vocabulary of C132: the strict mode of decoding and construction. *)
From Coq Require Import NArith ZArith Bool String.
From Coq Require Import Init.Byte List.
From Verif Require Import Bytes Value Registry Crypto Keys Headers Messages Recipients SpecRegistry.
Import ListNotations.

(** The strict mode gives what the permissive one gives, or it raises CoseException. *)
Definition same_or_refused {A} (strict permissive : result A) : Prop :=
  strict = permissive \/ strict = Err CoseException.

(** The message itself and its signers or direct recipients. *)
Definition parts (m : message) : list core :=
  match m with
  | MSign1 s => [s1_core s]
  | MSign s => sm_core s :: sm_signers s
  | MEnc0 c => [c]
  | MMac0 s => [m0_core s]
  | MEnc s => e_core s :: map r_core (e_rcpts s)
  | MMac s => mm_core s :: map r_core (match mm_rcpts s with Some rs => rs | None => [] end)
  end.

(** No parameter in either header map is unknown. *)
Definition no_unknown (c : core) : Prop :=
  forall k v, In (k, v) (phdr c) \/ In (k, v) (uhdr c) -> ~ unknown_attr FHdr k.

(** The recipients were read: a message whose recipients array is unreadable is decoded without
    recipients, and then the decoded message does not tell what was in the array. *)
Definition recipients_read (m : message) : Prop :=
  match m with
  | MEnc s => e_rcpts s <> []
  | MMac s => mm_rcpts s <> None
  | _ => True
  end.

(** No name in the dictionary of optional parameters is unknown. *)
Definition options_known (f : fam) (opt : pyval) : Prop :=
  match opt with
  | VDict d | VKey _ d _ => forall k v, In (k, v) d -> ~ unknown_attr f k
  | _ => True
  end.
