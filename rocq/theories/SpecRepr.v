(** Vocabulary of the properties of textual representations (C74, C75). *)
From Coq Require Import NArith ZArith Bool String.
From Coq Require Import Init.Byte List.
From Verif Require Import Bytes Value Registry Crypto Keys Algorithms Headers Messages Recipients SpecHdr.
Import ListNotations.

(** The secret parameters of each key type (RFC 8152 section 13, RFC 8230 section 4). *)
Definition secret_params (c : kclass) : list cls :=
  match c with
  | KSym => [SymKpK]
  | KOKP => [OKPKpD]
  | KEC2 => [EC2KpD]
  | KRSA => [RSAKpD; RSAKpP; RSAKpQ; RSAKpDP; RSAKpDQ; RSAKpQInv]
  end.

(** Byte strings that differ at most after their fifth byte. *)
Definition same_start (a b : bytes) : Prop := length a = length b /\ firstn 5 a = firstn 5 b.

(** Two stores of a key of class [c]: the same parameters in the same order, with the same
    values, except that secrets may differ after their fifth byte. *)
Definition same_but_secrets (c : kclass) (s s' : dict) : Prop :=
  Forall2 (fun e e' => fst e = fst e' /\
    (snd e = snd e' \/
     exists p b b', In p (secret_params c) /\ fst e = VClass p /\
       snd e = VBytes b /\ snd e' = VBytes b' /\ same_start b b')) s s'.

(** All objects with headers and a payload in a message. *)
Fixpoint rcpt_cores (r : rcpt) : list core :=
  match r with Rcpt _ _ c _ subs => c :: flat_map rcpt_cores subs end.
Definition message_cores (m : message) : list core :=
  message_core m ::
  match m with
  | MSign m => sm_signers m
  | MEnc m => flat_map rcpt_cores (e_rcpts m)
  | MMac m => match mm_rcpts m with Some l => flat_map rcpt_cores l | None => [] end
  | _ => []
  end.

(** The signature or authentication tag that a message carries itself. *)
Definition message_seal (m : message) : option pyval :=
  match m with
  | MSign1 m => Some (s1_sig m) | MMac0 m => Some (m0_tag m) | MMac m => Some (mm_tag m)
  | _ => None
  end.

(** The Python names under which [repr] looks for parameters of a key. *)
Definition printed_names : list bytes :=
  map bs ["KpKeyOps"; "SymKpK"; "OKPKpX"; "OKPKpY"; "OKPKpD"; "EC2KpX"; "EC2KpY"; "EC2KpD"]%string.

(** The parameters that RFC 8152 section 13 makes byte strings (without those of RSA). *)
Definition byte_params : list cls := [SymKpK; OKPKpX; OKPKpD; EC2KpX; EC2KpY; EC2KpD].

(** An ordinary key: no text label is the Python name of a parameter, and the numbers
    are byte strings. *)
Definition plain_key (s : dict) : Prop :=
  (forall u v, In (VStr u, v) s -> ~ In u printed_names) /\
  (forall p v, In p byte_params -> In (VClass p, v) s -> exists b, v = VBytes b).

(** The headers hold ordinary keys only. *)
Definition plain_key_headers (c : core) : Prop :=
  forall h kc s e, In (h, VKey kc s e) (phdr c) \/ In (h, VKey kc s e) (uhdr c) -> plain_key s.
