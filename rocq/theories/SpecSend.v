(** Vocabulary of C103: complete messages, and what can still go wrong when they are sent. *)
From Coq Require Import NArith ZArith Bool String.
From Coq Require Import Init.Byte List.
From Verif Require Import Bytes Value Registry Crypto Keys Headers Messages Recipients SpecKeys SpecStruct SpecAlg SpecAccept SpecCheck.
Import ListNotations.

(** Values that can be sent: everything CBOR has, attribute classes, and keys. Only the break
    marker, which is no value, and keys whose list of operations is no list are excluded. *)
Fixpoint sendable (v : pyval) : bool :=
  match v with
  | VBreak => false
  | VList l | VTuple l => forallb sendable l
  | VDict d => forallb (fun e => match e with (a, b) => sendable a && sendable b end) d
  | VTag _ w | VOther _ w => sendable w
  | VKey _ s _ =>
    forallb (fun e => match e with (a, b) => sendable a && sendable b end) s &&
    match dget s (VClass KpKeyOps) with Some (VList _) | None => true | _ => false end
  | _ => true
  end.

(** The headers of a message, a signer or a recipient can be sent. *)
Definition sendable_headers (c : core) : Prop := sendable (VDict (phdr c)) = true /\ sendable (VDict (uhdr c)) = true.

(** The algorithm header is algorithm [z], which the key permits for operation [op]. *)
Definition permitted (c : core) (z : Z) (k : key) (ops : list cls) : Prop :=
  get_attr c Algorithm = Ok (alg z) /\ ckey c = Some k /\ typed k /\ alg_ok k (Cls FAlg z) /\ ops_ok k ops.

(** The key has a private part of the right kind. *)
Definition can_sign (k : key) : Prop :=
  match k_cls k with
  | KSym => False
  | KEC2 => filled k EC2KpD
  | KOKP => filled k OKPKpD /\ exists z, In z [6; 7]%Z /\ param k OKPKpCurve = Some (VClass (Cls FCrv z))
  | KRSA => forall p, In p [RSAKpP; RSAKpQ; RSAKpD; RSAKpDP; RSAKpDQ; RSAKpQInv] -> filled k p
  end.

(** There is exactly one payload: in the message, or given to [encode]. *)
Definition one_payload (c : core) (detached : option bytes) : Prop :=
  match payload c, detached with Some _, None | None, Some _ => True | _, _ => False end.

(** A signature can be made by [c], which is the message or one of its signers. *)
Definition signs (c : core) : Prop :=
  exists z k, permitted c z k [Cls FOps 1] /\ sig_algorithm (k_cls k) z /\ can_sign k.

(** A nonce is there: the IV, or the base IV of the key and a partial IV. *)
Definition has_nonce (c : core) (k : key) : Prop :=
  (exists n, get_attr c IV = Ok (VBytes n)) \/
  (get_attr c IV = Ok VNone /\ filled k KpBaseIV /\ exists p, get_attr c PartialIV = Ok (VBytes p)).

(** Exceptions of the primitives of the sender. *)
Definition sign_failure (X : crypto) (x : exn) : Prop :=
  (exists p h k n t, x_rsa_sign X p h k n t = Err x) \/ (exists c h d t, x_ecdsa_sign X c h d t = Err x) \/
  (exists c k t, x_ed_sign X c k t = Err x).
Definition seal_failure (X : crypto) (x : exn) : Prop :=
  (exists k n p a, x_gcm_enc X k n p a = Err x) \/ (exists l k n p a, x_ccm_enc X l k n p a = Err x).
Definition wrap_failure (X : crypto) (x : exn) : Prop :=
  (exists k d, x_wrap X k d = Err x) \/ (exists h k n d, x_oaep_enc X h k n d = Err x).

(** OverflowError stands for objects that do not exist in CPython: 2^63 bytes, malformed text. *)
Definition only (P : exn -> Prop) {A} (r : result A) : Prop :=
  match r with Ok _ => True | Err x => x = OverflowError \/ P x end.
Definition never (x : exn) : Prop := False.

(** ** Recipients *)

(** A recipient that uses the key of the message as it is. RFC 8152 section 12.1.1: with the
    algorithm "direct" it has no protected headers. *)
Definition direct_recipient (r : rcpt) : Prop :=
  r_class r = RDirect /\ r_subs r = [] /\ sendable_headers (r_core r) /\
  exists z, get_attr (r_core r) Algorithm = Ok (alg z) /\ (z = (-6)%Z -> phdr (r_core r) = []).

(** A recipient that gets the content key wrapped: with AES and a secret of the right length, or
    with RSA-OAEP and a public key that may be used for wrapping. Its content key, if there is
    one already, has the length of an AES key. *)
Definition aes_wraps : list (Z * nat) := [ ((-3)%Z, 16); ((-4)%Z, 24); ((-5)%Z, 32) ].
Definition wrapping (c : core) : Prop :=
  (exists z n k b, get_attr c Algorithm = Ok (alg z) /\ In (z, n) aes_wraps /\ ckey c = Some k /\ secret k b /\ length b = n) \/
  (exists z k, permitted c z k [Cls FOps 5; Cls FOps 3] /\ In z [-40; -41; -42]%Z /\ k_cls k = KRSA).
Definition wrap_recipient (r : rcpt) : Prop :=
  r_class r = RKeyWrap /\ r_subs r = [] /\ sendable_headers (r_core r) /\ phdr (r_core r) = [] /\ wrapping (r_core r) /\
  exists b, payload (r_core r) = Some b /\ (b = [] \/ In (length b) [16; 24; 32]).

(** Exceptions of the primitives when the recipients are [rs]. *)
Definition send_failure (X : crypto) (x : exn) : Prop := seal_failure X x \/ wrap_failure X x.

(** ** Key agreement *)

(** Values without keys, and without attribute classes when [classes] is false. *)
Fixpoint keyless (classes : bool) (v : pyval) : bool :=
  match v with
  | VBreak | VKey _ _ _ => false
  | VClass _ => classes
  | VList l | VTuple l => forallb (keyless classes) l
  | VDict d => forallb (fun e => match e with (a, b) => keyless classes a && keyless classes b end) d
  | VTag _ w | VOther _ w => keyless classes w
  | _ => true
  end.

(** What goes into the key derivation can be serialised: the party headers, the supplementary
    information and the protected headers. *)
Definition derivable (c : core) : Prop :=
  (forall h, In h [PartyUID; PartyUNonce; PartyUOther; PartyVID; PartyVNonce; PartyVOther] ->
     exists v, get_attr c h = Ok v /\ keyless false v = true) /\
  (forall h v, In h [SuppPubOther; SuppPrivOther] -> dget (local c) h = Some v -> keyless false v = true) /\
  keyless true (VDict (phdr c)) = true.

(** The key of the other party, on curve [cv], is known, and the sender's own key is there. *)
Definition peer_known (c : core) (cv : Z) (p : key) : Prop :=
  dget (local c) StaticKey = Some (kval p) /\ k_cls p = KEC2 /\ In cv (map fst ec2_curves) /\
  param p EC2KpCurve = Some (VClass (Cls FCrv cv)) /\ filled p EC2KpX /\ filled p EC2KpY.
Definition own_key (c : core) (k : key) : Prop := ckey c = Some k /\ k_cls k = KEC2 /\ filled k EC2KpD.

(** A recipient with key agreement and key wrap. Without a key of its own, it must use ECDH-ES,
    and an ephemeral key will be generated. *)
Definition agree_wrap_recipient (r : rcpt) : Prop :=
  r_class r = RAgreeKW /\ r_subs r = [] /\ sendable_headers (r_core r) /\ derivable (r_core r) /\
  (exists z cv p, get_attr (r_core r) Algorithm = Ok (alg z) /\ In z [-29; -30; -31; -32; -33; -34]%Z /\ peer_known (r_core r) cv p /\
    ((exists k, own_key (r_core r) k) \/ (ckey (r_core r) = None /\ In z [-29; -30; -31]%Z /\ get_attr (r_core r) EphemeralKey = Ok VNone))) /\
  exists b, payload (r_core r) = Some b /\ (b = [] \/ In (length b) [16; 24; 32]).

(** A recipient with direct key agreement: the sender's key must be given, announced in a
    header if it is ephemeral, and both keys may be used for key derivation. *)
Definition agree_recipient (r : rcpt) : Prop :=
  r_class r = RAgree /\ r_subs r = [] /\ sendable_headers (r_core r) /\ derivable (r_core r) /\
  exists z cv p k, get_attr (r_core r) Algorithm = Ok (alg z) /\ In z [-25; -26; -27; -28]%Z /\ peer_known (r_core r) cv p /\ own_key (r_core r) k /\
    (In z [-25; -26]%Z -> exists v, get_attr (r_core r) EphemeralKey = Ok v /\ v <> VNone) /\
    (exists v, get_attr (r_core r) EphemeralKey = Ok v) /\
    alg_ok p (Cls FAlg z) /\ ops_ok p [Cls FOps 7; Cls FOps 8] /\ alg_ok k (Cls FAlg z) /\ ops_ok k [Cls FOps 7; Cls FOps 8].

Definition agree_failure (X : crypto) (x : exn) : Prop :=
  (exists c d a b, x_ecdh X c d a b = Err x) \/ (exists h n i s, x_hkdf X h n i s = Err x).
Definition any_failure (X : crypto) (x : exn) : Prop := seal_failure X x \/ wrap_failure X x \/ agree_failure X x.
