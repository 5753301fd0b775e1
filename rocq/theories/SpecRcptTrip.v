(** Vocabulary of the round trips of messages with recipients (C15-C19, C57). *)
From Coq Require Import NArith ZArith Bool String.
From Coq Require Import Init.Byte List.
From Verif Require Import Bytes Value Cbor SpecData Registry Crypto SpecCrypto Keys Algorithms Headers Messages Recipients
  SpecRegistry SpecKeys SpecAlg SpecHdr SpecTrip SpecMsg SpecRcpt.
Import ListNotations.

(** ** Recipients as a sender builds them *)

(** A recipient without nested ones, whose algorithm is one of its class. *)
Definition simple (r : rcpt) : Prop :=
  r_subs r = [] /\ exists z, In z (class_algs (r_class r)) /\ get_attr (r_core r) Algorithm = Ok (alg z).

(** The recipients that receive a wrapped content key, and those that use the message's key
    as it is. *)
Definition wraps (r : rcpt) : Prop := r_class r = RKeyWrap \/ r_class r = RAgreeKW.
Definition direct (r : rcpt) : Prop := r_class r = RDirect.

(** The recipients carry no content key yet, or all the same: the first one has [k] or the
    message draws a fresh one, and the others have [k] or nothing. *)
Definition one_content_key (rs : list rcpt) : Prop :=
  (forall r, In r rs -> payload (r_core r) = Some []) \/
  exists r0 rest k, rs = r0 :: rest /\ k <> [] /\ payload (r_core r0) = Some k /\
    forall r, In r rest -> payload (r_core r) = Some [] \/ payload (r_core r) = Some k.

(** ** What a receiver needs *)

(** [pub] is the public key of the private key [priv] on curve [c]. *)
Definition dh_pair (X : crypto) (c : Z) (priv pub : key) : Prop :=
  exists d x y, k_cls priv = KEC2 /\ k_cls pub = KEC2 /\ param pub EC2KpCurve = Some (VClass (Cls FCrv c)) /\
    bytes_param priv EC2KpD d /\ bytes_param pub EC2KpX x /\ bytes_param pub EC2KpY y /\
    d <> [] /\ x <> [] /\ y <> [] /\ x_ec_pub X c (of_be d) = Ok (of_be x, of_be y).

(** The header in which a key agreement recipient finds the sender's key: the ephemeral or
    the static key, depending on the algorithm. *)
Definition sender_header (z : Z) : pyval :=
  if existsb (Z.eqb z) [-25; -26; -29; -30; -31]%Z then EphemeralKey else StaticKey.

(** The sender's key on curve [cv], when it was given: its public part is in the header. *)
Definition sender_key (X : crypto) (cv z : Z) (c : core) : Prop :=
  exists ks p v, ckey c = Some ks /\ get_attr c (sender_header z) = Ok v /\
    (v = kval p \/ v = VDict (k_store p)) /\ portable X p /\ dh_pair X cv ks p.

(** No key among the protected headers. *)
Definition no_protected_keys (c : core) : Prop := dget (phdr c) EphemeralKey = None /\ dget (phdr c) StaticKey = None.

(** Local attributes of sender and receiver that enter the key derivation. *)
Definition same_supplements (c : core) (lo : dict) : Prop :=
  dget lo SuppPubOther = dget (local c) SuppPubOther /\ dget lo SuppPrivOther = dget (local c) SuppPrivOther.

(** RSA keys: [kr] is a complete and consistent private key with the modulus and exponent
    of [ks]. *)
Definition rsa_pair (ks kr : key) : Prop :=
  exists q, rsa_public_key ks (rsa_public q) /\ rsa_private_key kr q /\ rsa_consistent q.

(** [k], with the local attributes [lo], is the key of the party that recipient [r]
    addresses. *)
Inductive holder (X : crypto) (r : rcpt) (k : key) (lo : dict) : Prop :=
| H_wrap z ks b : r_class r = RKeyWrap -> In z [-3; -4; -5]%Z -> get_attr (r_core r) Algorithm = Ok (alg z) ->
    ckey (r_core r) = Some ks -> secret ks b -> secret k b -> holder X r k lo
| H_oaep z ks : r_class r = RKeyWrap -> In z [-40; -41; -42]%Z -> get_attr (r_core r) Algorithm = Ok (alg z) ->
    ckey (r_core r) = Some ks -> rsa_pair ks k -> alg_ok k (Cls FAlg z) -> ops_ok k [Cls FOps 6; Cls FOps 4] ->
    holder X r k lo
| H_agree z cv peer : r_class r = RAgreeKW -> In z [-29; -30; -31; -32; -33; -34]%Z ->
    get_attr (r_core r) Algorithm = Ok (alg z) -> dget (local (r_core r)) StaticKey = Some (kval peer) ->
    dh_pair X cv k peer -> ckey (r_core r) = None \/ sender_key X cv z (r_core r) ->
    no_protected_keys (r_core r) -> same_supplements (r_core r) lo -> holder X r k lo.

(** The receiver's recipient object, with its key and local attributes. *)
Definition equip_rcpt (r : rcpt) (k : key) (lo : dict) : rcpt :=
  r_with r (with_local (with_key (r_core r) (Some k)) lo).

(** The receiver's message: external data set, one recipient equipped. *)
Definition equip_msg (m : encmsg) (a : bytes) (i : nat) (r : rcpt) : encmsg :=
  EncMsg (with_aad (e_core m) a) (firstn i (e_rcpts m) ++ r :: skipn (S i) (e_rcpts m)).

(** [k], with the local attributes [lo], is the key of the party that recipient [r]
    addresses by direct key agreement; the sender's key was given and may be used so. *)
Definition agree_holder (X : crypto) (r : rcpt) (k : key) (lo : dict) : Prop :=
  exists z cv peer ks p v, r_class r = RAgree /\ In z [-25; -26; -27; -28]%Z /\
    get_attr (r_core r) Algorithm = Ok (alg z) /\ dget (local (r_core r)) StaticKey = Some (kval peer) /\
    dh_pair X cv k peer /\ ckey (r_core r) = Some ks /\ get_attr (r_core r) (sender_header z) = Ok v /\
    (v = kval p \/ v = VDict (k_store p)) /\ portable X p /\ dh_pair X cv ks p /\
    alg_ok p (Cls FAlg z) /\ ops_ok p [Cls FOps 7; Cls FOps 8] /\
    alg_ok k (Cls FAlg z) /\ ops_ok k [Cls FOps 7; Cls FOps 8] /\
    no_protected_keys (r_core r) /\ same_supplements (r_core r) lo.

(** The recipients [l] of the sender's message arrive as [l']: the same number, classes and
    headers. *)
Definition recipients_arrive (l l' : list rcpt) : Prop :=
  Forall2 (fun r r' => r_class r' = r_class r /\ r_subs r' = [] /\ arrived (r_core r) (r_core r')) l l'.

(** ** Encoding again *)

(** [m'] is [m] after any number of calls of [encode], whatever their arguments and
    outcomes. *)
Inductive after_encodes (X : crypto) (m : encmsg) : encmsg -> Prop :=
| AE_none : after_encodes X m m
| AE_more m1 n t enc s x : after_encodes X m m1 -> encm_encode X n m1 t enc = (s, x) -> after_encodes X m (snd s).

(** [m'] is [m] after any number of successful calls. *)
Inductive after_sends (X : crypto) (m : encmsg) : encmsg -> Prop :=
| AS_none : after_sends X m m
| AS_more m1 n t s b : after_sends X m m1 -> encm_encode X n m1 t true = (s, Ok b) -> after_sends X m (snd s).
