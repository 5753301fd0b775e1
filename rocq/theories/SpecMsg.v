(** Vocabulary of the message round trips (C10, C12-C19, C28, C30, C56). *)
From Coq Require Import NArith ZArith Bool String.
From Coq Require Import Init.Byte List.
From Verif Require Import Bytes Value Cbor SpecData Registry Crypto SpecCrypto Keys Algorithms Headers Messages Recipients
  SpecRegistry SpecKeys SpecAlg SpecHdr SpecTrip.
Import ListNotations.

(** ** Headers that can be sent *)

(** Headers without a value parser of their own. *)
Definition parsed_headers : list Z := [1; 2; 3; -1; -2]%Z ++ bstr_headers.

(** A header with a legal value. The public part of a key may be given as the key or as a
    dictionary of its parameters, which is what the library stores for ephemeral keys it
    generates. *)
Inductive header_ok (X : crypto) : pyval -> pyval -> Prop :=
| HO_alg v : is_known_algorithm v -> header_ok X Algorithm v
| HO_crit v : is_label_array v -> header_ok X Critical v
| HO_type v : is_uint_or_text v -> header_ok X ContentType v
| HO_bytes z b : In z bstr_headers -> header_ok X (hdr z) (VBytes b)
| HO_key z k : In z [-1; -2]%Z -> portable X k -> header_ok X (hdr z) (kval k)
| HO_map z k : In z [-1; -2]%Z -> portable X k -> header_ok X (hdr z) (VDict (k_store k))
| HO_other c n v : In (c, n) (registered FHdr) -> ~ In (c_id c) parsed_headers -> plain v -> header_ok X (VClass c) v
| HO_int z v : unknown_attr FHdr (VInt z) -> plain v -> header_ok X (VInt z) v
| HO_text u v : unknown_attr FHdr (VStr u) -> plain v -> header_ok X (VStr u) v.

Definition sendable (X : crypto) (h : dict) : Prop :=
  distinct_keys h = true /\ Forall (fun e => header_ok X (fst e) (snd e)) h.

(** The value that arrives under label [a] is the value that was sent; an ephemeral or
    static key (or its dictionary) arrives as a key with the same parameters. *)
Definition same_value (a v w : pyval) : Prop :=
  w = v \/ (a = EphemeralKey \/ a = StaticKey) /\
    exists k k', (v = kval k \/ v = VDict (k_store k)) /\ w = kval k' /\ same_key k k'.

(** The same headers, in the same order. *)
Definition same_headers (h h' : dict) : Prop :=
  Forall2 (fun e e' => fst e' = fst e /\ same_value (fst e) (snd e) (snd e')) h h'.

(** The protected headers of an object: given by the user, or received as [b]. *)
Definition received (X : crypto) (b : bytes) (h : dict) : Prop :=
  (b = [] /\ h = []) \/ exists d, loads_bytes b = Ok (VDict d) /\ parse_items X true d [] = Ok h.
Definition protected_ok (X : crypto) (c : core) : Prop :=
  match phdr_raw c with
  | None => sendable X (phdr c)
  | Some b => received X b (phdr c)
  end.
Definition headers_ok (X : crypto) (c : core) : Prop := protected_ok X c /\ sendable X (uhdr c).

(** The object [c'] that arrives has the headers of [c], and nothing the sender kept to
    itself: no key and no external data. *)
Definition arrived (c c' : core) : Prop :=
  same_headers (phdr c) (phdr c') /\ same_headers (uhdr c) (uhdr c') /\
  phdr_encoded c' = phdr_encoded c /\ aad c' = [] /\ ckey c' = None.

(** The receiver's view: the arrived object with a key and external data. *)
Definition equip (c : core) (k : key) (a : bytes) : core := with_aad (with_key c (Some k)) a.

(** ** Keys that belong together *)

Definition rsa_signatures : list Z := [-37; -38; -39; -257; -258; -259; -65535]%Z.

(** The numbers of RSA keys, each in its own parameter. *)
Definition rsa_number (k : key) (p : cls) (v : N) : Prop := exists b, bytes_param k p b /\ of_be b = v.
Definition rsa_public_key (k : key) (p : rsa_pub) : Prop :=
  k_cls k = KRSA /\ rsa_number k RSAKpN (rsa_n p) /\ rsa_number k RSAKpE (rsa_e p).
Definition rsa_private_key (k : key) (q : rsa_priv) : Prop :=
  rsa_public_key k (rsa_public q) /\ rsa_number k RSAKpD (rsa_d q) /\
  rsa_number k RSAKpP (rsa_p q) /\ rsa_number k RSAKpQ (rsa_q q) /\
  rsa_number k RSAKpDP (rsa_dmp1 q) /\ rsa_number k RSAKpDQ (rsa_dmq1 q) /\ rsa_number k RSAKpQInv (rsa_iqmp q).

(** [kv] holds the public part of [ks], for signatures with algorithm [z]. *)
Inductive key_pair (X : crypto) : Z -> key -> key -> Prop :=
| KP_ecdsa z c h ks kv d x y : In (z, c, h) ecdsa_curves -> k_cls ks = KEC2 -> k_cls kv = KEC2 ->
    bytes_param ks EC2KpD d -> bytes_param kv EC2KpX x -> bytes_param kv EC2KpY y -> x <> [] -> y <> [] ->
    x_ec_pub X c (of_be d) = Ok (of_be x, of_be y) -> key_pair X z ks kv
| KP_eddsa c ks kv d x : In c [6; 7]%Z -> k_cls ks = KOKP -> k_cls kv = KOKP ->
    param ks OKPKpCurve = Some (VClass (Cls FCrv c)) -> param kv OKPKpCurve = Some (VClass (Cls FCrv c)) ->
    bytes_param ks OKPKpD d -> bytes_param kv OKPKpX x -> x = x_okp_pub X c d -> key_pair X (-8) ks kv
| KP_rsa z ks kv q : In z rsa_signatures -> rsa_private_key ks q -> rsa_consistent q -> rsa_public_key kv (rsa_public q) ->
    key_pair X z ks kv.

(** The signing object [c] uses algorithm [z] and a key of which [kv] is the public part;
    [kv] may be used for verification. *)
Definition verifier (X : crypto) (c : core) (kv : key) : Prop :=
  exists z ks, get_attr c Algorithm = Ok (alg z) /\ ckey c = Some ks /\ key_pair X z ks kv /\
    alg_ok kv (Cls FAlg z) /\ ops_ok kv [Cls FOps 2].

(** [kr] has the secret of the sender's key and may be used with the message's algorithm
    and operation [op]. *)
Definition shares (c : core) (op : cls) (kr : key) : Prop :=
  exists z ks b, get_attr c Algorithm = Ok (alg z) /\ ckey c = Some ks /\ k_cls kr = KSym /\
    secret ks b /\ secret kr b /\ param kr KpBaseIV = param ks KpBaseIV /\
    alg_ok kr (Cls FAlg z) /\ ops_ok kr [op].

(** ** Headers as a caller may give them to a constructor *)

(** Header labels under any spelling; algorithms as classes, ids or names; ephemeral and
    static keys as dictionaries of a portable key. *)
Inductive given_header (X : crypto) : pyval -> pyval -> Prop :=
| GH_alg n a v c m : In (Cls FHdr 1, n) (registered FHdr) -> spells (Cls FHdr 1) n a ->
    In (c, m) (registered FAlg) -> spells c m v -> given_header X a v
| GH_crit n a v : In (Cls FHdr 2, n) (registered FHdr) -> spells (Cls FHdr 2) n a -> is_label_array v -> given_header X a v
| GH_type n a v : In (Cls FHdr 3, n) (registered FHdr) -> spells (Cls FHdr 3) n a -> is_uint_or_text v -> given_header X a v
| GH_bytes z n a b : In z bstr_headers -> In (Cls FHdr z, n) (registered FHdr) -> spells (Cls FHdr z) n a ->
    given_header X a (VBytes b)
| GH_key z n a v k : In z [-1; -2]%Z -> In (Cls FHdr z, n) (registered FHdr) -> spells (Cls FHdr z) n a ->
    from_dict X v = Ok k -> portable X k -> given_header X a v
| GH_other c n a v : In (c, n) (registered FHdr) -> ~ In (c_id c) parsed_headers -> spells c n a -> plain v ->
    given_header X a v
| GH_int z v : unknown_attr FHdr (VInt z) -> plain v -> given_header X (VInt z) v
| GH_text u v : unknown_attr FHdr (VStr u) -> plain v -> given_header X (VStr u) v.

Definition given_headers (X : crypto) (d : dict) : Prop := Forall (fun e => given_header X (fst e) (snd e)) d.

(** [b] is an encoding of a message with the common fields [c], with or without
    cryptography. *)
Inductive sent (X : crypto) : core -> bytes -> Prop :=
| S_sign1 seed m sign d b : sign1_encode X seed m true sign d = Ok b -> is_bytes_value (s1_sig m) ->
    sent X (s1_core m) b
| S_sign seed m d b : sign_encode X seed m true d = Ok b -> Forall (headers_ok X) (sm_signers m) ->
    sent X (sm_core m) b
| S_enc0 c encrypt b : enc0_encode X c true encrypt = Ok b -> sent X c b
| S_mac0 m mac b : snd (mac0_encode X m true mac) = Ok b -> sent X (m0_core m) b.

(** [c'] holds the common fields of what a receiver decodes from such an encoding. *)
Definition delivered (X : crypto) (c c' : core) : Prop :=
  exists b e m', sent X c b /\ decode X e true (VBytes b) = Ok m' /\ c' = message_core m'.
