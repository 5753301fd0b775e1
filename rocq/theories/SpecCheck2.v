(** Vocabulary of C92 for messages with recipients: the exceptions of
    [EncMessage.decrypt(recipient)]. *)
From Coq Require Import NArith ZArith Bool String.
From Coq Require Import Init.Byte List.
From Verif Require Import Bytes Value Registry Crypto Keys Headers Messages Recipients SpecKeys SpecStruct SpecAlg SpecAccept SpecCheck
  SpecMsg SpecRcptTrip.
Import ListNotations.

(** Exceptions of the primitives that recover the content key. *)
Definition cek_failure (X : crypto) (x : exn) : Prop :=
  (exists k d, x_unwrap X k d = Err x) \/ (exists h k d, x_oaep_dec X h k d = Err x) \/
  (exists c d a b, x_ecdh X c d a b = Err x) \/ (exists h n i s, x_hkdf X h n i s = Err x).

(** The receiver's key has what recipient algorithm [z] needs: a secret of the length of the
    AES key wrap algorithm; the numbers of an RSA key; the private part of an elliptic curve key. *)
Definition suits (z : Z) (k : key) : Prop :=
  (In z [-3; -4; -5]%Z -> k_cls k = KSym /\ exists b, param k SymKpK = Some (VBytes b) /\ In (z, length b) [((-3)%Z, 16); ((-4)%Z, 24); ((-5)%Z, 32)]) /\
  (In z [-40; -41; -42]%Z -> k_cls k = KRSA /\
     forall p v, In p [RSAKpP; RSAKpQ; RSAKpD; RSAKpDP; RSAKpDQ; RSAKpQInv] -> param k p = Some v -> exists b, v = VBytes b) /\
  (In z [-25; -26; -27; -28; -29; -30; -31; -32; -33; -34]%Z -> k_cls k = KEC2 /\ filled k EC2KpD).

(** The key in the recipient's header is an elliptic curve key, bound to one algorithm or none. *)
Definition sender_suits (c : core) (z : Z) : Prop :=
  exists p, get_attr c (sender_header z) = Ok (kval p) /\ k_cls p = KEC2 /\ forall v, param p KpAlg = Some v -> exists a, v = VClass a.

(** A value with a certain part somewhere inside. *)
Fixpoint contains (f : pyval -> bool) (v : pyval) : bool :=
  f v ||
  match v with
  | VList l | VTuple l => existsb (contains f) l
  | VDict d => existsb (fun e => match e with (a, b) => contains f a || contains f b end) d
  | VTag _ w | VOther _ w => contains f w
  | _ => false
  end.
Definition is_key_object (v : pyval) : bool := match v with VKey _ _ _ => true | _ => false end.
Definition is_break (v : pyval) : bool := match v with VBreak => true | _ => false end.
Definition is_attr_class (v : pyval) : bool := match v with VClass _ => true | _ => false end.

(** The values other than the protected header that enter the key derivation. *)
Definition derivation_input (c : core) (v : pyval) : Prop :=
  (exists h, In h [PartyUID; PartyUNonce; PartyUOther; PartyVID; PartyVNonce; PartyVOther] /\ get_attr c h = Ok v) \/
  (exists h, In h [SuppPubOther; SuppPrivOther] /\ dget (local c) h = Some v).

(** Exceptions of the encoder: a key among the protected headers, objects CBOR does not know.
    OverflowError stands for objects that do not exist in CPython (2^63 bytes, malformed text). *)
Definition derivation_failure (c : core) (x : exn) : Prop :=
  (x = AttributeError /\ contains is_key_object (VDict (phdr c)) = true) \/
  (x = CBOREncodeTypeError /\ contains is_break (VDict (phdr c)) = true) \/
  (x = CBOREncodeTypeError /\ exists v, derivation_input c v /\ contains (fun w => is_break w || is_attr_class w || is_key_object w) v = true) \/
  x = OverflowError.

(** What else than a COSE exception can come out of [decrypt] with recipient [r], whose key is
    [k] and whose algorithm is [z]; [c] is the message. *)
Definition recipient_surprise (X : crypto) (c r : core) (z : Z) (k : key) (x : exn) : Prop :=
  aead_failure X x \/ cek_failure X x \/
  (x = AttributeError /\ ~ declares c enc_algorithm) \/
  (x = TypeError /\ (payload c = None \/ (payload r = None /\ ~ In z [-25; -26; -27; -28]%Z))) \/
  (In x [AttributeError; ValueError; TypeError] /\ ~ suits z k) \/
  (In x [AttributeError; ValueError; TypeError] /\ ~ In z [-3; -4; -5; -40; -41; -42]%Z /\ ~ sender_suits r z) \/
  (derivation_failure r x /\ ~ In z [-3; -4; -5; -40; -41; -42]%Z) \/
  (x = OverflowError /\ oversized (parts c None)).
