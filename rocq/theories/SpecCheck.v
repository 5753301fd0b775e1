(** Vocabulary of C92: the exceptions of checking and decrypting received messages. *)
From Coq Require Import NArith ZArith Bool String.
From Coq Require Import Init.Byte List.
From Verif Require Import Bytes Value Registry Crypto Keys Headers Messages SpecKeys SpecStruct SpecAlg SpecAccept.
Import ListNotations.

(** The parameters of the key have the types the library documents: an algorithm class, a list
    of operations, byte strings; the public numbers (the secret, for a symmetric key) are
    there; and no other attributes were attached to it than those of multi-prime RSA. *)
Definition filled (k : key) (p : cls) : Prop := exists b, param k p = Some (VBytes b) /\ b <> [].
Definition typed (k : key) : Prop :=
  (forall v, param k KpAlg = Some v -> exists a, v = VClass a) /\
  (forall v, param k KpKeyOps = Some v -> exists l, v = VList l) /\
  (forall v, param k KpBaseIV = Some v -> exists b, v = VBytes b) /\
  (forall e, In e (k_extra k) -> In (fst e) (map (fun n => VStr (bs n)) ["other"; "r_i"; "d_i"; "t_i"]%string)) /\
  match k_cls k with
  | KSym => exists b, param k SymKpK = Some (VBytes b) /\ In (length b) [16; 24; 32]
  | KEC2 => filled k EC2KpX /\ filled k EC2KpY /\ exists c, param k EC2KpCurve = Some (VClass c)
  | KOKP => (exists c, param k OKPKpCurve = Some (VClass c)) /\ (forall v, param k OKPKpX = Some v -> exists b, v = VBytes b)
  | KRSA => exists n e, param k RSAKpN = Some (VBytes n) /\ param k RSAKpE = Some (VBytes e)
  end.

(** The algorithms for each purpose; signature algorithms by the type of their keys. *)
Definition mac_algorithm (z : Z) : Prop := In z (map fst rfc_hmacs) \/ In z (map fst rfc_aes_macs).
Definition enc_algorithm (z : Z) : Prop := In z (map fst rfc_gcms) \/ In z (map fst rfc_ccms).
Definition sig_algorithm (c : kclass) (z : Z) : Prop :=
  match c with
  | KSym => False
  | KEC2 => In z [-7; -35; -36]%Z
  | KOKP => z = (-8)%Z
  | KRSA => In z (map (fun e => fst (fst e)) rsa_schemes)
  end.
Definition declares (c : core) (P : Z -> Prop) : Prop := exists z, get_attr c Algorithm = Ok (alg z) /\ P z.

(** Byte strings that no computer can hold. *)
Definition oversized (l : list bytes) : Prop := exists b, In b l /\ (2 ^ 63 <= N.of_nat (length b))%N.
Definition opt_list {A} (o : option A) : list A := match o with Some a => [a] | None => [] end.

(** Exceptions of the primitives. *)
Definition verify_failure (X : crypto) (x : exn) : Prop :=
  (exists p h k t s, x_rsa_verify X p h k t s = Err x) \/ (exists c h a b t s, x_ecdsa_verify X c h a b t s = Err x) \/
  (exists c k t s, x_ed_verify X c k t s = Err x).
Definition aead_failure (X : crypto) (x : exn) : Prop :=
  (exists k n c a, x_gcm_dec X k n c a = Err x) \/ (exists l k n c a, x_ccm_dec X l k n c a = Err x).

(** The byte strings of a received message, and the detached payload. *)
Definition parts (c : core) (detached : option bytes) : list bytes :=
  opt_list (phdr_raw c) ++ [aad c] ++ opt_list (payload c) ++ opt_list detached.

(** What else than a COSE exception can come out of [verify_tag], and when. *)
Definition mac_surprise (c : core) (x : exn) : Prop :=
  (x = AttributeError /\ ~ declares c mac_algorithm) \/
  (x = ValueError /\ payload c = None) \/
  (x = OverflowError /\ oversized (parts c None)).

(** The same for [verify_signature] with a key of type [t] and signature [s]; [m] and [c] hold
    the payload and the algorithm (the message and its signer). *)
Definition sig_surprise (X : crypto) (m c : core) (t : kclass) (s : pyval) (d : option bytes) (x : exn) : Prop :=
  verify_failure X x \/
  (In x [AttributeError; ValueError; CryptoError] /\ ~ declares c (sig_algorithm t)) \/
  (x = TypeError /\ forall b, s <> VBytes b) \/
  (x = OverflowError /\ oversized (parts m d ++ parts c d)).

(** The same for [decrypt] with key [k]. *)
Definition enc_surprise (X : crypto) (c : core) (k : key) (x : exn) : Prop :=
  aead_failure X x \/
  (x = AttributeError /\ ~ declares c enc_algorithm) \/
  (x = TypeError /\ (payload c = None \/
     (get_attr c IV = Ok VNone /\ get_attr c PartialIV = Ok VNone /\ exists v, param k KpBaseIV = Some v))) \/
  (x = OverflowError /\ oversized (parts c None)).
