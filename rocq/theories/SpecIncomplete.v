(** Vocabulary of C105: what every encoded message had, and the exceptions for those that lack it. *)
From Coq Require Import NArith ZArith Bool String.
From Coq Require Import Init.Byte List.
From Verif Require Import Bytes Value Registry Crypto Keys Headers Messages Recipients SpecKeys SpecStruct SpecAlg SpecAccept SpecCheck SpecSend.
Import ListNotations.

(** The key, if there is one, has parameters of the documented types. *)
Definition typed_key (c : core) : Prop := forall k, ckey c = Some k -> typed k.

(** The IVs are absent or byte strings, as the constructors and the decoder make sure. *)
Definition byte_iv_headers (c : core) : Prop :=
  forall h v, In h [IV; PartialIV] -> get_attr c h = Ok v -> v = VNone \/ exists b, v = VBytes b.

(** The algorithm is a signature algorithm of some key type. *)
Definition any_signature (z : Z) : Prop := exists t, sig_algorithm t z.

(** What the algorithm took from the key: ECDSA a private part, of whatever key type; EdDSA an
    Edwards curve; RSA an RSA key. *)
Definition gave (k : key) (z : Z) : Prop :=
  (In z [-7; -35; -36]%Z -> exists p, In p [EC2KpD; OKPKpD; RSAKpD] /\ filled k p) /\
  (z = (-8)%Z -> exists p cv, In p [EC2KpCurve; OKPKpCurve] /\ In cv [6; 7]%Z /\ param k p = Some (VClass (Cls FCrv cv))) /\
  (sig_algorithm KRSA z -> k_cls k = KRSA).

(** Everything a signer needs but a private part of the right type. *)
Definition nearly_signs (c : core) : Prop :=
  exists z k, permitted c z k [Cls FOps 1] /\ k_cls k <> KSym /\ any_signature z /\ gave k z.

(** The signature primitives refuse an empty Edwards key and RSA numbers that are zero. *)
Definition refuses_empty (X : crypto) : Prop :=
  (forall c t s, x_ed_sign X c [] t <> Ok s) /\
  (forall p h q n t s, x_rsa_sign X p h q n t = Ok s -> Forall (fun v => v <> 0%N) [rsa_p q; rsa_q q; rsa_d q; rsa_dmp1 q; rsa_dmq1 q; rsa_iqmp q]).

(** ** Exceptions other than COSE exceptions *)

Definition mac_refusal (c : core) (x : exn) : Prop :=
  (x = AttributeError /\ ~ declares c mac_algorithm) \/ (x = ValueError /\ payload c = None) \/ x = OverflowError.

Definition enc_refusal (X : crypto) (c : core) (x : exn) : Prop :=
  seal_failure X x \/ (x = AttributeError /\ ~ declares c enc_algorithm) \/
  (x = TypeError /\ (payload c = None \/ (get_attr c IV = Ok VNone /\ get_attr c PartialIV = Ok VNone))) \/ x = OverflowError.

Definition sig_refusal (X : crypto) (c : core) (x : exn) : Prop :=
  sign_failure X x \/
  (In x [AttributeError; ValueError; TypeError; CryptoError] /\
     ~ exists k, ckey c = Some k /\ declares c (sig_algorithm (k_cls k)) /\ can_sign k) \/ x = OverflowError.

(** ** Recipients *)

(** What every recipient of an encoded message had: an algorithm; for key wrap, the key that wraps
    it; for key agreement, the key of the other party, and a key of its own unless an ephemeral
    one can be generated. *)
Definition ready_recipient (r : rcpt) : Prop :=
  let c := r_core r in
  match r_class r with
  | RDirect => r_subs r = [] /\ exists a, get_attr c Algorithm = Ok a /\ a <> VNone
  | RKeyWrap => phdr c = [] /\ wrapping c /\ payload c <> None
  | RAgreeKW => exists z p, get_attr c Algorithm = Ok (alg z) /\ In z [-29; -30; -31; -32; -33; -34]%Z /\ dget (local c) StaticKey = Some (kval p) /\
      ((exists k, ckey c = Some k) \/ In z [-29; -30; -31]%Z) /\ payload c <> None
  | RAgree => exists z p k, get_attr c Algorithm = Ok (alg z) /\ In z [-25; -26; -27; -28]%Z /\ dget (local c) StaticKey = Some (kval p) /\ ckey c = Some k
  end.
