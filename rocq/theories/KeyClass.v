(** Calls on a particular key class: [CoseKey.decode(b)], [EC2Key.decode(b)], ... *)
From Coq Require Import NArith ZArith Bool.
From Coq Require Import Init.Byte List.
From Verif Require Import Bytes Value Cbor Crypto Keys Pem.
Import ListNotations.
Local Open Scope result_scope.

Section KeyClass.
Variable X : crypto.

(** [cls.from_dict(received)]: [CoseKey.from_dict] (cosekey.py:79-97) for [None], and the
    methods of the key classes that replace it (symmetric.py:18-34, okp.py:23-44, ec2.py:21-43,
    rsa.py:24-75). *)
Definition call_from_dict (cls : option kclass) (m : pyval) : result key :=
  match cls with
  | None => from_dict X m
  | Some KSym => sym_from_dict m
  | Some KOKP => okp_from_dict m
  | Some KEC2 => ec2_from_dict X m
  | Some KRSA => rsa_from_dict m
  end.

(** [cls.decode(received)], cosekey.py:30-39: inherited by every key class, and always
    [CoseKey.from_dict]. *)
Definition call_decode (cls : option kclass) (received : pyval) : result key :=
  m <- loads received ;; call_from_dict None m.

(** [cls.from_pem_private_key(...)] and [cls.from_pem_public_key(...)], cosekey.py:99-128:
    static methods of [CoseKey], inherited by every key class. *)
Definition call_pem_private (cls : option kclass) (load : bytes -> pyval -> result extkey) (pem : bytes) (password opt : pyval) : result key :=
  from_pem_private_key X load pem password opt.
Definition call_pem_public (cls : option kclass) (load : bytes -> result extkey) (pem : bytes) (opt : pyval) : result key :=
  from_pem_public_key X load pem opt.

(** The argument of [generate_key], which says what to generate: a length, a curve, or a
    number of bits (symmetric.py:110-127, okp.py:224-243, ec2.py:259-278, rsa.py:302-315). *)
Inductive wanted := WLength (len : Z) | WCurve (crv : pyval) | WBits (bits : Z).

(** [cls.generate_key(...)]; [CoseKey] has no such method. Simplification: an argument of
    another kind is TypeError. *)
Definition call_generate (cls : option kclass) (seed : N) (w : wanted) (opt : pyval) : result key :=
  match cls, w with
  | None, _ => Err AttributeError
  | Some KSym, WLength n => sym_generate X seed n opt
  | Some KOKP, WCurve crv => okp_generate X seed crv opt
  | Some KEC2, WCurve crv => ec2_generate X seed crv opt
  | Some KRSA, WBits n => rsa_generate X seed n opt
  | _, _ => Err TypeError
  end.

End KeyClass.
