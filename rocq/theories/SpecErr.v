(** Vocabulary of the properties about exceptions (C80). *)
From Coq Require Import NArith ZArith.
From Coq Require Import Init.Byte List.
From Verif Require Import Bytes Value Registry Crypto Keys SpecKeys.
Import ListNotations.

(** The exceptions in the docstring of [CoseMessage.decode]; the last one is a subclass of
    [ValueError]. *)
Definition documented : list exn := [AttributeError; ValueError; KeyError; TypeError; CBORDecodeValueError].

(** Those that can occur, too. [CBORDecodeEOF] is an [EOFError]. *)
Definition undocumented : list exn :=
  [CBORDecodeEOF; IndexError; CoseException; CoseIllegalKeyType; CoseInvalidKey; CoseUnsupportedCurve; CoseMalformedMessage; AssertionError].

(** A failure of the elliptic curve library on some input: an exception, or a coordinate
    that does not fit the size of the curve. *)
Definition too_large (c : Z) (p : N * N) : Prop :=
  exists size, In (c, size) ec2_curves /\ ((256 ^ N.of_nat size <= fst p)%N \/ (256 ^ N.of_nat size <= snd p)%N).
Definition curve_failure (X : crypto) (e : exn) : Prop :=
  (exists c d, x_ec_pub X c d = Err e) \/ (exists c b, x_ec_point X c b = Err e) \/
  (e = OverflowError /\ exists c p, too_large c p /\ ((exists d, x_ec_pub X c d = Ok p) \/ (exists b, x_ec_point X c b = Ok p))).
