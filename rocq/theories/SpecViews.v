(** Vocabulary for the two views of a key, its attributes [key.kid] and its items
    [key["KID"]] (C102). *)
From Coq Require Import NArith ZArith Bool String.
From Coq Require Import Init.Byte List.
From Verif Require Import Bytes Value Registry Crypto Keys SpecRegistry SpecKeys.
Import ListNotations.

(** The attributes of the keys of class [c] and the COSE parameter each one documents. *)
Definition documented (c : kclass) : list (kprop * cls) :=
  [(PKty, KpKty); (PAlg, KpAlg); (PKid, KpKid); (PKeyOps, KpKeyOps); (PBaseIV, KpBaseIV)] ++
  match c with
  | KSym => [(PK, SymKpK)]
  | KOKP => [(PCrv, OKPKpCurve); (PX, OKPKpX); (PD, OKPKpD)]
  | KEC2 => [(PCrv, EC2KpCurve); (PX, EC2KpX); (PY, EC2KpY); (PD, EC2KpD)]
  | KRSA => [(PN, RSAKpN); (PE, RSAKpE); (PD, RSAKpD); (PP, RSAKpP); (PQ, RSAKpQ);
             (PDP, RSAKpDP); (PDQ, RSAKpDQ); (PQInv, RSAKpQInv)]
  end.

(** What reading attribute [p] gives when the key does not have the parameter. *)
Definition when_missing (p : kprop) : result pyval :=
  match p with
  | PKty | PAlg => Ok VNone
  | PKeyOps => Ok (VList [])
  | PCrv | PK => Err CoseInvalidKey
  | _ => Ok (VBytes [])
  end.

(** The attributes that take byte strings. *)
Definition byte_attributes : list kprop := [PKid; PBaseIV; PX; PY; PD; PK; PN; PE; PP; PQ; PDP; PDQ; PQInv].
