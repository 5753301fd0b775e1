(** Vocabulary of C120 for messages with recipients. *)
From Coq Require Import NArith ZArith Bool.
From Coq Require Import Init.Byte List.
From Verif Require Import Bytes Value Registry Crypto Keys Headers Messages Recipients SpecAlg SpecIana SpecAccept SpecCek.
Import ListNotations.

(** When the COSE_Encrypt message [m] is encrypted at position [n] of the random source, the AEAD
    gets the key bytes [K] and the nonce. *)
Definition sealed_with (X : crypto) (n : N) (m : encmsg) (K nonce : bytes) : Prop :=
  exists z k i pt ct n' m', encm_encrypt X n m = ((n', m'), Ok ct) /\ get_attr (e_core m) Algorithm = Ok (alg z) /\
    ckey (e_core m') = Some k /\ secret k K /\ input (IEnc (e_core m)) = Ok i /\ payload (e_core m) = Some pt /\ aead_sealed X z k nonce i pt ct.
