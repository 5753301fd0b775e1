(** Vocabulary of C120: the nonces messages are encrypted with. *)
From Coq Require Import NArith ZArith Bool String.
From Coq Require Import Init.Byte List.
From Verif Require Import Bytes Value Registry Crypto Keys Headers Messages Recipients SpecAlg SpecIana SpecAccept SpecCek.
Import ListNotations.

(** Encoding the COSE_Encrypt0 message [c] sends the ciphertext that the AEAD makes of its
    payload with [nonce], under its key. *)
Definition sent_with (X : crypto) (c : core) (nonce : bytes) : Prop :=
  exists z k i pt ct p b, get_attr c Algorithm = Ok (alg z) /\ ckey c = Some k /\ input (IEnc0 c) = Ok i /\ payload c = Some pt /\
    aead_sealed X z k nonce i pt ct /\ emit c 16 true [VBytes p; VDict (uhdr c); VBytes ct] = Ok b /\ enc0_encode X c true true = Ok b.

(** The same for a COSE_Encrypt message, under the key that is then in it. *)
Definition encrypted_with (X : crypto) (n : N) (m : encmsg) (nonce : bytes) : Prop :=
  exists z k i pt ct n' m', encm_encrypt X n m = ((n', m'), Ok ct) /\ get_attr (e_core m) Algorithm = Ok (alg z) /\
    ckey (e_core m') = Some k /\ input (IEnc (e_core m)) = Ok i /\ payload (e_core m) = Some pt /\ aead_sealed X z k nonce i pt ct.

(** A numbered message: no IV, and a partial IV that reads as the number [i]. *)
Definition numbered (c : core) (i : N) : Prop :=
  no_header c IV /\ exists p, header c PartialIV (VBytes p) /\ of_be p = i.
(** A key with a base IV. *)
Definition with_base_iv (k : key) : Prop := exists b, prop_get k PBaseIV = Ok (VBytes b) /\ b <> [].
