(** [==] of the KDF context classes. They are attrs classes (context.py:12,24,63), whose generated
    [__eq__] compares the attributes in the order of the class, as a tuple. *)
From Coq Require Import NArith ZArith Bool.
From Coq Require Import Init.Byte List.
From Verif Require Import Bytes Value Registry Crypto Keys Algorithms Headers Messages Recipients Context.
Import ListNotations.

(** [PartyInfo.__eq__], generated at context.py:12 from the attributes at 14-16. *)
Definition party_eq (p q : party) : bool :=
  pyeq (VTuple [pi_identity p; pi_nonce p; pi_other p]) (VTuple [pi_identity q; pi_nonce q; pi_other q]).

(** [SuppPubInfo.__eq__], generated at context.py:24 from the attributes at 26-28. *)
Definition pub_eq (p q : pubinfo) : bool :=
  pyeq (VTuple [VInt (pu_len p); VDict (pu_protected p); pu_other p]) (VTuple [VInt (pu_len q); VDict (pu_protected q); pu_other q]).

(** [CoseKDFContext.__eq__], generated at context.py:63 from the attributes at 65-69; the parts
    compare by their own [__eq__]. *)
Definition ctx_eq (w : world) (i j : N) : bool :=
  let c := w_ctx w i in let d := w_ctx w j in
  pyeq (cx_alg c) (cx_alg d) && pub_eq (w_pub w (cx_pub c)) (w_pub w (cx_pub d)) && party_eq (w_party w (cx_u c)) (w_party w (cx_u d)) &&
  party_eq (w_party w (cx_v c)) (w_party w (cx_v d)) && pyeq (cx_priv c) (cx_priv d).
