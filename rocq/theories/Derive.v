(** Content keys from a shared secret: [DirectEncryption.compute_cek]. *)
From Coq Require Import NArith ZArith Bool String.
From Coq Require Import Init.Byte List.
From Verif Require Import Bytes Value Registry Crypto Keys Algorithms Headers Messages Recipients.
Import ListNotations.
Local Open Scope result_scope.

(** [DirectEncryption.compute_cek(target_alg)], recipient.py:232-239. [target_alg] is not used. *)
Definition direct_compute_cek (c : core) : result (option key) :=
  alg <- get_attr c Algorithm ;;
  if veqb alg (VClass (Cls FAlg (-6))) then Ok None
  else
    k <- (match ckey c with Some k => Ok k | None => Err AttributeError end) ;;
    _ <- key_verify k KSym alg [DeriveKeyOp; DeriveBitsOp] ;;
    Err NotImplementedError.
