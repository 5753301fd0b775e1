(** Keys from PEM text. *)
From Coq Require Import NArith ZArith Bool.
From Coq Require Import Init.Byte List.
From Verif Require Import Bytes Value Crypto Keys.
Import ListNotations.
Local Open Scope result_scope.

Section Pem.
Variable X : crypto.
(** [load_pem_private_key] and [load_pem_public_key] of the [cryptography] package, called at
    cosekey.py:113,127; they are parameters. *)
Variable load_private : bytes -> pyval -> result extkey.
Variable load_public : bytes -> result extkey.

(** [CoseKey.from_pem_private_key], cosekey.py:99-114. Simplification: [pem] is
    text, given by its UTF-8 form ([pem.encode()]). *)
Definition from_pem_private_key (pem : bytes) (password opt : pyval) : result key :=
  e <- load_private pem password ;; from_ext X e opt.

(** [CoseKey.from_pem_public_key], cosekey.py:116-128, likewise. *)
Definition from_pem_public_key (pem : bytes) (opt : pyval) : result key :=
  e <- load_public pem ;; from_ext X e opt.

End Pem.
