(** Vocabulary of the algorithm properties (C09, C40, C41, C44, C52-C54, C68, C69). *)
From Coq Require Import NArith ZArith Bool String.
From Coq Require Import Init.Byte List.
From Verif Require Import Bytes Value Registry Crypto Keys Headers Messages.
Import ListNotations.

(** An algorithm class by its IANA id. *)
Definition alg (z : Z) : pyval := VClass (Cls FAlg z).

(** The secret of a symmetric key. *)
Definition secret (k : key) (b : bytes) : Prop := prop_get k PK = Ok (VBytes b).

(** ** MACs: RFC 9053 sections 3.1 and 3.2, tag length in bytes *)
Definition rfc_hmacs : list (Z * (hash * nat)) :=
  [ (4%Z, (SHA256, 8)); (5%Z, (SHA256, 32)); (6%Z, (SHA384, 48)); (7%Z, (SHA512, 64)) ].
Definition rfc_aes_macs : list (Z * nat) := [ (14%Z, 8); (15%Z, 8); (25%Z, 16); (26%Z, 16) ].

(** The plaintext blocks of [data]: 16 bytes each, the last one filled with zeros. *)
Definition padded_blocks (data : bytes) (blocks : list bytes) : Prop :=
  Forall (fun b => length b = 16) blocks /\
  exists n, (n < 16)%nat /\ concat blocks = data ++ repeat x00 n.

(** Bytewise exclusive or. *)
Definition byte_xor (a b : byte) : byte := byte_of_N (N.lxor (b2N a) (b2N b)).
Fixpoint xor (a b : bytes) : bytes :=
  match a, b with
  | x :: a', y :: b' => byte_xor x y :: xor a' b'
  | _, _ => []
  end.

(** CBC-MAC: chaining from the zero block; the MAC is the last block. *)
Definition cbc_mac (E : bytes -> bytes) (blocks : list bytes) : bytes :=
  fold_left (fun iv b => E (xor iv b)) blocks (repeat x00 16).

(** ** AES key wrap: RFC 9053 section 6.2.1, key length in bytes *)
Definition rfc_key_wraps : list (Z * nat) := [ ((-3)%Z, 16); ((-4)%Z, 24); ((-5)%Z, 32) ].

(** ** Content encryption: RFC 9053 sections 4.1 and 4.2, key and tag length in bytes *)
Definition rfc_gcms : list (Z * nat) := [ (1%Z, 16); (2%Z, 24); (3%Z, 32) ].
Definition rfc_ccms : list (Z * (nat * nat)) :=
  [ (10%Z, (16, 8)); (11%Z, (32, 8)); (12%Z, (16, 8)); (13%Z, (32, 8));
    (30%Z, (16, 16)); (31%Z, (32, 16)); (32%Z, (16, 16)); (33%Z, (32, 16)) ].

(** ** ECDSA: the curve ES256, ES384, ES512 are meant for *)
Definition ecdsa_curves : list (Z * Z * hash) :=
  [ (-7, 1, SHA256); (-35, 2, SHA384); (-36, 3, SHA512) ]%Z.

(** ** Nonces *)

(** [p] with zeros in front, as long as [b]. *)
Definition left_pad (n : nat) (p : bytes) : bytes := repeat x00 (n - length p) ++ p.

(** Header [h] is in exactly one of the two maps, with value [v]. *)
Definition header (c : core) (h v : pyval) : Prop :=
  (dget (phdr c) h = Some v /\ dget (uhdr c) h = None) \/ (dget (phdr c) h = None /\ dget (uhdr c) h = Some v).
Definition no_header (c : core) (h : pyval) : Prop := dget (phdr c) h = None /\ dget (uhdr c) h = None.

(** ** Base64 *)

(** The URL-safe alphabet replaces [+] by [-] and [/] by [_]. *)
Definition to_urlsafe (u : bytes) : bytes :=
  map (fun b => if byte_eqb b x2b then x2d else if byte_eqb b x2f then x5f else b) u.

(** Text without the trailing [=]. *)
Fixpoint strip (u : bytes) : bytes :=
  match u with
  | [] => []
  | b :: r => match strip r with [] => if byte_eqb b x3d then [] else [b] | r' => b :: r' end
  end.

(** ** Hash algorithms: RFC 9054, output length in bytes *)
Definition rfc_hashes : list (Z * (hash * nat)) :=
  [ ((-14)%Z, (SHA1, 20)); ((-15)%Z, (SHA256, 8)); ((-16)%Z, (SHA256, 32)); ((-17)%Z, (SHA512, 32));
    ((-43)%Z, (SHA384, 48)); ((-44)%Z, (SHA512, 64)) ].
