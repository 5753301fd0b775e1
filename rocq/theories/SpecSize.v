(** Vocabulary of C109: objects that exist in CPython, where nothing is as long as 2^63. *)
From Coq Require Import NArith ZArith Bool.
From Coq Require Import Init.Byte List.
From Verif Require Import Bytes Value Cbor Registry Crypto Keys Headers Messages.
Import ListNotations.
Local Open Scope N_scope.

Definition fits {A} (l : list A) : bool := N.ltb (N.of_nat (length l)) (2 ^ 63).

(** Every string, list and map is shorter than 2^63, every integer has fewer than 2^63 bits, text is
    UTF-8, tags and simple values are in range. *)
Fixpoint exists_in_memory (v : pyval) : bool :=
  match v with
  | VInt z => N.ltb (N.log2 (Z.abs_N z)) (2 ^ 63)
  | VFloat bits => N.ltb bits (2 ^ 64)
  | VSimple n => N.ltb n 20 || (N.leb 32 n && N.ltb n 256)
  | VBytes b => fits b
  | VStr u => fits u && utf8_valid u
  | VList l | VTuple l => fits l && forallb exists_in_memory l
  | VDict d => fits d && forallb (fun e => match e with (k, x) => exists_in_memory k && exists_in_memory x end) d
  | VTag t x | VOther t x => N.ltb t (2 ^ 64) && exists_in_memory x
  | VClass c => N.ltb (N.log2 (Z.abs_N (c_id c))) (2 ^ 63)
  | VKey _ s _ => fits s && forallb (fun e => match e with (k, x) => exists_in_memory k && exists_in_memory x end) s
  | _ => true
  end.

(** An upper bound of the length of the encoding of [v]. *)
Fixpoint room (v : pyval) : N :=
  24 + match v with
       | VInt z => N.log2 (Z.abs_N z)
       | VBytes b | VStr b => blen b
       | VList l | VTuple l => fold_right (fun x n => room x + n) 0 l
       | VDict d => fold_right (fun e n => match e with (k, x) => room k + room x end + n) 0 d
       | VTag _ x | VOther _ x => room x
       | VClass c => 128 + N.log2 (Z.abs_N (c_id c))
       | VKey _ s _ => fold_right (fun e n => match e with (k, x) => room k + room x end + n) 0 s
       | _ => 0
       end.

(** The parts of a message, a signer or a recipient exist, and there is room for the encoded
    protected headers and for an encrypted payload. *)
Definition core_exists (c : core) : Prop :=
  exists_in_memory (VDict (phdr c)) = true /\ room (VDict (phdr c)) < 2 ^ 63 /\ exists_in_memory (VDict (uhdr c)) = true /\
  fits (aad c) = true /\ (forall p, phdr_raw c = Some p -> fits p = true) /\ (forall p, payload c = Some p -> blen p + 16 < 2 ^ 63).

(** What the primitives return exists too: signatures do, and a ciphertext is at most a tag
    longer than the plaintext. *)
Definition law_sign_fits (X : crypto) : Prop :=
  (forall p h k n t s, x_rsa_sign X p h k n t = Ok s -> fits s = true) /\ (forall c h d t s, x_ecdsa_sign X c h d t = Ok s -> fits s = true) /\
  (forall c k t s, x_ed_sign X c k t = Ok s -> fits s = true).
Definition law_seal_fits (X : crypto) : Prop :=
  (forall k n p a c, x_gcm_enc X k n p a = Ok c -> blen c <= blen p + 16) /\
  (forall t k n p a c, x_ccm_enc X t k n p a = Ok c -> blen c <= blen p + N.of_nat t).

(** The encoded message is there, unless the primitives failed. *)
Definition unless (P : exn -> Prop) {A} (r : result A) : Prop := match r with Ok _ => True | Err x => P x end.

(** A wrapped key exists if there is room for 16 bytes more than the key has. *)
Definition law_wrap_fits (X : crypto) : Prop :=
  (forall k d s, x_wrap X k d = Ok s -> blen d + 16 < 2 ^ 63 -> fits s = true) /\ (forall h k n d s, x_oaep_enc X h k n d = Ok s -> blen d + 16 < 2 ^ 63 -> fits s = true).

(** For key agreement: the local attributes exist, and there is room for one more header,
    should an ephemeral key be made. *)
Definition agree_exists (c : core) : Prop :=
  core_exists c /\ exists_in_memory (VDict (local c)) = true /\ (ckey c = None -> N.of_nat (length (uhdr c)) + 1 < 2 ^ 63).
