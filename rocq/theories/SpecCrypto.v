(** Laws of the external primitives, used as explicit hypotheses by the theorems that
    need them. They are the functional-correctness contracts of the [cryptography] and
    [ecdsa] packages; no security assumption is made. *)
From Coq Require Import NArith ZArith Znumtheory.
From Coq Require Import Init.Byte List.
From Verif Require Import Bytes Value Crypto.

(** A signature made with a private key verifies under its public key. *)
Definition law_ecdsa (X : crypto) : Prop := forall c h d x y data s,
  x_ec_pub X c d = Ok (x, y) -> x_ecdsa_sign X c h d data = Ok s ->
  x_ecdsa_verify X c h x y data s = Ok true.

Definition law_ed (X : crypto) : Prop := forall c d data s,
  x_ed_sign X c d data = Ok s -> x_ed_verify X c (x_okp_pub X c d) data s = Ok true.

(** Decryption under the same key, nonce and additional data inverts encryption. *)
Definition law_gcm (X : crypto) : Prop := forall k n d a c,
  x_gcm_enc X k n d a = Ok c -> x_gcm_dec X k n c a = Ok d.

Definition law_ccm (X : crypto) : Prop := forall t k n d a c,
  x_ccm_enc X t k n d a = Ok c -> x_ccm_dec X t k n c a = Ok d.

Definition law_wrap (X : crypto) : Prop := forall k d c,
  x_wrap X k d = Ok c -> x_unwrap X k c = Ok d.

(** The consistency conditions of an RSA private key, RFC 8017 section 3.2. *)
Definition rsa_consistent (q : rsa_priv) : Prop :=
  let p1 := Z.of_N (rsa_p q) in
  let p2 := Z.of_N (rsa_q q) in
  let e := Z.of_N (rsa_e (rsa_public q)) in
  prime p1 /\ prime p2 /\ p1 <> p2 /\ Z.of_N (rsa_n (rsa_public q)) = (p1 * p2)%Z /\
  (Z.lcm (p1 - 1) (p2 - 1) | e * Z.of_N (rsa_d q) - 1)%Z /\
  (p1 - 1 | e * Z.of_N (rsa_dmp1 q) - 1)%Z /\ (p2 - 1 | e * Z.of_N (rsa_dmq1 q) - 1)%Z /\
  (p1 | p2 * Z.of_N (rsa_iqmp q) - 1)%Z.

Definition law_rsa (X : crypto) : Prop := forall pad h q seed data s, rsa_consistent q ->
  x_rsa_sign X pad h q seed data = Ok s -> x_rsa_verify X pad h (rsa_public q) data s = Ok true.

Definition law_oaep (X : crypto) : Prop := forall h q seed d c, rsa_consistent q ->
  x_oaep_enc X h (rsa_public q) seed d = Ok c -> x_oaep_dec X h q c = Ok d.

(** Wrapped keys and RSA ciphertexts are not empty. *)
Definition law_wrap_some (X : crypto) : Prop := forall k d c, x_wrap X k d = Ok c -> c <> nil.
Definition law_oaep_some (X : crypto) : Prop := forall h p seed d c, x_oaep_enc X h p seed d = Ok c -> c <> nil.

(** Both parties of a Diffie-Hellman exchange compute the same secret. *)
Definition law_ecdh (X : crypto) : Prop := forall c d1 d2 x1 y1 x2 y2,
  x_ec_pub X c d1 = Ok (x1, y1) -> x_ec_pub X c d2 = Ok (x2, y2) ->
  x_ecdh X c d1 x2 y2 = x_ecdh X c d2 x1 y1.

Definition hash_len (h : hash) : nat :=
  match h with SHA1 => 20 | SHA256 => 32 | SHA384 => 48 | SHA512 => 64 end.

(** Output lengths. *)
Definition law_hash_len (X : crypto) : Prop := forall h d, length (x_hash X h d) = hash_len h.
Definition law_hmac_len (X : crypto) : Prop := forall h k d, length (x_hmac X h k d) = hash_len h.
Definition law_aes_len (X : crypto) : Prop := forall k b, length b = 16%nat -> length (x_aes X k b) = 16%nat.
Definition law_urandom_len (X : crypto) : Prop := forall s n, length (x_urandom X s n) = n.
Definition law_hkdf_len (X : crypto) : Prop := forall h n i s b, x_hkdf X h n i s = Ok b -> length b = n.
