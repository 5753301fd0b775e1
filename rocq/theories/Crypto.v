(** The external cryptographic primitives, as a record of functions.

    They live in the [cryptography] and [ecdsa] packages and in [os.urandom]; none of
    them is in /repo. The model makes no assumption about them: laws (a signature
    verifies, decryption inverts encryption, ...) are hypotheses of the theorems that
    need them. Randomness is an explicit argument: the [N] is the position in the
    entropy stream of the draw. *)
From Coq Require Import NArith ZArith.
From Coq Require Import Init.Byte List.
From Verif Require Import Bytes Value.

(** Hash functions of [cryptography.hazmat.primitives.hashes] used in algorithms.py. *)
Inductive hash := SHA1 | SHA256 | SHA384 | SHA512.

(** Signature paddings, algorithms.py:121-126,163-168. *)
Inductive rsapad := PSS | PKCS1v15.

(** [rsa.RSAPublicNumbers] and [rsa.RSAPrivateNumbers], algorithms.py:93-100. *)
Record rsa_pub := RsaPub { rsa_e : N; rsa_n : N }.
Record rsa_priv := RsaPriv { rsa_p : N; rsa_q : N; rsa_d : N; rsa_dmp1 : N; rsa_dmq1 : N;
                             rsa_iqmp : N; rsa_public : rsa_pub }.

(** Elliptic curves are named by their COSE identifier (curves.py). *)
Record crypto := {
  (* Hash.finalize, algorithms.py:57-60 *)
  x_hash : hash -> bytes -> bytes;
  (* HMAC.finalize, algorithms.py:247-249 *)
  x_hmac : hash -> bytes -> bytes -> bytes;
  (* the AES block cipher on one 16-byte block: key, block (algorithms.py:208) *)
  x_aes : bytes -> bytes -> bytes;
  (* AESGCM(key).encrypt/decrypt: key, nonce, data, aad (algorithms.py:317-323) *)
  x_gcm_enc : bytes -> bytes -> bytes -> bytes -> result bytes;
  x_gcm_dec : bytes -> bytes -> bytes -> bytes -> result bytes;
  (* AESCCM(key, tag_length).encrypt/decrypt (algorithms.py:335-341) *)
  x_ccm_enc : nat -> bytes -> bytes -> bytes -> bytes -> result bytes;
  x_ccm_dec : nat -> bytes -> bytes -> bytes -> bytes -> result bytes;
  (* aes_key_wrap/aes_key_unwrap: wrapping key, data (algorithms.py:270,276) *)
  x_wrap : bytes -> bytes -> result bytes;
  x_unwrap : bytes -> bytes -> result bytes;
  (* private_key().sign / public_key().verify (algorithms.py:102-118) *)
  x_rsa_sign : rsapad -> hash -> rsa_priv -> N -> bytes -> result bytes;
  x_rsa_verify : rsapad -> hash -> rsa_pub -> bytes -> bytes -> result bool;
  (* OAEP encrypt/decrypt (algorithms.py:141-143,158-160) *)
  x_oaep_enc : hash -> rsa_pub -> N -> bytes -> result bytes;
  x_oaep_dec : hash -> rsa_priv -> bytes -> result bytes;
  (* ecdsa: curve, hash, secret exponent, data (algorithms.py:184-186) *)
  x_ecdsa_sign : Z -> hash -> N -> bytes -> result bytes;
  (* ecdsa: curve, hash, x, y, data, signature (algorithms.py:190-197) *)
  x_ecdsa_verify : Z -> hash -> N -> N -> bytes -> bytes -> result bool;
  (* Ed25519/Ed448: curve, private bytes, data (algorithms.py:1019-1026) *)
  x_ed_sign : Z -> bytes -> bytes -> result bytes;
  (* curve, public bytes, data, signature (algorithms.py:1029-1042) *)
  x_ed_verify : Z -> bytes -> bytes -> bytes -> result bool;
  (* ec.derive_private_key(d, curve).public_key().public_numbers() (ec2.py:150-152) *)
  x_ec_pub : Z -> N -> result (N * N);
  (* EllipticCurvePublicKey.from_encoded_point(curve, b).public_numbers() (ec2.py:165-174) *)
  x_ec_point : Z -> bytes -> result (N * N);
  (* ec.generate_private_key(curve): the private value (ec2.py:276) *)
  x_ec_gen : Z -> N -> N;
  (* derive_private_key(d).exchange(ECDH(), (x, y)) (algorithms.py:296-301) *)
  x_ecdh : Z -> N -> N -> N -> result bytes;
  (* HKDF(hash, length, salt=None, info).derive(secret) (algorithms.py:307-310) *)
  x_hkdf : hash -> nat -> bytes -> bytes -> result bytes;
  (* raw private and public bytes of a generated OKP key (okp.py:64-75,241) *)
  x_okp_gen : Z -> N -> bytes;
  x_okp_pub : Z -> bytes -> bytes;
  (* rsa.generate_private_key(65537, key_bits).private_numbers() (rsa.py:313) *)
  x_rsa_gen : Z -> N -> result rsa_priv;
  (* os.urandom(n) *)
  x_urandom : N -> nat -> bytes
}.
