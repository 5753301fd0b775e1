(** Specification: the IANA COSE registries (RFC 8152, 8230, 8812, 9053, 9054, 9360),
    typed from the registries and not derived from pycose. Each id is listed with its
    IANA name, followed by the short form pycose documents where it differs. *)
From Coq Require Import NArith ZArith Bool String.
From Coq Require Import Init.Byte List.
From Verif Require Import Bytes Value Crypto.
Import ListNotations.

Definition iana_alg : list (Z * list string) :=
  [ (-65535, ["RS1"])
  ; (-259, ["RS512"])
  ; (-258, ["RS384"])
  ; (-257, ["RS256"])
  ; (-45, ["SHAKE256"])
  ; (-44, ["SHA-512"])
  ; (-43, ["SHA-384"])
  ; (-42, ["RSAES-OAEP w/ SHA-512"; "RSAES-OAEP SHA-512"])
  ; (-41, ["RSAES-OAEP w/ SHA-256"; "RSAES-OAEP SHA-256"])
  ; (-40, ["RSAES-OAEP w/ RFC 8017 default parameters"; "RSAES-OAEP SHA-1"])
  ; (-39, ["PS512"])
  ; (-38, ["PS384"])
  ; (-37, ["PS256"])
  ; (-36, ["ES512"])
  ; (-35, ["ES384"])
  ; (-34, ["ECDH-SS + A256KW"])
  ; (-33, ["ECDH-SS + A192KW"])
  ; (-32, ["ECDH-SS + A128KW"])
  ; (-31, ["ECDH-ES + A256KW"])
  ; (-30, ["ECDH-ES + A192KW"])
  ; (-29, ["ECDH-ES + A128KW"])
  ; (-28, ["ECDH-SS + HKDF-512"])
  ; (-27, ["ECDH-SS + HKDF-256"])
  ; (-26, ["ECDH-ES + HKDF-512"])
  ; (-25, ["ECDH-ES + HKDF-256"])
  ; (-18, ["SHAKE128"])
  ; (-17, ["SHA-512/256"])
  ; (-16, ["SHA-256"])
  ; (-15, ["SHA-256/64"])
  ; (-14, ["SHA-1"])
  ; (-13, ["direct+HKDF-AES-256"])
  ; (-12, ["direct+HKDF-AES-128"])
  ; (-11, ["direct+HKDF-SHA-512"])
  ; (-10, ["direct+HKDF-SHA-256"])
  ; (-8, ["EdDSA"])
  ; (-7, ["ES256"])
  ; (-6, ["direct"])
  ; (-5, ["A256KW"])
  ; (-4, ["A192KW"])
  ; (-3, ["A128KW"])
  ; (1, ["A128GCM"])
  ; (2, ["A192GCM"])
  ; (3, ["A256GCM"])
  ; (4, ["HMAC 256/64"])
  ; (5, ["HMAC 256/256"; "HMAC 256"])
  ; (6, ["HMAC 384/384"; "HMAC 384"])
  ; (7, ["HMAC 512/512"; "HMAC 512"])
  ; (10, ["AES-CCM-16-64-128"])
  ; (11, ["AES-CCM-16-64-256"])
  ; (12, ["AES-CCM-64-64-128"])
  ; (13, ["AES-CCM-64-64-256"])
  ; (14, ["AES-MAC 128/64"])
  ; (15, ["AES-MAC 256/64"])
  ; (25, ["AES-MAC 128/128"])
  ; (26, ["AES-MAC 256/128"])
  ; (30, ["AES-CCM-16-128-128"])
  ; (31, ["AES-CCM-16-128-256"])
  ; (32, ["AES-CCM-64-128-128"])
  ; (33, ["AES-CCM-64-128-256"]) ]%Z%string.

Definition iana_hdr : list (Z * list string) :=
  [ (0, ["Reserved"])
  ; (1, ["alg"])
  ; (2, ["crit"; "Critical"])
  ; (3, ["content type"])
  ; (4, ["kid"])
  ; (5, ["IV"])
  ; (6, ["Partial IV"])
  ; (7, ["counter signature"; "counter sign"])
  ; (9, ["CounterSignature0"; "counter sign 0"])
  ; (10, ["kid context"])
  ; (32, ["x5bag"])
  ; (33, ["x5chain"])
  ; (34, ["x5t"])
  ; (35, ["x5u"])
  ; (-1, ["ephemeral key"])
  ; (-2, ["static key"])
  ; (-3, ["static key id"])
  ; (-20, ["salt"])
  ; (-21, ["PartyU identity"; "Party U ID"])
  ; (-22, ["PartyU nonce"])
  ; (-23, ["PartyU other"])
  ; (-24, ["PartyV identity"; "Party V ID"])
  ; (-25, ["PartyV nonce"])
  ; (-26, ["PartyV other"]) ]%Z%string.

Definition iana_kp : list (Z * list string) :=
  [ (1, ["kty"])
  ; (2, ["kid"])
  ; (3, ["alg"])
  ; (4, ["key_ops"])
  ; (5, ["Base IV"]) ]%Z%string.

Definition iana_ec2 : list (Z * list string) :=
  [ (-1, ["crv"; "curve"])
  ; (-2, ["x"])
  ; (-3, ["y"])
  ; (-4, ["d"]) ]%Z%string.

Definition iana_okp : list (Z * list string) :=
  [ (-1, ["crv"; "curve"])
  ; (-2, ["x"])
  ; (-4, ["d"]) ]%Z%string.

Definition iana_rsa : list (Z * list string) :=
  [ (-1, ["n"])
  ; (-2, ["e"])
  ; (-3, ["d"])
  ; (-4, ["p"])
  ; (-5, ["q"])
  ; (-6, ["dP"])
  ; (-7, ["dQ"])
  ; (-8, ["qInv"])
  ; (-9, ["other"])
  ; (-10, ["r_i"])
  ; (-11, ["d_i"])
  ; (-12, ["t_i"]) ]%Z%string.

Definition iana_sym : list (Z * list string) :=
  [ (-1, ["k"]) ]%Z%string.

Definition iana_kty : list (Z * list string) :=
  [ (0, ["Reserved"])
  ; (1, ["OKP"])
  ; (2, ["EC2"])
  ; (3, ["RSA"])
  ; (4, ["Symmetric"]) ]%Z%string.

Definition iana_ops : list (Z * list string) :=
  [ (1, ["sign"])
  ; (2, ["verify"])
  ; (3, ["encrypt"])
  ; (4, ["decrypt"])
  ; (5, ["wrap key"; "wrap"])
  ; (6, ["unwrap key"; "unwrap"])
  ; (7, ["derive key"])
  ; (8, ["derive bits"])
  ; (9, ["MAC create"])
  ; (10, ["MAC verify"]) ]%Z%string.

Definition iana_crv : list (Z * list string) :=
  [ (0, ["Reserved"])
  ; (1, ["P-256"])
  ; (2, ["P-384"])
  ; (3, ["P-521"])
  ; (4, ["X25519"])
  ; (5, ["X448"])
  ; (6, ["Ed25519"])
  ; (7, ["Ed448"])
  ; (8, ["secp256k1"]) ]%Z%string.

Definition iana (f : fam) : list (Z * list string) :=
  match f with
  | FHdr => iana_hdr | FAlg => iana_alg | FKP => iana_kp | FEC2 => iana_ec2 | FOKP => iana_okp
  | FRSA => iana_rsa | FSym => iana_sym | FKty => iana_kty | FOps => iana_ops | FCrv => iana_crv
  end.

(** Names are compared without punctuation, blanks and letter case. *)
Definition alnum_upper (b : byte) : list byte :=
  let n := b2N b in
  if ((48 <=? n) && (n <=? 57) || (65 <=? n) && (n <=? 90))%N then [b]
  else if ((97 <=? n) && (n <=? 122))%N then [byte_of_N (n - 32)]
  else [].

Definition squash (l : bytes) : bytes := flat_map alnum_upper l.

(** Lengths in bytes fixed by the registry. *)
Inductive iana_kind :=
| ISig | IHash | IKeyTransport | IDerive
| IKeyWrap (key : nat)            (* length of the key-encryption key *)
| IAead (key tag : nat)
| IMac (tag : nat)                (* HMAC: any key length *)
| IAesMac (key tag : nat).

Definition iana_lengths : list (Z * iana_kind) :=
  [ (-65535, ISig)
  ; (-259, ISig)
  ; (-258, ISig)
  ; (-257, ISig)
  ; (-45, IHash)
  ; (-44, IHash)
  ; (-43, IHash)
  ; (-42, IKeyTransport)
  ; (-41, IKeyTransport)
  ; (-40, IKeyTransport)
  ; (-39, ISig)
  ; (-38, ISig)
  ; (-37, ISig)
  ; (-36, ISig)
  ; (-35, ISig)
  ; (-34, IKeyWrap 32)
  ; (-33, IKeyWrap 24)
  ; (-32, IKeyWrap 16)
  ; (-31, IKeyWrap 32)
  ; (-30, IKeyWrap 24)
  ; (-29, IKeyWrap 16)
  ; (-28, IDerive)
  ; (-27, IDerive)
  ; (-26, IDerive)
  ; (-25, IDerive)
  ; (-18, IHash)
  ; (-17, IHash)
  ; (-16, IHash)
  ; (-15, IHash)
  ; (-14, IHash)
  ; (-13, IDerive)
  ; (-12, IDerive)
  ; (-11, IDerive)
  ; (-10, IDerive)
  ; (-8, ISig)
  ; (-7, ISig)
  ; (-6, IDerive)
  ; (-5, IKeyWrap 32)
  ; (-4, IKeyWrap 24)
  ; (-3, IKeyWrap 16)
  ; (1, IAead 16 16)
  ; (2, IAead 24 16)
  ; (3, IAead 32 16)
  ; (4, IMac 8)
  ; (5, IMac 32)
  ; (6, IMac 48)
  ; (7, IMac 64)
  ; (10, IAead 16 8)
  ; (11, IAead 32 8)
  ; (12, IAead 16 8)
  ; (13, IAead 32 8)
  ; (14, IAesMac 16 8)
  ; (15, IAesMac 32 8)
  ; (25, IAesMac 16 16)
  ; (26, IAesMac 32 16)
  ; (30, IAead 16 16)
  ; (31, IAead 32 16)
  ; (32, IAead 16 16)
  ; (33, IAead 32 16) ]%Z.

(** RFC 8152 sections 13.1 and 13.2: length in bytes of a coordinate (EC2) or of a
    public key (OKP) on each curve; RFC 7748 and RFC 8032 for the latter. *)
Definition rfc_curve_size : list (Z * nat) :=
  [ (1%Z, 32); (2%Z, 48); (3%Z, 66); (4%Z, 32); (5%Z, 56); (6%Z, 32); (7%Z, 57); (8%Z, 32) ].

(** The hash function each algorithm is built on (RFC 8152 tables 5, 7, 18, 20; RFC 8230;
    RFC 8812; RFC 9054). *)
Definition iana_hash : list (Z * hash) :=
  [ (-65535, SHA1)
  ; (-259, SHA512)
  ; (-258, SHA384)
  ; (-257, SHA256)
  ; (-44, SHA512)
  ; (-43, SHA384)
  ; (-42, SHA512)
  ; (-41, SHA256)
  ; (-40, SHA1)
  ; (-39, SHA512)
  ; (-38, SHA384)
  ; (-37, SHA256)
  ; (-36, SHA512)
  ; (-35, SHA384)
  ; (-34, SHA256)
  ; (-33, SHA256)
  ; (-32, SHA256)
  ; (-31, SHA256)
  ; (-30, SHA256)
  ; (-29, SHA256)
  ; (-28, SHA512)
  ; (-27, SHA256)
  ; (-26, SHA512)
  ; (-25, SHA256)
  ; (-16, SHA256)
  ; (-15, SHA256)
  ; (-14, SHA1)
  ; (-7, SHA256)
  ; (4, SHA256)
  ; (5, SHA256)
  ; (6, SHA384)
  ; (7, SHA512) ]%Z.

(** Key lengths in bytes (RFC 8152 tables 8, 9, 10, 13, 19): of AES key wrap, of the AES
    content encryption and MAC algorithms, and of the key a key agreement with key wrap
    derives for its key wrap algorithm. *)
Definition rfc_key_length : list (Z * nat) :=
  [ ((-34)%Z, 32); ((-33)%Z, 24); ((-32)%Z, 16); ((-31)%Z, 32); ((-30)%Z, 24); ((-29)%Z, 16)
  ; ((-5)%Z, 32); ((-4)%Z, 24); ((-3)%Z, 16)
  ; ((1)%Z, 16); ((2)%Z, 24); ((3)%Z, 32)
  ; ((10)%Z, 16); ((11)%Z, 32); ((12)%Z, 16); ((13)%Z, 32)
  ; ((14)%Z, 16); ((15)%Z, 32); ((25)%Z, 16); ((26)%Z, 32)
  ; ((30)%Z, 16); ((31)%Z, 32); ((32)%Z, 16); ((33)%Z, 32) ].

(** The key wrap algorithm of each key agreement (RFC 8152 tables 18, 19): A128KW, A192KW,
    A256KW, or none, which the library writes as the algorithm "direct" (-6). *)
Definition rfc_key_wrap : list (Z * Z) :=
  [ (-34, -5); (-33, -4); (-32, -3); (-31, -5); (-30, -4); (-29, -3)
  ; (-28, -6); (-27, -6); (-26, -6); (-25, -6) ]%Z.
