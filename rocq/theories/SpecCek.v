(** Vocabulary of C95: what RFC 8152 prescribes for producing signatures, ciphertexts and
    content keys. *)
From Coq Require Import NArith ZArith Bool String.
From Coq Require Import Init.Byte List.
From Verif Require Import Bytes Value Cbor Registry Crypto Keys Algorithms Headers Messages Recipients
  SpecStruct SpecAlg SpecIana SpecAccept SpecRcptTrip.
Import ListNotations.

(** ** Producing *)

(** The RSA number a key holds under a name. *)
Definition number (k : key) (p : kprop) (n : N) : Prop := exists b, prop_get k p = Ok (VBytes b) /\ of_be b = n.

(** [s] is the signature of [t] with algorithm [z] under the private values of key [k];
    [seed] is the randomness of RSA-PSS. *)
Inductive sig_made (X : crypto) (seed : N) : Z -> key -> bytes -> bytes -> Prop :=
| SM_ecdsa z c h k d t s : In (z, c, h) ecdsa_curves -> prop_get k PD = Ok (VBytes d) ->
    x_ecdsa_sign X c h (of_be d) t = Ok s -> sig_made X seed z k t s
| SM_eddsa k c d t s : In c [6; 7]%Z -> prop_get k PCrv = Ok (VClass (Cls FCrv c)) -> prop_get k PD = Ok (VBytes d) ->
    x_ed_sign X c d t = Ok s -> sig_made X seed (-8) k t s
| SM_rsa z pad h k e n d p q dp dq qi t s : In (z, pad, h) rsa_schemes ->
    number k PE e -> number k PN n -> number k PD d -> number k PP p -> number k PQ q ->
    number k PDP dp -> number k PDQ dq -> number k PQInv qi ->
    x_rsa_sign X pad h (RsaPriv p q d dp dq qi (RsaPub e n)) seed t = Ok s -> sig_made X seed z k t s.

(** Authenticated encryption of [pt] with additional data [t] gives [ct]. *)
Inductive aead_sealed (X : crypto) : Z -> key -> bytes -> bytes -> bytes -> bytes -> Prop :=
| AS_gcm z n k b nonce t pt ct : In (z, n) rfc_gcms -> secret k b -> x_gcm_enc X b nonce pt t = Ok ct -> aead_sealed X z k nonce t pt ct
| AS_ccm z n l k b nonce t pt ct : In (z, (n, l)) rfc_ccms -> secret k b -> x_ccm_enc X l b nonce pt t = Ok ct -> aead_sealed X z k nonce t pt ct.

(** ** Content keys *)

(** RSAES-OAEP (RFC 8230 section 3), ECDH with HKDF (RFC 8152 table 18) and ECDH with key
    wrap (table 19, always HKDF with SHA-256). *)
Definition oaep_hashes : list (Z * hash) := [ ((-40)%Z, SHA1); ((-41)%Z, SHA256); ((-42)%Z, SHA512) ].
Definition ecdh_hkdfs : list (Z * hash) := [ ((-25)%Z, SHA256); ((-26)%Z, SHA512); ((-27)%Z, SHA256); ((-28)%Z, SHA512) ].
Definition ecdh_wraps : list (Z * Z) := [ (-29, -3); (-30, -4); (-31, -5); (-32, -3); (-33, -4); (-34, -5) ]%Z.

(** The recipient object [c] agrees with the owner of [pub] on [out]: [n] bytes of HKDF over
    hash [h], of the Diffie-Hellman secret on the curve of [pub], with the COSE_KDF_Context of
    [c] for algorithm [target] (C65) as info. *)
Definition agreed (X : crypto) (h : hash) (c : core) (pub : key) (target : Z) (n : nat) (out : bytes) : Prop :=
  exists own crv d x y s ctx info, ckey c = Some own /\ prop_get own PD = Ok (VBytes d) /\
    prop_get pub PCrv = Ok (VClass (Cls FCrv crv)) /\ prop_get pub PX = Ok (VBytes x) /\ prop_get pub PY = Ok (VBytes y) /\
    x_ecdh X crv (of_be d) (of_be x) (of_be y) = Ok s /\
    get_kdf_context c (alg target) = Ok ctx /\ kdf_encode ctx = Ok info /\ x_hkdf X h n info s = Ok out.

(** The receiver's object [c] of a recipient yields the content key [cek] for a message with
    algorithm [z]. *)
Inductive yields (X : crypto) (c : core) (z : Z) (cek : bytes) : Prop :=
| Y_wrap a k kek ct : get_attr c Algorithm = Ok (alg a) -> ckey c = Some k -> secret k kek ->
    In (a, length kek) rfc_key_wraps -> payload c = Some ct -> x_unwrap X kek ct = Ok cek -> yields X c z cek
| Y_oaep a h k e n d p q dp dq qi ct : get_attr c Algorithm = Ok (alg a) -> In (a, h) oaep_hashes -> ckey c = Some k ->
    number k PE e -> number k PN n -> number k PD d -> number k PP p -> number k PQ q ->
    number k PDP dp -> number k PDQ dq -> number k PQInv qi -> payload c = Some ct ->
    x_oaep_dec X h (RsaPriv p q d dp dq qi (RsaPub e n)) ct = Ok cek -> yields X c z cek
| Y_agree a h n pub : get_attr c Algorithm = Ok (alg a) -> In (a, h) ecdh_hkdfs ->
    get_attr c (sender_header a) = Ok (kval pub) -> In (z, n) rfc_key_length ->
    agreed X h c pub z n cek -> yields X c z cek
| Y_agree_wrap a w n pub kek ct : get_attr c Algorithm = Ok (alg a) -> In (a, w) ecdh_wraps -> In (w, n) rfc_key_wraps ->
    get_attr c (sender_header a) = Ok (kval pub) -> agreed X SHA256 c pub w n kek -> length kek = n ->
    payload c = Some ct -> x_unwrap X kek ct = Ok cek -> yields X c z cek.

(** The sender's object [c] of a recipient puts the content key [cek] into [ct]. The public
    key of the receiver is a local attribute of the sender. *)
Inductive sealed (X : crypto) (c : core) (cek ct : bytes) : Prop :=
| S_wrap a k kek : get_attr c Algorithm = Ok (alg a) -> ckey c = Some k -> secret k kek ->
    In (a, length kek) rfc_key_wraps -> x_wrap X kek cek = Ok ct -> sealed X c cek ct
| S_oaep a h k e n seed : get_attr c Algorithm = Ok (alg a) -> In (a, h) oaep_hashes -> ckey c = Some k ->
    number k PE e -> number k PN n -> x_oaep_enc X h (RsaPub e n) seed cek = Ok ct -> sealed X c cek ct
| S_agree_wrap a w n pub kek : get_attr c Algorithm = Ok (alg a) -> In (a, w) ecdh_wraps -> In (w, n) rfc_key_wraps ->
    dget (local c) StaticKey = Some (kval pub) -> agreed X SHA256 c pub w n kek -> length kek = n ->
    x_wrap X kek cek = Ok ct -> sealed X c cek ct.

(** The value [v] sent for recipient [r] (its state after sending): protected headers,
    unprotected headers, and the encrypted content key or nothing. *)
Definition sent (X : crypto) (r : rcpt) (v : pyval) : Prop :=
  exists p ct nested, v = VList (VBytes p :: VDict (uhdr (r_core r)) :: VBytes ct :: nested) /\
    match r_class r with
    | RDirect | RAgree => ct = []
    | RKeyWrap | RAgreeKW => exists cek, payload (r_core r) = Some cek /\ sealed X (r_core r) cek ct
    end.

(** ** The salt of HKDF: header parameter -20, RFC 8152 section 11.1 *)
Definition Salt : pyval := VClass (Cls FHdr (-20)).
(** The recipient object with a salt among the unprotected headers. *)
Definition salted (c : core) (v : pyval) : core := with_uhdr c (dset (uhdr c) Salt v).
