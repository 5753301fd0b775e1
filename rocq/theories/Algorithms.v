(** The glue of pycose/algorithms.py around the cryptographic primitives. *)
From Coq Require Import NArith ZArith Bool String.
From Coq Require Import Init.Byte List.
From Verif Require Import Bytes Value Cbor Registry Crypto Keys.
Import ListNotations.
Local Open Scope result_scope.

(** ** What each registered algorithm is *)

(** One constructor per family base class, with the values its subclasses define.
    algorithms.py:46-341. *)
Inductive algk :=
| ARsa (pad : rsapad) (h : hash)           (* _RsaPss, _RsaPkcs1 *)
| AOaep (h : hash)                         (* _RsaOaep *)
| AHash (h : hash) (trunc : option nat)    (* _HashAlg *)
| AShake                                   (* _HashAlg over SHAKE128/SHAKE256 *)
| AEcdsa (curve : Z) (h : hash)            (* _Ecdsa *)
| AEdDSA
| AEcdhKW (kw : Z)                         (* _EcdhHkdf (always SHA-256) with an AES-KW *)
| AEcdhHkdf (h : hash)                     (* _EcdhHkdf with Direct *)
| ADirect                                  (* Direct, DirectHKDF*: no methods *)
| AKw (len : nat)                          (* _AesKw *)
| AGcm (len : nat)                         (* _AesGcm *)
| AHmac (h : hash) (digest : nat)          (* _HMAC *)
| ACcm (tag len : nat)                     (* _AesCcm *)
| ACbcMac (digest len : nat).              (* _AesMac *)

(** The class bodies, algorithms.py:348-1419. Curves are named by their COSE id:
    NIST256p is P-256 (1), NIST384p P-384 (2), NIST521p P-521 (3). *)
Definition alg_defs : list (Z * algk) :=
  [ (-65535, ARsa PKCS1v15 SHA1)   (* 348-364 *)
  ; (-259, ARsa PKCS1v15 SHA512)   (* 367-383 *)
  ; (-258, ARsa PKCS1v15 SHA384)   (* 386-401 *)
  ; (-257, ARsa PKCS1v15 SHA256)   (* 404-420 *)
  ; (-45, AShake)                  (* 423-436 *)
  ; (-44, AHash SHA512 None)       (* 439-452 *)
  ; (-43, AHash SHA384 None)       (* 455-469 *)
  ; (-42, AOaep SHA512)            (* 472-479 *)
  ; (-41, AOaep SHA256)            (* 482-489 *)
  ; (-40, AOaep SHA1)              (* 492-499 *)
  ; (-39, ARsa PSS SHA512)         (* 502-509 *)
  ; (-38, ARsa PSS SHA384)         (* 512-519 *)
  ; (-37, ARsa PSS SHA256)         (* 522-529 *)
  ; (-36, AEcdsa 3 SHA512)         (* 532-555 *)
  ; (-35, AEcdsa 2 SHA384)         (* 558-580 *)
  ; (-34, AEcdhKW (-5))            (* 583-610 *)
  ; (-33, AEcdhKW (-4))            (* 613-640 *)
  ; (-32, AEcdhKW (-3))            (* 643-670 *)
  ; (-31, AEcdhKW (-5))            (* 673-700 *)
  ; (-30, AEcdhKW (-4))            (* 703-730 *)
  ; (-29, AEcdhKW (-3))            (* 733-760; an instance, with the same methods *)
  ; (-28, AEcdhHkdf SHA512)        (* 763-785 *)
  ; (-27, AEcdhHkdf SHA256)        (* 788-810 *)
  ; (-26, AEcdhHkdf SHA512)        (* 813-835 *)
  ; (-25, AEcdhHkdf SHA256)        (* 838-860 *)
  ; (-18, AShake)                  (* 863-876 *)
  ; (-17, AHash SHA512 (Some 32%nat))  (* 879-893 *)
  ; (-16, AHash SHA256 None)       (* 896-909 *)
  ; (-15, AHash SHA256 (Some 8%nat))   (* 912-926 *)
  ; (-14, AHash SHA1 None)         (* 929-942 *)
  ; (-13, ADirect)                 (* 945-957 *)
  ; (-12, ADirect)                 (* 960-971 *)
  ; (-11, ADirect)                 (* 974-986 *)
  ; (-10, ADirect)                 (* 989-1001 *)
  ; (-8, AEdDSA)                   (* 1004-1042 *)
  ; (-7, AEcdsa 1 SHA256)          (* 1045-1065 *)
  ; (-6, ADirect)                  (* 1068-1080 *)
  ; (-5, AKw 32)                   (* 1083-1099 *)
  ; (-4, AKw 24)                   (* 1102-1118 *)
  ; (-3, AKw 16)                   (* 1121-1137 *)
  ; (1, AGcm 16)                   (* 1140-1156 *)
  ; (2, AGcm 24)                   (* 1159-1175 *)
  ; (3, AGcm 32)                   (* 1178-1194 *)
  ; (4, AHmac SHA256 8)            (* 1197-1208 *)
  ; (5, AHmac SHA256 32)           (* 1211-1222 *)
  ; (6, AHmac SHA384 48)           (* 1225-1236 *)
  ; (7, AHmac SHA512 64)           (* 1239-1250 *)
  ; (10, ACcm 8 16)                (* 1253-1264 *)
  ; (11, ACcm 8 32)                (* 1267-1278 *)
  ; (12, ACcm 8 16)                (* 1281-1292 *)
  ; (13, ACcm 8 32)                (* 1295-1306 *)
  ; (14, ACbcMac 8 16)             (* 1309-1320 *)
  ; (15, ACbcMac 8 32)             (* 1323-1334 *)
  ; (25, ACbcMac 16 16)            (* 1337-1348 *)
  ; (26, ACbcMac 16 32)            (* 1351-1362 *)
  ; (30, ACcm 16 16)               (* 1365-1377 *)
  ; (31, ACcm 16 32)               (* 1380-1391 *)
  ; (32, ACcm 16 16)               (* 1394-1405 *)
  ; (33, ACcm 16 32) ]%Z.          (* 1408-1419 *)

(** The class an attribute lookup on [alg] sees; [None] for anything that is not an
    algorithm class, where every method access raises AttributeError.
    algorithms.py:348-1428 (the registered classes). *)
Definition alg_kind (alg : pyval) : option algk :=
  match alg with
  | VClass (Cls FAlg z) =>
    match find (fun e => Z.eqb (fst e) z) alg_defs with
    | Some e => Some (snd e)
    | None => None
    end
  | _ => None
  end.

(** [get_key_length]: defined for the encryption, key wrap, AES-MAC and ECDH+KW
    classes only (68-72, 608-610, ... , 1319-1320). *)
Definition kw_length (kw : Z) : result nat :=
  match alg_kind (VClass (Cls FAlg kw)) with Some (AKw n) => Ok n | _ => Err AttributeError end.

(** [get_key_length] of each algorithm class, algorithms.py:68-72 and the registered classes
    (348-1428). *)
Definition get_key_length (alg : pyval) : result nat :=
  match alg_kind alg with
  | Some (AKw n) | Some (AGcm n) | Some (ACcm _ n) | Some (ACbcMac _ n) => Ok n
  | Some (AEcdhKW kw) => kw_length kw
  | _ => Err AttributeError
  end.

(** [get_key_wrap_func], 603-605 ... 858-860. *)
Definition get_key_wrap_func (alg : pyval) : result pyval :=
  match alg_kind alg with
  | Some (AEcdhKW kw) => Ok (VClass (Cls FAlg kw))
  | Some (AEcdhHkdf _) => Ok (VClass (Cls FAlg (-6)))
  | _ => Err AttributeError
  end.

(** ** Python helpers *)

(** [int.from_bytes(key.<p>, 'big')]. A value that is not [bytes] (only item
    assignment can put one there) raises TypeError; lists of small integers, which
    Python would convert, are covered by the same simplification.
    algorithms.py:93-100,111,140,149-156. *)
Definition attr_int (k : key) (p : kprop) : result N :=
  v <- prop_get k p ;; b <- as_bytes v ;; Ok (of_be b).

(** [int(hexlify(key.<p>), 16)]: ValueError on the empty string.
    algorithms.py:184,190,292-294. *)
Definition attr_hex (k : key) (p : kprop) : result N :=
  v <- prop_get k p ;; b <- as_bytes v ;;
  match b with [] => Err ValueError | _ => Ok (of_be b) end.

(** [key.<p>] where the primitive needs bytes: algorithms.py:208,247,268,317,335. *)
Definition attr_bytes (k : key) (p : kprop) : result bytes :=
  v <- prop_get k p ;; as_bytes v.

(** [l[-n:]] and [l[:-n]]. algorithms.py:217,219-220. *)
Definition last_n (n : nat) (l : bytes) : bytes := skipn (length l - n) l.
Definition drop_last_n (n : nat) (l : bytes) : bytes := firstn (length l - n) l.

(** ** AES-CBC-MAC *)

(** [while len(data) % 16 != 0: data += b'\x00'], 212-213. *)
Definition zero_pad (l : bytes) : bytes :=
  l ++ repeat x00 ((16 - length l mod 16) mod 16).

(** XOR of blocks, inside CBC mode (algorithms.py:208-215). *)
Definition xor_bytes (a b : bytes) : bytes :=
  map (fun p => byte_of_N (N.lxor (b2N (fst p)) (b2N (snd p)))) (combine a b).

(** Splitting into blocks, and CBC encryption of a list of blocks (215).
    algorithms.py:208-215. *)
Fixpoint chunks (fuel : nat) (l : bytes) : list bytes :=
  match fuel with
  | O => []
  | S f => match l with [] => [] | _ => firstn 16 l :: chunks f (skipn 16 l) end
  end.

(** CBC encryption of a list of blocks, algorithms.py:208-215. *)
Fixpoint cbc (E : bytes -> bytes) (iv : bytes) (blocks : list bytes) : list bytes :=
  match blocks with
  | [] => []
  | b :: r => let c := E (xor_bytes iv b) in c :: cbc E c r
  end.

Section WithCrypto.
Variable X : crypto.

(** [encryptor.update(data) + encryptor.finalize()], algorithms.py:208-215. *)
Definition cbc_ciphertext (k data : bytes) : bytes :=
  let p := zero_pad data in
  concat (cbc (x_aes X k) (repeat x00 16) (chunks (length p) p)).

(** 216-222. *)
Definition cbc_digest (digest : nat) (ciphertext : bytes) : bytes :=
  if Nat.eqb digest 16 then last_n 16 ciphertext else last_n 8 (drop_last_n 8 ciphertext).

(** ** Signatures *)

(** The numbers built from an RSA key, 93-100. *)
Definition rsa_public_numbers (k : key) : result rsa_pub :=
  e <- attr_int k PE ;; n <- attr_int k PN ;; Ok (RsaPub e n).

(** [RSAPrivateNumbers(...)], algorithms.py:93-102, 149-158. *)
Definition rsa_private_numbers (k : key) : result rsa_priv :=
  pub <- rsa_public_numbers k ;;
  p <- attr_int k PP ;; q <- attr_int k PQ ;; d <- attr_int k PD ;;
  dp <- attr_int k PDP ;; dq <- attr_int k PDQ ;; qi <- attr_int k PQInv ;;
  Ok (RsaPriv p q d dp dq qi pub).

(** [key.crv.fullname == 'ED25519'/'ED448'], 1020-1025: the curve's id, or the
    exception. Only attribute classes have a [fullname]. *)
Definition ed_curve (k : key) : result Z :=
  crv <- prop_get k PCrv ;;
  match crv with
  | VClass c =>
    if bytes_eqb (cls_fullname c) (bs "ED25519") then Ok 6%Z
    else if bytes_eqb (cls_fullname c) (bs "ED448") then Ok 7%Z
    else Err CoseException
  | _ => Err AttributeError
  end.

(** [alg.sign(key, data)]: 88-104, 182-186, 1018-1027. An OAEP padding is not a
    signature padding: the library raises. [seed] is used by the PSS salt. *)
Definition alg_sign (seed : N) (alg : pyval) (k : key) (data : bytes) : result bytes :=
  match alg_kind alg with
  | Some (ARsa pad h) => q <- rsa_private_numbers k ;; x_rsa_sign X pad h q seed data
  | Some (AOaep _) => _ <- rsa_private_numbers k ;; Err CryptoError
  | Some (AEcdsa c h) => d <- attr_hex k PD ;; x_ecdsa_sign X c h d data
  | Some AEdDSA => c <- ed_curve k ;; d <- attr_bytes k PD ;; x_ed_sign X c d data
  | _ => Err AttributeError
  end.

(** [alg.verify(key, data, signature)]: 106-118, 188-197, 1029-1042. A signature
    that is not [bytes] raises TypeError in the primitives. *)
Definition alg_verify (alg : pyval) (k : key) (data : bytes) (sig : pyval) : result bool :=
  match alg_kind alg with
  | Some (ARsa pad h) =>
    p <- rsa_public_numbers k ;; s <- as_bytes sig ;; x_rsa_verify X pad h p data s
  | Some (AOaep _) => _ <- rsa_public_numbers k ;; Err CryptoError
  | Some (AEcdsa c h) =>
    x <- attr_hex k PX ;; y <- attr_hex k PY ;; s <- as_bytes sig ;;
    x_ecdsa_verify X c h x y data s
  | Some AEdDSA =>
    c <- ed_curve k ;; x <- attr_bytes k PX ;; s <- as_bytes sig ;; x_ed_verify X c x data s
  | _ => Err AttributeError
  end.

(** ** MACs *)

(** [AES(key.k)] accepts 16, 24 or 32 bytes (the 64 bytes that [cryptography] also
    lists are for XTS; simplification: rejected here). algorithms.py:208-210. *)
Definition aes_key (k : key) : result bytes :=
  b <- attr_bytes k PK ;;
  if existsb (Nat.eqb (length b)) [16; 24; 32] then Ok b else Err ValueError.

(** [alg.compute_tag(key, data)]: 206-222, 245-251. *)
Definition alg_compute_tag (alg : pyval) (k : key) (data : bytes) : result bytes :=
  match alg_kind alg with
  | Some (AHmac h n) => b <- attr_bytes k PK ;; Ok (firstn n (x_hmac X h b data))
  | Some (ACbcMac n _) => b <- aes_key k ;; Ok (cbc_digest n (cbc_ciphertext b data))
  | _ => Err AttributeError
  end.

(** [alg.verify_tag(key, tag, data)]: 224-231, 253-261. *)
Definition alg_verify_tag (alg : pyval) (k : key) (tag : pyval) (data : bytes) : result bool :=
  t <- alg_compute_tag alg k data ;; Ok (veqb tag (VBytes t)).

(** ** Content encryption: 313-341 *)

(** [encrypt] of the AEAD algorithms, algorithms.py:315-318, 333-336. *)
Definition alg_encrypt (alg : pyval) (k : key) (nonce data : pyval) (aad : bytes) : result bytes :=
  match alg_kind alg with
  | Some (AGcm _) =>
    b <- attr_bytes k PK ;; n <- as_bytes nonce ;; d <- as_bytes data ;; x_gcm_enc X b n d aad
  | Some (ACcm t _) =>
    b <- attr_bytes k PK ;; n <- as_bytes nonce ;; d <- as_bytes data ;; x_ccm_enc X t b n d aad
  | _ => Err AttributeError
  end.

(** [decrypt] of the AEAD algorithms, algorithms.py:320-323, 338-341. *)
Definition alg_decrypt (alg : pyval) (k : key) (nonce ct : pyval) (aad : bytes) : result bytes :=
  match alg_kind alg with
  | Some (AGcm _) =>
    b <- attr_bytes k PK ;; n <- as_bytes nonce ;; d <- as_bytes ct ;; x_gcm_dec X b n d aad
  | Some (ACcm t _) =>
    b <- attr_bytes k PK ;; n <- as_bytes nonce ;; d <- as_bytes ct ;; x_ccm_dec X t b n d aad
  | _ => Err AttributeError
  end.

(** ** Key wrap: 136-160, 266-276 *)

(** [cls.get_key_length() != len(kek.k)]. algorithms.py:268-269, 274-275. *)
Definition kw_key (len : nat) (k : key) : result bytes :=
  v <- prop_get k PK ;; n <- py_len v ;;
  if Nat.eqb len n then as_bytes v else Err ValueError.

(** [key_wrap], algorithms.py:136-143, 266-270. *)
Definition alg_key_wrap (seed : N) (alg : pyval) (kek : key) (data : pyval) : result bytes :=
  match alg_kind alg with
  | Some (AKw len) => b <- kw_key len kek ;; d <- as_bytes data ;; x_wrap X b d
  | Some (AOaep h) =>
    p <- rsa_public_numbers kek ;; d <- as_bytes data ;; x_oaep_enc X h p seed d
  | _ => Err AttributeError
  end.

(** [key_unwrap], algorithms.py:145-160, 272-276. *)
Definition alg_key_unwrap (alg : pyval) (kek : key) (data : pyval) : result bytes :=
  match alg_kind alg with
  | Some (AKw len) => b <- kw_key len kek ;; d <- as_bytes data ;; x_unwrap X b d
  | Some (AOaep h) =>
    q <- rsa_private_numbers kek ;; d <- as_bytes data ;; x_oaep_dec X h q d
  | _ => Err AttributeError
  end.

(** ** Key agreement *)

(** [_ecdh], 290-301. [curve.curve_obj] exists on curve classes only; on the curves
    of OKP keys and on Reserved it is not an [ec] curve (TypeError). *)
Definition ecdh (curve : pyval) (private public : key) : result bytes :=
  d <- attr_hex private PD ;;
  x <- attr_hex public PX ;;
  y <- attr_hex public PY ;;
  match curve with
  | VClass (Cls FCrv z) =>
    if veqb (curve_key_type z) KtyEC2 then x_ecdh X z d x y else Err TypeError
  | _ => Err AttributeError
  end.

(** [get_hash_func] of the key agreement algorithms, algorithms.py:279-283, 307. *)
Definition kex_hash (alg : pyval) : result hash :=
  match alg_kind alg with
  | Some (AEcdhKW _) => Ok SHA256
  | Some (AEcdhHkdf h) => Ok h
  | _ => Err AttributeError
  end.

(** [derive_kek], 303-310. The context is represented by its key length and its
    encoding (messages/context.py). The salt is always None. *)
Definition derive_kek (alg curve : pyval) (private public : key) (len : nat)
    (info : result bytes) : result bytes :=
  h <- kex_hash alg ;;
  s <- ecdh curve private public ;;
  i <- info ;;
  x_hkdf X h len i s.

(** ** Hashing: [compute_hash], 56-65. [SHAKE128()] lacks its required argument. *)
Definition alg_compute_hash (alg : pyval) (data : bytes) : result bytes :=
  match alg_kind alg with
  | Some (AHash h None) => Ok (x_hash X h data)
  | Some (AHash h (Some n)) => Ok (firstn n (x_hash X h data))
  | Some AShake => Err TypeError
  | _ => Err AttributeError
  end.

End WithCrypto.
