(** The attribute registries and [_CoseAttribute.from_id]. *)
From Coq Require Import NArith ZArith Bool String.
From Coq Require Import Init.Byte List.
From Verif Require Import Bytes Value.
Import ListNotations.
Local Open Scope result_scope.

(** ** Registered classes *)

(** Classes registered with [CoseHeaderAttribute.register_attribute()], pycose/headers.py, in
    registration order: identifier, fullname. *)
Definition hdr_table : list (Z * string) :=
  [ (0, "RESERVED")  (* Reserved, 15-18 *)
  ; (1, "ALG")  (* Algorithm, 21-24 *)
  ; (2, "CRITICAL")  (* Critical, 27-30 *)
  ; (3, "CONTENT_TYPE")  (* ContentType, 33-36 *)
  ; (4, "KID")  (* KID, 39-42 *)
  ; (5, "IV")  (* IV, 45-48 *)
  ; (6, "PARTIAL_IV")  (* PartialIV, 51-54 *)
  ; (7, "COUNTER_SIGN")  (* CounterSignature, 57-60 *)
  ; (9, "COUNTER_SIGN0")  (* CounterSignature0, 63-66 *)
  ; (10, "KID_CONTEXT")  (* KIDContext, 69-72 *)
  ; (32, "X5_BAG")  (* X5bag, 75-78 *)
  ; (33, "X5_CHAIN")  (* X5chain, 81-84 *)
  ; (34, "X5_T")  (* X5t, 87-90 *)
  ; (35, "X5_U")  (* X5u, 93-96 *)
  ; (-1, "EPHEMERAL_KEY")  (* EphemeralKey, 99-102 *)
  ; (-2, "STATIC_KEY")  (* StaticKey, 105-108 *)
  ; (-3, "STATIC_KEY_ID")  (* StaticKeyID, 111-114 *)
  ; (-20, "SALT")  (* Salt, 117-120 *)
  ; (-21, "PARTY_U_ID")  (* PartyUID, 123-126 *)
  ; (-22, "PARTY_U_NONCE")  (* PartyUNonce, 129-132 *)
  ; (-23, "PARTY_U_OTHER")  (* PartyUOther, 135-138 *)
  ; (-24, "PARTY_V_ID")  (* PartyVID, 141-144 *)
  ; (-25, "PARTY_V_NONCE")  (* PartyVNonce, 147-150 *)
  ; (-26, "PARTY_V_OTHER")  (* PartyVOther, 153-156 *)
  ]%Z%string.

(** Classes registered with [CoseAlgorithm.register_attribute()], pycose/algorithms.py, in
    registration order: identifier, fullname. *)
Definition alg_table : list (Z * string) :=
  [ (-65535, "RS1")  (* RsaPkcs1Sha1, 348-364 *)
  ; (-259, "RS512")  (* RsaPkcs1Sha512, 367-383 *)
  ; (-258, "RS384")  (* RsaPkcs1Sha384, 386-401 *)
  ; (-257, "RS256")  (* RsaPkcs1Sha256, 404-420 *)
  ; (-45, "SHAKE-256")  (* Shake256, 423-436 *)
  ; (-44, "SHA-512")  (* Sha512, 439-452 *)
  ; (-43, "SHA-384")  (* Sha384, 455-469 *)
  ; (-42, "RSAES_OAEP_SHA_512")  (* RsaesOaepSha512, 472-479 *)
  ; (-41, "RSAES_OAEP_SHA_256")  (* RsaesOaepSha256, 482-489 *)
  ; (-40, "RSAES_OAEP_SHA_1")  (* RsaesOaepSha1, 492-499 *)
  ; (-39, "PS512")  (* Ps512, 502-509 *)
  ; (-38, "PS384")  (* Ps384, 512-519 *)
  ; (-37, "PS256")  (* Ps256, 522-529 *)
  ; (-36, "ES512")  (* Es512, 532-555 *)
  ; (-35, "ES384")  (* Es384, 558-580 *)
  ; (-34, "ECDH_SS_A256KW")  (* EcdhSsA256KW, 583-610 *)
  ; (-33, "ECDH_SS_A192KW")  (* EcdhSsA192KW, 613-640 *)
  ; (-32, "ECDH_SS_A128KW")  (* EcdhSsA128KW, 643-670 *)
  ; (-31, "ECDH_ES_A256KW")  (* EcdhEsA256KW, 673-700 *)
  ; (-30, "ECDH_ES_A192KW")  (* EcdhEsA192KW, 703-730 *)
  ; (-29, "ECDH_ES_A128KW")  (* EcdhEsA128KW, 733-760 *)
  ; (-28, "ECDH_SS_HKDF_512")  (* EcdhSsHKDF512, 763-785 *)
  ; (-27, "ECDH_SS_HKDF_256")  (* EcdhSsHKDF256, 788-810 *)
  ; (-26, "ECDH_ES_HKDF_512")  (* EcdhEsHKDF512, 813-835 *)
  ; (-25, "ECDH_ES_HKDF_256")  (* EcdhEsHKDF256, 838-860 *)
  ; (-18, "SHAKE-128")  (* Shake128, 863-876 *)
  ; (-17, "SHA-512/256")  (* Sha512Trunc256, 879-893 *)
  ; (-16, "SHA-256")  (* Sha256, 896-909 *)
  ; (-15, "SHA-256/64")  (* Sha256Trunc64, 912-926 *)
  ; (-14, "SHA-1")  (* Sha1, 929-942 *)
  ; (-13, "DIRECT_HKDF_AES_256")  (* DirectHKDFAES256, 945-957 *)
  ; (-12, "DIRECT_HKDF_AES_128")  (* DirectHKDFAES128, 960-971 *)
  ; (-11, "DIRECT_HKDF_SHA_512")  (* DirecHKDFSHA512, 974-986 *)
  ; (-10, "DIRECT_HKDF_SHA_256")  (* DirectHKDFSHA256, 989-1001 *)
  ; (-8, "EDDSA")  (* EdDSA, 1004-1042 *)
  ; (-7, "ES256")  (* Es256, 1045-1065 *)
  ; (-6, "DIRECT")  (* Direct, 1068-1080 *)
  ; (-5, "A256KW")  (* A256KW, 1083-1099 *)
  ; (-4, "A192KW")  (* A192KW, 1102-1118 *)
  ; (-3, "A128KW")  (* A128KW, 1121-1137 *)
  ; (1, "A128GCM")  (* A128GCM, 1140-1156 *)
  ; (2, "A192GCM")  (* A192GCM, 1159-1175 *)
  ; (3, "A256GCM")  (* A256GCM, 1178-1194 *)
  ; (4, "HMAC_256_64")  (* HMAC25664, 1197-1208 *)
  ; (5, "HMAC_256")  (* HMAC256, 1211-1222 *)
  ; (6, "HMAC_384")  (* HMAC384, 1225-1236 *)
  ; (7, "HMAC_512")  (* HMAC512, 1239-1250 *)
  ; (10, "AES_CCM_16_64_128")  (* AESCCM1664128, 1253-1264 *)
  ; (11, "AES_CCM_16_64_256")  (* AESCCM1664256, 1267-1278 *)
  ; (12, "AES_CCM_64_64_128")  (* AESCCM6464128, 1281-1292 *)
  ; (13, "AES_CCM_64_64_256")  (* AESCCM6464256, 1295-1306 *)
  ; (14, "AES_MAC_128_64")  (* AESMAC12864, 1309-1320 *)
  ; (15, "AES_MAC_256_64")  (* AESMAC25664, 1323-1334 *)
  ; (25, "AES_MAC_128_128")  (* AESMAC128128, 1337-1348 *)
  ; (26, "AES_MAC_256_128")  (* AESMAC256128, 1351-1362 *)
  ; (30, "AES_CCM_16_128_128")  (* AESCCM16128128, 1365-1377 *)
  ; (31, "AES_CCM_16_128_256")  (* AESCCM16128256, 1380-1391 *)
  ; (32, "AES_CCM_64_128_128")  (* AESCCM64128128, 1394-1405 *)
  ; (33, "AES_CCM_64_128_256")  (* AESCCM64128256, 1408-1419 *)
  ]%Z%string.

(** Classes registered with [KeyParam.register_attribute()], pycose/keys/keyparam.py, in
    registration order: identifier, fullname. *)
Definition kp_table : list (Z * string) :=
  [ (1, "KTY")  (* KpKty, 24-27 *)
  ; (2, "KID")  (* KpKid, 30-33 *)
  ; (3, "ALG")  (* KpAlg, 36-39 *)
  ; (4, "KEY_OPS")  (* KpKeyOps, 42-45 *)
  ; (5, "BASE_IV")  (* KpBaseIV, 48-51 *)
  ]%Z%string.

(** Classes registered with [EC2KeyParam.register_attribute()], pycose/keys/keyparam.py, in
    registration order: identifier, fullname. *)
Definition ec2_table : list (Z * string) :=
  [ (-1, "CURVE")  (* EC2KpCurve, 67-70 *)
  ; (-2, "X")  (* EC2KpX, 73-76 *)
  ; (-3, "Y")  (* EC2KpY, 79-82 *)
  ; (-4, "D")  (* EC2KpD, 85-88 *)
  ]%Z%string.

(** Classes registered with [OKPKeyParam.register_attribute()], pycose/keys/keyparam.py, in
    registration order: identifier, fullname. *)
Definition okp_table : list (Z * string) :=
  [ (-1, "CURVE")  (* OKPKpCurve, 104-107 *)
  ; (-4, "D")  (* OKPKpD, 110-113 *)
  ; (-2, "X")  (* OKPKpX, 116-119 *)
  ]%Z%string.

(** Classes registered with [RSAKeyParam.register_attribute()], pycose/keys/keyparam.py, in
    registration order: identifier, fullname. *)
Definition rsa_table : list (Z * string) :=
  [ (-1, "N")  (* RSAKpN, 135-138 *)
  ; (-2, "E")  (* RSAKpE, 141-144 *)
  ; (-3, "D")  (* RSAKpD, 147-150 *)
  ; (-4, "P")  (* RSAKpP, 153-156 *)
  ; (-5, "Q")  (* RSAKpQ, 159-162 *)
  ; (-6, "DP")  (* RSAKpDP, 165-168 *)
  ; (-7, "DQ")  (* RSAKpDQ, 171-174 *)
  ; (-8, "QINV")  (* RSAKpQInv, 177-180 *)
  ; (-9, "OTHER")  (* RSAKpOther, 183-186 *)
  ; (-10, "R_I")  (* RSAKpRi, 189-192 *)
  ; (-11, "D_I")  (* RSAKpDi, 195-198 *)
  ; (-12, "T_I")  (* RSAKpTi, 201-204 *)
  ]%Z%string.

(** Classes registered with [SymmetricKeyParam.register_attribute()], pycose/keys/keyparam.py, in
    registration order: identifier, fullname. *)
Definition sym_table : list (Z * string) :=
  [ (-1, "K")  (* SymKpK, 220-223 *)
  ]%Z%string.

(** Classes registered with [KTY.register_attribute()], pycose/keys/keytype.py, in
    registration order: identifier, fullname. *)
Definition kty_table : list (Z * string) :=
  [ (0, "RESERVED")  (* KtyReserved, 15-18 *)
  ; (1, "OKP")  (* KtyOKP, 21-24 *)
  ; (2, "EC2")  (* KtyEC2, 27-30 *)
  ; (3, "RSA")  (* KtyRSA, 33-36 *)
  ; (4, "SYMMETRIC")  (* KtySymmetric, 39-42 *)
  ]%Z%string.

(** Classes registered with [KeyOps.register_attribute()], pycose/keys/keyops.py, in
    registration order: identifier, fullname. *)
Definition ops_table : list (Z * string) :=
  [ (1, "SIGN")  (* SignOp, 15-18 *)
  ; (2, "VERIFY")  (* VerifyOp, 21-24 *)
  ; (3, "ENCRYPT")  (* EncryptOp, 27-30 *)
  ; (4, "DECRYPT")  (* DecryptOp, 33-36 *)
  ; (5, "WRAP")  (* WrapOp, 39-42 *)
  ; (6, "UNWRAP")  (* UnwrapOp, 45-48 *)
  ; (7, "DERIVE_KEY")  (* DeriveKeyOp, 51-54 *)
  ; (8, "DERIVE_BITS")  (* DeriveBitsOp, 57-60 *)
  ; (9, "MAC_CREATE")  (* MacCreateOp, 63-66 *)
  ; (10, "MAC_VERIFY")  (* MacVerifyOp, 69-72 *)
  ]%Z%string.

(** Classes registered with [CoseCurve.register_attribute()], pycose/keys/curves.py, in
    registration order: identifier, fullname. *)
Definition crv_table : list (Z * string) :=
  [ (0, "RESERVED")  (* Reserved, 39-60 *)
  ; (1, "P_256")  (* P256, 63-84 *)
  ; (2, "P_384")  (* P384, 87-108 *)
  ; (3, "P_521")  (* P521, 111-132 *)
  ; (4, "X25519")  (* X25519, 135-156 *)
  ; (5, "X448")  (* X448, 159-180 *)
  ; (6, "ED25519")  (* Ed25519, 183-204 *)
  ; (7, "ED448")  (* Ed448, 207-228 *)
  ; (8, "SECP256K1")  (* SECP256K1, 231-252 *)
  ]%Z%string.

(** Header classes that exist but are not registered, pycose/headers.py:160-168. *)
Definition unregistered_hdr_table : list (Z * string) :=
  [ (-998, "SUPP_PUB_OTHER")   (* SuppPubOther, 160-162 *)
  ; (-999, "SUPP_PRIV_OTHER")  (* SuppPrivOther, 166-168 *)
  ]%Z%string.

(** The classes a base class registers itself. The [register_attribute] decorators of
    algorithms.py, headers.py and keys/*.py, which run utils.py:20-26. *)
Definition own_table (f : fam) : list (Z * string) :=
  match f with
  | FHdr => hdr_table | FAlg => alg_table | FKP => kp_table | FEC2 => ec2_table
  | FOKP => okp_table | FRSA => rsa_table | FSym => sym_table | FKty => kty_table
  | FOps => ops_table | FCrv => crv_table
  end.

(** [get_registered_classes()] as a list: algorithms.py:41-43, headers.py:10-12; the key
    families start from a copy of KeyParam (keyparam.py:58-60,95-97,126-128,211-213). *)
Definition classes_of (f : fam) (t : list (Z * string)) : list (cls * bytes) :=
  map (fun e => (Cls f (fst e), bs (snd e))) t.

(** Everything in the registry of a base class. The key-type specific parameter
    registries start as a copy of the common one: keyparam.py:60,97,128,213
    ([_registered_algorithms.update(KeyParam.get_registered_classes())]). *)
Definition registered (f : fam) : list (cls * bytes) :=
  match f with
  | FEC2 | FOKP | FRSA | FSym => classes_of FKP kp_table ++ classes_of f (own_table f)
  | _ => classes_of f (own_table f)
  end.

(** [register_attribute], pycose/utils.py:19-27: two entries per class. *)
Definition register (d : dict) (e : cls * bytes) : dict :=
  dset (dset d (VInt (c_id (fst e))) (VClass (fst e)))
       (VStr (upper (snd e))) (VClass (fst e)).

(** [cls.get_registered_classes()]. algorithms.py:41-43, headers.py:10-12,
    keyparam.py:19-21,62-64,99-101,130-132,215-217, as filled by utils.py:22-23. *)
Definition registry (f : fam) : dict := fold_left register (registered f) [].

(** [cls.fullname] of a class (empty for classes that do not exist). [fullname],
    utils.py:50-53, read at cosebase.py:158. *)
Definition cls_fullname (c : cls) : bytes :=
  match find (fun e => Z.eqb (fst e) (c_id c))
             (own_table (c_fam c) ++
              match c_fam c with FHdr => unregistered_hdr_table | _ => [] end) with
  | Some e => bs (snd e)
  | None => []
  end.

(** ** Lookup: [_CoseAttribute.from_id], pycose/utils.py:30-44.

    The list comprehension at line 35 calls [from_id] with its default
    [allow_unknown_attributes=False]. A class has the attribute [identifier], an
    int, which is looked up in the registry (so classes of other families with the
    same id are accepted too). *)
Fixpoint from_id (f : fam) (allow : bool) (v : pyval) {struct v} : result pyval :=
  let unknown := if allow then Ok v else Err CoseException in
  match v with
  | VInt _ | VBool _ =>
    match dget (registry f) v with Some c => Ok c | None => unknown end
  | VStr u =>
    match dget (registry f) (VStr (upper u)) with Some c => Ok c | None => unknown end
  | VList l => l' <- mapM (from_id f false) l ;; Ok (VList l')
  | VClass c =>
    match dget (registry f) (VInt (c_id c)) with Some c' => Ok c' | None => unknown end
  | _ => unknown
  end.

(** ** Named attributes used by the code *)

(** A header class of headers.py:15-168 by its identifier. *)
Definition hdr (z : Z) : pyval := VClass (Cls FHdr z).
Definition Algorithm := hdr 1.        (* headers.py:22 *)
Definition Critical := hdr 2.         (* headers.py:28 *)
Definition ContentType := hdr 3.      (* headers.py:34 *)
Definition KID := hdr 4.              (* headers.py:40 *)
Definition IV := hdr 5.               (* headers.py:46 *)
Definition PartialIV := hdr 6.        (* headers.py:52 *)
Definition CounterSignature0 := hdr 9. (* headers.py:64 *)
Definition KIDContext := hdr 10.      (* headers.py:70 *)
Definition EphemeralKey := hdr (-1).  (* headers.py:100 *)
Definition StaticKey := hdr (-2).     (* headers.py:106 *)
Definition PartyUID := hdr (-21).     (* headers.py:124 *)
Definition PartyUNonce := hdr (-22).  (* headers.py:130 *)
Definition PartyUOther := hdr (-23).  (* headers.py:136 *)
Definition PartyVID := hdr (-24).     (* headers.py:142 *)
Definition PartyVNonce := hdr (-25).  (* headers.py:148 *)
Definition PartyVOther := hdr (-26).  (* headers.py:154 *)
Definition SuppPubOther := hdr (-998).   (* headers.py:160 *)
Definition SuppPrivOther := hdr (-999).  (* headers.py:166 *)

Definition KpKty := Cls FKP 1.          (* keyparam.py:24-27 *)
Definition KpKid := Cls FKP 2.          (* keyparam.py:30-33 *)
Definition KpAlg := Cls FKP 3.          (* keyparam.py:36-39 *)
Definition KpKeyOps := Cls FKP 4.       (* keyparam.py:42-45 *)
Definition KpBaseIV := Cls FKP 5.       (* keyparam.py:48-51 *)
Definition EC2KpCurve := Cls FEC2 (-1). (* keyparam.py:67-70 *)
Definition EC2KpX := Cls FEC2 (-2).     (* keyparam.py:73-76 *)
Definition EC2KpY := Cls FEC2 (-3).     (* keyparam.py:79-82 *)
Definition EC2KpD := Cls FEC2 (-4).     (* keyparam.py:85-88 *)
Definition OKPKpCurve := Cls FOKP (-1). (* keyparam.py:104-107 *)
Definition OKPKpX := Cls FOKP (-2).     (* keyparam.py:116-119 *)
Definition OKPKpD := Cls FOKP (-4).     (* keyparam.py:110-113 *)
Definition RSAKpN := Cls FRSA (-1).     (* keyparam.py:135-138 *)
Definition RSAKpE := Cls FRSA (-2).     (* keyparam.py:141-144 *)
Definition RSAKpD := Cls FRSA (-3).     (* keyparam.py:147-150 *)
Definition RSAKpP := Cls FRSA (-4).     (* keyparam.py:153-156 *)
Definition RSAKpQ := Cls FRSA (-5).     (* keyparam.py:159-162 *)
Definition RSAKpDP := Cls FRSA (-6).    (* keyparam.py:165-168 *)
Definition RSAKpDQ := Cls FRSA (-7).    (* keyparam.py:171-174 *)
Definition RSAKpQInv := Cls FRSA (-8).  (* keyparam.py:177-180 *)
Definition RSAKpOther := Cls FRSA (-9). (* keyparam.py:183-186 *)
Definition RSAKpRi := Cls FRSA (-10).   (* keyparam.py:189-192 *)
Definition RSAKpDi := Cls FRSA (-11).   (* keyparam.py:195-198 *)
Definition RSAKpTi := Cls FRSA (-12).   (* keyparam.py:201-204 *)
Definition SymKpK := Cls FSym (-1).     (* keyparam.py:220-223 *)

Definition KtyOKP := VClass (Cls FKty 1).        (* keytype.py *)
Definition KtyEC2 := VClass (Cls FKty 2).
Definition KtyRSA := VClass (Cls FKty 3).
Definition KtySymmetric := VClass (Cls FKty 4).

Definition SignOp := VClass (Cls FOps 1).        (* keyops.py *)
Definition VerifyOp := VClass (Cls FOps 2).
Definition EncryptOp := VClass (Cls FOps 3).
Definition DecryptOp := VClass (Cls FOps 4).
Definition WrapOp := VClass (Cls FOps 5).
Definition UnwrapOp := VClass (Cls FOps 6).
Definition DeriveKeyOp := VClass (Cls FOps 7).
Definition DeriveBitsOp := VClass (Cls FOps 8).
Definition MacCreateOp := VClass (Cls FOps 9).
Definition MacVerifyOp := VClass (Cls FOps 10).

(** ** Curves, pycose/keys/curves.py:37-256 *)

(** [key_type] of a registered curve (None for Reserved).
    curves.py:59,83,107,131,155,179,203,227,251. *)
Definition curve_key_type (z : Z) : pyval :=
  if existsb (Z.eqb z) [1; 2; 3; 8]%Z then KtyEC2
  else if existsb (Z.eqb z) [4; 5; 6; 7]%Z then KtyOKP
  else VNone.

(** [size] of a registered curve. curves.py:60,84,108,132,156,180,204,228,252. *)
Definition curve_size (z : Z) : nat :=
  match find (fun e => Z.eqb (fst e) z)
             [(1%Z, 32); (2%Z, 48); (3%Z, 66); (4%Z, 32); (5%Z, 57); (6%Z, 32); (7%Z, 57); (8%Z, 32)] with
  | Some e => snd e
  | None => 0
  end.
