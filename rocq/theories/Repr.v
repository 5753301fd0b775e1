(** Textual representations: [__repr__] of keys (pycose/keys/*.py) and messages
    (pycose/messages/*.py).

    A text is represented by its ingredients: the dictionaries that are formatted. Where
    the code puts the text [f'{v[:5]} ... ({len(v)} B)'] (pycose/utils.py:80-81) into such a
    dictionary, the model puts [VTuple [v[:5]; len(v)]]. *)
From Coq Require Import NArith ZArith Bool String.
From Coq Require Import Init.Byte List.
From Verif Require Import Bytes Value Cbor Registry Crypto Keys Algorithms Headers Messages Recipients.
Import ListNotations.
Local Open Scope result_scope.

(** [c.__name__] of the attribute classes: pycose/headers.py, algorithms.py, keys/keyparam.py,
    keytype.py, keyops.py, curves.py; the lines are in Registry.v. *)
Definition name_table (f : fam) : list (Z * string) :=
  match f with
  | FHdr =>
    [(0, "Reserved"); (1, "Algorithm"); (2, "Critical"); (3, "ContentType"); (4, "KID");
     (5, "IV"); (6, "PartialIV"); (7, "CounterSignature"); (9, "CounterSignature0");
     (10, "KIDContext"); (32, "X5bag"); (33, "X5chain"); (34, "X5t"); (35, "X5u");
     (-1, "EphemeralKey"); (-2, "StaticKey"); (-3, "StaticKeyID"); (-20, "Salt");
     (-21, "PartyUID"); (-22, "PartyUNonce"); (-23, "PartyUOther"); (-24, "PartyVID");
     (-25, "PartyVNonce"); (-26, "PartyVOther"); (-998, "SuppPubOther"); (-999, "SuppPrivOther")]
  | FAlg =>
    [(-65535, "RsaPkcs1Sha1"); (-259, "RsaPkcs1Sha512"); (-258, "RsaPkcs1Sha384");
     (-257, "RsaPkcs1Sha256"); (-45, "Shake256"); (-44, "Sha512"); (-43, "Sha384");
     (-42, "RsaesOaepSha512"); (-41, "RsaesOaepSha256"); (-40, "RsaesOaepSha1"); (-39, "Ps512");
     (-38, "Ps384"); (-37, "Ps256"); (-36, "Es512"); (-35, "Es384"); (-34, "EcdhSsA256KW");
     (-33, "EcdhSsA192KW"); (-32, "EcdhSsA128KW"); (-31, "EcdhEsA256KW"); (-30, "EcdhEsA192KW");
     (-29, "EcdhEsA128KW"); (-28, "EcdhSsHKDF512"); (-27, "EcdhSsHKDF256");
     (-26, "EcdhEsHKDF512"); (-25, "EcdhEsHKDF256"); (-18, "Shake128"); (-17, "Sha512Trunc256");
     (-16, "Sha256"); (-15, "Sha256Trunc64"); (-14, "Sha1"); (-13, "DirectHKDFAES256");
     (-12, "DirectHKDFAES128"); (-11, "DirecHKDFSHA512"); (-10, "DirectHKDFSHA256");
     (-8, "EdDSA"); (-7, "Es256"); (-6, "Direct"); (-5, "A256KW"); (-4, "A192KW"); (-3, "A128KW");
     (1, "A128GCM"); (2, "A192GCM"); (3, "A256GCM"); (4, "HMAC25664"); (5, "HMAC256");
     (6, "HMAC384"); (7, "HMAC512"); (10, "AESCCM1664128"); (11, "AESCCM1664256");
     (12, "AESCCM6464128"); (13, "AESCCM6464256"); (14, "AESMAC12864"); (15, "AESMAC25664");
     (25, "AESMAC128128"); (26, "AESMAC256128"); (30, "AESCCM16128128"); (31, "AESCCM16128256");
     (32, "AESCCM64128128"); (33, "AESCCM64128256")]
  | FKP =>
    [(1, "KpKty"); (2, "KpKid"); (3, "KpAlg"); (4, "KpKeyOps"); (5, "KpBaseIV")]
  | FEC2 =>
    [(-1, "EC2KpCurve"); (-2, "EC2KpX"); (-3, "EC2KpY"); (-4, "EC2KpD")]
  | FOKP =>
    [(-1, "OKPKpCurve"); (-4, "OKPKpD"); (-2, "OKPKpX")]
  | FRSA =>
    [(-1, "RSAKpN"); (-2, "RSAKpE"); (-3, "RSAKpD"); (-4, "RSAKpP"); (-5, "RSAKpQ");
     (-6, "RSAKpDP"); (-7, "RSAKpDQ"); (-8, "RSAKpQInv"); (-9, "RSAKpOther"); (-10, "RSAKpRi");
     (-11, "RSAKpDi"); (-12, "RSAKpTi")]
  | FSym =>
    [(-1, "SymKpK")]
  | FKty =>
    [(0, "KtyReserved"); (1, "KtyOKP"); (2, "KtyEC2"); (3, "KtyRSA"); (4, "KtySymmetric")]
  | FOps =>
    [(1, "SignOp"); (2, "VerifyOp"); (3, "EncryptOp"); (4, "DecryptOp"); (5, "WrapOp");
     (6, "UnwrapOp"); (7, "DeriveKeyOp"); (8, "DeriveBitsOp"); (9, "MacCreateOp");
     (10, "MacVerifyOp")]
  | FCrv =>
    [(0, "Reserved"); (1, "P256"); (2, "P384"); (3, "P521"); (4, "X25519"); (5, "X448");
     (6, "Ed25519"); (7, "Ed448"); (8, "SECP256K1")]
  end%Z%string.

(** [hasattr(v, '__name__')] and its value, cosebase.py:176-180, cosekey.py:307-308. *)
Definition py_name (c : cls) : bytes :=
  match find (fun e => Z.eqb (fst e) (c_id c)) (name_table (c_fam c)) with
  | Some e => bs (snd e)
  | None => []
  end.

(** [v.__name__ if hasattr(v, '__name__') else v], cosebase.py:176-180, cosekey.py:307-308. *)
Definition named (v : pyval) : pyval :=
  match v with VClass c => VStr (py_name c) | _ => v end.

(** The first [n] characters of a [str]. utils.py:81. *)
Fixpoint str_take (n : nat) (u : bytes) : bytes :=
  match u with
  | [] => []
  | b :: r =>
    if in_range 128 191 b then b :: str_take n r
    else match n with O => [] | S n' => b :: str_take n' r end
  end.

(** [v[:5]]; a dict or a key object is indexed with a slice and raises (simplification:
    TypeError; Python 3.12 and later raise KeyError for a dict). utils.py:81. *)
Definition first5 (v : pyval) : result pyval :=
  match v with
  | VBytes b => Ok (VBytes (firstn 5 b))
  | VStr u => Ok (VStr (str_take 5 u))
  | VList l => Ok (VList (firstn 5 l))
  | VTuple l => Ok (VTuple (firstn 5 l))
  | _ => Err TypeError
  end.

(** [utils.truncate], utils.py:80-81. *)
Definition truncate (v : pyval) : result pyval :=
  p <- first5 v ;; n <- py_len v ;; Ok (VTuple [p; VInt (Z.of_nat n)]).

(** [if name in d and len(d[name]) > 0: d[name] = truncate(d[name])].
    cosebase.py:182-192, cosekey.py:315-316, symmetric.py:132-133, okp.py:259-264. *)
Definition shorten (d : dict) (name : string) : result dict :=
  match dget d (VStr (bs name)) with
  | None => Ok d
  | Some v =>
    n <- py_len v ;;
    if Nat.eqb n 0 then Ok d else t <- truncate v ;; Ok (dset d (VStr (bs name)) t)
  end.

(** The [if] statements one after another: cosebase.py:182-192, okp.py:259-264,
    ec2.py:298-303. *)
Fixpoint shorten_all (d : dict) (names : list string) : result dict :=
  match names with
  | [] => Ok d
  | n :: r => d' <- shorten d n ;; shorten_all d' r
  end.

(** [{named(k): named(d[k]) for k in d}]. cosebase.py:176-180, cosekey.py:306-309. *)
Definition named_dict (d : dict) : dict :=
  dict_of_pairs (map (fun e => (named (fst e), named (snd e))) d).

(** ** Keys *)

(** [item.identifier if hasattr(item, 'identifier') else 65536], cosekey.py:309. *)
Definition rank (k : pyval) : Z := match identifier_of k with Some i => i | None => 65536 end.

(** [sorted(self.store, key=...)]: a stable sort of the entries. cosekey.py:309. *)
Fixpoint insert_entry (e : pyval * pyval) (l : dict) : dict :=
  match l with
  | [] => [e]
  | x :: r => if Z.leb (rank (fst e)) (rank (fst x)) then e :: l else x :: insert_entry e r
  end.

(** [sorted(self.store, key=...)], cosekey.py:309. *)
Definition sort_entries (d : dict) : dict := fold_right insert_entry [] d.

(** [_key_repr], cosekey.py:305-318. *)
Definition key_names (s : dict) : result dict :=
  let names := named_dict (sort_entries s) in
  names <- (match dget names (VStr (bs "KpKeyOps")) with
            | None => Ok names
            | Some v => l <- py_iter v ;; Ok (dset names (VStr (bs "KpKeyOps")) (VList (map named l)))
            end) ;;
  shorten names "BASE_IV".

(** The entries the classes shorten: symmetric.py:132-133, okp.py:259-264, ec2.py:298-303;
    rsa.py:317-319 shortens none. *)
Definition shortened (c : kclass) : list string :=
  match c with
  | KSym => ["SymKpK"]
  | KOKP => ["OKPKpD"; "OKPKpX"; "OKPKpY"]
  | KEC2 => ["EC2KpD"; "EC2KpX"; "EC2KpY"]
  | KRSA => []
  end%string.

(** The dictionary in [repr(key)]: symmetric.py:129-137, okp.py:256-267, ec2.py:295-306,
    rsa.py:317-319. *)
Definition key_repr (c : kclass) (s : dict) : result dict :=
  d <- key_names s ;; shorten_all d (shortened c).

(** ** Any value *)

(** Whether [repr(v)] raises. Containers format their elements. Simplifications: the values
    of a key that end up hidden (cut off, or under a name used twice) are formatted as well;
    newer Python versions refuse to print integers of more than 4300 digits, which is not
    modelled. The f-strings of sign1message.py:93-94, encmessage.py:144,
    recipient.py:244. *)
Fixpoint shows (v : pyval) : result unit :=
  let fix all (l : list pyval) : result unit :=
    match l with [] => Ok tt | x :: r => _ <- shows x ;; all r end in
  let fix entries (d : list (pyval * pyval)) : result unit :=
    match d with [] => Ok tt | (a, b) :: r => _ <- shows a ;; _ <- shows b ;; entries r end in
  match v with
  | VList l | VTuple l => all l
  | VDict d => entries d
  | VTag _ x => shows x
  | VKey c s _ => _ <- key_repr c s ;; entries s
  | _ => Ok tt
  end.

(** ** Messages *)

(** One bucket of [_hdr_repr], cosebase.py:175-194. *)
Definition hdr_repr (d : dict) : result dict :=
  d <- shorten (named_dict d) "IV" ;; shorten d "PARTIAL_IV".

(** What [repr] of a message formats: the buckets, the payload and further fields.
    cosebase.py:175-194; sign1message.py:90-94, mac0message.py:53-57,
    enc0message.py:71-74. *)
Definition headers_repr (c : core) : result unit :=
  p <- hdr_repr (phdr c) ;; u <- hdr_repr (uhdr c) ;;
  _ <- shows (VDict p) ;; shows (VDict u).

(** [{utils.truncate(v)}] in an f-string: utils.py:80-81, sign1message.py:93-94. *)
Definition shows_truncated (v : pyval) : result unit := t <- truncate v ;; shows t.

(** The f-string of a message: sign1message.py:93-94, mac0message.py:56-57,
    enc0message.py:74. *)
Definition body_repr (c : core) : result unit :=
  _ <- headers_repr c ;; shows_truncated (vopt (payload c)).

(** [CoseSignature.__repr__], signer.py:75-76: the header maps as they are. *)
Definition signer_repr (s : core) : result unit :=
  _ <- shows (VDict (phdr s)) ;; _ <- shows (VDict (uhdr s)) ;; shows_truncated (vopt (payload s)).

Section All.
Context {A : Type}.
Variable f : A -> result unit.
(** [str(list)]: [repr] of every element (encmessage.py:142, recipient.py:244,
    signmessage.py:92). *)
Fixpoint each (l : list A) : result unit :=
  match l with [] => Ok tt | x :: r => _ <- f x ;; each r end.
End All.

(** [__repr__] of the four recipient classes, recipient.py:241-244,367-370,461-464,567-570. *)
Fixpoint rcpt_repr (r : rcpt) : result unit :=
  match r with
  | Rcpt _ _ c _ subs => _ <- body_repr c ;; each rcpt_repr subs
  end.

(** sign1message.py:90-94, signmessage.py:89-92, enc0message.py:71-74, mac0message.py:53-57,
    encmessage.py:140-144, macmessage.py:105-110. *)
Definition message_repr (m : message) : result unit :=
  match m with
  | MSign1 m => _ <- body_repr (s1_core m) ;; shows_truncated (s1_sig m)
  | MSign m => _ <- body_repr (sm_core m) ;; each signer_repr (sm_signers m)
  | MEnc0 c => body_repr c
  | MMac0 m => _ <- body_repr (m0_core m) ;; shows_truncated (m0_tag m)
  | MEnc m => _ <- body_repr (e_core m) ;; each rcpt_repr (e_rcpts m)
  | MMac m =>
    _ <- body_repr (mm_core m) ;; _ <- shows_truncated (mm_tag m) ;;
    match mm_rcpts m with Some l => each rcpt_repr l | None => Ok tt end
  end.
