(** Python values, exceptions, and insertion-ordered dictionaries. *)
From Coq Require Import NArith ZArith Bool.
From Coq Require Import Init.Byte List.
From Verif Require Import Bytes.
Import ListNotations.

(** ** Exceptions and results

    pycose/exceptions.py:1-26 defines the seven [Cose*] classes (unrelated
    subclasses of Exception); the others are Python or library exceptions the
    code can let escape. Messages are dropped. *)
Inductive exn :=
| CoseException
| CoseIllegalAlgorithm
| CoseUnsupportedCurve
| CoseIllegalKeyOps
| CoseIllegalKeyType
| CoseMalformedMessage
| CoseInvalidKey
| TypeError | ValueError | KeyError | IndexError | AttributeError
| NotImplementedError | AssertionError | NameError | OverflowError
| CBORDecodeEOF          (* cbor2: premature end of input; an EOFError *)
| CBORDecodeValueError   (* cbor2: malformed item; a ValueError *)
| CBOREncodeTypeError    (* cbor2: object cannot be serialised; a TypeError *)
| InvalidTag             (* cryptography: AEAD authentication failure *)
| InvalidUnwrap          (* cryptography: AES key unwrap failure *)
| CryptoError            (* any other exception of the crypto libraries *)
| FuelExhausted          (* model artefact: shown unreachable in CborProofs.v *).

(** [except ValueError] also catches subclasses. *)
(** Used at cosemessage.py:60, encmessage.py:32, macmessage.py:41. *)
Definition is_value_error (e : exn) : bool :=
  match e with ValueError | CBORDecodeValueError => true | _ => false end.

(** TypeError is raised e.g. at cosebase.py:43,46,58, cosemessage.py:74. *)
Definition is_type_error (e : exn) : bool :=
  match e with TypeError | CBOREncodeTypeError => true | _ => false end.

(** One of the exceptions of pycose/exceptions.py:1-26. *)
Definition is_cose_exception (e : exn) : bool :=
  match e with
  | CoseException | CoseIllegalAlgorithm | CoseUnsupportedCurve | CoseIllegalKeyOps
  | CoseIllegalKeyType | CoseMalformedMessage | CoseInvalidKey => true
  | _ => false
  end.

(** The outcome of a call: a value, or the exception it raised (the [raise] statements of
    exceptions.py:1-26 and of Python itself). *)
Inductive result (A : Type) := Ok (a : A) | Err (e : exn).
Arguments Ok {A} a.
Arguments Err {A} e.

(** A statement followed by the rest of the function; an exception skips the rest (e.g.
    cosebase.py:27-59). *)
Definition bind {A B} (r : result A) (k : A -> result B) : result B :=
  match r with Ok a => k a | Err e => Err e end.

Declare Scope result_scope.
(** Notation for [bind]: one statement after another (e.g. cosebase.py:27-59). *)
Notation "x <- r ;; k" := (bind r (fun x => k))
  (at level 61, r at next level, right associativity) : result_scope.
(** Notation for [bind] that unpacks a pair, as in cosebase.py:22-25. *)
Notation "' p <- r ;; k" := (bind r (fun p => k))
  (at level 61, p pattern, r at next level, right associativity) : result_scope.

(** Whether a call returned instead of raising (e.g. cosemessage.py:54-61). *)
Definition is_ok {A} (r : result A) : bool := match r with Ok _ => true | Err _ => false end.

(** [[f(x) for x in l]], stopping at the first exception. *)
Section MapM.
Context {A B : Type}.
Variable f : A -> result B.

(** A list comprehension whose element expression may raise (utils.py:35,
    encmessage.py:30-31). *)
Fixpoint mapM (l : list A) : result (list B) :=
  match l with
  | [] => Ok []
  | x :: r => bind (f x) (fun y => bind (mapM r) (fun ys => Ok (y :: ys)))
  end.
End MapM.

(** ** Attribute classes

    The subclasses of [_CoseAttribute] (pycose/utils.py:7). A class is identified
    by its family (the base class whose registry it belongs to) and identifier. *)
Inductive fam :=
| FHdr    (* CoseHeaderAttribute, headers.py *)
| FAlg    (* CoseAlgorithm, algorithms.py *)
| FKP     (* KeyParam, keys/keyparam.py *)
| FEC2    (* EC2KeyParam *)
| FOKP    (* OKPKeyParam *)
| FRSA    (* RSAKeyParam *)
| FSym    (* SymmetricKeyParam *)
| FKty    (* KTY, keys/keytype.py *)
| FOps    (* KeyOps, keys/keyops.py *)
| FCrv.   (* CoseCurve, keys/curves.py *)

(** Base classes are compared by identity ([issubclass], cosebase.py:157, recipient.py:56).
    *)
Definition fam_eq_dec : forall a b : fam, {a = b} + {a <> b}.
Proof. decide equality. Defined.

(** An attribute class: its base class and its [identifier] (utils.py:45-48). *)
Record cls := Cls { c_fam : fam; c_id : Z }.

(** The four concrete COSE key classes (keys/symmetric.py:16, okp.py:21,
    ec2.py:19, rsa.py:22). *)
Inductive kclass := KSym | KOKP | KEC2 | KRSA.

(** ** Values

    The Python objects that flow through pycose. They come out of [cbor2.loads]
    (cosebase.py:35, cosemessage.py:55, cosekey.py:39) or are arguments of the
    constructors (cosebase.py:27). *)
Inductive pyval :=
| VNone
| VBool (b : bool)
| VInt (z : Z)
| VFloat (bits : N)            (* IEEE 754 binary64 bit pattern *)
| VSimple (n : N)              (* cbor2.CBORSimpleValue *)
| VUndef                       (* cbor2.undefined *)
| VBreak                       (* cbor2.break_marker *)
| VBytes (b : bytes)
| VStr (u : bytes)             (* str, as its UTF-8 encoding *)
| VList (l : list pyval)
| VTuple (l : list pyval)      (* arrays inside decoded map keys *)
| VDict (d : list (pyval * pyval))
| VTag (t : N) (v : pyval)     (* cbor2.CBORTag *)
| VOther (t : N) (v : pyval)   (* object cbor2 builds for a tag with its own decoder *)
| VClass (c : cls)             (* an attribute class object *)
| VKey (k : kclass) (store extra : list (pyval * pyval)).
  (* a CoseKey: its [store] dict and attributes set on the instance (RSA other/r_i/d_i/t_i) *)

(** A Python [dict] in insertion order: the header buckets (cosebase.py:53-54) and the store
    of a key (cosekey.py:182). *)
Definition dict := list (pyval * pyval).

(** Structural equality. [==] on the values compared at recipient.py:64,196,202,261,
    cosekey.py:195. *)
Fixpoint veqb (a b : pyval) {struct a} : bool :=
  let fix leqb (l m : list pyval) {struct l} : bool :=
    match l, m with
    | [], [] => true
    | x :: l', y :: m' => veqb x y && leqb l' m'
    | _, _ => false
    end in
  let fix deqb (l m : list (pyval * pyval)) {struct l} : bool :=
    match l, m with
    | [], [] => true
    | (k, x) :: l', (k', y) :: m' => veqb k k' && veqb x y && deqb l' m'
    | _, _ => false
    end in
  match a, b with
  | VNone, VNone => true
  | VBool x, VBool y => Bool.eqb x y
  | VInt x, VInt y => Z.eqb x y
  | VFloat x, VFloat y => N.eqb x y
  | VSimple x, VSimple y => N.eqb x y
  | VUndef, VUndef => true
  | VBreak, VBreak => true
  | VBytes x, VBytes y => bytes_eqb x y
  | VStr x, VStr y => bytes_eqb x y
  | VList l, VList m => leqb l m
  | VTuple l, VTuple m => leqb l m
  | VDict l, VDict m => deqb l m
  | VTag t x, VTag t' y => N.eqb t t' && veqb x y
  | VOther t x, VOther t' y => N.eqb t t' && veqb x y
  | VClass c, VClass c' =>
    (if fam_eq_dec (c_fam c) (c_fam c') then true else false) && Z.eqb (c_id c) (c_id c')
  | VKey k s e, VKey k' s' e' =>
    match k, k' with
    | KSym, KSym | KOKP, KOKP | KEC2, KEC2 | KRSA, KRSA => deqb s s' && deqb e e'
    | _, _ => false
    end
  | _, _ => false
  end.

(** ** Dictionary keys

    [==]/[hash] on dict keys: Python identifies [True] with [1], [False] with [0]
    and integral floats with integers, also inside tuples. [float_int] gives the
    integer an IEEE double is equal to, if any. Such keys reach the dicts of
    cosebase.py:164-173 and cosekey.py:182-187. *)
Definition float_int (bits : N) : option Z :=
  let sgn := N.testbit bits 63 in
  let ex := N.land (N.shiftr bits 52) 2047 in
  let m := N.land bits (N.ones 52) in
  let s (z : Z) := if sgn then Z.opp z else z in
  if N.eqb ex 2047 then None
  else if N.eqb ex 0 then (if N.eqb m 0 then Some 0%Z else None)
  else
    let sig := (2 ^ 52 + m)%N in
    if N.leb 1075 ex then Some (s (Z.of_N (N.shiftl sig (ex - 1075))))
    else if N.ltb ex 1023 then None
    else
      let sh := (1075 - ex)%N in
      if N.eqb (N.land sig (N.ones sh)) 0 then Some (s (Z.of_N (N.shiftr sig sh)))
      else None.

(** Representative of a key's equality class. Simplification: maps used as keys
    (cbor2 FrozenDict) compare by structure, so two such keys differing only in
    entry order are distinct here. Dicts with arbitrary received keys:
    cosebase.py:164-173, cosekey.py:61-77. *)
Fixpoint knorm (v : pyval) : pyval :=
  match v with
  | VBool b => VInt (if b then 1 else 0)
  | VFloat f => match float_int f with Some z => VInt z | None => VFloat f end
  | VTuple l => VTuple (map knorm l)
  | _ => v
  end.

(** Equality of dict keys ([hash] and [==]), as used by the lookups of cosebase.py:72-73 and
    cosekey.py:61-71. *)
Definition keyeq (a b : pyval) : bool := veqb (knorm a) (knorm b).

(** ** Dictionaries: association lists in insertion order *)

(** [d.get(k)] / [d[k]]. Used at cosebase.py:72-73, cosekey.py:63-67,209,230-275. *)
Fixpoint dget (d : dict) (k : pyval) : option pyval :=
  match d with
  | [] => None
  | (k', v) :: r => if keyeq k k' then Some v else dget r k
  end.

(** [k in d]. Used at cosekey.py:62-66,184,218, cosebase.py:154. *)
Definition dmem (d : dict) (k : pyval) : bool :=
  match dget d k with Some _ => true | None => false end.

(** [d[k] = v]: an existing key keeps its position (and its original key object). Used at
    cosebase.py:169-171, cosekey.py:212, utils.py:22-23. *)
Fixpoint dset (d : dict) (k v : pyval) : dict :=
  match d with
  | [] => [(k, v)]
  | (k', v') :: r => if keyeq k k' then (k', v) :: r else (k', v') :: dset r k v
  end.

(** [del d[k]] / [d.pop(k, None)] (the caller checks presence when absence raises). Used
    at cosekey.py:75-77,185,215, recipient.py:182, cosebase.py:155. *)
Fixpoint ddel (d : dict) (k : pyval) : dict :=
  match d with
  | [] => []
  | (k', v') :: r => if keyeq k k' then r else (k', v') :: ddel r k
  end.

(** [d.update(e)]. Used at cosebase.py:107,113, cosekey.py:187, ec2.py:37. *)
Definition dupdate (d e : dict) : dict :=
  fold_left (fun acc kv => dset acc (fst kv) (snd kv)) e d.

(** A [dict] literal or comprehension from pairs, later entries winning. Used at
    cosebase.py:176-180, cosekey.py:306-309, recipient.py:340. *)
Definition dict_of_pairs (l : list (pyval * pyval)) : dict := dupdate [] l.

(** [d.get(k, dflt)]. Used at cosekey.py:250,262,275, recipient.py:65,168-169. *)
Definition dget_or (d : dict) (k dflt : pyval) : pyval :=
  match dget d k with Some v => v | None => dflt end.

(** ** Small helpers on values *)

(** [hasattr(v, 'identifier')] and its value: attribute classes only. Used at
    utils.py:37, cosebase.py:160, cosekey.py:293. *)
Definition identifier_of (v : pyval) : option Z :=
  match v with VClass c => Some (c_id c) | _ => None end.

(** [isinstance(v, int)]: booleans are ints. Used at utils.py:30, headers.py:179,186-187. *)
Definition as_int (v : pyval) : option Z :=
  match v with
  | VInt z => Some z
  | VBool b => Some (if b then 1 else 0)%Z
  | _ => None
  end.

(** [type(v) is bytes] (cosebase.py:57, cosemessage.py:110,136, cosekey.py:254,279). *)
Definition is_bytes (v : pyval) : bool := match v with VBytes _ => true | _ => false end.
(** [v is None] (cosebase.py:75, recipient.py:71-73, encmessage.py:132). *)
Definition is_none (v : pyval) : bool := match v with VNone => true | _ => false end.

(** Number of code points of a [str] = number of non-continuation bytes. For [len(v)] at
    cosekey.py:184, rsa.py:146-156, okp.py:150. *)
Definition str_len (u : bytes) : nat :=
  length (filter (fun b => negb (in_range 128 191 b)) u).

(** [len(v)]. Used at cosekey.py:184,198, rsa.py:146-156, okp.py:150, utils.py:81. *)
Definition py_len (v : pyval) : result nat :=
  match v with
  | VBytes b => Ok (length b)
  | VStr u => Ok (str_len u)
  | VList l | VTuple l => Ok (length l)
  | VDict d => Ok (length d)
  | VKey _ s _ => Ok (length s)
  | _ => Err TypeError
  end.

(** Truth value of an object ([if v:], [not v]). Objects without [__len__] or
    [__bool__] are true. Used at ec2.py:143-163, rsa.py:198, sign1message.py:78. *)
Definition truthy (v : pyval) : bool :=
  match v with
  | VNone => false
  | VBool b => b
  | VInt z => negb (Z.eqb z 0)
  | VFloat f => match float_int f with Some z => negb (Z.eqb z 0) | None => true end
  | VUndef => false
  | VBytes b => negb (Nat.eqb (length b) 0)
  | VStr u => negb (Nat.eqb (length u) 0)
  | VList l | VTuple l => negb (Nat.eqb (length l) 0)
  | VDict d => negb (Nat.eqb (length d) 0)
  | VKey _ s _ => negb (Nat.eqb (length s) 0)
  | _ => true
  end.

(** Objects that cannot be used as a dict key or set element ([hash] raises). Such
    objects raise TypeError in the lookups of utils.py:37, recipient.py:72-74,257. *)
Fixpoint hashable (v : pyval) : bool :=
  match v with
  | VList _ | VDict _ | VKey _ _ _ => false
  | VTuple l => forallb hashable l
  | VTag _ v' => hashable v'
  | _ => true
  end.

(** The bytes of a [bytes] object, TypeError for others, as the primitives called in
    algorithms.py:58-341 do. *)
Definition as_bytes (v : pyval) : result bytes :=
  match v with VBytes b => Ok b | _ => Err TypeError end.

(** Optional byte string as a Python value. For [self.payload], which is bytes or None
    (cosebase.py:57-59, cosemessage.py:130-138). *)
Definition vopt (o : option bytes) : pyval :=
  match o with Some b => VBytes b | None => VNone end.
