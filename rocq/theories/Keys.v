(** COSE keys: pycose/keys/{cosekey,symmetric,okp,ec2,rsa}.py. *)
From Coq Require Import NArith ZArith Bool String.
From Coq Require Import Init.Byte List.
From Verif Require Import Bytes Value Cbor Registry Crypto.
Import ListNotations.
Local Open Scope result_scope.

(** A key object: its class, its [store] (cosekey.py:182) and the attributes that
    exist only on the Python instance (rsa.py:198-205 sets four of them). *)
Record key := Key { k_cls : kclass; k_store : dict; k_extra : dict }.

(** A key object as a Python value (a header may hold one, cosekey.py:321-322). *)
Definition kval (k : key) : pyval := VKey (k_cls k) (k_store k) (k_extra k).

(** [isinstance(v, CoseKey)], cosebase.py:152. *)
Definition as_key (v : pyval) : option key :=
  match v with VKey c s e => Some (Key c s e) | _ => None end.

(** Assignment to entries of [self.store], cosekey.py:182-187,212,215. *)
Definition with_store (k : key) (s : dict) : key := Key (k_cls k) s (k_extra k).
(** Assignment to an attribute outside [self.store], which any Python object allows
    (rsa.py:183-205, cosekey.py:25). *)
Definition with_extra (k : key) (e : dict) : key := Key (k_cls k) (k_store k) e.

(** The registry used by [_key_transform]: symmetric.py:40-43, okp.py:107-110,
    ec2.py:98-100, rsa.py:118-120. *)
Definition param_fam (c : kclass) : fam :=
  match c with KSym => FSym | KOKP => FOKP | KEC2 => FEC2 | KRSA => FRSA end.

(** [_key_transform], cosekey.py:295-297, ec2.py:98-100, okp.py:107-110, rsa.py:118-120,
    symmetric.py:40-43. *)
Definition key_transform (c : kclass) (allow : bool) (a : pyval) : result pyval :=
  from_id (param_fam c) allow a.

(** The key type each class insists on: symmetric.py:46,63; okp.py:128,145;
    ec2.py:116,133; rsa.py:137,178. *)
Definition kty_of (c : kclass) : pyval :=
  match c with KSym => KtySymmetric | KOKP => KtyOKP | KEC2 => KtyEC2 | KRSA => KtyRSA end.

(** ** Parsers of parameter values, keyparam.py:226-230, default utils.py:9-13.

    Simplification: a class of another family used as an (unknown) key parameter
    keeps its value, i.e. the parsers attached to header classes are not run here. *)
Definition parse_kp (kp v : pyval) : result pyval :=
  match kp with
  | VClass (Cls FKP 1) => from_id FKty false v
  | VClass (Cls FKP 4) => from_id FOps false v
  | VClass (Cls FKP 3) => from_id FAlg false v
  | VClass (Cls FOKP (-1)) => from_id FCrv false v
  | VClass (Cls FEC2 (-1)) => from_id FCrv false v
  | _ => Ok v
  end.

(** ** Construction *)

(** The loop over [optional_params] shared by the four constructors:
    symmetric.py:51-60, okp.py:133-142, ec2.py:121-130, rsa.py:166-175. *)
Fixpoint transform_params (c : kclass) (allow : bool) (opts acc : dict) : result dict :=
  match opts with
  | [] => Ok acc
  | (a, v) :: r =>
    kp <- from_id (param_fam c) allow a ;;
    v' <- parse_kp kp v ;;
    if hashable kp then transform_params c allow r (dset acc kp v') else Err TypeError
  end.

(** [optional_params.items()], after the [None] default (symmetric.py:48-51). *)
Definition opt_items (opt : pyval) : result dict :=
  match opt with
  | VNone => Ok []
  | VDict d => Ok d
  | VKey _ s _ => Ok s
  | _ => Err AttributeError
  end.

(** [CoseKey.__init__], cosekey.py:181-187. *)
Definition base_init (c : kclass) (d : dict) : result key :=
  match dget d (VClass KpKeyOps) with
  | Some ops =>
    n <- py_len ops ;;
    if Nat.eqb n 0 then Ok (Key c (ddel d (VClass KpKeyOps)) []) else Ok (Key c d [])
  | None => Ok (Key c d [])
  end.

(** The part of the constructors up to [super().__init__]: symmetric.py:46-66,
    okp.py:128-148, ec2.py:116-136, rsa.py:137,166-181. *)
Definition common_init (c : kclass) (opt : pyval) (allow : bool) : result key :=
  opts <- opt_items opt ;;
  d <- transform_params c allow opts [(VClass KpKty, kty_of c)] ;;
  if veqb (dget_or d (VClass KpKty) VNone) (kty_of c) then base_init c d
  else Err CoseIllegalKeyType.

(** [self.store[param] = v], e.g. cosekey.py:234,244,256,281. *)
Definition store_set (k : key) (c : cls) (v : pyval) : key :=
  with_store k (dset (k_store k) (VClass c) v).

(** Property setters that only check for [bytes]: okp.py:189-193,203-207,
    ec2.py:210-242, rsa.py:211-285, cosekey.py:252-256,277-281. *)
Definition set_bytes_param (c : cls) (v : pyval) (k : key) : result key :=
  match v with
  | VBytes _ => Ok (store_set k c v)
  | _ => Err TypeError
  end.

(** [SymmetricKey.k.setter], symmetric.py:87-93. *)
Definition set_k (v : pyval) (k : key) : result key :=
  match v with
  | VBytes b =>
    if existsb (Nat.eqb (length b)) [16; 24; 32] then Ok (store_set k SymKpK v)
    else Err CoseInvalidKey
  | _ => Err ValueError
  end.

(** [crv.setter], okp.py:173-179 and ec2.py:194-200. The parsed value is a curve
    class or a list; lists have no [key_type]. *)
Definition set_crv (c : cls) (kty : pyval) (v : pyval) (k : key) : result key :=
  crv <- from_id FCrv false v ;;
  match crv with
  | VClass cv =>
    if veqb (curve_key_type (c_id cv)) kty then Ok (store_set k c crv)
    else Err CoseUnsupportedCurve
  | _ => Err AttributeError
  end.

(** [SymmetricKey.__init__], symmetric.py:45-71. *)
Definition sym_init (kv opt : pyval) (allow : bool) : result key :=
  k <- common_init KSym opt allow ;;
  if veqb kv (VBytes []) then Err CoseInvalidKey else set_k kv k.

(** [if v != b'': self.p = v]. ec2.py:176-181, okp.py:157-160, rsa.py:186-205. *)
Definition set_unless_empty (c : cls) (v : pyval) (k : key) : result key :=
  if veqb v (VBytes []) then Ok k else set_bytes_param c v k.

(** [OKPKey.__init__], okp.py:112-160. *)
Definition okp_init (crv x d opt : pyval) (allow : bool) : result key :=
  k <- common_init KOKP opt allow ;;
  nx <- py_len x ;;
  none <- (if Nat.eqb nx 0 then nd <- py_len d ;; Ok (Nat.eqb nd 0) else Ok false) ;;
  if none : bool then Err CoseInvalidKey
  else if is_none crv then Err CoseInvalidKey
  else
    k <- set_crv OKPKpCurve KtyOKP crv k ;;
    k <- set_unless_empty OKPKpX x k ;;
    set_unless_empty OKPKpD d k.

Section WithCrypto.
Variable X : crypto.

(** [n.to_bytes(size, 'big')] with Python's OverflowError. ec2.py:80-87,154-161,173-174. *)
Definition to_bytes_checked (size : nat) (n : N) : result bytes :=
  if N.ltb n (256 ^ N.of_nat size) then Ok (to_be size n) else Err OverflowError.

(** The curve of a key whose [crv] has just been set, ec2.py:151,154. *)
Definition crv_id (k : key) : Z :=
  match dget (k_store k) (VClass EC2KpCurve) with
  | Some (VClass c) => c_id c
  | _ => 0%Z
  end.

(** ec2.py:149-161: coordinates from the private key. [int.from_bytes(d)] for a [d]
    that is not [bytes] raises TypeError (simplification: a list of small integers,
    which Python converts, is rejected a few lines later with the same exception). *)
Definition ec2_from_private (crv : Z) (d x y : pyval) : result (pyval * pyval) :=
  db <- as_bytes d ;;
  '(px, py) <- x_ec_pub X crv (of_be db) ;;
  bx <- to_bytes_checked (curve_size crv) px ;;
  x' <- (if truthy x then (if veqb x (VBytes bx) then Ok x else Err AssertionError)
         else Ok (VBytes bx)) ;;
  by_ <- to_bytes_checked (curve_size crv) py ;;
  y' <- (if truthy y then (if veqb y (VBytes by_) then Ok y else Err AssertionError)
         else Ok (VBytes by_)) ;;
  Ok (x', y').

(** ec2.py:163-174: a y coordinate from x. *)
Definition ec2_decompress (crv : Z) (x : pyval) : result pyval :=
  xb <- as_bytes x ;;
  '(px, py) <- x_ec_point X crv (x03 :: xb) ;;
  bx <- to_bytes_checked (curve_size crv) px ;;
  if veqb x (VBytes bx) then by_ <- to_bytes_checked (curve_size crv) py ;; Ok (VBytes by_)
  else Err AssertionError.

(** [EC2Key.__init__], ec2.py:102-181. *)
Definition ec2_init (crv x y d opt : pyval) (allow : bool) : result key :=
  k <- common_init KEC2 opt allow ;;
  if is_none crv then Err CoseInvalidKey
  else
    k <- set_crv EC2KpCurve KtyEC2 crv k ;;
    if negb (truthy x) && negb (truthy y) && negb (truthy d) then Err CoseInvalidKey
    else if negb (truthy d) && negb (truthy x) then Err CoseInvalidKey
    else
      '(x1, y1) <- (if truthy d then ec2_from_private (crv_id k) d x y else Ok (x, y)) ;;
      y2 <- (if truthy x1 && negb (truthy y1) then ec2_decompress (crv_id k) x1 else Ok y1) ;;
      k <- set_unless_empty EC2KpX x1 k ;;
      k <- set_unless_empty EC2KpY y2 k ;;
      set_unless_empty EC2KpD d k.

(** The arguments of [RSAKey.__init__], rsa.py:122-134. *)
Record rsa_args := RsaArgs {
  ra_n : pyval; ra_e : pyval; ra_d : pyval; ra_p : pyval; ra_q : pyval;
  ra_dp : pyval; ra_dq : pyval; ra_qinv : pyval; ra_other : pyval;
  ra_ri : pyval; ra_di : pyval; ra_ti : pyval }.

(** [all(map(lambda x: len(x) == 0, l))] / [!= 0], stopping at the first False.
    rsa.py:146-156. *)
Fixpoint all_len (empty : bool) (l : list pyval) : result bool :=
  match l with
  | [] => Ok true
  | v :: r =>
    n <- py_len v ;;
    if Bool.eqb (Nat.eqb n 0) empty then all_len empty r else Ok false
  end.

(** rsa.py:145-160. *)
Definition rsa_valid (a : rsa_args) : result bool :=
  ne <- all_len false [ra_n a; ra_e a] ;;
  pub <- (if ne : bool then
            all_len true [ra_d a; ra_p a; ra_q a; ra_dp a; ra_dq a; ra_qinv a;
                          ra_other a; ra_ri a; ra_di a; ra_ti a]
          else Ok false) ;;
  if pub : bool then Ok true
  else
    two <- all_len true [ra_other a; ra_ri a; ra_ti a; ra_di a] ;;
    two' <- (if two : bool then
               all_len false [ra_n a; ra_e a; ra_d a; ra_p a; ra_q a; ra_dp a; ra_dq a; ra_qinv a]
             else Ok false) ;;
    if two' : bool then Ok true
    else
      all_len false [ra_n a; ra_e a; ra_d a; ra_p a; ra_q a; ra_dp a; ra_dq a; ra_qinv a;
                     ra_other a; ra_ri a; ra_di a; ra_ti a].

(** Assignment to an attribute the class defines no property for (plain Python attribute of
    cosekey.py:25 objects). *)
Definition extra_set (name : string) (v : pyval) (k : key) : key :=
  with_extra k (dset (k_extra k) (VStr (bs name)) v).

(** [if v != b'': self.<name> = v] for a name without a property, rsa.py:200-205. *)
Definition extra_unless_empty (name : string) (v : pyval) (k : key) : key :=
  if veqb v (VBytes []) then k else extra_set name v k.

(** [RSAKey.__init__], rsa.py:122-205. *)
Definition rsa_init (a : rsa_args) (opt : pyval) (allow : bool) : result key :=
  let other := if is_none (ra_other a) then VList [] else ra_other a in
  let a := RsaArgs (ra_n a) (ra_e a) (ra_d a) (ra_p a) (ra_q a) (ra_dp a) (ra_dq a)
                   (ra_qinv a) other (ra_ri a) (ra_di a) (ra_ti a) in
  ok <- rsa_valid a ;;
  if negb ok then Err CoseInvalidKey
  else
    k <- common_init KRSA opt allow ;;
    k <- set_bytes_param RSAKpE (ra_e a) k ;;
    k <- set_bytes_param RSAKpN (ra_n a) k ;;
    k <- set_unless_empty RSAKpD (ra_d a) k ;;
    k <- set_unless_empty RSAKpP (ra_p a) k ;;
    k <- set_unless_empty RSAKpQ (ra_q a) k ;;
    k <- set_unless_empty RSAKpDP (ra_dp a) k ;;
    k <- set_unless_empty RSAKpDQ (ra_dq a) k ;;
    k <- set_unless_empty RSAKpQInv (ra_qinv a) k ;;
    let k := if truthy (ra_other a) then extra_set "other" (ra_other a) k else k in
    let k := extra_unless_empty "r_i" (ra_ri a) k in
    let k := extra_unless_empty "d_i" (ra_di a) k in
    Ok (extra_unless_empty "t_i" (ra_ti a) k).

(** ** Keys from dictionaries *)

(** [k in m] / [m[k]] for the argument of [from_dict]: a dict, or a key object, whose
    [__contains__]/[__getitem__] translate the parameter (cosekey.py:208-218). *)
Definition map_get (m k : pyval) : result (option pyval) :=
  match m with
  | VDict d => Ok (dget d k)
  | VKey c s _ => t <- key_transform c true k ;; Ok (dget s t)
  | _ => Err TypeError
  end.

(** [_extract_from_dict], cosekey.py:60-71. *)
Definition extract (m : pyval) (c : cls) (dflt : pyval) : result pyval :=
  o1 <- map_get m (VClass c) ;;
  match o1 with
  | Some v => Ok v
  | None =>
    o2 <- map_get m (VInt (c_id c)) ;;
    match o2 with
    | Some v => Ok v
    | None =>
      o3 <- map_get m (VStr (cls_fullname c)) ;;
      match o3 with Some v => Ok v | None => Ok dflt end
    end
  end.

(** [_remove_from_dict], cosekey.py:73-77. *)
Definition remove (d : dict) (c : cls) : dict :=
  ddel (ddel (ddel d (VClass c)) (VInt (c_id c))) (VStr (cls_fullname c)).

(** [_optional_params.update(cose_key)], symmetric.py:31, okp.py:39, ec2.py:37, rsa.py:47. *)
Definition items_of (m : pyval) : result dict :=
  match m with VDict d => Ok d | VKey _ s _ => Ok s | _ => Err TypeError end.

(** [_remove_from_dict] for each parameter in turn, ec2.py:38-41, okp.py:40-42,
    rsa.py:48-60, symmetric.py:32. *)
Definition remove_all (d : dict) (l : list cls) : dict := fold_left remove l d.

(** [SymmetricKey.from_dict], symmetric.py:18-34. *)
Definition sym_from_dict (m : pyval) : result key :=
  k <- extract m SymKpK (VBytes []) ;;
  d <- items_of m ;;
  sym_init k (VDict (remove_all d [SymKpK])) true.

(** [OKPKey.from_dict], okp.py:23-44. *)
Definition okp_from_dict (m : pyval) : result key :=
  x <- extract m OKPKpX (VBytes []) ;;
  d <- extract m OKPKpD (VBytes []) ;;
  crv <- extract m OKPKpCurve VNone ;;
  o <- items_of m ;;
  okp_init crv x d (VDict (remove_all o [OKPKpX; OKPKpD; OKPKpCurve])) true.

(** [EC2Key.from_dict], ec2.py:21-43. *)
Definition ec2_from_dict (m : pyval) : result key :=
  x <- extract m EC2KpX (VBytes []) ;;
  y <- extract m EC2KpY (VBytes []) ;;
  d <- extract m EC2KpD (VBytes []) ;;
  crv <- extract m EC2KpCurve VNone ;;
  o <- items_of m ;;
  ec2_init crv x y d (VDict (remove_all o [EC2KpX; EC2KpY; EC2KpD; EC2KpCurve])) true.

(** [RSAKey.from_dict], rsa.py:24-75. *)
Definition rsa_from_dict (m : pyval) : result key :=
  e <- extract m RSAKpE (VBytes []) ;;
  n <- extract m RSAKpN (VBytes []) ;;
  d <- extract m RSAKpD (VBytes []) ;;
  p <- extract m RSAKpP (VBytes []) ;;
  q <- extract m RSAKpQ (VBytes []) ;;
  dp <- extract m RSAKpDP (VBytes []) ;;
  dq <- extract m RSAKpDQ (VBytes []) ;;
  qinv <- extract m RSAKpQInv (VBytes []) ;;
  other <- extract m RSAKpOther (VList []) ;;
  ri <- extract m RSAKpRi (VBytes []) ;;
  di <- extract m RSAKpDi (VBytes []) ;;
  ti <- extract m RSAKpTi (VBytes []) ;;
  o <- items_of m ;;
  rsa_init (RsaArgs n e d p q dp dq qinv other ri di ti)
    (VDict (remove_all o [RSAKpE; RSAKpN; RSAKpD; RSAKpP; RSAKpQ; RSAKpDP; RSAKpDQ; RSAKpQInv;
                          RSAKpOther; RSAKpQInv; RSAKpRi; RSAKpDi; RSAKpTi])) true.

(** [_key_types], filled by [record_kty] (cosekey.py:41-58): id, fullname, class. *)
Definition kclass_index (c : kclass) : Z := match c with KSym => 0 | KOKP => 1 | KEC2 => 2 | KRSA => 3 end.

(** [_key_types], filled by [record_kty] (cosekey.py:41-58; ec2.py:18, okp.py:20, rsa.py:21,
    symmetric.py:15). *)
Definition key_types : list (pyval * kclass) :=
  flat_map (fun e => match e with (c, k) =>
    [(VInt (c_id c), k); (VStr (cls_fullname c), k); (VClass c, k)] end)
    [(Cls FKty 4, KSym); (Cls FKty 1, KOKP); (Cls FKty 2, KEC2); (Cls FKty 3, KRSA)].

(** [cls._key_types[v]], cosekey.py:89-93. *)
Fixpoint key_type_lookup (l : list (pyval * kclass)) (v : pyval) : option kclass :=
  match l with
  | [] => None
  | (k, c) :: r => if keyeq v k then Some c else key_type_lookup r v
  end.

(** [cls._key_types[v].from_dict(received)], cosekey.py:89-93. *)
Definition dispatch_kty (v m : pyval) : result key :=
  if negb (hashable v) then Err TypeError
  else
    match key_type_lookup key_types v with
    | None => Err KeyError
    | Some KSym => sym_from_dict m
    | Some KOKP => okp_from_dict m
    | Some KEC2 => ec2_from_dict m
    | Some KRSA => rsa_from_dict m
    end.

(** [_extract_from_dict] of a list or tuple, cosekey.py:60-71: [in] searches the elements; the
    identifiers are negative and index from the end; classes and names do not index. *)
Definition list_extract (l : list pyval) (p : cls) : result unit :=
  if existsb (keyeq (VClass p)) l then Err TypeError
  else if existsb (keyeq (VInt (c_id p))) l then
    (if Nat.ltb (length l) (Z.to_nat (- c_id p)) then Err IndexError else Ok tt)
  else if existsb (keyeq (VStr (cls_fullname p))) l then Err TypeError
  else Ok tt.

(** [_optional_params.update(cose_key)] of a list or tuple (ec2.py:37, okp.py:39, rsa.py:47,
    symmetric.py:31): every element must be a pair. *)
Fixpoint list_update (l : list pyval) : result unit :=
  match l with
  | [] => Ok tt
  | x :: r =>
    n <- py_len x ;;
    if negb (Nat.eqb n 2) then Err ValueError
    else if (match x with VList (k :: _) | VTuple (k :: _) => hashable k | _ => true end) then list_update r
    else Err TypeError
  end.

(** The parameters that the classes' [from_dict] extract (ec2.py:32-35, okp.py:35-37,
    rsa.py:34-45, symmetric.py:29). *)
Definition extracted (c : kclass) : list cls :=
  match c with
  | KSym => [SymKpK]
  | KOKP => [OKPKpX; OKPKpD; OKPKpCurve]
  | KEC2 => [EC2KpX; EC2KpY; EC2KpD; EC2KpCurve]
  | KRSA => [RSAKpE; RSAKpN; RSAKpD; RSAKpP; RSAKpQ; RSAKpDP; RSAKpDQ; RSAKpQInv; RSAKpOther; RSAKpRi; RSAKpDi; RSAKpTi]
  end.

(** [CoseKey.from_dict] of a list or tuple, cosekey.py:79-97. It is never successful: [update]
    raises, at the latest, for the element that equals 1. *)
Definition list_from_dict (l : list pyval) : exn :=
  if existsb (keyeq (VClass KpKty)) l then TypeError
  else if existsb (keyeq (VInt 1)) l then
    match nth_error l 1 with
    | None => IndexError
    | Some v =>
      if negb (hashable v) then TypeError
      else
        match key_type_lookup key_types v with
        | None => KeyError
        | Some c =>
          match (_ <- mapM (list_extract l) (extracted c) ;; list_update l) with
          | Err e => e
          | Ok _ => TypeError
          end
        end
    end
  else if existsb (keyeq (VStr (bs "KTY"))) l then TypeError
  else CoseIllegalKeyType.

(** [CoseKey.from_dict], cosekey.py:79-97. *)
Definition from_dict (m : pyval) : result key :=
  match m with
  | VDict _ | VKey _ _ _ =>
    o1 <- map_get m (VClass KpKty) ;;
    match o1 with
    | Some v => dispatch_kty v m
    | None =>
      o2 <- map_get m (VInt 1) ;;
      match o2 with
      | Some v => dispatch_kty v m
      | None =>
        o3 <- map_get m (VStr (bs "KTY")) ;;
        match o3 with Some v => dispatch_kty v m | None => Err CoseIllegalKeyType end
      end
    end
  | VList l | VTuple l => Err (list_from_dict l)
  | _ => Err TypeError
  end.

(** [CoseKey.decode], cosekey.py:30-39. *)
Definition key_decode (received : pyval) : result key :=
  m <- loads received ;; from_dict m.

(** [CoseKey.encode], cosekey.py:283-289, with the encoder at 291-293. *)
Definition key_encode (k : key) : result bytes :=
  dumps cls_fullname HIdent (VDict (k_store k)).

(** ** Keys from the [cryptography] package *)

(** What [_from_cryptography_key] sees of an external key: [None] for a curve that is
    not registered. ec2.py:46-73, okp.py:62-75, rsa.py:90-95. *)
Inductive extkey :=
| ExtOKP (curve : Z) (pub : bytes) (priv : option bytes)
| ExtEC (curve : option Z) (x y : N) (priv : option N)
| ExtRSA (pub : rsa_pub) (priv : option rsa_priv)
| ExtOther.

(** [if optional_params: cose_key.update(optional_params)], okp.py:83-84,
    ec2.py:90-91, rsa.py:110-111. *)
Definition add_params (d : dict) (opt : pyval) : result dict :=
  if truthy opt then o <- items_of opt ;; Ok (dupdate d o) else Ok d.

(** [OKPKey._from_cryptography_key], okp.py:46-85. *)
Definition okp_from_ext (curve : Z) (pub : bytes) (priv : option bytes) (opt : pyval) : result key :=
  let d := [(VClass OKPKpCurve, VClass (Cls FCrv curve)); (VClass OKPKpX, VBytes pub)] in
  let d := match priv with
           | Some (b :: r) => dset d (VClass OKPKpD) (VBytes (b :: r))
           | _ => d
           end in
  d <- add_params d opt ;; okp_from_dict (VDict d).

(** [EC2Key._from_cryptography_key], ec2.py:45-92. *)
Definition ec2_from_ext (curve : option Z) (x y : N) (priv : option N) (opt : pyval) : result key :=
  match curve with
  | None => Err CoseUnsupportedCurve
  | Some c =>
    bx <- to_bytes_checked (curve_size c) x ;;
    by_ <- to_bytes_checked (curve_size c) y ;;
    let d := [(VClass EC2KpCurve, VClass (Cls FCrv c)); (VClass EC2KpX, VBytes bx);
              (VClass EC2KpY, VBytes by_)] in
    d <- match priv with
         | Some n => bd <- to_bytes_checked (curve_size c) n ;; Ok (dset d (VClass EC2KpD) (VBytes bd))
         | None => Ok d
         end ;;
    d <- add_params d opt ;; ec2_from_dict (VDict d)
  end.

(** [RSAKey._from_cryptography_key], rsa.py:77-112, with [to_bstr] (rsa.py:17-19). *)
Definition rsa_from_ext (pub : rsa_pub) (priv : option rsa_priv) (opt : pyval) : result key :=
  let b n := VBytes (min_be n) in
  let d := [(VClass RSAKpE, b (rsa_e pub)); (VClass RSAKpN, b (rsa_n pub))] in
  let d := match priv with
           | Some q => dupdate d
               [(VClass RSAKpD, b (rsa_d q)); (VClass RSAKpP, b (rsa_p q)); (VClass RSAKpQ, b (rsa_q q));
                (VClass RSAKpDP, b (rsa_dmp1 q)); (VClass RSAKpDQ, b (rsa_dmq1 q));
                (VClass RSAKpQInv, b (rsa_iqmp q))]
           | None => d
           end in
  d <- add_params d opt ;; rsa_from_dict (VDict d).

(** [CoseKey._from_cryptography_key], cosekey.py:131-147. *)
Definition from_ext (e : extkey) (opt : pyval) : result key :=
  match e with
  | ExtOKP c pub priv => okp_from_ext c pub priv opt
  | ExtEC c x y priv => ec2_from_ext c x y priv opt
  | ExtRSA pub priv => rsa_from_ext pub priv opt
  | ExtOther => Err CoseIllegalKeyType
  end.

(** [SymmetricKey.generate_key], symmetric.py:110-127. *)
Definition sym_generate (seed : N) (len : Z) (opt : pyval) : result key :=
  if existsb (Z.eqb len) [16; 24; 32]%Z
  then sym_init (VBytes (x_urandom X seed (Z.to_nat len))) opt true
  else Err ValueError.

(** [EC2Key.generate_key], ec2.py:259-278. *)
Definition ec2_generate (seed : N) (crv opt : pyval) : result key :=
  c <- from_id FCrv false crv ;;
  match c with
  | VClass cv =>
    if veqb (curve_key_type (c_id cv)) KtyEC2 then
      let d := x_ec_gen X (c_id cv) seed in
      '(px, py) <- x_ec_pub X (c_id cv) d ;;
      ec2_from_ext (Some (c_id cv)) px py (Some d) opt
    else Err CoseUnsupportedCurve
  | _ => Err AttributeError
  end.

(** [OKPKey.generate_key], okp.py:224-243. *)
Definition okp_generate (seed : N) (crv opt : pyval) : result key :=
  c <- from_id FCrv false crv ;;
  match c with
  | VClass cv =>
    if veqb (curve_key_type (c_id cv)) KtyOKP then
      let d := x_okp_gen X (c_id cv) seed in
      okp_from_ext (c_id cv) (x_okp_pub X (c_id cv) d) (Some d) opt
    else Err CoseUnsupportedCurve
  | _ => Err AttributeError
  end.

(** [RSAKey.generate_key], rsa.py:302-315. *)
Definition rsa_generate (seed : N) (bits : Z) (opt : pyval) : result key :=
  q <- x_rsa_gen X bits seed ;; rsa_from_ext (rsa_public q) (Some q) opt.

End WithCrypto.

(** ** Properties *)

(** The properties of the key classes: cosekey.py:226-281, ec2.py:183-242, okp.py:162-207,
    rsa.py:207-300, symmetric.py:79-93. *)
Inductive kprop :=
| PKty | PAlg | PKid | PKeyOps | PBaseIV                     (* all keys *)
| PCrv | PX | PY | PD | PK | PN | PE | PP | PQ | PDP | PDQ | PQInv.

(** Which parameter a byte-string property stands for: okp.py:181-207,
    ec2.py:202-242, rsa.py:207-285. *)
Definition bytes_prop (c : kclass) (p : kprop) : option cls :=
  match p, c with
  | PKid, _ => Some KpKid
  | PBaseIV, _ => Some KpBaseIV
  | PX, KEC2 => Some EC2KpX | PX, KOKP => Some OKPKpX
  | PY, KEC2 => Some EC2KpY
  | PD, KEC2 => Some EC2KpD | PD, KOKP => Some OKPKpD | PD, KRSA => Some RSAKpD
  | PN, KRSA => Some RSAKpN | PE, KRSA => Some RSAKpE
  | PP, KRSA => Some RSAKpP | PQ, KRSA => Some RSAKpQ
  | PDP, KRSA => Some RSAKpDP | PDQ, KRSA => Some RSAKpDQ | PQInv, KRSA => Some RSAKpQInv
  | _, _ => None
  end.

(** The curve property, okp.py:162-179, ec2.py:183-200. *)
Definition crv_prop (c : kclass) : option cls :=
  match c with KEC2 => Some EC2KpCurve | KOKP => Some OKPKpCurve | _ => None end.

(** The attribute names of these properties (cosekey.py:226-281 and the subclasses). *)
Definition prop_name (p : kprop) : string :=
  match p with
  | PKty => "kty" | PAlg => "alg" | PKid => "kid" | PKeyOps => "key_ops" | PBaseIV => "base_iv"
  | PCrv => "crv" | PX => "x" | PY => "y" | PD => "d" | PK => "k" | PN => "n" | PE => "e"
  | PP => "p" | PQ => "q" | PDP => "dp" | PDQ => "dq" | PQInv => "qinv"
  end.

(** An attribute the class has no property for is an ordinary instance attribute. Reads
    of attributes such as [key.x] on a class without it (algorithms.py:190,292-294). *)
Definition extra_get (k : key) (p : kprop) : result pyval :=
  match dget (k_extra k) (VStr (bs (prop_name p))) with
  | Some v => Ok v
  | None => Err AttributeError
  end.

(** Reading a property. cosekey.py:226-275; the class specific ones raise
    CoseInvalidKey when a mandatory parameter is missing (symmetric.py:79-85,
    okp.py:162-171, ec2.py:183-192). *)
Definition prop_get (k : key) (p : kprop) : result pyval :=
  let s := k_store k in
  match p with
  | PKty => Ok (dget_or s (VClass KpKty) VNone)
  | PAlg => Ok (dget_or s (VClass KpAlg) VNone)
  | PKeyOps => Ok (dget_or s (VClass KpKeyOps) (VList []))
  | PCrv =>
    match crv_prop (k_cls k) with
    | Some c => match dget s (VClass c) with Some v => Ok v | None => Err CoseInvalidKey end
    | None => extra_get k p
    end
  | PK =>
    match k_cls k with
    | KSym => match dget s (VClass SymKpK) with Some v => Ok v | None => Err CoseInvalidKey end
    | _ => extra_get k p
    end
  | _ =>
    match bytes_prop (k_cls k) p with
    | Some c => Ok (dget_or s (VClass c) (VBytes []))
    | None => extra_get k p
    end
  end.

(** What [for ops in v] iterates over. Strings are split into single bytes: the
    pieces are never a supported operation, as for Python's single characters.
    symmetric.py:104, ec2.py:253, okp.py:218, rsa.py:294-300. *)
Definition py_iter (v : pyval) : result (list pyval) :=
  match v with
  | VList l | VTuple l => Ok l
  | VDict d => Ok (map fst d)
  | VKey _ s _ => Ok (map fst s)
  | VStr u => Ok (map (fun b => VStr [b]) u)
  | VBytes b => Ok (map (fun x => VInt (Z.of_N (b2N x))) b)
  | _ => Err TypeError
  end.

(** Operations a key type supports: symmetric.py:103, okp.py:217, ec2.py:252, rsa.py:295. *)
Definition supported_ops (c : kclass) : list Z :=
  match c with
  | KSym => [9; 10; 3; 4; 6; 5]%Z
  | _ => [1; 2; 7; 8]%Z
  end.

(** [_supported_by_key_type], cosekey.py:299-303. *)
Definition supported_by (c : kclass) (o : pyval) : result bool :=
  if negb (hashable o) then Err TypeError
  else Ok (existsb (fun z => keyeq o (VClass (Cls FOps z)) || keyeq o (VInt z)
                             || keyeq o (VStr (cls_fullname (Cls FOps z)))) (supported_ops c)).

(** [CoseKey.key_ops.fset], cosekey.py:264-269. *)
Definition base_set_key_ops (v : pyval) (k : key) : result key :=
  match v with
  | VList l => ops <- mapM (from_id FOps false) l ;; Ok (store_set k KpKeyOps (VList ops))
  | _ => Err ValueError
  end.

(** The setter loop, symmetric.py:101-108, okp.py:215-222, ec2.py:250-257,
    rsa.py:293-300: each supported operation stores the whole list. *)
Fixpoint key_ops_loop (v : pyval) (l : list pyval) (k : key) : key * result unit :=
  match l with
  | [] => (k, Ok tt)
  | o :: r =>
    match supported_by (k_cls k) o with
    | Err e => (k, Err e)
    | Ok false => (k, Err CoseIllegalKeyOps)
    | Ok true =>
      match base_set_key_ops v k with
      | Err e => (k, Err e)
      | Ok k' => key_ops_loop v r k'
      end
    end
  end.

(** An assignment that either succeeds or leaves the object alone. The setters check
    before they store, e.g. cosekey.py:253-256,278-281. *)
Definition attempt (k : key) (r : result key) : key * result unit :=
  match r with Ok k' => (k', Ok tt) | Err e => (k, Err e) end.

(** Assigning a property. [kty.setter] (cosekey.py:232-234) calls [KpKty.from_id],
    i.e. the lookup in the registry of common key parameters. *)
Definition prop_set (k : key) (p : kprop) (v : pyval) : key * result unit :=
  match p with
  | PKty => attempt k (t <- from_id FKP false v ;; Ok (store_set k KpKty t))
  | PAlg => attempt k (a <- from_id FAlg false v ;; Ok (store_set k KpAlg a))
  | PKeyOps =>
    match py_iter v with Err e => (k, Err e) | Ok l => key_ops_loop v l k end
  | PCrv =>
    match crv_prop (k_cls k) with
    | Some c => attempt k (set_crv c (kty_of (k_cls k)) v k)
    | None => (extra_set (prop_name p) v k, Ok tt)
    end
  | PK =>
    match k_cls k with
    | KSym => attempt k (set_k v k)
    | _ => (extra_set (prop_name p) v k, Ok tt)
    end
  | _ =>
    match bytes_prop (k_cls k) p with
    | Some c => attempt k (set_bytes_param c v k)
    | None => (extra_set (prop_name p) v k, Ok tt)
    end
  end.

(** ** Mapping interface *)

(** [__getitem__], cosekey.py:208-209. *)
Definition item_get (k : key) (a : pyval) : result pyval :=
  t <- key_transform (k_cls k) true a ;;
  if negb (hashable t) then Err TypeError
  else match dget (k_store k) t with Some v => Ok v | None => Err KeyError end.

(** [__contains__], cosekey.py:217-218. *)
Definition item_in (k : key) (a : pyval) : result bool :=
  t <- key_transform (k_cls k) true a ;;
  if negb (hashable t) then Err TypeError else Ok (dmem (k_store k) t).

(** [__setitem__], cosekey.py:211-212. *)
Definition item_set (k : key) (a v : pyval) : key * result unit :=
  attempt k (t <- key_transform (k_cls k) true a ;;
             if negb (hashable t) then Err TypeError
             else Ok (with_store k (dset (k_store k) t v))).

(** [CoseKey.__delitem__], cosekey.py:214-215. *)
Definition base_del (k : key) (a : pyval) : key * result unit :=
  attempt k (t <- key_transform (k_cls k) true a ;;
             if negb (hashable t) then Err TypeError
             else if dmem (k_store k) t then Ok (with_store k (ddel (k_store k) t))
             else Err KeyError).

(** [del key[a]]: symmetric.py:73-77, okp.py:245-254, ec2.py:280-293; RSA keys use
    the base method. *)
Definition item_del (k : key) (a : pyval) : key * result unit :=
  let has c := dmem (k_store k) (VClass c) in
  let is t c := veqb t (VClass c) in
  match k_cls k with
  | KSym =>
    match key_transform KSym false a with
    | Err e => (k, Err e)
    | Ok t =>
      if negb (is t KpKty) && negb (is t SymKpK) then base_del k a
      else (k, Err CoseInvalidKey)
    end
  | KOKP =>
    match key_transform KOKP false a with
    | Err e => (k, Err e)
    | Ok t =>
      if negb (is t KpKty) && negb (is t OKPKpCurve) then
        (* okp.py:247-248 tests [D without X] but only passes *)
        if is t OKPKpX && negb (has OKPKpD) then (k, Err CoseInvalidKey)
        else base_del k a
      else (k, Err CoseInvalidKey)
    end
  | KEC2 =>
    match key_transform KEC2 false a with
    | Err e => (k, Err e)
    | Ok t =>
      if negb (is t KpKty) && negb (is t EC2KpCurve) then
        if is t EC2KpD && (negb (has EC2KpY) || negb (has EC2KpX)) then (k, Err CoseInvalidKey)
        else if is t EC2KpX && negb (has EC2KpD) then (k, Err CoseInvalidKey)
        else if (is t EC2KpX || is t EC2KpY) && has EC2KpD then
          match base_del k (VClass EC2KpX) with
          | (k', Err e) => (k', Err e)
          | (k', Ok _) => base_del k' (VClass EC2KpY)
          end
        else base_del k a
      else (k, Err CoseInvalidKey)
    end
  | KRSA => base_del k a
  end.

(** The mixin methods of [collections.abc.MutableMapping]. *)

(** [key.pop(a)] (no default): read, then delete. [MutableMapping.pop] over
    cosekey.py:208-215. *)
Definition item_pop (k : key) (a : pyval) : key * result pyval :=
  match item_get k a with
  | Err e => (k, Err e)
  | Ok v => match item_del k a with (k', Ok _) => (k', Ok v) | (k', Err e) => (k', Err e) end
  end.

(** [key.popitem()]: the first key of the store, as a pair with its value.
    [MutableMapping.popitem] over cosekey.py:208-221. *)
Definition item_popitem (k : key) : key * result pyval :=
  match k_store k with
  | [] => (k, Err KeyError)
  | (a, _) :: _ =>
    match item_pop k a with
    | (k', Ok v) => (k', Ok (VTuple [a; v]))
    | (k', Err e) => (k', Err e)
    end
  end.

(** [key.clear()]: [popitem] until KeyError. [n] bounds the number of rounds by the
    size of the store (each successful round removes an entry). [MutableMapping.clear]
    over cosekey.py:208-221. *)
Fixpoint item_clear (n : nat) (k : key) : key * result unit :=
  match n with
  | O => (k, Ok tt)
  | S n' =>
    match item_popitem k with
    | (k', Ok _) => item_clear n' k'
    | (k', Err KeyError) => (k', Ok tt)
    | (k', Err e) => (k', Err e)
    end
  end.

(** [key.update(d)] for a dict: item assignments in order. [MutableMapping.update] over
    cosekey.py:211-212. *)
Fixpoint item_update (k : key) (d : dict) : key * result unit :=
  match d with
  | [] => (k, Ok tt)
  | (a, v) :: r =>
    match item_set k a v with
    | (k', Ok _) => item_update k' r
    | (k', Err e) => (k', Err e)
    end
  end.

(** [key.setdefault(a, v)]: returns what is there, or stores and returns [v].
    [MutableMapping.setdefault] over cosekey.py:208-212. *)
Definition item_setdefault (k : key) (a v : pyval) : key * result pyval :=
  match item_get k a with
  | Ok w => (k, Ok w)
  | Err KeyError => match item_set k a v with (k', Ok _) => (k', Ok v) | (k', Err e) => (k', Err e) end
  | Err e => (k, Err e)
  end.

(** [iter(key)] and [len(key)], cosekey.py:220-224. *)
Definition key_iter (k : key) : list pyval := map fst (k_store k).
Definition key_len (k : key) : nat := length (k_store k).

(** [list(key.items())] and [list(key.values())]: the views of [collections.abc] iterate
    over the mapping and read each item. cosekey.py:208-209,220-221. *)
Definition key_items (k : key) : result dict :=
  mapM (fun a => v <- item_get k a ;; Ok (a, v)) (key_iter k).
Definition key_values (k : key) : result (list pyval) := mapM (item_get k) (key_iter k).

(** [key.get(a, default)]. [Mapping.get] over cosekey.py:208-209. *)
Definition key_get (k : key) (a default : pyval) : result pyval :=
  match item_get k a with Err KeyError => Ok default | r => r end.

(** [v == w] for values in a key. Numbers compare by value, sequences item by item, dicts
    by their entries whatever the order; a key compares as the dict of its items.
    Simplification: a NaN equals itself (as it does inside containers when it is the same
    object). Python equality, applied to the stores of cosekey.py:182. *)
Fixpoint pyeq (a b : pyval) {struct a} : bool :=
  let entries d e :=
    Nat.eqb (length d) (length e) &&
    (fix go (d : dict) : bool :=
       match d with
       | [] => true
       | (k, x) :: r => match dget e k with Some y => pyeq x y | None => false end && go r
       end) d in
  let fix items (l m : list pyval) : bool :=
    match l, m with
    | [], [] => true
    | x :: l', y :: m' => pyeq x y && items l' m'
    | _, _ => false
    end in
  match a, b with
  | VList l, VList m => items l m
  | VTuple l, VTuple m => items l m
  | VDict d, VDict e => entries d e
  | VDict d, VKey _ e _ => entries d e
  | VKey _ d _, VDict e => entries d e
  | VKey _ d _, VKey _ e _ => entries d e
  | VTag t x, VTag t' y => N.eqb t t' && pyeq x y
  | _, _ => keyeq a b
  end.

(** [key == other] for two keys: [Mapping.__eq__], i.e. [dict(key.items()) ==
    dict(other.items())]; no key class overrides it. CoseKey derives from MutableMapping,
    cosekey.py:25. *)
Definition key_eq (k k' : key) : result bool :=
  i <- key_items k ;; i' <- key_items k' ;; Ok (pyeq (VDict (dict_of_pairs i)) (VDict (dict_of_pairs i'))).

(** Everything a program can do to a key object through its public interface.
    cosekey.py:208-281 and the setters of the subclasses. *)
Inductive key_op :=
| KSetProp (p : kprop) (v : pyval)
| KSetItem (a v : pyval)
| KDelItem (a : pyval)
| KPop (a : pyval)
| KPopitem
| KClear
| KUpdate (d : dict)
| KSetDefault (a v : pyval).

(** One operation on a key object, cosekey.py:208-281 and the setters of the subclasses. *)
Definition key_step (k : key) (o : key_op) : key :=
  match o with
  | KSetProp p v => fst (prop_set k p v)
  | KSetItem a v => fst (item_set k a v)
  | KDelItem a => fst (item_del k a)
  | KPop a => fst (item_pop k a)
  | KPopitem => fst (item_popitem k)
  | KClear => fst (item_clear (S (length (k_store k))) k)
  | KUpdate d => fst (item_update k d)
  | KSetDefault a v => fst (item_setdefault k a v)
  end.

(** A history of operations on a key object, cosekey.py:208-281. *)
Definition key_run (k : key) (ops : list key_op) : key := fold_left key_step ops k.

(** ** Authorisation: [CoseKey.verify], cosekey.py:189-206 *)

(** [k in container] for the stored key operations (a list unless item assignment put
    something else there). cosekey.py:201-203. *)
Definition py_in (x container : pyval) : result bool :=
  match container with
  | VList l | VTuple l => Ok (existsb (keyeq x) l)
  | VDict d => if hashable x then Ok (dmem d x) else Err TypeError
  | VKey c s _ =>
    t <- key_transform c true x ;; if hashable t then Ok (dmem s t) else Err TypeError
  | _ => Err TypeError
  end.

(** The loop at 201-203. *)
Fixpoint any_in (l : list pyval) (container : pyval) : result bool :=
  match l with
  | [] => Ok false
  | x :: r => b <- py_in x container ;; b' <- any_in r container ;; Ok (b || b')
  end.

(** Identity of key classes, for [isinstance] at cosekey.py:192. *)
Definition kclass_eqb (a b : kclass) : bool := Z.eqb (kclass_index a) (kclass_index b).

(** [CoseKey.verify], cosekey.py:189-206. *)
Definition key_verify (k : key) (c : kclass) (alg : pyval) (ops : list pyval) : result unit :=
  if negb (kclass_eqb (k_cls k) c) then Err CoseException
  else
    _ <- (let ka := dget_or (k_store k) (VClass KpAlg) VNone in
          if is_none ka then Ok tt
          else
            match identifier_of ka, identifier_of alg with
            | Some i, Some j => if Z.eqb i j then Ok tt else Err CoseIllegalAlgorithm
            | _, _ => Err AttributeError
            end) ;;
    let ko := dget_or (k_store k) (VClass KpKeyOps) (VList []) in
    n <- py_len ko ;;
    if Nat.eqb n 0 then Ok tt
    else m <- any_in ops ko ;; if m : bool then Ok tt else Err CoseIllegalKeyOps.
