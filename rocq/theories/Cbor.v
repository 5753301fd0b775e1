(** Model of the parts of cbor2 that pycose uses ([dumps] and [loads]).

    cbor2 is not part of /repo; this follows RFC 8949 and the behaviour of cbor2
    5.x. It is called from pycose/messages/cosebase.py:35,136,
    pycose/messages/cosemessage.py:51-54,141-147, pycose/messages/context.py:52,80,
    pycose/keys/cosekey.py:39,289 and the structure builders. *)
From Coq Require Import NArith ZArith Bool.
From Coq Require Import Init.Byte List.
From Verif Require Import Bytes Value.
Import ListNotations.
Local Open Scope N_scope.
Local Open Scope result_scope.

(** ** Data items *)

(** Widths of CBOR floats. Models cbor2 (called at cosemessage.py:55,143,145,
    cosebase.py:35,136, cosekey.py:39,289). *)
Inductive fwidth := F16 | F32 | F64.

(** CBOR data items as an abstract syntax. Models cbor2 (called at
    cosemessage.py:55,143,145, cosebase.py:35,136, cosekey.py:39,289). *)
Inductive cbor :=
| CUint (n : N)
| CNint (n : N)                 (* the integer -1-n *)
| CBytes (b : bytes)
| CText (u : bytes)
| CArr (l : list cbor)
| CMap (l : list (cbor * cbor))
| CTag (t : N) (c : cbor)
| CConst (n : N)                (* 20 false, 21 true, 22 null, 23 undefined *)
| CSimple (n : N)               (* other simple values *)
| CFloat (w : fwidth) (bits : N)
| CBreak.                       (* the "break" stop code *)

(** Bytes of a float of each width; cbor2 (called at cosemessage.py:55,143,145,
    cosebase.py:35,136, cosekey.py:39,289). *)
Definition fbytes (w : fwidth) : nat := match w with F16 => 2 | F32 => 4 | F64 => 8 end.
(** Additional information of a float of each width; cbor2 (called at
    cosemessage.py:55,143,145, cosebase.py:35,136, cosekey.py:39,289). *)
Definition finfo (w : fwidth) : N := match w with F16 => 25 | F32 => 26 | F64 => 27 end.

(** Limits of CPython objects: [len] of anything is below [sys.maxsize + 1]. Bounds what
    can reach [cbor2.dumps] (cosemessage.py:143,145). *)
Definition max_len : N := 9223372036854775808.    (* 2^63 *)
(** 2^64: bound of CBOR arguments in cbor2 (cosemessage.py:55,143). *)
Definition two64 : N := 18446744073709551616.     (* 2^64 *)

(** ** Encoder *)

(** Initial byte and argument, shortest form (cbor2 [encode_length]). Models cbor2
    (called at cosemessage.py:55,143,145, cosebase.py:35,136, cosekey.py:39,289). *)
Definition head (mt n : N) : bytes :=
  if n <? 24 then [byte_of_N (mt * 32 + n)]
  else if n <? 256 then byte_of_N (mt * 32 + 24) :: to_be 1 n
  else if n <? 65536 then byte_of_N (mt * 32 + 25) :: to_be 2 n
  else if n <? 4294967296 then byte_of_N (mt * 32 + 26) :: to_be 4 n
  else byte_of_N (mt * 32 + 27) :: to_be 8 n.

(** The bytes of a data item, as written by cbor2.dumps (cosemessage.py:143,145,
    cosebase.py:136, cosekey.py:289). *)
Fixpoint enc (c : cbor) : bytes :=
  match c with
  | CUint n => head 0 n
  | CNint n => head 1 n
  | CBytes b => head 2 (blen b) ++ b
  | CText u => head 3 (blen u) ++ u
  | CArr l => head 4 (N.of_nat (length l)) ++ flat_map enc l
  | CMap l =>
    head 5 (N.of_nat (length l)) ++
    flat_map (fun kv => match kv with (k, v) => enc k ++ enc v end) l
  | CTag t c' => head 6 t ++ enc c'
  | CConst n => head 7 n
  | CSimple n => head 7 n
  | CFloat w bits => byte_of_N (7 * 32 + finfo w) :: to_be (fbytes w) bits
  | CBreak => [xff]
  end.

(** Items that arise from representable Python objects. What [cbor2.dumps] can be given
    at cosemessage.py:143,145. *)
Fixpoint wfc (c : cbor) : bool :=
  match c with
  | CUint n | CNint n => n <? two64
  | CBytes b => blen b <? max_len
  | CText u => (blen u <? max_len) && utf8_valid u
  | CArr l => (N.of_nat (length l) <? max_len) && forallb wfc l
  | CMap l =>
    (N.of_nat (length l) <? max_len) &&
    forallb (fun kv => match kv with (k, v) => wfc k && wfc v end) l
  | CTag t c' => (t <? two64) && wfc c'
  | CConst n => (20 <=? n) && (n <? 24)
  | CSimple n => (n <? 20) || ((32 <=? n) && (n <? 256))
  | CFloat w bits => bits <? 256 ^ N.of_nat (fbytes w)
  | CBreak => false
  end.

(** ** Decoder *)

(** [self.read(n)]: exactly [n] bytes or CBORDecodeEOF. Part of [cbor2.loads]
    (cosemessage.py:55, cosebase.py:35). *)
Definition take (n : N) (l : bytes) : result (bytes * bytes) :=
  if blen l <? n then Err CBORDecodeEOF
  else Ok (firstn (N.to_nat n) l, skipn (N.to_nat n) l).

(** cbor2 [_decode_length]; [None] is the indefinite-length marker, which only
    strings, arrays and maps accept ([allow = true]). Part of [cbor2.loads]
    (cosemessage.py:55, cosebase.py:35). *)
Definition arg (allow : bool) (info : N) (l : bytes) : result (option N * bytes) :=
  if info <? 24 then Ok (Some info, l)
  else if info =? 24 then '(a, r) <- take 1 l ;; Ok (Some (of_be a), r)
  else if info =? 25 then '(a, r) <- take 2 l ;; Ok (Some (of_be a), r)
  else if info =? 26 then '(a, r) <- take 4 l ;; Ok (Some (of_be a), r)
  else if info =? 27 then '(a, r) <- take 8 l ;; Ok (Some (of_be a), r)
  else if (info =? 31) && allow then Ok (None, l)
  else Err CBORDecodeValueError.

(** Arguments are never "indefinite" when not allowed. Part of [cbor2.loads]
    (cosemessage.py:55, cosebase.py:35). *)
Definition arg_fixed (info : N) (l : bytes) : result (N * bytes) :=
  '(o, r) <- arg false info l ;;
  match o with Some n => Ok (n, r) | None => Err CBORDecodeValueError end.

(** A definite-length byte or text string of [n] bytes. Part of [cbor2.loads]
    (cosemessage.py:55, cosebase.py:35). *)
Definition take_string (text : bool) (n : N) (l : bytes) : result (bytes * bytes) :=
  if max_len <=? n then Err CBORDecodeValueError
  else
    '(b, r) <- take n l ;;
    if text && negb (utf8_valid b) then Err CBORDecodeValueError else Ok (b, r).

(** Chunks of an indefinite-length string, up to the stop code. Part of [cbor2.loads]
    (cosemessage.py:55, cosebase.py:35). *)
Fixpoint dec_chunks (f : nat) (text : bool) (l : bytes) : result (bytes * bytes) :=
  match f with
  | O => Err FuelExhausted
  | S f' =>
    match l with
    | [] => Err CBORDecodeEOF
    | b :: r =>
      if b2N b =? 255 then Ok ([], r)
      else if b2N b / 32 =? (if text then 3 else 2) then
        '(n, r1) <- arg_fixed (b2N b mod 32) r ;;
        '(s, r2) <- take_string text n r1 ;;
        '(s', r3) <- dec_chunks f' text r2 ;;
        Ok (s ++ s', r3)
      else Err CBORDecodeValueError
    end
  end.

(** A string item: text or bytes; part of [cbor2.loads] (cosemessage.py:55, cosebase.py:35).
    *)
Definition cstring (text : bool) (b : bytes) : cbor := if text then CText b else CBytes b.

(** Major types 2 and 3. Part of [cbor2.loads] (cosemessage.py:55, cosebase.py:35). *)
Definition dec_string (f : nat) (text : bool) (info : N) (l : bytes) : result (cbor * bytes) :=
  '(o, r) <- arg true info l ;;
  match o with
  | Some n => '(b, r') <- take_string text n r ;; Ok (cstring text b, r')
  | None => '(b, r') <- dec_chunks f text r ;; Ok (cstring text b, r')
  end.

(** Major type 7. Part of [cbor2.loads] (cosemessage.py:55, cosebase.py:35). *)
Definition dec_special (info : N) (l : bytes) : result (cbor * bytes) :=
  if info <? 20 then Ok (CSimple info, l)
  else if info <? 24 then Ok (CConst info, l)
  else if info =? 24 then
    '(a, r) <- take 1 l ;;
    let n := of_be a in
    if (24 <=? n) && (n <? 32) then Err CBORDecodeValueError else Ok (CSimple n, r)
  else if info =? 25 then '(a, r) <- take 2 l ;; Ok (CFloat F16 (of_be a), r)
  else if info =? 26 then '(a, r) <- take 4 l ;; Ok (CFloat F32 (of_be a), r)
  else if info =? 27 then '(a, r) <- take 8 l ;; Ok (CFloat F64 (of_be a), r)
  else if info =? 31 then Ok (CBreak, l)
  else Err CBORDecodeValueError.

(** One data item from the front of the input ([CBORDecoder.decode]); what
    follows it is returned. [f] is fuel; [fuel_for] below always suffices. Part of
    [cbor2.loads] (cosemessage.py:55, cosebase.py:35). *)
Fixpoint dec (f : nat) (l : bytes) {struct f} : result (cbor * bytes) :=
  match f with
  | O => Err FuelExhausted
  | S f' =>
    match l with
    | [] => Err CBORDecodeEOF
    | b :: r =>
      let mt := b2N b / 32 in
      let info := b2N b mod 32 in
      if mt =? 0 then '(n, r') <- arg_fixed info r ;; Ok (CUint n, r')
      else if mt =? 1 then '(n, r') <- arg_fixed info r ;; Ok (CNint n, r')
      else if mt =? 2 then dec_string f' false info r
      else if mt =? 3 then dec_string f' true info r
      else if mt =? 4 then
        '(o, r') <- arg true info r ;;
        match o with
        | Some n =>
          if max_len <=? n then Err CBORDecodeValueError
          else '(cs, r2) <- dec_seq f' n r' ;; Ok (CArr cs, r2)
        | None => '(cs, r2) <- dec_seq_indef f' r' ;; Ok (CArr cs, r2)
        end
      else if mt =? 5 then
        '(o, r') <- arg true info r ;;
        match o with
        | Some n =>
          if max_len <=? n then Err CBORDecodeValueError
          else '(cs, r2) <- dec_map f' n r' ;; Ok (CMap cs, r2)
        | None => '(cs, r2) <- dec_map_indef f' r' ;; Ok (CMap cs, r2)
        end
      else if mt =? 6 then
        '(t, r') <- arg_fixed info r ;;
        '(c, r2) <- dec f' r' ;; Ok (CTag t c, r2)
      else dec_special info r
    end
  end
with dec_seq (f : nat) (n : N) (l : bytes) {struct f} : result (list cbor * bytes) :=
  match f with
  | O => Err FuelExhausted
  | S f' =>
    if n =? 0 then Ok ([], l)
    else
      '(c, r) <- dec f' l ;;
      '(cs, r') <- dec_seq f' (n - 1) r ;; Ok (c :: cs, r')
  end
with dec_map (f : nat) (n : N) (l : bytes) {struct f} : result (list (cbor * cbor) * bytes) :=
  match f with
  | O => Err FuelExhausted
  | S f' =>
    if n =? 0 then Ok ([], l)
    else
      '(k, r) <- dec f' l ;;
      '(v, r1) <- dec f' r ;;
      '(cs, r2) <- dec_map f' (n - 1) r1 ;; Ok ((k, v) :: cs, r2)
  end
with dec_seq_indef (f : nat) (l : bytes) {struct f} : result (list cbor * bytes) :=
  match f with
  | O => Err FuelExhausted
  | S f' =>
    '(c, r) <- dec f' l ;;
    match c with
    | CBreak => Ok ([], r)
    | _ => '(cs, r') <- dec_seq_indef f' r ;; Ok (c :: cs, r')
    end
  end
with dec_map_indef (f : nat) (l : bytes) {struct f} : result (list (cbor * cbor) * bytes) :=
  match f with
  | O => Err FuelExhausted
  | S f' =>
    '(k, r) <- dec f' l ;;
    match k with
    | CBreak => Ok ([], r)
    | _ =>
      '(v, r1) <- dec f' r ;;
      '(cs, r2) <- dec_map_indef f' r1 ;; Ok ((k, v) :: cs, r2)
    end
  end.

(** Enough steps to decode any input of this length in [cbor2.loads] (cosemessage.py:55).
    Simplification: no recursion limit. *)
Definition fuel_for (l : bytes) : nat := 2 * length l + 1.

(** [CBORDecoder.decode], called by [cbor2.loads] (cosemessage.py:55, cosebase.py:35). *)
Definition decode_item (l : bytes) : result (cbor * bytes) := dec (fuel_for l) l.

(** ** Floats *)

(** Widen an IEEE number with [eb] exponent and [mb] mantissa bits to binary64. Python
    floats are binary64: what [cbor2.loads] returns at cosemessage.py:55. *)
Definition widen (eb mb : N) (bits : N) : N :=
  let sgn := N.shiftl (N.shiftr bits (eb + mb)) 63 in
  let ex := N.land (N.shiftr bits mb) (N.ones eb) in
  let m := N.land bits (N.ones mb) in
  let bias := 2 ^ (eb - 1) - 1 in
  if ex =? N.ones eb then sgn + N.shiftl 2047 52 + N.shiftl m (52 - mb)
  else if ex =? 0 then
    if m =? 0 then sgn
    else
      let k := N.log2 m in
      sgn + N.shiftl (k + 1024 - bias - mb) 52 + N.shiftl (m - 2 ^ k) (52 - k)
  else sgn + N.shiftl (ex + 1023 - bias) 52 + N.shiftl m (52 - mb).

(** [widen] for each width [cbor2.loads] accepts (cosemessage.py:55). *)
Definition widen_w (w : fwidth) (bits : N) : N :=
  match w with F16 => widen 5 10 bits | F32 => widen 8 23 bits | F64 => bits end.

(** Float constants of [cbor2.dumps] (cosemessage.py:143). *)
Definition f64_nan : N := 9221120237041090560.   (* 0x7ff8000000000000 *)
(** Float constants of [cbor2.dumps] (cosemessage.py:143). *)
Definition f64_inf : N := 9218868437227405312.   (* 0x7ff0000000000000 *)
(** Float constants of [cbor2.dumps] (cosemessage.py:143). *)
Definition f64_ninf : N := 18442240474082181120. (* 0xfff0000000000000 *)

(** Whether a binary64 number is a NaN, for [cbor2.dumps] (cosemessage.py:143). *)
Definition is_nan (bits : N) : bool :=
  (N.land (N.shiftr bits 52) 2047 =? 2047) && negb (N.land bits (N.ones 52) =? 0).

(** cbor2 [encode_float]: NaN and infinities as half precision, all other floats
    as double. Part of [cbor2.dumps] (cosemessage.py:143,145). *)
Definition lower_float (bits : N) : cbor :=
  if is_nan bits then CFloat F16 32256
  else if bits =? f64_inf then CFloat F16 31744
  else if bits =? f64_ninf then CFloat F16 64512
  else CFloat F64 bits.

(** ** From data items to Python values *)

(** Tags for which cbor2 builds a dedicated object (dates, decimals, shared
    references, sets, ...). Simplification: such objects are opaque ([VOther]). Part of
    [cbor2.loads] (cosemessage.py:55, cosebase.py:35). *)
Definition special_tags : list N :=
  [0; 1; 4; 5; 25; 28; 29; 30; 35; 36; 37; 100; 256; 258; 260; 261; 1004; 43000].

(** Part of [cbor2.loads] (cosemessage.py:55, cosebase.py:35). *)
Definition is_special_tag (t : N) : bool := existsb (N.eqb t) special_tags.

(** [imm] is cbor2's "immutable" mode, on inside map keys: arrays become tuples. The
    Python object [cbor2.loads] builds (cosemessage.py:55, cosebase.py:35,
    cosekey.py:39). *)
Fixpoint lift (imm : bool) (c : cbor) : result pyval :=
  match c with
  | CUint n => Ok (VInt (Z.of_N n))
  | CNint n => Ok (VInt (-1 - Z.of_N n))
  | CBytes b => Ok (VBytes b)
  | CText u => Ok (VStr u)
  | CArr l =>
    vs <- mapM (lift imm) l ;; Ok (if imm then VTuple vs else VList vs)
  | CMap l =>
    kvs <- mapM (fun kv => match kv with (k, v) =>
                   k' <- lift true k ;; v' <- lift imm v ;; Ok (k', v') end) l ;;
    Ok (VDict (dict_of_pairs kvs))
  | CTag t c' =>
    v <- lift imm c' ;;
    if t =? 2 then match v with VBytes b => Ok (VInt (Z.of_N (of_be b))) | _ => Err CBORDecodeValueError end
    else if t =? 3 then match v with VBytes b => Ok (VInt (-1 - Z.of_N (of_be b))) | _ => Err CBORDecodeValueError end
    else if t =? 55799 then Ok v
    else if is_special_tag t then Ok (VOther t v)
    else Ok (VTag t v)
  | CConst n =>
    Ok (if n =? 20 then VBool false else if n =? 21 then VBool true
        else if n =? 22 then VNone else VUndef)
  | CSimple n => Ok (VSimple n)
  | CFloat w bits => Ok (VFloat (widen_w w bits))
  | CBreak => Ok VBreak
  end.

(** [cbor2.loads(received)]; bytes after the first item are ignored. Called at
    cosemessage.py:55, cosebase.py:35, recipient.py:65, cosekey.py:39, x509.py:25,53. *)
Definition loads_bytes (l : bytes) : result pyval :=
  '(c, _) <- decode_item l ;; lift false c.

(** [cbor2.loads(v)] for an arbitrary object: [BytesIO(v)] rejects non-bytes,
    except that [BytesIO(None)] is an empty stream. Called at cosebase.py:35,
    recipient.py:65, x509.py:25,53. *)
Definition loads (v : pyval) : result pyval :=
  match v with
  | VBytes b => loads_bytes b
  | VNone => Err CBORDecodeEOF
  | _ => Err TypeError
  end.

(** ** From Python values to data items *)

(** cbor2 [encode_int]. Part of [cbor2.dumps] (cosemessage.py:143,145). *)
Definition lower_int (z : Z) : cbor :=
  match z with
  | Zneg _ =>
    let n := Z.to_N (-1 - z) in
    if n <? two64 then CNint n else CTag 3 (CBytes (min_be n))
  | _ =>
    let n := Z.to_N z in
    if n <? two64 then CUint n else CTag 2 (CBytes (min_be n))
  end.

(** How objects cbor2 does not know are serialised (its [default] argument). *)
Inductive hook :=
| HNone               (* no default: CBOREncodeTypeError *)
| HIdent              (* keys/cosekey.py:292-293, messages/context.py:58-60 *)
| HMsg (tstr : bool). (* messages/cosebase.py:151-160, [tstr] = alg_tstr_encoding *)

(** The text form of an algorithm is supplied by the registry. *)
Section Lower.
Variable fullname : cls -> bytes.

(** KpKeyOps, keyparam.py:42-45, which the header encoder drops when empty
    (cosebase.py:154-155). *)
Definition kp_key_ops : pyval := VClass (Cls FKP 4).

(** cosebase.py:157-160: [issubclass(cose_attribute, CoseAlgorithm)]. *)
Definition lower_class (h : hook) (c : cls) : result cbor :=
  match h with
  | HNone => Err CBOREncodeTypeError
  | HIdent => Ok (lower_int (c_id c))
  | HMsg tstr =>
    if (if fam_eq_dec (c_fam c) FAlg then true else false) && tstr
    then Ok (CText (fullname c)) else Ok (lower_int (c_id c))
  end.

Fixpoint lower (h : hook) (v : pyval) : result cbor :=
  let lower_pairs :=
    fix lower_pairs (d : list (pyval * pyval)) : result (list (cbor * cbor)) :=
      match d with
      | [] => Ok []
      | (k, x) :: r =>
        k' <- lower h k ;; x' <- lower h x ;; r' <- lower_pairs r ;; Ok ((k', x') :: r')
      end in
  (* cosebase.py:153-156: entries of a key, with an empty KEY_OPS entry skipped *)
  let lower_store :=
    fix lower_store (d : list (pyval * pyval)) : result (list (cbor * cbor)) :=
      match d with
      | [] => Ok []
      | (k, x) :: r =>
        if keyeq kp_key_ops k then
          n <- py_len x ;;
          if Nat.eqb n 0 then lower_pairs r
          else k' <- lower h k ;; x' <- lower h x ;; r' <- lower_pairs r ;; Ok ((k', x') :: r')
        else
          k' <- lower h k ;; x' <- lower h x ;; r' <- lower_store r ;; Ok ((k', x') :: r')
      end in
  match v with
  | VNone => Ok (CConst 22)
  | VBool b => Ok (CConst (if b then 21 else 20))
  | VInt z => Ok (lower_int z)
  | VFloat f => Ok (lower_float f)
  | VSimple n => Ok (CSimple n)
  | VUndef => Ok (CConst 23)
  | VBreak => Err CBOREncodeTypeError
  | VBytes b => Ok (CBytes b)
  | VStr u => Ok (CText u)
  | VList l | VTuple l => cs <- mapM (lower h) l ;; Ok (CArr cs)
  | VDict d => cs <- lower_pairs d ;; Ok (CMap cs)
  | VTag t v' => c <- lower h v' ;; Ok (CTag t c)
  | VOther t v' => c <- lower h v' ;; Ok (CTag t c)
  | VClass c => lower_class h c
  | VKey _ store _ =>
    match h with
    | HNone => Err CBOREncodeTypeError
    | HIdent => Err AttributeError
    | HMsg _ => cs <- lower_store store ;; Ok (CMap cs)
    end
  end.

(** [cbor2.dumps(v, default=...)]. Items outside [wfc] come from objects that do
    not exist in CPython (lengths of 2^63 and more, invalid text). Called at
    cosemessage.py:143,145, cosebase.py:136, cosekey.py:289, context.py:52,80,
    sign1message.py:71-86. *)
Definition dumps (h : hook) (v : pyval) : result bytes :=
  c <- lower h v ;; if wfc c then Ok (enc c) else Err OverflowError.

End Lower.
