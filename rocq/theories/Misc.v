(** Base64 helpers (pycose/keys/cosekey.py) and X.509 attributes (pycose/extensions/x509.py). *)
From Coq Require Import NArith ZArith Bool String.
From Coq Require Import Init.Byte List.
From Verif Require Import Bytes Value Cbor Registry Crypto Keys Algorithms Headers Messages Recipients.
Import ListNotations.
Local Open Scope result_scope.

(** ** Base64 *)

(** The standard alphabet (RFC 4648 section 4), used by [base64.b64encode].
    cosekey.py:179. *)
Definition b64_char (n : N) : byte :=
  (if n <? 26 then byte_of_N (65 + n)
   else if n <? 52 then byte_of_N (97 + (n - 26))
   else if n <? 62 then byte_of_N (48 + (n - 52))
   else if n =? 62 then x2b else x2f)%N.

(** Value of a character; [None] if it is not in the alphabet. For [base64.b64decode],
    cosekey.py:162-168. *)
Definition b64_val (b : byte) : option N :=
  (let n := b2N b in
   if in_range 65 90 b then Some (n - 65)
   else if in_range 97 122 b then Some (n - 97 + 26)
   else if in_range 48 57 b then Some (n - 48 + 52)
   else if n =? 43 then Some 62 else if n =? 47 then Some 63 else None)%N.

(** [base64.b64encode(b).decode("utf-8")], cosekey.py:170-179. *)
Fixpoint base64encode (l : bytes) : bytes :=
  (match l with
   | [] => []
   | a :: [] => let n := b2N a in [b64_char (n / 4); b64_char (n mod 4 * 16); x3d; x3d]
   | a :: b :: [] =>
     let n := b2N a in let m := b2N b in
     [b64_char (n / 4); b64_char (n mod 4 * 16 + m / 16); b64_char (m mod 16 * 4); x3d]
   | a :: b :: c :: r =>
     let n := b2N a in let m := b2N b in let o := b2N c in
     b64_char (n / 4) :: b64_char (n mod 4 * 16 + m / 16)
       :: b64_char (m mod 16 * 4 + o / 64) :: b64_char (o mod 64) :: base64encode r
   end)%N.

(** CPython's non-strict [binascii.a2b_base64]: characters outside the alphabet are
    skipped, decoding stops at complete padding. [pos] is the position in the group of
    four, [left] the pending bits, [pads] the padding characters seen. For
    [base64.b64decode], cosekey.py:162-168. *)
Fixpoint a2b (l : bytes) (pos left pads : N) : result bytes :=
  (match l with
   | [] => if pos =? 0 then Ok [] else Err ValueError
   | ch :: r =>
     if b2N ch =? 61 then
       if 2 <=? pos then (if 4 <=? pos + (pads + 1) then Ok [] else a2b r pos left (pads + 1))
       else a2b r pos left pads
     else
       match b64_val ch with
       | None => a2b r pos left pads
       | Some v =>
         if pos =? 0 then a2b r 1 v 0
         else if pos =? 1 then
           rest <- a2b r 2 (v mod 16) 0 ;; Ok (byte_of_N (left * 4 + v / 16) :: rest)
         else if pos =? 2 then
           rest <- a2b r 3 (v mod 4) 0 ;; Ok (byte_of_N (left * 16 + v / 4) :: rest)
         else rest <- a2b r 0 0 0 ;; Ok (byte_of_N (left * 64 + v) :: rest)
       end
   end)%N.

(** [base64.b64decode(str)]: text must be ASCII. cosekey.py:162-168. *)
Definition b64decode (u : bytes) : result bytes :=
  if forallb (fun b => N.ltb (b2N b) 128) u then a2b u 0 0 0 else Err ValueError.

(** [s.replace('-', '+').replace('_', '/')], cosekey.py:158-159. *)
Definition from_urlsafe (u : bytes) : bytes :=
  map (fun b => if byte_eqb b x2d then x2b else if byte_eqb b x5f then x2f else b) u.

(** [CoseKey.base64decode], cosekey.py:149-168; [VNone] when the function falls off its
    end. *)
Definition base64decode (u : bytes) : result pyval :=
  let u := from_urlsafe u in
  let n := Nat.modulo (str_len u) 4 in
  if Nat.eqb n 0 then b <- b64decode u ;; Ok (VBytes b)
  else if Nat.eqb n 2 then b <- b64decode (u ++ [x3d; x3d]) ;; Ok (VBytes b)
  else if Nat.eqb n 3 then b <- b64decode (u ++ [x3d]) ;; Ok (VBytes b)
  else Ok VNone.

(** ** X.509 header values *)

(** [X5Bag.__init__]/[X5Chain.__init__], x509.py:10-14,67-71; [encode] (16-17,83-84)
    returns the stored object. *)
Definition certs_init (v : pyval) : pyval :=
  match v with VList [c] => c | _ => v end.

(** [cert_chain[1:]]. x509.py:79. *)
Definition py_tail (v : pyval) : result pyval :=
  match v with
  | VList l => Ok (VList (tl l))
  | VTuple l => Ok (VTuple (tl l))
  | VBytes b => Ok (VBytes (tl b))
  | VStr u => Ok (VStr (tl u))   (* ASCII text *)
  | _ => Err TypeError
  end.

(** What [verify_chain] (x509.py:76-81) hands to the validator: the end-entity
    certificate and the intermediate certificates. *)
Definition chain_args (chain : pyval) : result (pyval * pyval) :=
  ee <- py_index chain 0 ;; rest <- py_tail chain ;; Ok (ee, rest).

(** An X5T object, x509.py:35-37. *)
Record x5t := X5T { t_alg : pyval; t_print : pyval }.

Section WithCrypto.
Variable X : crypto.

(** [alg.compute_hash(certificate)]; [Hash.update] needs bytes. algorithms.py:56-65,
    called at x509.py:27,55. *)
Definition hash_cert (alg cert : pyval) : result bytes :=
  match cert with
  | VBytes b => alg_compute_hash X alg b
  | _ => match alg_compute_hash X alg [] with Ok _ => Err TypeError | Err e => Err e end
  end.

(** [from_certificate], x509.py:21-27. *)
Definition x5t_from_certificate (alg cert : pyval) (cbor_encoded : bool) : result x5t :=
  c <- (if cbor_encoded then loads cert else Ok cert) ;;
  h <- hash_cert alg c ;; Ok (X5T alg (VBytes h)).

(** [matches], x509.py:46-55. *)
Definition x5t_matches (t : x5t) (cert : pyval) (cbor_encoded : bool) : result bool :=
  if negb (truthy (t_print t)) then Ok false
  else
    c <- (if cbor_encoded then loads cert else Ok cert) ;;
    h <- hash_cert (t_alg t) c ;; Ok (veqb (t_print t) (VBytes h)).

End WithCrypto.

(** [decode], x509.py:29-33, and [encode], 42-44. *)
Definition x5t_decode (item : pyval) : result x5t :=
  a0 <- py_index item 0 ;; a <- from_id FAlg false a0 ;;
  p <- py_index item 1 ;; Ok (X5T a p).

(** [X5T.encode], x509.py:42-44. *)
Definition x5t_encode (t : x5t) : pyval := VList [t_alg t; t_print t].

(** [__eq__], x509.py:39-40. *)
Definition x5t_eq (a b : x5t) : bool := veqb (t_alg a) (t_alg b) && veqb (t_print a) (t_print b).
