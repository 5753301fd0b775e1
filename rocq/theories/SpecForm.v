(** The CBOR data formats, stated from RFC 8949 and RFC 3629 without the decoder: which byte
    strings are an encoding of a data item, and which byte strings are UTF-8 text. *)
From Coq Require Import NArith ZArith Bool.
From Coq Require Import Init.Byte List.
From Verif Require Import Bytes Value Cbor.
Import ListNotations.
Local Open Scope N_scope.

(** ** UTF-8 (RFC 3629, section 3) *)

(** Unicode scalar values: code points other than surrogates. *)
Definition scalar (u : N) : Prop := u < 0xd800 \/ 0xe000 <= u < 0x110000.

(** The 1 to 4 bytes of a scalar value. *)
Definition utf8 (u : N) : bytes :=
  if u <? 0x80 then [byte_of_N u]
  else if u <? 0x800 then [byte_of_N (0xc0 + u / 64); byte_of_N (0x80 + u mod 64)]
  else if u <? 0x10000 then [byte_of_N (0xe0 + u / 4096); byte_of_N (0x80 + u / 64 mod 64); byte_of_N (0x80 + u mod 64)]
  else [byte_of_N (0xf0 + u / 262144); byte_of_N (0x80 + u / 4096 mod 64); byte_of_N (0x80 + u / 64 mod 64); byte_of_N (0x80 + u mod 64)].

(** A byte string is text if it is the encoding of some sequence of scalar values. *)
Definition text (b : bytes) : Prop := exists us, Forall scalar us /\ b = flat_map utf8 us.

(** ** Well-formed encodings (RFC 8949, section 3) *)

(** The head of an item of major type [m] with argument [n]: the argument in the low five bits
    of the first byte, or in the 1, 2, 4 or 8 bytes that follow it. Any of these forms is
    allowed if the argument fits. *)
Inductive header (m n : N) : bytes -> Prop :=
| in_first : n < 24 -> header m n [byte_of_N (m * 32 + n)]
| in_one : n < 256 -> header m n (byte_of_N (m * 32 + 24) :: to_be 1 n)
| in_two : n < 65536 -> header m n (byte_of_N (m * 32 + 25) :: to_be 2 n)
| in_four : n < 4294967296 -> header m n (byte_of_N (m * 32 + 26) :: to_be 4 n)
| in_eight : n < 18446744073709551616 -> header m n (byte_of_N (m * 32 + 27) :: to_be 8 n).

(** The chunks of an indefinite-length string: definite-length strings of the same type. *)
Inductive chunks (m : N) : list bytes -> bytes -> Prop :=
| no_chunk : chunks m [] []
| one_chunk : forall h s ss b, header m (blen s) h -> chunks m ss b -> chunks m (s :: ss) (h ++ s ++ b).

(** [encoding c b]: [b] is a well-formed encoding of [c]. *)
Inductive encoding : cbor -> bytes -> Prop :=
| e_uint : forall n h, header 0 n h -> encoding (CUint n) h
| e_nint : forall n h, header 1 n h -> encoding (CNint n) h
| e_bytes : forall s h, header 2 (blen s) h -> encoding (CBytes s) (h ++ s)
| e_byte_chunks : forall ss b, chunks 2 ss b -> encoding (CBytes (concat ss)) (x5f :: b ++ [xff])
| e_text : forall s h, text s -> header 3 (blen s) h -> encoding (CText s) (h ++ s)
| e_text_chunks : forall ss b, Forall text ss -> chunks 3 ss b -> encoding (CText (concat ss)) (x7f :: b ++ [xff])
| e_array : forall l h b, header 4 (N.of_nat (length l)) h -> sequence l b -> encoding (CArr l) (h ++ b)
| e_array_open : forall l b, sequence l b -> encoding (CArr l) (x9f :: b ++ [xff])
| e_map : forall l h b, header 5 (N.of_nat (length l)) h -> pairs l b -> encoding (CMap l) (h ++ b)
| e_map_open : forall l b, pairs l b -> encoding (CMap l) (xbf :: b ++ [xff])
| e_tag : forall t c h b, header 6 t h -> encoding c b -> encoding (CTag t c) (h ++ b)
| e_const : forall n, 20 <= n < 24 -> encoding (CConst n) [byte_of_N (224 + n)]
| e_simple : forall n, n < 20 -> encoding (CSimple n) [byte_of_N (224 + n)]
| e_simple_byte : forall n, 32 <= n < 256 -> encoding (CSimple n) [xf8; byte_of_N n]
| e_half : forall b, length b = 2%nat -> encoding (CFloat F16 (of_be b)) (xf9 :: b)
| e_single : forall b, length b = 4%nat -> encoding (CFloat F32 (of_be b)) (xfa :: b)
| e_double : forall b, length b = 8%nat -> encoding (CFloat F64 (of_be b)) (xfb :: b)
with sequence : list cbor -> bytes -> Prop :=
| s_nil : sequence [] []
| s_cons : forall c l b b', encoding c b -> sequence l b' -> sequence (c :: l) (b ++ b')
with pairs : list (cbor * cbor) -> bytes -> Prop :=
| p_nil : pairs [] []
| p_cons : forall k v l bk bv b, encoding k bk -> encoding v bv -> pairs l b -> pairs ((k, v) :: l) (bk ++ bv ++ b).

(** What cbor2 reads although RFC 8949 calls it malformed: a "break" where an item is
    expected, and a simple value below 24 written in two bytes. *)
Fixpoint regular (c : cbor) : Prop :=
  match c with
  | CArr l => fold_right (fun x r => regular x /\ r) True l
  | CMap l => fold_right (fun kv r => match kv with (k, v) => regular k /\ regular v end /\ r) True l
  | CTag _ c' => regular c'
  | CSimple n => 32 <= n
  | CBreak => False
  | _ => True
  end.

(** ** Floating-point numbers (IEEE 754) *)

(** The number an IEEE bit pattern stands for; a finite one by its sign and its magnitude in
    units of 2^-1074, the smallest positive double. *)
Inductive real := Finite (negative : bool) (magnitude : N) | Infinite (negative : bool) | NotANumber.

(** With [e] bits of exponent and [m] bits of mantissa; the exponent bias is 2^(e-1) - 1. *)
Definition ieee (e m bits : N) : real :=
  let negative := bits / 2 ^ (e + m) =? 1 in
  let exponent := bits / 2 ^ m mod 2 ^ e in
  let fraction := bits mod 2 ^ m in
  let bias := 2 ^ (e - 1) - 1 in
  if exponent =? 2 ^ e - 1 then if fraction =? 0 then Infinite negative else NotANumber
  else if exponent =? 0 then Finite negative (fraction * 2 ^ (1 + 1074 - bias - m))
  else Finite negative ((2 ^ m + fraction) * 2 ^ (exponent + 1074 - bias - m)).

(** Half, single and double precision. *)
Definition number (w : fwidth) (bits : N) : real :=
  match w with F16 => ieee 5 10 bits | F32 => ieee 8 23 bits | F64 => ieee 11 52 bits end.
