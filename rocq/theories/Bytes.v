(** Byte strings and the integer/text conversions pycose relies on. *)
From Coq Require Import NArith ZArith Bool String.
From Coq Require Import Init.Byte Strings.Byte List.
Import ListNotations.
Local Open Scope N_scope.

(** Python [bytes]: a list of 8-bit bytes (the type has exactly 256 values). Used
    throughout pycose, e.g. cosebase.py:57-59, cosemessage.py:130-138. *)
Definition bytes := list byte.

(** ASCII literals, e.g. the context strings in pycose/messages/*.py. *)
Definition bs (s : string) : bytes := list_byte_of_string s.

(** A byte from its number, as in [int.to_bytes] (enccommon.py:87, ec2.py:80-81). *)
Definition byte_of_N (n : N) : byte :=
  match Byte.of_N (n mod 256) with Some b => b | None => x00 end.

(** The number of a byte, as in [int.from_bytes] (enccommon.py:86, algorithms.py:93). *)
Definition b2N (b : byte) : N := Byte.to_N b.

(** [n.to_bytes(k, "big")] for [n < 256^k] (Python raises OverflowError
    otherwise; callers in the model check the bound where it can fail).
    Used by pycose/messages/enccommon.py:87, pycose/keys/rsa.py:19,
    pycose/keys/ec2.py:80-87,154-174, and by cbor2 for head arguments. *)
Fixpoint to_be (k : nat) (n : N) : bytes :=
  match k with
  | O => []
  | S k' => to_be k' (n / 256) ++ [byte_of_N n]
  end.

(** [int.from_bytes(l, "big")]: pycose/messages/enccommon.py:86,
    pycose/algorithms.py:93-99, pycose/keys/ec2.py:150. *)
Definition of_be (l : bytes) : N :=
  fold_left (fun a b => a * 256 + b2N b) l 0.

(** [(n.bit_length() + 7) // 8]: pycose/keys/rsa.py:18,
    pycose/messages/enccommon.py:87. *)
Definition byte_len (n : N) : nat := N.to_nat ((N.size n + 7) / 8).

(** [to_bstr], pycose/keys/rsa.py:17-19; same expression at
    pycose/messages/enccommon.py:87 and in cbor2's bignum encoder. *)
Definition min_be (n : N) : bytes := to_be (byte_len n) n.

(** [len(b)] of a byte string (symmetric.py:91, algorithms.py:268). *)
Definition blen (l : bytes) : N := N.of_nat (length l).

(** Decidable equality of byte strings ([==] on [bytes]). Used at cosebase.py:32,
    algorithms.py:228,258, recipient.py:196. *)
Definition byte_eqb (a b : byte) : bool := Byte.eqb a b.

(** [==] on [bytes] (cosebase.py:32, algorithms.py:228,258). *)
Fixpoint bytes_eqb (a b : bytes) : bool :=
  match a, b with
  | [], [] => true
  | x :: a', y :: b' => byte_eqb x y && bytes_eqb a' b'
  | _, _ => false
  end.

(** Continuation bytes of UTF-8 sequences. Decoding of text strings by cbor2
    (cosebase.py:35, cosemessage.py:55). *)
Definition in_range (lo hi : N) (b : byte) : bool := (lo <=? b2N b) && (b2N b <=? hi).

(** Well-formed UTF-8 (RFC 3629 / Unicode table 3-7), i.e. what
    [bytes.decode('utf-8')] accepts. Python [str] values are represented in the
    model by their UTF-8 encoding, so a [str] is a byte string satisfying this. *)
Fixpoint utf8_valid (l : bytes) : bool :=
  match l with
  | [] => true
  | b0 :: r0 =>
    if b2N b0 <? 128 then utf8_valid r0
    else if in_range 194 223 b0 then
      match r0 with
      | b1 :: r1 => in_range 128 191 b1 && utf8_valid r1
      | _ => false
      end
    else if in_range 224 239 b0 then
      match r0 with
      | b1 :: r1 =>
        match r1 with
        | b2 :: r2 =>
          in_range (if b2N b0 =? 224 then 160 else 128)
                   (if b2N b0 =? 237 then 159 else 191) b1
          && in_range 128 191 b2 && utf8_valid r2
        | _ => false
        end
      | _ => false
      end
    else if in_range 240 244 b0 then
      match r0 with
      | b1 :: r1 =>
        match r1 with
        | b2 :: r2 =>
          match r2 with
          | b3 :: r3 =>
            in_range (if b2N b0 =? 240 then 144 else 128)
                     (if b2N b0 =? 244 then 143 else 191) b1
            && in_range 128 191 b2 && in_range 128 191 b3 && utf8_valid r3
          | _ => false
          end
        | _ => false
        end
      | _ => false
      end
    else false
  end.

(** ASCII part of [str.upper()]. Used for attribute names, utils.py:23,32-33.
    Simplification: letters outside ASCII are left alone. *)
Definition upper_byte (b : byte) : byte :=
  if in_range 97 122 b then byte_of_N (b2N b - 32) else b.

(** [str.upper()] as used in pycose/utils.py:23,32-33, on the UTF-8 form.
    ASCII letters are mapped; so are the only non-ASCII code points whose
    upper-case form is pure ASCII (U+00DF, U+0131, U+017F, U+FB00..U+FB06).
    Simplification: any other non-ASCII code point is left unchanged. Its real
    upper-case form also contains a non-ASCII code point, and the result is only
    ever compared with the registered names, which are ASCII, so lookups agree. *)
Fixpoint upper (l : bytes) : bytes :=
  match l with
  | [] => []
  | b0 :: r0 =>
    match r0 with
    | b1 :: r1 =>
      if byte_eqb b0 xc3 && byte_eqb b1 x9f then bs "SS" ++ upper r1
      else if byte_eqb b0 xc4 && byte_eqb b1 xb1 then bs "I" ++ upper r1
      else if byte_eqb b0 xc5 && byte_eqb b1 xbf then bs "S" ++ upper r1
      else
        match r1 with
        | b2 :: r2 =>
          if byte_eqb b0 xef && byte_eqb b1 xac && in_range 128 134 b2
          then nth (N.to_nat (b2N b2 - 128))
                   [bs "FF"; bs "FI"; bs "FL"; bs "FFI"; bs "FFL"; bs "ST"; bs "ST"] []
               ++ upper r2
          else upper_byte b0 :: upper r0
        | [] => upper_byte b0 :: upper r0
        end
    | [] => upper_byte b0 :: upper r0
    end
  end.

(** Lower-case hexadecimal literals, for examples taken from test vectors. No code in
    /repo/pycose: notation for the literals of /repo/tests. *)
Definition hexval (b : byte) : N :=
  if in_range 48 57 b then b2N b - 48
  else if in_range 97 102 b then b2N b - 87
  else if in_range 65 70 b then b2N b - 55 else 0.

(** See [hexval]; no code in /repo/pycose. *)
Fixpoint unhex_aux (l : bytes) : bytes :=
  match l with
  | a :: b :: r => byte_of_N (hexval a * 16 + hexval b) :: unhex_aux r
  | _ => []
  end.

(** See [hexval]; no code in /repo/pycose. *)
Definition unhex (s : string) : bytes := unhex_aux (bs s).
