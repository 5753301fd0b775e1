(** Vocabulary of C111: the rules of RFC 8152, section 14, for encoders: definite lengths, every
    length and number in its shortest form, and no map with the same label twice. *)
From Coq Require Import NArith Bool.
From Coq Require Import Init.Byte List.
From Verif Require Import Bytes Value Cbor SpecForm.
Import ListNotations.
Local Open Scope N_scope.

(** The shortest of the heads that SpecForm.v allows for an argument. *)
Definition shortest (m n : N) (h : bytes) : Prop := header m n h /\ forall h', header m n h' -> (length h <= length h')%nat.

(** [strict c b]: [b] is an encoding of [c] with definite lengths and shortest heads. *)
Inductive strict : cbor -> bytes -> Prop :=
| st_uint : forall n h, shortest 0 n h -> strict (CUint n) h
| st_nint : forall n h, shortest 1 n h -> strict (CNint n) h
| st_bytes : forall s h, shortest 2 (blen s) h -> strict (CBytes s) (h ++ s)
| st_text : forall s h, text s -> shortest 3 (blen s) h -> strict (CText s) (h ++ s)
| st_array : forall l h b, shortest 4 (N.of_nat (length l)) h -> strict_items l b -> strict (CArr l) (h ++ b)
| st_map : forall l h b, shortest 5 (N.of_nat (length l)) h -> strict_pairs l b -> strict (CMap l) (h ++ b)
| st_tag : forall t c h b, shortest 6 t h -> strict c b -> strict (CTag t c) (h ++ b)
| st_const : forall n, 20 <= n < 24 -> strict (CConst n) [byte_of_N (224 + n)]
| st_simple : forall n, n < 20 -> strict (CSimple n) [byte_of_N (224 + n)]
| st_simple_byte : forall n, 32 <= n < 256 -> strict (CSimple n) [xf8; byte_of_N n]
| st_half : forall b, length b = 2%nat -> strict (CFloat F16 (of_be b)) (xf9 :: b)
| st_single : forall b, length b = 4%nat -> strict (CFloat F32 (of_be b)) (xfa :: b)
| st_double : forall b, length b = 8%nat -> strict (CFloat F64 (of_be b)) (xfb :: b)
with strict_items : list cbor -> bytes -> Prop :=
| si_nil : strict_items [] []
| si_cons : forall c l b b', strict c b -> strict_items l b' -> strict_items (c :: l) (b ++ b')
with strict_pairs : list (cbor * cbor) -> bytes -> Prop :=
| sp_nil : strict_pairs [] []
| sp_cons : forall k v l bk bv b, strict k bk -> strict v bv -> strict_pairs l b -> strict_pairs ((k, v) :: l) (bk ++ bv ++ b).

(** No map in the item, at any depth, has the same label twice. *)
Fixpoint no_repeats (c : cbor) : Prop :=
  match c with
  | CArr l => fold_right (fun x r => no_repeats x /\ r) True l
  | CMap l => NoDup (map fst l) /\ fold_right (fun kv r => match kv with (k, v) => no_repeats k /\ no_repeats v end /\ r) True l
  | CTag _ c' => no_repeats c'
  | _ => True
  end.

(** The bytes obey all three rules. *)
Definition section14 (b : bytes) : Prop := exists c, strict c b /\ no_repeats c.

