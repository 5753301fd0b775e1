(** Specification: which Python values are plain data, i.e. can travel through CBOR
    and come back unchanged. Independent of the encoder and decoder. *)
From Coq Require Import NArith ZArith Bool.
From Coq Require Import Init.Byte List.
From Verif Require Import Bytes Value.
Import ListNotations.
Local Open Scope N_scope.

(** No two entries of the map have equal keys. *)
Fixpoint distinct_keys (d : dict) : bool :=
  match d with
  | [] => true
  | (k, _) :: r => negb (existsb (fun kv => keyeq k (fst kv)) r) && distinct_keys r
  end.

(** IEEE 754 binary64 pattern of a NaN; Python's canonical one. *)
Definition nan_pattern (bits : N) : bool :=
  ((bits / 2 ^ 52) mod 2048 =? 2047) && negb (bits mod 2 ^ 52 =? 0).
Definition python_nan : N := 9221120237041090560.

(** Tags that do not simply annotate a value: bignums (2, 3), self-described CBOR
    (55799) and the ones cbor2 turns into other Python objects. *)
Definition reserved_tag (t : N) : bool :=
  existsb (N.eqb t)
    [0; 1; 2; 3; 4; 5; 25; 28; 29; 30; 35; 36; 37; 100; 256; 258; 260; 261; 1004; 43000; 55799].

(** [key = true] for a value inside a map key, where arrays are tuples. *)
Fixpoint data_value (key : bool) (v : pyval) : bool :=
  match v with
  | VNone | VBool _ | VInt _ | VSimple _ | VUndef | VBytes _ | VStr _ => true
  | VFloat f => negb (nan_pattern f) || (f =? python_nan)
  | VList l => negb key && forallb (data_value key) l
  | VTuple l => key && forallb (data_value key) l
  | VDict d =>
    distinct_keys d &&
    forallb (fun kv => match kv with (k, x) => data_value true k && data_value key x end) d
  | VTag t x => negb (reserved_tag t) && data_value key x
  | VBreak | VOther _ _ | VClass _ | VKey _ _ _ => false
  end.
