(** Vocabulary of C104: maps whose entries are in a different order. *)
From Coq Require Import NArith ZArith Bool String Permutation.
From Coq Require Import Init.Byte List.
From Verif Require Import Bytes Value Cbor Registry Crypto Keys Headers Messages Recipients SpecData SpecRegistry SpecKeys.
Import ListNotations.

(** What every Python dict satisfies: keys are hashable and pairwise different. *)
Definition python_dict (d : dict) : Prop := distinct_keys d = true /\ Forall (fun e => hashable (fst e) = true) d.

(** No two keys of the map stand for the same attribute, e.g. [1] and ["ALG"]. *)
Definition named_once (f : fam) (d : dict) : Prop :=
  ForallOrdPairs (fun e e' => forall s s', stands_for f (fst e) s -> stands_for f (fst e') s' -> keyeq s s' = false) d.

(** Two maps from which the same values are read. *)
Definition same_entries (d d' : dict) : Prop := forall a, dget d a = dget d' a.

(** Two keys of one type with the same items and attributes. *)
Definition same_key (k k' : key) : Prop :=
  k_cls k = k_cls k' /\ same_entries (k_store k) (k_store k') /\ k_extra k = k_extra k'.

(** Two messages that differ in the order of the unprotected headers. *)
Definition reordered (c c' : core) : Prop :=
  phdr c' = phdr c /\ phdr_raw c' = phdr_raw c /\ local c' = local c /\ tstr c' = tstr c /\ payload c' = payload c /\ aad c' = aad c /\ ckey c' = ckey c /\
  Permutation (uhdr c) (uhdr c') /\ distinct_keys (uhdr c) = true.

Inductive reordered_rcpt : rcpt -> rcpt -> Prop :=
| RR id rc c c' ctx subs subs' : reordered c c' -> Forall2 reordered_rcpt subs subs' -> reordered_rcpt (Rcpt id rc c ctx subs) (Rcpt id rc c' ctx subs').

(** The same for a received message, as a whole. *)
Inductive reordered_message : message -> message -> Prop :=
| RM_sign1 c c' s : reordered c c' -> reordered_message (MSign1 (Sign1 c s)) (MSign1 (Sign1 c' s))
| RM_sign c c' l l' : reordered c c' -> Forall2 reordered l l' -> reordered_message (MSign (SignMsg c l)) (MSign (SignMsg c' l'))
| RM_enc0 c c' : reordered c c' -> reordered_message (MEnc0 c) (MEnc0 c')
| RM_mac0 c c' t : reordered c c' -> reordered_message (MMac0 (Mac0 c t)) (MMac0 (Mac0 c' t))
| RM_enc c c' l l' : reordered c c' -> Forall2 reordered_rcpt l l' -> reordered_message (MEnc (EncMsg c l)) (MEnc (EncMsg c' l'))
| RM_mac c c' t l l' : reordered c c' -> Forall2 reordered_rcpt l l' -> reordered_message (MMac (MacMsg c t (Some l))) (MMac (MacMsg c' t (Some l'))).

(** The header maps of a received array, in two orders. *)
Definition header_maps (u u' : dict) : Prop := Permutation u u' /\ python_dict u /\ named_once FHdr u.

(** One signature or recipient in the array: protected bytes, unprotected map, the rest. *)
Inductive reordered_part : pyval -> pyval -> Prop :=
| RP p u u' rest : header_maps u u' -> reordered_part (VList (p :: VDict u :: rest)) (VList (p :: VDict u' :: rest)).

(** The array of a message with CBOR tag [t], RFC 8152 sections 4 to 6. *)
Inductive reordered_array : N -> list pyval -> list pyval -> Prop :=
| RA_single t p u u' rest : In t [16; 17; 18]%N -> header_maps u u' -> reordered_array t (p :: VDict u :: rest) (p :: VDict u' :: rest)
| RA_sign p u u' x l l' : header_maps u u' -> Forall2 reordered_part l l' ->
    reordered_array 98 [p; VDict u; x; VList l] [p; VDict u'; x; VList l']
| RA_enc p u u' x l l' : header_maps u u' -> Forall2 reordered_part l l' ->
    reordered_array 96 [p; VDict u; x; VList l] [p; VDict u'; x; VList l']
| RA_mac p u u' x t l l' : header_maps u u' -> Forall2 reordered_part l l' ->
    reordered_array 97 [p; VDict u; x; t; VList l] [p; VDict u'; x; t; VList l'].

(** The message has all the recipients of the array: none was dropped. *)
Definition all_recipients (m : message) (o : list pyval) : Prop :=
  match m with
  | MEnc e => exists l, nth_error o 3 = Some (VList l) /\ length (e_rcpts e) = length l
  | MMac e => exists l rs, nth_error o 4 = Some (VList l) /\ mm_rcpts e = Some rs /\ length rs = length l
  | _ => True
  end.
