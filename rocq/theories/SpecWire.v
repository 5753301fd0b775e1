(** Specification: how headers, keys and whole messages are written as bytes
    (RFC 8152 sections 2-7 over RFC 7049), independent of the encoder in Cbor.v. *)
From Coq Require Import NArith ZArith Bool String.
From Coq Require Import Init.Byte List.
From Verif Require Import Bytes Value SpecRfc SpecStruct SpecData Registry Crypto Keys SpecKeys Algorithms Headers Messages Recipients.
Import ListNotations.
Local Open Scope N_scope.

Definition rfc_map (items : list (bytes * bytes)) : bytes :=
  rfc_head 5 (N.of_nat (length items)) ++ concat (map (fun e => fst e ++ snd e) items).
Definition rfc_text (u : bytes) : bytes := rfc_head 3 (N.of_nat (length u)) ++ u.

(** The parameters of a key that are sent: all, but an empty list of operations. *)
Definition without_empty_ops (s s' : dict) : Prop :=
  (exists pre v post, s = pre ++ (VClass KpKeyOps, v) :: post /\ s' = pre ++ post /\
     py_len v = Ok 0%nat /\ ~ In (VClass KpKeyOps) (map fst pre)) \/
  (s' = s /\ forall pre v post, s = pre ++ (VClass KpKeyOps, v) :: post -> ~ In (VClass KpKeyOps) (map fst pre) ->
     py_len v <> Ok 0%nat).

(** IEEE 754 binary64 patterns of the infinities. *)
Definition float_inf : N := 9218868437227405312.
Definition float_neg_inf : N := 18442240474082181120.

(** [rfc_item names v b]: the object [v] is written as [b]. With [names], algorithms are
    written as text, otherwise, like all other attributes, as their registered integer. *)
Inductive rfc_item (names : bool) : pyval -> bytes -> Prop :=
| RI_null : rfc_item names VNone [xf6]
| RI_undefined : rfc_item names VUndef [xf7]
| RI_bool b : rfc_item names (VBool b) [if b then xf5 else xf4]
| RI_simple n : rfc_item names (VSimple n) (rfc_head 7 n)
| RI_int z : (- 2 ^ 64 <= z < 2 ^ 64)%Z -> rfc_item names (VInt z) (rfc_int z)
| RI_bignum z b : (2 ^ 64 <= z)%Z -> minimal_be b (Z.to_N z) -> rfc_item names (VInt z) (rfc_tag 2 (rfc_bstr b))
| RI_negative_bignum z b : (z < - 2 ^ 64)%Z -> minimal_be b (Z.to_N (-1 - z)) -> rfc_item names (VInt z) (rfc_tag 3 (rfc_bstr b))
| RI_double f : nan_pattern f = false -> f <> float_inf -> f <> float_neg_inf -> rfc_item names (VFloat f) (xfb :: to_be 8 f)
| RI_nan f : nan_pattern f = true -> rfc_item names (VFloat f) [xf9; x7e; x00]
| RI_inf : rfc_item names (VFloat float_inf) [xf9; x7c; x00]
| RI_neg_inf : rfc_item names (VFloat float_neg_inf) [xf9; xfc; x00]
| RI_bytes b : rfc_item names (VBytes b) (rfc_bstr b)
| RI_text u : rfc_item names (VStr u) (rfc_text u)
| RI_list l xs : Forall2 (rfc_item names) l xs -> rfc_item names (VList l) (rfc_array xs)
| RI_tuple l xs : Forall2 (rfc_item names) l xs -> rfc_item names (VTuple l) (rfc_array xs)
| RI_dict d xs : Forall2 (fun e x => rfc_item names (fst e) (fst x) /\ rfc_item names (snd e) (snd x)) d xs ->
    rfc_item names (VDict d) (rfc_map xs)
| RI_tag t v x : rfc_item names v x -> rfc_item names (VTag t v) (rfc_tag t x)
| RI_other t v x : rfc_item names v x -> rfc_item names (VOther t v) (rfc_tag t x)
| RI_attribute c b : c_fam c <> FAlg \/ names = false -> rfc_item names (VInt (c_id c)) b -> rfc_item names (VClass c) b
| RI_algorithm_name c : c_fam c = FAlg -> names = true -> rfc_item names (VClass c) (rfc_text (cls_fullname c))
| RI_key c s s' e xs : without_empty_ops s s' ->
    Forall2 (fun e x => rfc_item names (fst e) (fst x) /\ rfc_item names (snd e) (snd x)) s' xs ->
    rfc_item names (VKey c s e) (rfc_map xs).

(** The protected header field: the received bytes if they were kept, else nothing for an
    empty map, else the encoded map. *)
Definition protected_bytes (c : core) (p : bytes) : Prop :=
  match phdr_raw c with
  | Some r => p = r
  | None => (phdr c = [] -> p = []) /\ (phdr c <> [] -> rfc_item (tstr c) (VDict (phdr c)) p)
  end.

(** Recipients and signers are an array of their own, left out if there are none. *)
Definition recipients_field (xs : list bytes) : list bytes := match xs with [] => [] | _ => [rfc_array xs] end.

(** A recipient: protected, unprotected, ciphertext (empty without key wrapping), and the
    nested recipients if there are any. *)
Inductive rcpt_wire (names : bool) : rcpt -> bytes -> Prop :=
| RW id rc c ctx subs p u w xs : protected_bytes c p -> rfc_item names (VDict (uhdr c)) u ->
    (rc = RDirect \/ rc = RAgree -> w = []) -> Forall2 (rcpt_wire names) subs xs ->
    rcpt_wire names (Rcpt id rc c ctx subs)
      (rfc_array ([rfc_bstr p; u; rfc_bstr w] ++ recipients_field xs)).
