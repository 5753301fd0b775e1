(** Vocabulary of the header and decoding properties (C20-C23, C26-C30, C32, C55, C56, C71). *)
From Coq Require Import NArith ZArith Bool String.
From Coq Require Import Init.Byte List.
From Verif Require Import Bytes Value Cbor Registry Crypto Keys Algorithms Headers Messages Recipients
  SpecRegistry SpecKeys.
Import ListNotations.

(** [v] is the value of the last entry whose key satisfies [P]; there is no such entry. *)
Definition last_value (P : pyval -> Prop) (d : dict) (v : pyval) : Prop :=
  exists pre k post, d = pre ++ (k, v) :: post /\ P k /\ forall k' v', In (k', v') post -> ~ P k'.
Definition no_value (P : pyval -> Prop) (d : dict) : Prop := forall k v, In (k, v) d -> ~ P k.

(** The algorithm(s) a header value denotes. *)
Definition algorithm_value : pyval -> pyval -> Prop := names FAlg.

(** What is stored for value [v] of header [c]: algorithms as classes, the ephemeral and
    static keys as keys, anything else unchanged. *)
Definition header_value (X : crypto) (c : cls) (v w : pyval) : Prop :=
  if Z.eqb (c_id c) 1 then algorithm_value v w
  else if Z.eqb (c_id c) (-1) || Z.eqb (c_id c) (-2) then exists k, from_dict X v = Ok k /\ w = kval k
  else w = v.

(** [stored] is the normal form of the header map [given]. *)
Definition normal_form (X : crypto) (given stored : dict) : Prop :=
  forall c n, In (c, n) (registered FHdr) ->
    (forall v, last_value (spells c n) given v ->
       exists w, dget stored (VClass c) = Some w /\ header_value X c v w) /\
    (no_value (spells c n) given -> dget stored (VClass c) = None) /\
    (forall k w, In (k, w) stored -> spells c n k -> k = VClass c).

(** The protected header map that a message is built from: the dict argument, or the map
    in the encoded argument. *)
Definition protected_map (hdr encoded : pyval) (d : dict) : Prop :=
  (hdr = VDict d /\ encoded = VNone) \/
  (hdr = VNone /\ exists b, encoded = VBytes b /\ loads_bytes b = Ok (VDict d)) \/
  (hdr = VNone /\ (encoded = VNone \/ encoded = VBytes []) /\ d = []).
Definition unprotected_map (hdr : pyval) (d : dict) : Prop :=
  hdr = VDict d \/ (hdr = VNone /\ d = []).

(** Type rules for header values (RFC 8152 section 3.1, RFC 8613). *)
Definition bstr_headers : list Z := [4; 5; 6; 9; 10]%Z.
Definition is_bytes_value (v : pyval) : Prop := exists b, v = VBytes b.
Definition is_label_array (v : pyval) : Prop :=
  exists l, v = VList l /\ l <> [] /\
    Forall (fun x => (exists z, x = VInt z) \/ (exists b, x = VBool b) \/ (exists u, x = VStr u)) l.
Definition is_uint_or_text (v : pyval) : Prop :=
  (exists z, v = VInt z /\ (0 <= z)%Z) \/ (exists u, v = VStr u).
Definition is_known_algorithm (v : pyval) : Prop :=
  exists c n, v = VClass c /\ In (c, n) (registered FAlg).
Definition is_python_bool (v : pyval) : Prop := exists b, v = VBool b.

(** The fields shared by all messages. *)
Definition message_core (m : message) : core :=
  match m with
  | MSign1 m => s1_core m | MSign m => sm_core m | MEnc0 c => c
  | MMac0 m => m0_core m | MEnc m => e_core m | MMac m => mm_core m
  end.

(** The message class of each CBOR tag, RFC 8152 table 1. *)
Definition tag_of_class (m : message) : N :=
  match m with
  | MEnc0 _ => 16 | MMac0 _ => 17 | MSign1 _ => 18 | MEnc _ => 96 | MMac _ => 97 | MSign _ => 98
  end.
Definition cose_tags : list N := [16; 17; 18; 96; 97; 98]%N.

(** In-place changes of the protected map: [msg.phdr[k] = v], [msg.phdr.pop(k)]. *)
Definition in_place (o : hdr_op) : Prop :=
  match o with HSetPItem _ _ | HDelPItem _ => True | _ => False end.

(** Operations on the protected map. *)
Definition touches_protected (o : hdr_op) : Prop :=
  match o with HSetPhdr _ | HUpdatePhdr _ | HSetPItem _ _ | HDelPItem _ => True | _ => False end.

(** The encoding of the current protected map: the empty string for the empty map. *)
Definition map_encoding (c : core) : result bytes :=
  match phdr c with [] => Ok [] | d => dumps cls_fullname (HMsg (tstr c)) (VDict d) end.

(** A value that is legal for header [c] in a given map. The two looser cases are what
    pycose also lets through, see C27_typed_values_refuted. *)
Definition legal_value (c : cls) (v : pyval) : Prop :=
  (In (c_id c) bstr_headers -> is_bytes_value v) /\
  (c_id c = 2%Z -> is_label_array v) /\
  (c_id c = 3%Z -> is_uint_or_text v \/ is_python_bool v) /\
  (c_id c = 1%Z -> (exists a n, In (a, n) (registered FAlg) /\ spells a n v) \/ exists l, v = VList l).

(** The same for a stored header map. *)
Definition legal_headers (h : dict) : Prop :=
  (forall z v, In z bstr_headers -> dget h (hdr z) = Some v -> is_bytes_value v) /\
  (forall v, dget h Critical = Some v -> is_label_array v) /\
  (forall v, dget h ContentType = Some v -> is_uint_or_text v \/ is_python_bool v) /\
  (forall v, dget h Algorithm = Some v -> is_known_algorithm v \/ exists l, v = VList l).

(** No header map of the arguments contains an unregistered parameter. *)
Definition all_registered (d : dict) : Prop :=
  forall k v, In (k, v) d -> ~ unknown_attr FHdr k.

(** A message has a key of one of the given types which is authorised for the message's
    algorithm and the operation [op]. *)
Definition authorised (c : core) (types : list kclass) (op : cls) : Prop :=
  exists k a, ckey c = Some k /\ get_attr c Algorithm = Ok (VClass a) /\
    In (k_cls k) types /\ alg_ok k a /\ ops_ok k [op].

(** The key's operations are a list (item assignment could store anything). *)
Definition ops_listed (c : core) : Prop :=
  forall k v, ckey c = Some k -> param k KpKeyOps = Some v -> is_list v.

(** The two runs fail in the same way: what the primitives are made no difference. *)
Definition same_failure {A} (r r' : result A) : Prop := r = r' /\ exists e, r = Err e.
