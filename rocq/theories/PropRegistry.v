(** C24, C25, C67: attribute registries and algorithm tables.

    Vocabulary: SpecRegistry.v ([same_letters], [unknown_attr], [kind_matches],
    [kind_hash]) and SpecIana.v (the IANA and RFC tables). [registered f] lists the
    classes of family [f] with their full names, [from_id f allow v] is the lookup. *)
From Coq Require Import NArith ZArith Bool String.
From Coq Require Import Init.Byte List.
From Verif Require Import Bytes Value Registry Crypto Keys Algorithms SpecIana SpecRegistry RegistryProofs.
From Verif Require BytesProofs.
Import ListNotations.

(** C24. A registered attribute is found by id, by name in any letter case and by class,
    whether or not unknown attributes are allowed. *)
Theorem C24_lookup_partial : forall f c n, In (c, n) (registered f) ->
  (forall allow, from_id f allow (VInt (c_id c)) = Ok (VClass c)) /\
  (forall allow u, same_letters u n -> from_id f allow (VStr u) = Ok (VClass c)) /\
  (forall allow, from_id f allow (VClass c) = Ok (VClass c)).
Proof. exact from_id_registered. Qed.
Print Assumptions C24_lookup_partial.

Example C24_lookup_example :
  In (Cls FAlg (-7), bs "ES256") (registered FAlg) /\
  same_letters (bs "eS256") (bs "ES256") /\
  In (Cls FKP 2, bs "KID") (registered FEC2) /\
  from_id FEC2 false (VStr (bs "kid")) = Ok (VClass (Cls FKP 2)).
Proof.
  split; [vm_compute; tauto|]. split; [vm_compute; reflexivity|].
  split; [vm_compute; tauto|]. vm_compute. reflexivity.
Qed.

(** Only such an id, and only such a name (for ASCII text), finds it. *)
Theorem C24_lookup_by_id_exact_partial : forall f allow z c, from_id f allow (VInt z) = Ok (VClass c) ->
  c_id c = z /\ exists n, In (c, n) (registered f).
Proof. exact from_id_id_only. Qed.
Print Assumptions C24_lookup_by_id_exact_partial.

Theorem C24_lookup_by_name_exact_partial : forall f allow u c, BytesProofs.ascii u ->
  from_id f allow (VStr u) = Ok (VClass c) ->
  exists n, In (c, n) (registered f) /\ same_letters u n.
Proof. exact from_id_name_only. Qed.
Print Assumptions C24_lookup_by_name_exact_partial.

(** Anything that denotes no registered attribute is rejected, or returned unchanged. *)
Theorem C24_unknown_partial : forall f v, unknown_attr f v ->
  from_id f true v = Ok v /\ from_id f false v = Err CoseException.
Proof. exact from_id_unknown. Qed.
Print Assumptions C24_unknown_partial.

Example C24_unknown_example : unknown_attr FAlg (VInt 1000) /\ unknown_attr FHdr (VBytes (bs "ALG")) /\
  unknown_attr FAlg (VStr (bs "ES-256")).
Proof.
  split; [|split].
  - intros z H. injection H as <-. intros c n HI HC.
    change (registered FAlg) with (classes_of FAlg alg_table) in HI. unfold classes_of in HI.
    apply in_map_iff in HI as ([z s] & HE & HI). injection HE as <- <-. cbn [fst c_id] in HC. subst z.
    vm_compute in HI. intuition discriminate.
  - intros z H. discriminate.
  - intros c n HI HC. assert (E : from_id FAlg false (VStr (bs "ES-256")) = Err CoseException)
      by (vm_compute; reflexivity).
    pose proof (from_id_registered _ _ _ HI) as (_ & HN & _).
    rewrite (HN false (bs "ES-256")) in E; [discriminate|]. rewrite <- HC. vm_compute. reflexivity.
Qed.

(** In strict mode nothing but a registered class of that registry comes back. *)
Theorem C24_sound_partial : forall f v w, from_id f false v = Ok w -> (forall l, v <> VList l) ->
  exists c n, w = VClass c /\ In (c, n) (registered f).
Proof. exact from_id_sound. Qed.
Print Assumptions C24_sound_partial.

(** Refuted part: a class of another family with the same id is accepted. Looking up the
    header parameter KID as an algorithm gives HMAC 256/64. *)
Theorem C24_foreign_class_refuted : exists f c, c_fam c <> f /\
  (forall n, ~ In (c, n) (registered f)) /\
  exists c', from_id f false (VClass c) = Ok (VClass c') /\ c' <> c.
Proof.
  exists FAlg, (Cls FHdr 4). split; [discriminate|]. split.
  - intros n H. change (registered FAlg) with (classes_of FAlg alg_table) in H. unfold classes_of in H.
    apply in_map_iff in H as (e & HE & _). discriminate.
  - exists (Cls FAlg 4). split; [vm_compute; reflexivity|discriminate].
Qed.
Print Assumptions C24_foreign_class_refuted.

(** C25. Every class is registered under the id IANA gives to its name (compared without
    case and punctuation), and every entry of the transcribed IANA tables is there. *)
Theorem C25_iana_ids : forall f z s, In (z, s) (own_table f) ->
  exists names n, In (z, names) (iana f) /\ In n names /\ squash (bs n) = squash (bs s).
Proof. exact iana_registered. Qed.
Print Assumptions C25_iana_ids.

Theorem C25_iana_complete : forall f z names, In (z, names) (iana f) -> exists s, In (z, s) (own_table f).
Proof. exact iana_complete. Qed.
Print Assumptions C25_iana_complete.

Example C25_example : In ((-7)%Z, "ES256"%string) (own_table FAlg) /\ In (3%Z, "P_521"%string) (own_table FCrv).
Proof. split; vm_compute; tauto. Qed.

(** Ids and names are unique within each registry, inherited parameters included. *)
Theorem C25_ids_unique : forall f, NoDup (map (fun e => c_id (fst e)) (registered f)).
Proof. exact ids_unique. Qed.
Print Assumptions C25_ids_unique.

Theorem C25_names_unique : forall f, NoDup (map (fun e => upper (snd e)) (registered f)).
Proof. exact names_unique. Qed.
Print Assumptions C25_names_unique.

(** Every registered algorithm implements the registered primitive with the registered
    key and tag lengths. *)
Theorem C25_lengths : forall z i, In (z, i) iana_lengths ->
  exists k, alg_kind (VClass (Cls FAlg z)) = Some k /\ kind_matches i k = true.
Proof. exact lengths_match. Qed.
Print Assumptions C25_lengths.

Theorem C25_lengths_cover : map fst iana_lengths = map fst iana_alg /\ map fst iana_alg = map fst alg_table /\
  map fst alg_defs = map fst alg_table.
Proof. exact lengths_ids. Qed.
Print Assumptions C25_lengths_cover.

Example C25_lengths_example : In (31%Z, IAead 32 16) iana_lengths /\
  alg_kind (VClass (Cls FAlg 31)) = Some (ACcm 16 32) /\ In ((-33)%Z, IKeyWrap 24) iana_lengths.
Proof. split; [vm_compute; tauto|]. split; [vm_compute; reflexivity|vm_compute; tauto]. Qed.

(** C67. Algorithms call the hash function of their registration. *)
Theorem C67_hash_partial : forall z h, In (z, h) iana_hash ->
  exists k, alg_kind (VClass (Cls FAlg z)) = Some k /\ kind_hash k = Some h.
Proof. exact hash_match. Qed.
Print Assumptions C67_hash_partial.

Example C67_hash_example : In (6%Z, SHA384) iana_hash /\ In ((-40)%Z, SHA1) iana_hash.
Proof. split; vm_compute; tauto. Qed.

(** Curve sizes agree with the RFCs on every curve but X448 (id 5) ... *)
Theorem C67_curve_size_partial : forall z n, In (z, n) rfc_curve_size -> z <> 5%Z -> curve_size z = n.
Proof. exact curve_sizes. Qed.
Print Assumptions C67_curve_size_partial.

(** ... whose public keys have 56 bytes while the code says 57. *)
Theorem C67_x448_size_refuted : exists z n, In (z, n) rfc_curve_size /\ curve_size z <> n.
Proof. exists 5%Z, 56. split; [vm_compute; tauto|]. vm_compute. discriminate. Qed.
Print Assumptions C67_x448_size_refuted.

(** The key length of an algorithm is the one of its RFC, key agreement with key wrap
    included, and asking any other algorithm for a key length raises AttributeError. *)
Theorem C67_key_length_partial : forall z,
  (forall n, get_key_length (VClass (Cls FAlg z)) = Ok n <-> In (z, n) rfc_key_length) /\
  (forall e, get_key_length (VClass (Cls FAlg z)) = Err e -> e = AttributeError).
Proof. intros z. split; [exact (key_lengths z)|exact (key_length_err _)]. Qed.
Print Assumptions C67_key_length_partial.

(** The key wrap algorithm of a key agreement algorithm. *)
Theorem C67_key_wrap_partial : forall z,
  (forall v, get_key_wrap_func (VClass (Cls FAlg z)) = Ok v <->
     exists w, In (z, w) rfc_key_wrap /\ v = VClass (Cls FAlg w)) /\
  (forall e, get_key_wrap_func (VClass (Cls FAlg z)) = Err e -> e = AttributeError).
Proof. intros z. split; [exact (key_wraps z)|exact (key_wrap_err _)]. Qed.
Print Assumptions C67_key_wrap_partial.

Example C67_key_length_example : get_key_length (VClass (Cls FAlg (-33))) = Ok 24 /\
  get_key_wrap_func (VClass (Cls FAlg (-33))) = Ok (VClass (Cls FAlg (-4))) /\
  get_key_length (VClass (Cls FAlg (-7))) = Err AttributeError.
Proof. repeat split; vm_compute; reflexivity. Qed.
