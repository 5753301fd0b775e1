(** C107: attribute objects compare like the registry entries they stand for. *)
From Coq Require Import ZArith Bool String Lia.
From Coq Require Import Init.Byte List.
From Verif Require Import Bytes Value ValueProofs Registry RegistryProofs SpecRegistry Compare.
Import ListNotations.

(** An attribute object, or an attribute class. *)
Definition attribute (o : operand) (c : cls) : Prop := o = AttrObj c \/ o = Other (VClass c).
Definition object (o : operand) : Prop := exists c, o = AttrObj c.
Definition says (op : operator) (a b : operand) (r : bool) : Prop := compare op a b = Some (Ok r).

(** The six operators answer as the order of the identifiers, in both directions. *)
Theorem C107_order_partial : forall a b c d, attribute a c -> attribute b d -> object a \/ object b ->
  says OpEq a b (c_id c =? c_id d)%Z /\ says OpNe a b (negb (c_id c =? c_id d)%Z) /\
  says OpLt a b (c_id c <? c_id d)%Z /\ says OpLe a b (c_id c <=? c_id d)%Z /\
  says OpGt a b (c_id d <? c_id c)%Z /\ says OpGe a b (c_id d <=? c_id c)%Z.
Proof.
  intros a b c d HA HB HO. unfold says.
  destruct HA as [->| ->]; destruct HB as [->| ->]; try (destruct HO as [[x Q]|[x Q]]; discriminate);
    cbn [compare method identifier bind reflected]; rewrite ?(Z.eqb_sym (c_id d) (c_id c)); auto 10.
Qed.
Print Assumptions C107_order_partial.

(** Two objects for the same kind of attribute are equal exactly if they stand for the same one. *)
Theorem C107_same_kind_partial : forall f a b c d n m, In (c, n) (registered f) -> In (d, m) (registered f) ->
  attribute a c -> attribute b d -> object a \/ object b -> (says OpEq a b true <-> c = d) /\ (says OpEq a b false <-> c <> d).
Proof.
  intros f a b c d n m HC HD HA HB HO. destruct (C107_order_partial a b c d HA HB HO) as (HE & _). unfold says in *. rewrite HE.
  assert (HI : (c_id c =? c_id d)%Z = true <-> c = d).
  { rewrite Z.eqb_eq. split; [|intros ->; reflexivity]. intros Q. exact (proj1 (registered_id_unique _ _ _ _ _ HC HD Q)). }
  destruct (c_id c =? c_id d)%Z; split; split; intros Q; try discriminate Q; try reflexivity.
  - apply HI. reflexivity.
  - elim Q. apply HI. reflexivity.
  - apply HI in Q. discriminate.
  - intros E. apply HI in E. discriminate.
Qed.
Print Assumptions C107_same_kind_partial.

(** A registered attribute object is translated to its class, wherever attributes are looked up;
    one of another kind or with an unknown identifier to whatever has its identifier. *)
Theorem C107_lookup_partial : forall f allow c,
  (forall n, In (c, n) (registered f) -> from_id_obj f allow c = Ok (Other (VClass c))) /\
  ((forall d n, In (d, n) (registered f) -> c_id d <> c_id c) ->
     from_id_obj f true c = Ok (AttrObj c) /\ from_id_obj f false c = Err CoseException).
Proof.
  intros f allow c. unfold from_id_obj. split.
  - intros n HI. pose proof (from_id_spells f true c n (VInt (c_id c)) HI eq_refl) as H. cbn [from_id] in H.
    destruct (dget (registry f) (VInt (c_id c))); [injection H as ->; reflexivity|discriminate].
  - intros HN. rewrite (registry_unknown_int _ _ HN). auto.
Qed.
Print Assumptions C107_lookup_partial.

(** Different attributes of the same kind print differently. *)
Theorem C107_repr : forall f c d n m, In (c, n) (registered f) -> In (d, m) (registered f) ->
  obj_repr c = obj_repr d -> c = d.
Proof.
  intros f c d n m HC HD E. apply in_map with (f := fst) in HC, HD. cbn [fst] in HC, HD.
  assert (HN : forall f, NoDup (map obj_repr (map fst (registered f)))).
  { clear. intros f. replace (map obj_repr (map fst (registered f))) with (nodup (list_eq_dec Byte.byte_eq_dec) (map obj_repr (map fst (registered f))));
      [apply NoDup_nodup|destruct f; vm_compute; reflexivity]. }
  specialize (HN f). revert HN HC HD E. generalize (map fst (registered f)). intros l.
  induction l as [|x l IH]; intros HN HC HD E; [destruct HC|]. cbn [map] in HN. inversion HN as [|? ? HX HN']; subst.
  destruct HC as [->|HC]; destruct HD as [->|HD]; auto.
  - elim HX. rewrite E. apply in_map. assumption.
  - elim HX. rewrite <- E. apply in_map. assumption.
Qed.
Print Assumptions C107_repr.

(** What the operators do not deliver. *)
(** Objects of different kinds are equal whenever their numbers agree: the header ALG and the key
    type OKP. *)
Theorem C107_other_kind_refuted : exists f g c d, f <> g /\ c <> d /\
  In (c, cls_fullname c) (registered f) /\ In (d, cls_fullname d) (registered g) /\ says OpEq (AttrObj c) (AttrObj d) true.
Proof.
  exists FHdr, FKty, (Cls FHdr 1), (Cls FKty 1). split; [discriminate|]. split; [discriminate|].
  split; [vm_compute; auto|]. split; [vm_compute; auto|]. reflexivity.
Qed.
Print Assumptions C107_other_kind_refuted.

(** Comparing with anything that is no attribute raises, even [==] and [!=], from both sides. *)
Theorem C107_compare_raises_refuted : forall op c v, (forall d, v <> VClass d) ->
  compare op (AttrObj c) (Other v) = Some (Err AttributeError) /\ compare op (Other v) (AttrObj c) = Some (Err AttributeError).
Proof. intros op c v HV. destruct v; try (elim (HV _ eq_refl)); split; destruct op; reflexivity. Qed.
Print Assumptions C107_compare_raises_refuted.

(** No attribute object can be the key of a dict, so none can name a header. *)
Theorem C107_not_hashable_refuted : forall c, obj_hash (AttrObj c) = Err TypeError.
Proof. reflexivity. Qed.
Print Assumptions C107_not_hashable_refuted.

(** An object of another kind is taken for the attribute with its number. *)
Theorem C107_wrong_kind_refuted : forall c d f n allow, In (d, n) (registered f) -> c_id c = c_id d ->
  from_id_obj f allow c = Ok (Other (VClass d)).
Proof.
  intros c d f n allow HI E. pose proof (proj1 (C107_lookup_partial f allow d) n HI) as H. unfold from_id_obj in *. rewrite E.
  destruct (dget (registry f) (VInt (c_id d))); [exact H|]. destruct allow; discriminate.
Qed.
Print Assumptions C107_wrong_kind_refuted.

(** Non-vacuity: [KID()] (4) and [IV()] (5), and the class [KID]. *)
Example C107_ex : In (Cls FHdr 4, bs "KID") (registered FHdr) /\ In (Cls FHdr 5, bs "IV") (registered FHdr) /\
  says OpLt (AttrObj (Cls FHdr 4)) (AttrObj (Cls FHdr 5)) true /\ says OpEq (Other KID) (AttrObj (Cls FHdr 4)) true /\
  says OpGe (Other KID) (AttrObj (Cls FHdr 5)) false /\ obj_repr (Cls FHdr 4) = bs "<KID: 4>" /\
  obj_repr (Cls FAlg (-7)) = bs "<ES256: -7>".
Proof. split; [vm_compute; auto 10|]. split; [vm_compute; auto 10|]. repeat split. Qed.
