(** C102: the attributes and the items of a key are two views of the same parameters. *)
From Coq Require Import NArith ZArith Bool String.
From Coq Require Import Init.Byte List.
From Verif Require Import Bytes Value ValueProofs Registry Crypto Toy Keys RegistryProofs KeyProofs KeyProofs3 KeyProofs4 MapProofs SpecRegistry SpecKeys SpecMapping SpecViews PropKeys PropMapping.
Import ListNotations.

Lemma documented_place : forall c p q, In (p, q) (documented c) <-> place c p = Some q.
Proof.
  intros c p q. split.
  - intros H. destruct c; cbn in H; repeat (destruct H as [H|H]; [injection H as <- <-; reflexivity|]); destruct H.
  - intros H. destruct c, p; cbn in H; try discriminate; injection H as <-; cbn; auto 15.
Qed.

Lemma views_get : forall k p q a, In (p, q) (documented (k_cls k)) -> denotes (k_cls k) a q ->
  prop_get k p = match param k q with Some v => Ok v | None => when_missing p end /\
  item_get k a = match param k q with Some v => Ok v | None => Err KeyError end /\
  item_in k a = Ok (match param k q with Some _ => true | None => false end).
Proof.
  intros k p q a HP HD. apply documented_place in HP. apply denotes_iff in HD. split; [|split].
  - rewrite prop_get_place, HP. destruct (param k q); [reflexivity|]. destruct p; reflexivity.
  - unfold item_get. rewrite HD. reflexivity.
  - unfold item_in. rewrite HD. reflexivity.
Qed.

(** ** Reading *)

(** Whatever spelling of the parameter is used, the item and the attribute have the same value; when the item is
    missing the attribute has its default. *)
Theorem C102_read_partial : forall k p q a, In (p, q) (documented (k_cls k)) -> denotes (k_cls k) a q ->
  (item_in k a = Ok true /\ exists v, item_get k a = Ok v /\ prop_get k p = Ok v) \/
  (item_in k a = Ok false /\ item_get k a = Err KeyError /\ prop_get k p = when_missing p).
Proof.
  intros k p q a HP HD. destruct (views_get _ _ _ _ HP HD) as (-> & -> & ->).
  destruct (param k q) as [v|]; [left|right; auto]. split; [reflexivity|]. exists v. auto.
Qed.
Print Assumptions C102_read_partial.

Lemma place_registered : forall c p q, place c p = Some q -> exists n, In (q, n) (registered (params_of c)).
Proof.
  intros c p q H. apply documented_place in H.
  assert (HF : forallb (fun e => existsb (fun r => keyeq (VClass (fst r)) (VClass (snd e))) (registered (params_of c))) (documented c) = true)
    by (destruct c; vm_compute; reflexivity).
  rewrite forallb_forall in HF. specialize (HF _ H). cbn [snd] in HF. apply existsb_exists in HF as ([q' n] & HI & HE).
  cbn [fst] in HE. apply keyeq_class in HE. injection HE as ->. exists n. exact HI.
Qed.

(** ** Assigning an attribute *)

Lemma prop_set_elsewhere : forall k p q v k' x t, place (k_cls k) p = Some q -> prop_set k p v = (k', x) ->
  keyeq t (VClass q) = false -> k_cls k' = k_cls k /\ dget (k_store k') t = dget (k_store k) t.
Proof.
  intros k p q v k' x t HP H HN.
  assert (HU : forall w k1 k2, updates q w k1 k2 -> k_cls k2 = k_cls k1 /\ dget (k_store k2) t = dget (k_store k1) t).
  { intros w k1 k2 [H1 _ H3]. split; [exact H1|]. rewrite H3. apply dget_dset_other. exact HN. }
  assert (HB : forall b, match bytes_prop (k_cls k) p with
    | Some c => attempt k (set_bytes_param c b k)
    | None => (extra_set (prop_name p) b k, Ok tt) end = (k', x) -> bytes_prop (k_cls k) p = Some q ->
    k_cls k' = k_cls k /\ dget (k_store k') t = dget (k_store k) t).
  { intros b HB HE. rewrite HE in HB. apply attempt_cases in HB as [(e & _ & _ & ->)|[HB _]]; [auto|].
    apply set_bytes_param_ok in HB as [_ HB]. eapply HU. exact HB. }
  destruct p; cbn [place] in HP; try (exact (HB v H HP)); cbn [prop_set] in H.
  - injection HP as <-. apply attempt_cases in H as [(e & _ & _ & ->)|[H _]]; [auto|].
    apply bind_ok in H as (w & _ & H). injection H as <-. eapply HU. apply updates_store_set.
  - injection HP as <-. apply attempt_cases in H as [(e & _ & _ & ->)|[H _]]; [auto|].
    apply bind_ok in H as (w & _ & H). injection H as <-. eapply HU. apply updates_store_set.
  - injection HP as <-. destruct (py_iter v) as [l|]; [|injection H as <- <-; auto]. clear HB. revert k H HU.
    induction l as [|o l IH]; intros k H HU; cbn [key_ops_loop] in H; [injection H as <- <-; auto|].
    destruct (supported_by (k_cls k) o) as [[|]|e]; try (injection H as <- <-; auto; fail).
    destruct (base_set_key_ops v k) as [k1|e] eqn:E; [|injection H as <- <-; auto].
    apply base_set_key_ops_ok in E as (w & E & _). destruct (HU _ _ _ E) as [H1 H2]. destruct (IH _ H HU) as [H3 H4].
    split; congruence.
  - rewrite HP in H. apply attempt_cases in H as [(e & _ & _ & ->)|[H _]]; [auto|].
    apply set_crv_ok in H as (w & _ & _ & H). eapply HU. exact H.
  - destruct (k_cls k) eqn:EC; try discriminate. injection HP as <-. rewrite <- EC in *.
    apply attempt_cases in H as [(e & _ & _ & ->)|[H _]]; [auto|]. apply set_k_ok in H as [_ H]. eapply HU. exact H.
Qed.

(** Afterwards the item has the value that was assigned (an algorithm or a curve as its class). *)
Theorem C102_assign_attribute_partial : forall k p q v k' a, In (p, q) (documented (k_cls k)) -> denotes (k_cls k) a q ->
  p <> PKty -> p <> PKeyOps -> prop_set k p v = (k', Ok tt) ->
  exists w, normalised (k_cls k) p v w /\ item_get k' a = Ok w.
Proof.
  intros k p q v k' a HP HD H1 H2 H. apply documented_place in HP.
  pose proof (prop_set_place _ _ _ _ H1 H2 H) as HS. rewrite HP in HS. destruct HS as (w & HN & HU).
  exists w. split; [exact HN|]. unfold item_get. rewrite (up_cls _ _ _ _ HU).
  apply denotes_iff in HD. rewrite HD. cbn [bind hashable negb]. pose proof (updates_same _ _ _ _ HU) as HG. unfold param in HG.
  rewrite HG. reflexivity.
Qed.
Print Assumptions C102_assign_attribute_partial.

(** No assignment to an attribute, accepted or not, changes the item of another parameter. *)
Theorem C102_assign_elsewhere_partial : forall k p q v k' x b t, In (p, q) (documented (k_cls k)) -> prop_set k p v = (k', x) ->
  stands_for (params_of (k_cls k)) b t -> keyeq t (VClass q) = false ->
  item_get k' b = item_get k b /\ item_in k' b = item_in k b.
Proof.
  intros k p q v k' x b t HP H HB HN. apply documented_place in HP.
  destruct (prop_set_elsewhere _ _ _ _ _ _ _ HP H HN) as [HC HG].
  unfold item_get, item_in, dmem. rewrite HC, (stands_transform _ _ _ HB). cbn [bind]. rewrite HG. auto.
Qed.
Print Assumptions C102_assign_elsewhere_partial.

(** ** Assigning an item *)

(** Afterwards the attribute has the value that was assigned, and all other attributes are as before. *)
Theorem C102_assign_item_partial : forall k p q v k' a, In (p, q) (documented (k_cls k)) -> denotes (k_cls k) a q ->
  item_set k a v = (k', Ok tt) ->
  prop_get k' p = Ok v /\ (forall p', p' <> p -> prop_get k' p' = prop_get k p').
Proof.
  intros k p q v k' a HP HD H. apply documented_place in HP. apply denotes_iff in HD. unfold item_set in H.
  rewrite HD in H. cbn [bind hashable negb attempt] in H. injection H as <-. split.
  - rewrite prop_get_place. cbn [with_store k_cls]. rewrite HP. unfold param. cbn [with_store k_store].
    rewrite dget_dset_same by apply keyeq_refl. reflexivity.
  - intros p' HN. rewrite !prop_get_place. cbn [with_store k_cls]. destruct (place (k_cls k) p') as [q'|] eqn:EP; [|reflexivity].
    unfold param. cbn [with_store k_store]. rewrite dget_dset_other; [reflexivity|]. apply keyeq_ne_class.
    intros HE. injection HE as ->. apply HN. eapply place_inj; eassumption.
Qed.
Print Assumptions C102_assign_item_partial.

(** A private parameter does not touch any attribute. *)
Theorem C102_assign_private_partial : forall k a v k' x, unknown_attr (params_of (k_cls k)) a -> item_set k a v = (k', x) ->
  forall p, prop_get k' p = prop_get k p.
Proof.
  intros k a v k' x HU H p.
  assert (HS : stands_for (params_of (k_cls k)) a a) by (right; auto). apply stands_transform in HS.
  unfold item_set in H. rewrite HS in H. cbn [bind] in H. destruct (hashable a); cbn [negb attempt] in H; injection H as <- <-; [|reflexivity].
  rewrite !prop_get_place. cbn [with_store k_cls]. destruct (place (k_cls k) p) as [q|] eqn:EP; [|reflexivity].
  unfold param. cbn [with_store k_store]. rewrite dget_dset_other; [reflexivity|].
  rewrite keyeq_sym. apply keyeq_ne_class. intros ->. destruct (place_registered _ _ _ EP) as (n & HI).
  eapply (unknown_not_spelled _ _ _ _ HU HI). reflexivity.
Qed.
Print Assumptions C102_assign_private_partial.

(** ** Deleting an item *)

(** After a deletion the attribute reads as missing, and the other attributes are as before (the two coordinates of
    an EC2 key go together, C42). *)
Theorem C102_delete_partial : forall X k p q a k', reachable X k -> In (p, q) (documented (k_cls k)) -> denotes (k_cls k) a q ->
  item_del k a = (k', Ok tt) ->
  prop_get k' p = when_missing p /\
  (forall p' q', In (p', q') (documented (k_cls k)) -> p' <> p -> ~ (In p [PX; PY] /\ In p' [PX; PY]) -> prop_get k' p' = prop_get k p').
Proof.
  intros X k p q a k' HR HP HD H. pose proof (key_step_cls (KDelItem a) k) as HC. cbn [key_step] in HC. rewrite H in HC. cbn [fst] in HC.
  destruct (delete _ _ _ _ _ HR H) as (H1 & H2 & _). specialize (H1 eq_refl) as [_ H1]. split.
  - rewrite <- HC in HP, HD. destruct (views_get _ _ _ _ HP HD) as (-> & _ & HI). rewrite HI in H1.
    destruct (param k' q); [discriminate|reflexivity].
  - intros p' q' HP' HN HX. assert (HD' : denotes (k_cls k) (VClass q') q').
    { apply documented_place in HP'. destruct (place_registered _ _ _ HP') as (n & HI). left. exists q', n. split; [exact HI|]. split; reflexivity. }
    assert (HQ : forall r b s, denotes (k_cls k) b r -> denotes (k_cls k) b s -> r = s).
    { intros r b s HB HS. apply denotes_iff in HB, HS. congruence. }
    assert (HG : item_get k' (VClass q') = item_get k (VClass q')).
    { apply H2.
      - exists (VClass q), (VClass q'). split; [exact HD|]. split; [exact HD'|]. apply keyeq_class_ne. intros <-. apply HN.
        apply documented_place in HP, HP'. eapply place_inj; eassumption.
      - intros [[HE HA] [_ HB]]. apply HX. apply documented_place in HP, HP'. rewrite HE in *.
        assert (HO : forall r u, place KEC2 r = Some u -> u = EC2KpX \/ u = EC2KpY -> In r [PX; PY]).
        { intros r u HU [->| ->]; [left|right; left]; symmetry; eapply place_inj; try eassumption; reflexivity. }
        split.
        + eapply HO; [exact HP|]. destruct HA as [HA|HA]; [left|right]; eapply HQ; eassumption.
        + eapply HO; [exact HP'|]. destruct HB as [HB|HB]; [left|right]; eapply HQ; eassumption. }
    destruct (views_get k p' q' (VClass q') HP' HD') as (-> & HG1 & _). rewrite <- HC in HP', HD'.
    destruct (views_get k' p' q' (VClass q') HP' HD') as (-> & HG2 & _). rewrite HG1, HG2 in HG.
    destruct (param k q'), (param k' q'); try discriminate; [injection HG as ->|]; reflexivity.
Qed.
Print Assumptions C102_delete_partial.

(** ** What does not hold *)

(** Attributes check what they are given and items do not: an item of any key takes any value whatsoever, which the
    attribute then shows, although the attribute itself refuses everything that is not a byte string. *)
Theorem C102_unchecked_refuted : forall k p q v a, In (p, q) (documented (k_cls k)) -> denotes (k_cls k) a q ->
  (exists k', item_set k a v = (k', Ok tt) /\ prop_get k' p = Ok v) /\
  (In p byte_attributes -> (forall b, v <> VBytes b) -> exists e, prop_set k p v = (k, Err e)).
Proof.
  intros k p q v a HP HD. split.
  - pose proof HD as HT. apply denotes_iff in HT.
    assert (HS : item_set k a v = (with_store k (dset (k_store k) (VClass q) v), Ok tt)) by (unfold item_set; rewrite HT; reflexivity).
    eexists. split; [exact HS|]. eapply C102_assign_item_partial; eassumption.
  - intros HB HN. apply documented_place in HP.
    destruct p; cbn in HB; try (repeat (destruct HB as [HB|HB]; [discriminate|]); destruct HB; fail); cbn [place] in HP; cbn [prop_set];
      try (rewrite HP; destruct v; cbn [set_bytes_param attempt]; eauto; elim (HN b); reflexivity).
    destruct (k_cls k); try discriminate. destruct v; cbn [set_k attempt]; eauto. elim (HN b). reflexivity.
Qed.
Print Assumptions C102_unchecked_refuted.

(** Attributes a key does not document can be assigned all the same: nothing is refused, the value can be read
    back, and it is no item, not in the length of the key and not in its encoding. *)
Theorem C102_foreign_attribute_refuted : forall k p v, (forall q, ~ In (p, q) (documented (k_cls k))) ->
  exists k', prop_set k p v = (k', Ok tt) /\ prop_get k' p = Ok v /\
    (forall a, item_get k' a = item_get k a /\ item_in k' a = item_in k a) /\ key_iter k' = key_iter k /\
    key_encode k' = key_encode k /\ (forall k2, key_eq k' k2 = key_eq k k2).
Proof.
  intros k p v HN.
  assert (HP : place (k_cls k) p = None) by (destruct (place (k_cls k) p) as [q|] eqn:E; [|reflexivity]; elim (HN q); apply documented_place; exact E).
  exists (extra_set (prop_name p) v k). split.
  - destruct p; cbn [place] in HP; try discriminate; cbn [prop_set]; try (rewrite HP; reflexivity).
    destruct (k_cls k); try discriminate; reflexivity.
  - split; [|repeat split; reflexivity]. rewrite prop_get_place. cbn [extra_set with_extra k_cls]. rewrite HP. apply extra_get_set.
Qed.
Print Assumptions C102_foreign_attribute_refuted.

(** Examples: the EC2 key of C63 has a kid; its attributes and items agree, deleting the kid empties both, and
    [key.k], which EC2 keys do not document, is accepted. *)
Example C102_example : let k := got ex_ec2 in
  reachable toy k /\ In (PKid, KpKid) (documented (k_cls k)) /\ denotes (k_cls k) (VStr (bs "kid")) KpKid /\
  prop_get k PKid = Ok (VBytes (bs "me")) /\ item_get k (VInt 2) = Ok (VBytes (bs "me")) /\
  (exists k', item_del k (VStr (bs "kid")) = (k', Ok tt) /\ prop_get k' PKid = Ok (VBytes [])) /\
  (exists k', prop_set k PKid (VBytes (bs "you")) = (k', Ok tt) /\ item_get k' (VInt 2) = Ok (VBytes (bs "you"))) /\
  (exists k', item_set k (VInt 2) (VInt 5) = (k', Ok tt) /\ prop_get k' PKid = Ok (VInt 5)) /\
  prop_set k PKid (VInt 5) = (k, Err TypeError) /\
  (forall q, ~ In (PK, q) (documented (k_cls k))).
Proof.
  cbv zeta. split; [exists (got ex_ec2), []; split; [exact ex_ec2_constructed|reflexivity]|].
  split; [vm_compute; auto|]. split; [apply denotes_iff; vm_compute; reflexivity|].
  split; [vm_compute; reflexivity|]. split; [vm_compute; reflexivity|].
  split; [eexists; split; [vm_compute; reflexivity|vm_compute; reflexivity]|].
  split; [eexists; split; [vm_compute; reflexivity|vm_compute; reflexivity]|].
  split; [eexists; split; [vm_compute; reflexivity|vm_compute; reflexivity]|].
  split; [vm_compute; reflexivity|]. intros q H. apply documented_place in H. vm_compute in H. discriminate.
Qed.
