(** Proofs for C110. *)
From Coq Require Import NArith ZArith Bool String Lia.
From Coq Require Import Init.Byte List.
From Verif Require Import Bytes Value ValueProofs SpecData DataProofs Registry Crypto Keys Algorithms Headers Messages SpecRegistry SpecKeys SpecHdr SpecTrip KeyProofs KeyProofs2 KeyProofs3
  KeyTrip KeyTrip2 SpecMapping MapProofs CopyProofs SpecEqual.
Import ListNotations.
Local Open Scope result_scope.

(** ** Python equality is an equivalence *)

Definition map_of (v : pyval) : option dict := match v with VDict d | VKey _ d _ => Some d | _ => None end.

Lemma pyeq_maps : forall a b d e, map_of a = Some d -> map_of b = Some e -> pyeq a b = pyeq (VDict d) (VDict e).
Proof. intros a b d e HA HB. destruct a; try discriminate; destruct b; try discriminate; injection HA as <-; injection HB as <-; reflexivity. Qed.

Lemma pyeq_map_other : forall a b d, map_of a = Some d -> map_of b = None -> pyeq a b = false /\ pyeq b a = false.
Proof.
  intros a b d HA HB.
  assert (HN : keyeq a b = false).
  { destruct (keyeq a b) eqn:E; [|reflexivity]. exfalso. apply keyeq_spec in E. destruct a; try discriminate; destruct b; try discriminate; cbn [knorm] in E; try discriminate;
      match type of E with context [float_int ?f] => destruct (float_int f) end; discriminate. }
  pose proof HN as HN'. rewrite keyeq_sym in HN'. destruct a; try discriminate; destruct b; try discriminate; split; assumption.
Qed.

Definition items_eq : list pyval -> list pyval -> bool :=
  fix go (l m : list pyval) : bool :=
    match l, m with
    | [], [] => true
    | x :: l', y :: m' => pyeq x y && go l' m'
    | _, _ => false
    end.
Lemma items_eq_spec : forall l m, items_eq l m = true <-> Forall2 (fun x y => pyeq x y = true) l m.
Proof.
  induction l as [|x l IH]; intros [|y m]; cbn [items_eq]; split; intros H; try discriminate; try constructor; try (inversion H; fail).
  - apply andb_true_iff in H. apply H.
  - apply andb_true_iff in H. apply IH. apply H.
  - inversion_clear H. apply andb_true_iff. split; [assumption|]. apply IH. assumption.
Qed.

Lemma wf_entries : forall d, distinct_keys d && forallb (fun e => match e with (k, x) => hashable k && well_formed x end) d = true ->
  dnodup d = true /\ (forall k v, In (k, v) d -> hashable k = true) /\ (forall k v, In (k, v) d -> well_formed v = true).
Proof.
  intros d H. apply andb_true_iff in H as [H1 H2]. split; [rewrite <- distinct_keys_dnodup; exact H1|]. rewrite forallb_forall in H2.
  split; intros k v HI; specialize (H2 _ HI); cbn in H2; apply andb_true_iff in H2; apply H2.
Qed.

Lemma wf_map : forall v d, map_of v = Some d -> well_formed v = true ->
  dnodup d = true /\ (forall k v, In (k, v) d -> hashable k = true) /\ (forall k v, In (k, v) d -> well_formed v = true).
Proof. intros v d H HW. destruct v; try discriminate; injection H as <-; apply wf_entries; exact HW. Qed.

Lemma pyeq_maps_iff : forall a b d e, map_of a = Some d -> map_of b = Some e -> well_formed a = true -> well_formed b = true ->
  (pyeq a b = true <-> forall t, hashable t = true -> agree (dget d t) (dget e t)).
Proof.
  intros a b d e HA HB WA WB. rewrite (pyeq_maps a b d e HA HB). destruct (wf_map a d HA WA) as (N1 & H1 & _). destruct (wf_map b e HB WB) as (N2 & H2 & _).
  apply pyeq_dict; assumption.
Qed.

Lemma dget_wf : forall v d t x, map_of v = Some d -> well_formed v = true -> dget d t = Some x -> well_formed x = true.
Proof. intros v d t x HM HW HD. destruct (wf_map v d HM HW) as (_ & _ & H). apply dget_In in HD as (t' & HI & _). exact (H _ _ HI). Qed.

Theorem pyeq_refl : forall a, well_formed a = true -> pyeq a a = true.
Proof.
  assert (HD : forall a d, map_of a = Some d -> Forall (fun e => (well_formed (snd e) = true -> pyeq (snd e) (snd e) = true)) d -> well_formed a = true -> pyeq a a = true).
  { intros a d HM HF HW. apply (pyeq_maps_iff a a d d HM HM HW HW). intros t _. unfold agree. destruct (dget d t) as [x|] eqn:E; [|exact I].
    pose proof (dget_wf a d t x HM HW E) as HX. apply dget_In in E as (t' & HI & _). rewrite Forall_forall in HF. exact (HF _ HI HX). }
  induction a as [|b|z|f|n| | |b|b|l HF|l HF|d HF|t v IH|t v IH|k|k s e HS HE] using pyval_ind'; intros HW; try (apply keyeq_refl).
  - change (items_eq l l = true). apply items_eq_spec. cbn [well_formed] in HW. induction HF as [|x l Hx HF IHl]; [constructor|].
    cbn [forallb] in HW. apply andb_true_iff in HW as [H1 H2]. constructor; [apply Hx; exact H1|apply IHl; exact H2].
  - change (items_eq l l = true). apply items_eq_spec. cbn [well_formed] in HW. induction HF as [|x l Hx HF IHl]; [constructor|].
    cbn [forallb] in HW. apply andb_true_iff in HW as [H1 H2]. constructor; [apply Hx; exact H1|apply IHl; exact H2].
  - apply (HD (VDict d) d eq_refl); [|exact HW]. eapply Forall_impl; [|exact HF]. intros e [_ H]. exact H.
  - cbn [pyeq]. rewrite N.eqb_refl. apply IH. exact HW.
  - apply (HD (VKey k s e) s eq_refl); [|exact HW]. eapply Forall_impl; [|exact HS]. intros x [_ H]. exact H.
Qed.

Definition atom (v : pyval) : bool := match v with VList _ | VTuple _ | VDict _ | VKey _ _ _ | VTag _ _ => false | _ => true end.
(** Equal values are containers of the same kind, or compare like dict labels. *)
Inductive eq_case : pyval -> pyval -> Prop :=
| EC_list l m : Forall2 (fun x y => pyeq x y = true) l m -> eq_case (VList l) (VList m)
| EC_tuple l m : Forall2 (fun x y => pyeq x y = true) l m -> eq_case (VTuple l) (VTuple m)
| EC_map a b d e : map_of a = Some d -> map_of b = Some e -> eq_case a b
| EC_tag t x y : pyeq x y = true -> eq_case (VTag t x) (VTag t y)
| EC_atom a b : atom a = true -> atom b = true -> keyeq a b = true -> eq_case a b.

Lemma atom_eq : forall a c, atom a = true -> pyeq a c = keyeq a c /\ pyeq c a = keyeq c a.
Proof. intros a c H. destruct a; try discriminate; destruct c; split; reflexivity. Qed.
Lemma atom_keyeq : forall a b, atom a = true -> keyeq a b = true -> atom b = true.
Proof.
  intros a b HA H. apply keyeq_spec in H. destruct b; try reflexivity; exfalso; cbn [knorm] in H; destruct a; try discriminate HA; cbn [knorm] in H; try discriminate;
    match type of H with context [float_int ?f] => destruct (float_int f) end; discriminate.
Qed.

Lemma pyeq_cases : forall a b, pyeq a b = true -> eq_case a b.
Proof.
  intros a b H. destruct (atom a) eqn:EA.
  - rewrite (proj1 (atom_eq a b EA)) in H. pose proof (atom_keyeq a b EA H) as EB. apply EC_atom; assumption.
  - destruct (map_of a) as [d|] eqn:MA.
    + destruct (map_of b) as [e|] eqn:MB; [eapply EC_map; eassumption|]. rewrite (proj1 (pyeq_map_other a b d MA MB)) in H. discriminate.
    + destruct (atom b) eqn:EB.
      * rewrite (proj2 (atom_eq b a EB)) in H. rewrite keyeq_sym in H. pose proof (atom_keyeq b a EB H). congruence.
      * destruct a; try discriminate; destruct b; try discriminate.
        -- apply EC_list. apply items_eq_spec. exact H.
        -- apply EC_tuple. apply items_eq_spec. exact H.
        -- cbn [pyeq] in H. apply andb_true_iff in H as [H1 H2]. apply N.eqb_eq in H1. subst. apply EC_tag. exact H2.
Qed.

Theorem pyeq_sym : forall a b, well_formed a = true -> well_formed b = true -> pyeq a b = true -> pyeq b a = true.
Proof.
  assert (HL : forall l m, Forall (fun x => forall y, well_formed x = true -> well_formed y = true -> pyeq x y = true -> pyeq y x = true) l ->
    forallb well_formed l = true -> forallb well_formed m = true -> Forall2 (fun x y => pyeq x y = true) l m -> Forall2 (fun x y => pyeq x y = true) m l).
  { intros l m HF H1 H2 H. induction H as [|x y l m Hxy H IH]; [constructor|]. cbn [forallb] in *. apply andb_true_iff in H1 as [A1 B1]. apply andb_true_iff in H2 as [A2 B2].
    inversion_clear HF as [|? ? Hx HF']. constructor; [apply Hx; assumption|apply IH; assumption]. }
  assert (HD : forall a b d e, map_of a = Some d -> map_of b = Some e -> well_formed a = true -> well_formed b = true ->
    Forall (fun x => forall y, well_formed (snd x) = true -> well_formed y = true -> pyeq (snd x) y = true -> pyeq y (snd x) = true) d -> pyeq a b = true -> pyeq b a = true).
  { intros a b d e MA MB WA WB HF H. apply (pyeq_maps_iff b a e d MB MA WB WA). intros t HT. pose proof (proj1 (pyeq_maps_iff a b d e MA MB WA WB) H t HT) as HG.
    unfold agree in *. destruct (dget d t) as [x|] eqn:ED; destruct (dget e t) as [y|] eqn:EE; try contradiction; [|exact I].
    pose proof (dget_wf a d t x MA WA ED) as HX. pose proof (dget_wf b e t y MB WB EE) as HY. apply dget_In in ED as (t' & HI & _). rewrite Forall_forall in HF. exact (HF _ HI y HX HY HG). }
  induction a as [|c|z|f|n| | |c|c|l HF|l HF|d HF|t v IH|t v IH|c|k s e HS HE] using pyval_ind'; intros b WA WB H; pose proof (pyeq_cases _ _ H) as HC; inversion HC; subst;
    try (match goal with HM : map_of ?x = Some _ |- _ => discriminate HM end);
    try (match goal with HR : atom ?b = true |- pyeq ?b _ = true => rewrite (proj1 (atom_eq b _ HR)), keyeq_sym; assumption end); try discriminate.
  - change (items_eq m l = true). apply items_eq_spec. apply HL; assumption.
  - change (items_eq m l = true). apply items_eq_spec. apply HL; assumption.
  - eapply (HD (VDict d) b d); try eassumption; [reflexivity|]. eapply Forall_impl; [|exact HF]. intros x [_ Hx]. exact Hx.
  - cbn [pyeq]. rewrite N.eqb_refl. apply IH; assumption.
  - eapply (HD (VKey k s e) b s); try eassumption; [reflexivity|]. eapply Forall_impl; [|exact HS]. intros x [_ Hx]. exact Hx.
Qed.

Theorem pyeq_trans : forall a b c, well_formed a = true -> well_formed b = true -> well_formed c = true -> pyeq a b = true -> pyeq b c = true -> pyeq a c = true.
Proof.
  assert (HL : forall l m n, Forall (fun x => forall y z, well_formed x = true -> well_formed y = true -> well_formed z = true -> pyeq x y = true -> pyeq y z = true -> pyeq x z = true) l ->
    forallb well_formed l = true -> forallb well_formed m = true -> forallb well_formed n = true ->
    Forall2 (fun x y => pyeq x y = true) l m -> Forall2 (fun x y => pyeq x y = true) m n -> Forall2 (fun x y => pyeq x y = true) l n).
  { intros l m n HF H1 H2 H3 H. revert n H3. induction H as [|x y l m Hxy H IH]; intros n H3 HN; inversion HN as [|? z ? n' Hyz HN']; subst; [constructor|].
    cbn [forallb] in *. apply andb_true_iff in H1 as [A1 B1]. apply andb_true_iff in H2 as [A2 B2]. apply andb_true_iff in H3 as [A3 B3].
    inversion_clear HF as [|? ? Hx HF']. constructor; [apply (Hx y z); assumption|apply IH; assumption]. }
  assert (HD : forall a b c d e, map_of a = Some d -> map_of b = Some e -> well_formed a = true -> well_formed b = true -> well_formed c = true ->
    Forall (fun x => forall y z, well_formed (snd x) = true -> well_formed y = true -> well_formed z = true -> pyeq (snd x) y = true -> pyeq y z = true -> pyeq (snd x) z = true) d ->
    pyeq a b = true -> pyeq b c = true -> pyeq a c = true).
  { intros a b c d e MA MB WA WB WC HF H1 H2. destruct (map_of c) as [f|] eqn:MC; [|rewrite (proj1 (pyeq_map_other b c e MB MC)) in H2; discriminate].
    apply (pyeq_maps_iff a c d f MA MC WA WC). intros t HT. pose proof (proj1 (pyeq_maps_iff a b d e MA MB WA WB) H1 t HT) as G1.
    pose proof (proj1 (pyeq_maps_iff b c e f MB MC WB WC) H2 t HT) as G2. unfold agree in *.
    destruct (dget d t) as [x|] eqn:ED; destruct (dget e t) as [y|] eqn:EE; destruct (dget f t) as [z|] eqn:EF; try contradiction; [|exact I].
    pose proof (dget_wf a d t x MA WA ED) as HX. pose proof (dget_wf b e t y MB WB EE) as HY. pose proof (dget_wf c f t z MC WC EF) as HZ.
    apply dget_In in ED as (t' & HI & _). rewrite Forall_forall in HF. exact (HF _ HI y z HX HY HZ G1 G2). }
  induction a as [|c|z|f|n| | |c|c|l HF|l HF|d HF|t v IH|t v IH|c|k s e HS HE] using pyval_ind'; intros b c' WA WB WC H H2; pose proof (pyeq_cases _ _ H) as HC; inversion HC; subst;
    try (match goal with HM : map_of ?x = Some _ |- _ => discriminate HM end);
    try discriminate;
    try (match goal with HA : atom ?a = true, HR : atom ?b = true, HK : keyeq ?a ?b = true |- pyeq ?a ?c = true =>
           rewrite (proj1 (atom_eq b c HR)) in H2; rewrite (proj1 (atom_eq a c HA)); exact (keyeq_trans _ _ _ HK H2) end).
  - pose proof (pyeq_cases _ _ H2) as HC2. inversion HC2; subst; try discriminate.
    change (items_eq l m0 = true). apply items_eq_spec. eapply (HL l m); eassumption.
  - pose proof (pyeq_cases _ _ H2) as HC2. inversion HC2; subst; try discriminate.
    change (items_eq l m0 = true). apply items_eq_spec. eapply (HL l m); eassumption.
  - eapply (HD (VDict d) b c' d); try eassumption; [reflexivity|]. eapply Forall_impl; [|exact HF]. intros x [_ Hx]. exact Hx.
  - pose proof (pyeq_cases _ _ H2) as HC2. inversion HC2; subst; try discriminate. cbn [pyeq]. rewrite N.eqb_refl. apply (IH y); assumption.
  - eapply (HD (VKey k s e) b c' s); try eassumption; [reflexivity|]. eapply Forall_impl; [|exact HS]. intros x [_ Hx]. exact Hx.
Qed.

(** ** Keys *)

Lemma key_eq_maps : forall X k k', reachable X k -> reachable X k' -> key_eq k k' = Ok (pyeq (VDict (k_store k)) (VDict (k_store k'))).
Proof.
  intros X k k' HR HR'. destruct (reachable_good _ _ HR) as [HN HL]. destruct (reachable_good _ _ HR') as [HN' HL'].
  unfold key_eq. rewrite (proj1 (items_store _ HN HL)), (proj1 (items_store _ HN' HL')). cbn [bind].
  rewrite !dict_of_pairs_nodup by assumption. reflexivity.
Qed.

Lemma equal_pyeq : forall X k k', reachable X k -> reachable X k' -> (equal_keys k k' <-> pyeq (VDict (k_store k)) (VDict (k_store k')) = true).
Proof. intros X k k' HR HR'. unfold equal_keys. rewrite (key_eq_maps X k k' HR HR'). split; intros H; [injection H as H; exact H|rewrite H; reflexivity]. Qed.

Lemma equal_agree : forall X k k', reachable X k -> reachable X k' -> equal_keys k k' -> forall t, hashable t = true -> agree (dget (k_store k) t) (dget (k_store k') t).
Proof.
  intros X k k' HR HR' HE. destruct (equality X k k' HR HR') as (b & HB & HI). unfold equal_keys in HE. rewrite HB in HE. injection HE as ->. apply HI. reflexivity.
Qed.

(** Equal values of the types that parameters have are the same. *)
Lemma pyeq_bytes : forall b w, pyeq (VBytes b) w = true -> w = VBytes b.
Proof.
  intros b w H. rewrite (proj1 (atom_eq (VBytes b) w eq_refl)) in H. apply keyeq_spec in H. destruct w; cbn [knorm] in H; try discriminate; [|congruence].
  destruct (float_int bits); discriminate.
Qed.
Lemma pyeq_class : forall c w, pyeq (VClass c) w = true -> w = VClass c.
Proof. intros c w H. rewrite (proj1 (atom_eq (VClass c) w eq_refl)) in H. apply keyeq_class. exact H. Qed.
Lemma pyeq_to_bytes : forall v b, pyeq v (VBytes b) = true -> v = VBytes b.
Proof.
  intros v b H. rewrite (proj2 (atom_eq (VBytes b) v eq_refl)), keyeq_sym in H. apply pyeq_bytes. rewrite (proj1 (atom_eq (VBytes b) v eq_refl)). exact H.
Qed.
Lemma pyeq_classes : forall l w, Forall (known_class FOps) l -> pyeq (VList l) w = true -> w = VList l.
Proof.
  intros l w HF H. pose proof (pyeq_cases _ _ H) as HC. inversion HC as [l' m HL| |? ? ? ? HM| |? ? HA]; subst; try discriminate. f_equal. clear H HC.
  induction HL as [|x y l m Hxy HL IH]; [reflexivity|]. apply Forall_cons_iff in HF as [(c & n & -> & _) HF']. f_equal; [exact (pyeq_class _ _ Hxy)|exact (IH HF')].
Qed.

(** The parameters of which every operation of the key depends. *)
Definition typed_params (c : kclass) : list cls := KpKty :: KpAlg :: KpKeyOps :: curve_param c ++ byte_params c.

Lemma typed_not_plain : forall c p, In p (typed_params c) -> p <> KpKid /\ p <> KpBaseIV.
Proof. intros c p H. destruct c; cbn in H; repeat (destruct H as [<-|H]; [split; discriminate|]); destruct H. Qed.

Lemma typed_value : forall X k p v w, portable X k -> In p (typed_params (k_cls k)) -> param k p = Some v -> pyeq v w = true -> w = v.
Proof.
  intros X k p v w (_ & _ & _ & HF & _) HP HV H. destruct (typed_not_plain _ _ HP) as [N1 N2]. apply dget_In in HV as (a & HI & HA). apply keyeq_class in HA. subst a.
  rewrite Forall_forall in HF. specialize (HF _ HI). cbn [fst snd] in HF. inversion HF; subst; try congruence.
  - rewrite type_of_kty in *. destruct (k_cls k); apply pyeq_class in H; exact H.
  - match goal with HK : known_class FAlg v |- _ => destruct HK as (c & n & -> & _) end. apply pyeq_class in H. exact H.
  - apply pyeq_classes; assumption.
  - apply pyeq_class in H. exact H.
  - apply pyeq_bytes. exact H.
Qed.

Lemma kty_cls : forall X k, portable X k -> param k KpKty = Some (type_of (k_cls k)).
Proof.
  intros X k (_ & _ & HH & HF & _). unfold has in HH. destruct (param k KpKty) as [v|] eqn:E; [|elim HH; reflexivity]. apply dget_In in E as (a & HI & HA). apply keyeq_class in HA. subst a.
  rewrite Forall_forall in HF. specialize (HF _ HI). cbn [fst snd] in HF. inversion HF; subst; try reflexivity.
  - destruct (k_cls k); cbn in *; repeat (match goal with H : _ \/ _ |- _ => destruct H as [H|H]; [discriminate H|] | H : False |- _ => destruct H end).
  - destruct (k_cls k); cbn in *; repeat (match goal with H : _ \/ _ |- _ => destruct H as [H|H]; [discriminate H|] | H : False |- _ => destruct H end).
Qed.

Lemma same_typed : forall X k k', reachable X k -> reachable X k' -> portable X k -> portable X k' -> equal_keys k k' ->
  k_cls k' = k_cls k /\ (forall p, In p (typed_params (k_cls k)) -> param k' p = param k p).
Proof.
  intros X k k' HR HR' HP HP' HE. pose proof (equal_agree X k k' HR HR' HE) as HA.
  assert (HS : forall p, In p (typed_params (k_cls k)) -> param k' p = param k p).
  { intros p HI. specialize (HA (VClass p) eq_refl). fold (param k p) in HA. fold (param k' p) in HA. unfold agree in HA.
    destruct (param k p) as [v|] eqn:EV; destruct (param k' p) as [w|] eqn:EW; try contradiction; [|reflexivity]. f_equal. exact (typed_value X k p v w HP HI EV HA). }
  split; [|exact HS]. specialize (HS KpKty (or_introl eq_refl)). rewrite (kty_cls X k HP), (kty_cls X k' HP') in HS. rewrite !type_of_kty in HS. destruct (k_cls k), (k_cls k'); try reflexivity; discriminate HS.
Qed.

Lemma place_typed : forall c p q, p <> PKid -> p <> PBaseIV -> place c p = Some q -> In q (typed_params c).
Proof. intros c p q H1 H2 H. destruct c, p; try (elim H1; reflexivity); try (elim H2; reflexivity); cbn in H; try discriminate; injection H as <-; cbn; auto 15. Qed.

Lemma same_props : forall X k k', reachable X k -> reachable X k' -> portable X k -> portable X k' -> equal_keys k k' ->
  forall p, p <> PKid -> p <> PBaseIV -> prop_get k' p = prop_get k p.
Proof.
  intros X k k' HR HR' HP HP' HE p H1 H2. destruct (same_typed X k k' HR HR' HP HP' HE) as [HC HS]. rewrite !prop_get_place, HC.
  destruct (place (k_cls k) p) as [q|] eqn:EP; [rewrite (HS q (place_typed _ _ _ H1 H2 EP)); reflexivity|].
  unfold extra_get. destruct HP as (-> & _). destruct HP' as (-> & _). reflexivity.
Qed.

Theorem equal_interchangeable : forall X k k', reachable X k -> reachable X k' -> portable X k -> portable X k' -> equal_keys k k' -> interchangeable X k k'.
Proof.
  intros X k k' HR HR' HP HP' HE. pose proof (same_props X k k' HR HR' HP HP' HE) as HS. destruct (same_typed X k k' HR HR' HP HP' HE) as [HC HT].
  assert (HB : forall p, p <> PKid -> p <> PBaseIV -> attr_bytes k' p = attr_bytes k p) by (intros p H1 H2; unfold attr_bytes; rewrite HS by assumption; reflexivity).
  assert (HI : forall p, p <> PKid -> p <> PBaseIV -> attr_int k' p = attr_int k p) by (intros p H1 H2; unfold attr_int; rewrite HS by assumption; reflexivity).
  assert (HX : forall p, p <> PKid -> p <> PBaseIV -> attr_hex k' p = attr_hex k p) by (intros p H1 H2; unfold attr_hex; rewrite HS by assumption; reflexivity).
  assert (H1 : rsa_public_numbers k' = rsa_public_numbers k) by (unfold rsa_public_numbers; rewrite !HI by discriminate; reflexivity).
  assert (H2 : rsa_private_numbers k' = rsa_private_numbers k) by (unfold rsa_private_numbers; rewrite H1, !HI by discriminate; reflexivity).
  assert (H3 : ed_curve k' = ed_curve k) by (unfold ed_curve; rewrite HS by discriminate; reflexivity).
  assert (H4 : aes_key k' = aes_key k) by (unfold aes_key; rewrite HB by discriminate; reflexivity).
  assert (H5 : forall n, kw_key n k' = kw_key n k) by (intros n; unfold kw_key; rewrite HS by discriminate; reflexivity).
  unfold interchangeable. repeat split; intros.
  - unfold alg_sign. rewrite H2, H3, HB, HX by discriminate. reflexivity.
  - unfold alg_verify. rewrite H1, H3, HB, !HX by discriminate. reflexivity.
  - unfold alg_compute_tag. rewrite H4, HB by discriminate. reflexivity.
  - unfold alg_encrypt. rewrite HB by discriminate. reflexivity.
  - unfold alg_decrypt. rewrite HB by discriminate. reflexivity.
  - unfold alg_key_wrap. rewrite H1. destruct (alg_kind a) as [[]|]; try reflexivity. rewrite H5. reflexivity.
  - unfold alg_key_unwrap. rewrite H2. destruct (alg_kind a) as [[]|]; try reflexivity. rewrite H5. reflexivity.
  - unfold ecdh. rewrite HX by discriminate. reflexivity.
  - unfold ecdh. rewrite !HX by discriminate. reflexivity.
  - unfold key_verify, dget_or. rewrite HC. fold (param k KpAlg). fold (param k' KpAlg). fold (param k KpKeyOps). fold (param k' KpKeyOps).
    rewrite !HT by (cbn; auto). reflexivity.
Qed.

(** ** Messages *)

Lemma same_nonce : forall X k k' c, reachable X k -> reachable X k' -> portable X k -> portable X k' -> equal_keys k k' -> get_nonce (rekey c k) = get_nonce (rekey c k').
Proof.
  intros X k k' c HR HR' HP HP' HE. unfold get_nonce. change (get_attr (rekey c k')) with (get_attr (rekey c k)). destruct (get_attr (rekey c k) IV) as [iv|e]; cbn [bind]; [|reflexivity].
  destruct (is_none iv); [|reflexivity]. cbn [rekey ckey]. change (get_attr (Core _ _ _ _ _ _ _ (Some k'))) with (get_attr (rekey c k)).
  change (get_attr (Core _ _ _ _ _ _ _ (Some k))) with (get_attr (rekey c k)). rewrite !prop_get_place. cbn [place bytes_prop absent_value].
  pose proof (equal_agree X k k' HR HR' HE (VClass KpBaseIV) eq_refl) as HA. fold (param k KpBaseIV) in HA. fold (param k' KpBaseIV) in HA. unfold agree in HA.
  destruct (param k KpBaseIV) as [v|]; destruct (param k' KpBaseIV) as [w|]; try contradiction; [|reflexivity]. cbn [bind].
  assert (HC : (exists b, v = VBytes b /\ w = VBytes b) \/ ((forall b, v <> VBytes b) /\ (forall b, w <> VBytes b))).
  { destruct v; try (right; split; [discriminate|]; intros b' ->; apply pyeq_to_bytes in HA; discriminate). left. eexists. split; [reflexivity|]. exact (pyeq_bytes _ _ HA). }
  destruct HC as [(b & -> & ->)|[N1 N2]]; [reflexivity|].
  assert (HV : forall u, (forall b, u <> VBytes b) -> veqb u (VBytes []) = false /\ as_bytes u = Err TypeError).
  { intros u HU. destruct u; try (split; reflexivity). elim (HU b). reflexivity. }
  destruct (HV v N1) as [-> ->]. destruct (HV w N2) as [-> ->]. reflexivity.
Qed.

Theorem equal_messages : forall X k k' c, reachable X k -> reachable X k' -> portable X k -> portable X k' -> equal_keys k k' ->
  (forall seed s tag d, sign1_encode X seed (Sign1 (rekey c k) s) tag true d = sign1_encode X seed (Sign1 (rekey c k') s) tag true d) /\
  (forall s d, sign1_verify X (Sign1 (rekey c k) s) d = sign1_verify X (Sign1 (rekey c k') s) d) /\
  (forall tag, enc0_encode X (rekey c k) tag true = enc0_encode X (rekey c k') tag true) /\
  enc0_decrypt X (rekey c k) = enc0_decrypt X (rekey c k') /\
  (forall t tag, snd (mac0_encode X (Mac0 (rekey c k) t) tag true) = snd (mac0_encode X (Mac0 (rekey c k') t) tag true)) /\
  (forall t, mac0_verify_tag X (Mac0 (rekey c k) t) = mac0_verify_tag X (Mac0 (rekey c k') t)).
Proof.
  intros X k k' c HR HR' HP HP' HE. destruct (equal_interchangeable X k k' HR HR' HP HP' HE) as (I1 & I2 & I3 & I4 & I5 & _ & _ & _ & _ & IV).
  pose proof (same_nonce X k k' c HR HR' HP HP' HE) as HN. destruct (same_typed X k k' HR HR' HP HP' HE) as [HC _].
  assert (HKV : forall a o, match key_verification (rekey c k) a o, key_verification (rekey c k') a o with Ok q, Ok q' => q = k /\ q' = k' | Err x, Err y => x = y | _, _ => False end).
  { intros a o. unfold key_verification. cbn [rekey ckey]. rewrite HC. destruct (k_cls k); try reflexivity; rewrite IV; destruct (key_verify k' _ a [o]); cbn [bind]; auto. }
  assert (HSG : forall seed s, compute_signature X seed (rekey c k) s = compute_signature X seed (rekey c k') s).
  { intros seed s. unfold compute_signature. change (get_attr (rekey c k')) with (get_attr (rekey c k)). destruct (get_attr (rekey c k) Algorithm) as [a|e]; cbn [bind]; [|reflexivity].
    specialize (HKV a SignOp). destruct (key_verification (rekey c k) a SignOp), (key_verification (rekey c k') a SignOp); try contradiction; cbn [bind]; [|subst; reflexivity].
    destruct HKV as [-> ->]. destruct (has_sign a); cbn [bind]; [|reflexivity]. destruct s; cbn [bind]; [|reflexivity]. apply I1. }
  assert (HEN : enc_encrypt X "Encrypt0" (rekey c k) = enc_encrypt X "Encrypt0" (rekey c k')).
  { unfold enc_encrypt. rewrite <- HN. change (ckey (rekey c k)) with (Some k). change (ckey (rekey c k')) with (Some k').
    change (get_attr (rekey c k')) with (get_attr (rekey c k)). change (enc_structure "Encrypt0" (rekey c k')) with (enc_structure "Encrypt0" (rekey c k)).
    change (payload (rekey c k')) with (payload (rekey c k)).
    destruct (get_attr (rekey c k) Algorithm) as [al|]; cbn [bind]; [|reflexivity]. destruct (get_nonce (rekey c k)); cbn [bind]; [|reflexivity]. rewrite IV.
    destruct (key_verify k' KSym al [EncryptOp]); cbn [bind]; [|reflexivity]. destruct (has_enc al); cbn [bind]; [|reflexivity].
    destruct (enc_structure "Encrypt0" (rekey c k)); cbn [bind]; [|reflexivity]. apply I4. }
  assert (HDE : enc_decrypt X "Encrypt0" (rekey c k) = enc_decrypt X "Encrypt0" (rekey c k')).
  { unfold enc_decrypt. rewrite <- HN. change (ckey (rekey c k)) with (Some k). change (ckey (rekey c k')) with (Some k').
    change (get_attr (rekey c k')) with (get_attr (rekey c k)). change (enc_structure "Encrypt0" (rekey c k')) with (enc_structure "Encrypt0" (rekey c k)).
    change (payload (rekey c k')) with (payload (rekey c k)).
    destruct (get_attr (rekey c k) Algorithm) as [al|]; cbn [bind]; [|reflexivity]. destruct (get_nonce (rekey c k)); cbn [bind]; [|reflexivity]. rewrite IV.
    destruct (key_verify k' KSym al [DecryptOp]); cbn [bind]; [|reflexivity]. destruct (has_enc al); cbn [bind]; [|reflexivity].
    destruct (enc_structure "Encrypt0" (rekey c k)); cbn [bind]; [|reflexivity]. apply I5. }
  assert (HMC : mac_compute X "MAC0" (rekey c k) = mac_compute X "MAC0" (rekey c k')).
  { unfold mac_compute. change (ckey (rekey c k)) with (Some k). change (ckey (rekey c k')) with (Some k').
    change (get_attr (rekey c k')) with (get_attr (rekey c k)). change (mac_structure "MAC0" (rekey c k')) with (mac_structure "MAC0" (rekey c k)).
    destruct (get_attr (rekey c k) Algorithm) as [al|]; cbn [bind]; [|reflexivity]. rewrite IV.
    destruct (key_verify k' KSym al [MacCreateOp]); cbn [bind]; [|reflexivity]. destruct (has_mac al); cbn [bind]; [|reflexivity].
    destruct (mac_structure "MAC0" (rekey c k)); cbn [bind]; [|reflexivity]. apply I3. }
  assert (HMV : forall t, mac_verify X "MAC0" (rekey c k) t = mac_verify X "MAC0" (rekey c k') t).
  { intros t. unfold mac_verify. change (ckey (rekey c k)) with (Some k). change (ckey (rekey c k')) with (Some k').
    change (get_attr (rekey c k')) with (get_attr (rekey c k)). change (mac_structure "MAC0" (rekey c k')) with (mac_structure "MAC0" (rekey c k)).
    destruct (get_attr (rekey c k) Algorithm) as [al|]; cbn [bind]; [|reflexivity]. rewrite IV.
    destruct (key_verify k' KSym al [MacVerifyOp]); cbn [bind]; [|reflexivity]. destruct (has_mac al); cbn [bind]; [|reflexivity].
    destruct (mac_structure "MAC0" (rekey c k)); cbn [bind]; [|reflexivity]. unfold alg_verify_tag. rewrite I3. reflexivity. }
  split; [|split; [|split; [|split; [|split]]]]; intros.
  - unfold sign1_encode. cbn [s1_core s1_sig]. cbv zeta. rewrite HSG. reflexivity.
  - unfold sign1_verify, verify_signature. cbn [s1_core s1_sig]. change (get_attr (rekey c k')) with (get_attr (rekey c k)). destruct (get_attr (rekey c k) Algorithm) as [a|e]; cbn [bind]; [|reflexivity].
    specialize (HKV a VerifyOp). destruct (key_verification (rekey c k) a VerifyOp), (key_verification (rekey c k') a VerifyOp); try contradiction; cbn [bind]; [|subst; reflexivity].
    destruct HKV as [-> ->]. destruct (has_sign a); cbn [bind]; [|reflexivity]. change (sign1_structure (rekey c k') d) with (sign1_structure (rekey c k) d).
    destruct (sign1_structure (rekey c k) d); cbn [bind]; [|reflexivity]. apply I2.
  - unfold enc0_encode. rewrite HEN. reflexivity.
  - exact HDE.
  - unfold mac0_encode, mac0_compute_tag. cbn [m0_core]. cbv zeta. rewrite HMC. change (phdr_encoded (rekey c k')) with (phdr_encoded (rekey c k)).
    destruct (phdr_encoded (rekey c k)); [|reflexivity]. destruct (mac_compute X "MAC0" (rekey c k')); reflexivity.
  - apply HMV.
Qed.

(** ** Round trips *)

Theorem same_equal : forall X k k', reachable X k -> reachable X k' -> well_formed (VDict (k_store k)) = true -> same_key k k' -> equal_keys k k'.
Proof.
  intros X k k' HR HR' HW (_ & _ & HS). destruct (equality X k k' HR HR') as (b & HB & HI). unfold equal_keys. rewrite HB. f_equal. apply HI. intros t _. rewrite HS. unfold agree.
  destruct (dget (k_store k) t) as [x|] eqn:E; [|exact I]. apply pyeq_refl. exact (dget_wf (VDict (k_store k)) (k_store k) t x eq_refl HW E).
Qed.
