(** Lemmas about Python values and dictionaries. *)
From Coq Require Import NArith ZArith Bool Lia.
From Coq Require Import Init.Byte List.
From Verif Require Import Bytes BytesProofs Value.
Import ListNotations.

(** ** Results *)

Lemma bind_ok : forall A B (r : result A) (k : A -> result B) b,
  bind r k = Ok b -> exists a, r = Ok a /\ k a = Ok b.
Proof. intros A B [a|e] k b H; [exists a; auto|discriminate]. Qed.

Lemma mapM_ok_length : forall A B (f : A -> result B) l m, mapM f l = Ok m -> length m = length l.
Proof.
  induction l as [|x l IH]; intros m H; cbn [mapM] in H; [injection H as <-; reflexivity|].
  apply bind_ok in H as (y & _ & H). apply bind_ok in H as (ys & E & H). injection H as <-.
  cbn [length]. rewrite (IH _ E). reflexivity.
Qed.

Lemma mapM_Forall2 : forall A B (f : A -> result B) l m,
  mapM f l = Ok m <-> Forall2 (fun x y => f x = Ok y) l m.
Proof.
  induction l as [|x l IH]; intros m; cbn [mapM]; split; intros H.
  - injection H as <-. constructor.
  - inversion H; subst. reflexivity.
  - apply bind_ok in H as (y & E & H). apply bind_ok in H as (ys & E' & H). injection H as <-.
    constructor; [assumption|]. apply IH; assumption.
  - inversion H as [|? y ? ys E E']; subst. rewrite E. cbn [bind].
    apply IH in E'. rewrite E'. reflexivity.
Qed.

Lemma mapM_ext : forall A B (f g : A -> result B) l,
  (forall x, In x l -> f x = g x) -> mapM f l = mapM g l.
Proof.
  induction l as [|x l IH]; intros H; cbn [mapM]; [reflexivity|].
  rewrite H by (left; reflexivity). rewrite IH by (intros; apply H; right; assumption). reflexivity.
Qed.

Lemma mapM_pure : forall A B (f : A -> result B) (g : A -> B) l,
  (forall x, In x l -> f x = Ok (g x)) -> mapM f l = Ok (map g l).
Proof.
  induction l as [|x l IH]; intros H; cbn [mapM map]; [reflexivity|].
  rewrite H by (left; reflexivity). cbn [bind].
  rewrite IH by (intros; apply H; right; assumption). reflexivity.
Qed.

Lemma mapM_map : forall A B C (f : B -> result C) (g : A -> B) l,
  mapM f (map g l) = mapM (fun x => f (g x)) l.
Proof.
  induction l as [|x l IH]; cbn [mapM map]; [reflexivity|]. rewrite IH. reflexivity.
Qed.

Lemma mapM_app : forall A B (f : A -> result B) l m,
  mapM f (l ++ m) = bind (mapM f l) (fun x => bind (mapM f m) (fun y => Ok (x ++ y))).
Proof.
  induction l as [|x l IH]; intros m; cbn [mapM app].
  - cbn [bind]. destruct (mapM f m); reflexivity.
  - destruct (f x) as [y|e]; cbn [bind]; [|reflexivity]. rewrite IH.
    destruct (mapM f l); cbn [bind]; [|reflexivity]. destruct (mapM f m); reflexivity.
Qed.

(** ** Induction on values *)

Section PyvalInd.
Variable P : pyval -> Prop.
Definition PP (kv : pyval * pyval) : Prop := P (fst kv) /\ P (snd kv).
Hypothesis HNone : P VNone.
Hypothesis HBool : forall b, P (VBool b).
Hypothesis HInt : forall z, P (VInt z).
Hypothesis HFloat : forall f, P (VFloat f).
Hypothesis HSimple : forall n, P (VSimple n).
Hypothesis HUndef : P VUndef.
Hypothesis HBreak : P VBreak.
Hypothesis HBytes : forall b, P (VBytes b).
Hypothesis HStr : forall b, P (VStr b).
Hypothesis HList : forall l, Forall P l -> P (VList l).
Hypothesis HTuple : forall l, Forall P l -> P (VTuple l).
Hypothesis HDict : forall d, Forall PP d -> P (VDict d).
Hypothesis HTag : forall t v, P v -> P (VTag t v).
Hypothesis HOther : forall t v, P v -> P (VOther t v).
Hypothesis HClass : forall c, P (VClass c).
Hypothesis HKey : forall k s e, Forall PP s -> Forall PP e -> P (VKey k s e).

Fixpoint pyval_ind' (v : pyval) : P v :=
  let fix go (l : list pyval) : Forall P l :=
    match l with [] => Forall_nil _ | x :: r => Forall_cons _ (pyval_ind' x) (go r) end in
  let fix god (l : list (pyval * pyval)) : Forall PP l :=
    match l with
    | [] => Forall_nil _
    | (k, x) :: r => Forall_cons (P := PP) (k, x) (conj (pyval_ind' k) (pyval_ind' x)) (god r)
    end in
  match v with
  | VNone => HNone
  | VBool b => HBool b
  | VInt z => HInt z
  | VFloat f => HFloat f
  | VSimple n => HSimple n
  | VUndef => HUndef
  | VBreak => HBreak
  | VBytes b => HBytes b
  | VStr b => HStr b
  | VList l => HList l (go l)
  | VTuple l => HTuple l (go l)
  | VDict d => HDict d (god d)
  | VTag t x => HTag t x (pyval_ind' x)
  | VOther t x => HOther t x (pyval_ind' x)
  | VClass c => HClass c
  | VKey k s e => HKey k s e (god s) (god e)
  end.
End PyvalInd.

(** ** Structural equality *)

Definition lveqb : list pyval -> list pyval -> bool :=
  fix leqb (l m : list pyval) {struct l} : bool :=
    match l, m with
    | [], [] => true
    | x :: l', y :: m' => veqb x y && leqb l' m'
    | _, _ => false
    end.

Definition dveqb : list (pyval * pyval) -> list (pyval * pyval) -> bool :=
  fix deqb (l m : list (pyval * pyval)) {struct l} : bool :=
    match l, m with
    | [], [] => true
    | (k, x) :: l', (k', y) :: m' => veqb k k' && veqb x y && deqb l' m'
    | _, _ => false
    end.

Lemma lveqb_eq : forall l, Forall (fun a => forall b, veqb a b = true <-> a = b) l ->
  forall m, lveqb l m = true <-> l = m.
Proof.
  induction l as [|x l IH]; intros HF [|y m]; cbn [lveqb]; split; intros H; try congruence.
  - inversion HF as [|? ? Hx Hl]; subst. apply andb_true_iff in H as [H1 H2].
    apply Hx in H1. apply (IH Hl) in H2. congruence.
  - inversion HF as [|? ? Hx Hl]; subst. injection H as <- <-.
    apply andb_true_iff. split; [apply Hx|apply (IH Hl)]; reflexivity.
Qed.

Lemma dveqb_eq : forall l, Forall (PP (fun a => forall b, veqb a b = true <-> a = b)) l ->
  forall m, dveqb l m = true <-> l = m.
Proof.
  induction l as [|[k x] l IH]; intros HF [|[k' y] m]; cbn [dveqb]; split; intros H; try congruence.
  - inversion HF as [|? ? Hx Hl]; subst. destruct Hx as [Hk Hx].
    apply andb_true_iff in H as [H1 H2]. apply andb_true_iff in H1 as [H0 H1].
    apply Hk in H0. apply Hx in H1. apply (IH Hl) in H2. cbn [fst snd] in *. congruence.
  - inversion HF as [|? ? Hx Hl]; subst. destruct Hx as [Hk Hx]. injection H as <- <- <-.
    apply andb_true_iff. split; [apply andb_true_iff; split; [apply Hk|apply Hx]|apply (IH Hl)]; reflexivity.
Qed.

Lemma veqb_eq : forall a b, veqb a b = true <-> a = b.
Proof.
  induction a as [|x|z|f|n| | |x|x|l HF|l HF|d HF|t v IH|t v IH|c|k s e HS HE] using pyval_ind';
    intros b; destruct b; cbn [veqb]; try (split; intros H; congruence).
  - rewrite Bool.eqb_true_iff. split; congruence.
  - rewrite Z.eqb_eq. split; congruence.
  - rewrite N.eqb_eq. split; congruence.
  - rewrite N.eqb_eq. split; congruence.
  - rewrite bytes_eqb_eq. split; congruence.
  - rewrite bytes_eqb_eq. split; congruence.
  - change (lveqb l l0 = true <-> VList l = VList l0). rewrite (lveqb_eq l HF). split; congruence.
  - change (lveqb l l0 = true <-> VTuple l = VTuple l0). rewrite (lveqb_eq l HF). split; congruence.
  - change (dveqb d d0 = true <-> VDict d = VDict d0). rewrite (dveqb_eq d HF). split; congruence.
  - rewrite andb_true_iff, N.eqb_eq, IH. split; [intros [? ?]|intros H; injection H]; split || idtac; congruence.
  - rewrite andb_true_iff, N.eqb_eq, IH. split; [intros [? ?]|intros H; injection H]; split || idtac; congruence.
  - destruct c as [f i], c0 as [f' i']. cbn [c_fam c_id]. rewrite andb_true_iff, Z.eqb_eq.
    destruct (fam_eq_dec f f'); split; intros H; try (destruct H; congruence).
    injection H as H1 H2. auto. injection H as H1 H2. congruence.
  - change (match k, k0 with
      | KSym, KSym | KOKP, KOKP | KEC2, KEC2 | KRSA, KRSA => dveqb s store && dveqb e extra
      | _, _ => false end = true <-> VKey k s e = VKey k0 store extra).
    assert (HX : dveqb s store && dveqb e extra = true <-> s = store /\ e = extra)
      by (rewrite andb_true_iff, (dveqb_eq s HS), (dveqb_eq e HE); reflexivity).
    destruct k, k0; rewrite ?HX; split; intros H; try discriminate;
      try (destruct H; congruence); (injection H as -> ->; auto).
Qed.

Lemma veqb_refl : forall a, veqb a a = true.
Proof. intros a. apply veqb_eq. reflexivity. Qed.

Lemma pyval_eq_dec : forall a b : pyval, {a = b} + {a <> b}.
Proof.
  intros a b. destruct (veqb a b) eqn:E; [left; apply veqb_eq; assumption|].
  right. intros H. apply veqb_eq in H. congruence.
Qed.

(** ** Key equality *)

Lemma keyeq_spec : forall a b, keyeq a b = true <-> knorm a = knorm b.
Proof. intros a b. unfold keyeq. apply veqb_eq. Qed.

Lemma keyeq_refl : forall a, keyeq a a = true.
Proof. intros a. apply keyeq_spec. reflexivity. Qed.

Lemma keyeq_sym : forall a b, keyeq a b = keyeq b a.
Proof.
  intros a b. destruct (keyeq a b) eqn:E.
  - symmetry. apply keyeq_spec. apply keyeq_spec in E. congruence.
  - destruct (keyeq b a) eqn:E'; [|reflexivity]. apply keyeq_spec in E'.
    assert (keyeq a b = true) by (apply keyeq_spec; congruence). congruence.
Qed.

Lemma keyeq_trans : forall a b c, keyeq a b = true -> keyeq b c = true -> keyeq a c = true.
Proof. intros a b c H1 H2. apply keyeq_spec in H1, H2. apply keyeq_spec. congruence. Qed.

Lemma keyeq_cong : forall a b c, keyeq a b = true -> keyeq a c = keyeq b c.
Proof.
  intros a b c H. unfold keyeq in *. apply veqb_eq in H. rewrite H. reflexivity.
Qed.

Lemma keyeq_cong_r : forall a b c, keyeq a b = true -> keyeq c a = keyeq c b.
Proof. intros a b c H. rewrite (keyeq_sym c a), (keyeq_sym c b). apply keyeq_cong. assumption. Qed.

Lemma keyeq_class : forall c v, keyeq (VClass c) v = true <-> v = VClass c.
Proof.
  intros c v. rewrite keyeq_spec. cbn [knorm]. split; intros H; [|subst; reflexivity].
  destruct v; cbn [knorm] in H; try discriminate; try congruence.
  destruct (float_int bits); discriminate.
Qed.

Lemma keyeq_int : forall z z', keyeq (VInt z) (VInt z') = Z.eqb z z'.
Proof. reflexivity. Qed.

Lemma keyeq_str : forall z z', keyeq (VStr z) (VStr z') = bytes_eqb z z'.
Proof. reflexivity. Qed.

(** ** Dictionaries *)

Lemma dget_cong : forall d k k', keyeq k k' = true -> dget d k = dget d k'.
Proof.
  induction d as [|[k0 v0] d IH]; intros k k' H; cbn [dget]; [reflexivity|].
  rewrite (keyeq_cong k k' k0 H). destruct (keyeq k' k0); [reflexivity|]. apply IH; assumption.
Qed.

Lemma dmem_cong : forall d k k', keyeq k k' = true -> dmem d k = dmem d k'.
Proof. intros d k k' H. unfold dmem. rewrite (dget_cong d k k' H). reflexivity. Qed.

Lemma dget_dset_same : forall d k k' v, keyeq k' k = true -> dget (dset d k v) k' = Some v.
Proof.
  induction d as [|[k0 v0] d IH]; intros k k' v H; cbn [dset dget].
  - rewrite H. reflexivity.
  - destruct (keyeq k k0) eqn:E; cbn [dget].
    + rewrite (keyeq_cong k' k k0 H), E. reflexivity.
    + rewrite (keyeq_cong k' k k0 H), E. apply IH; assumption.
Qed.

Lemma dget_dset_other : forall d k k' v, keyeq k' k = false -> dget (dset d k v) k' = dget d k'.
Proof.
  induction d as [|[k0 v0] d IH]; intros k k' v H; cbn [dset dget].
  - rewrite H. reflexivity.
  - destruct (keyeq k k0) eqn:E; cbn [dget].
    + destruct (keyeq k' k0) eqn:E'; [|reflexivity].
      rewrite keyeq_sym in E. pose proof (keyeq_trans _ _ _ E' E). congruence.
    + destruct (keyeq k' k0); [reflexivity|]. apply IH; assumption.
Qed.

Lemma dget_dset : forall d k k' v,
  dget (dset d k v) k' = if keyeq k' k then Some v else dget d k'.
Proof.
  intros d k k' v. destruct (keyeq k' k) eqn:E.
  - apply dget_dset_same; assumption.
  - apply dget_dset_other; assumption.
Qed.

Lemma dget_ddel_other : forall d k k', keyeq k' k = false -> dget (ddel d k) k' = dget d k'.
Proof.
  induction d as [|[k0 v0] d IH]; intros k k' H; cbn [ddel dget]; [reflexivity|].
  destruct (keyeq k k0) eqn:E.
  - destruct (keyeq k' k0) eqn:E'; [|reflexivity].
    rewrite keyeq_sym in E. pose proof (keyeq_trans _ _ _ E' E). congruence.
  - cbn [dget]. destruct (keyeq k' k0); [reflexivity|]. apply IH; assumption.
Qed.

(** No two keys are equal: the invariant of Python dictionaries. *)
Fixpoint dnodup (d : dict) : bool :=
  match d with [] => true | (k, _) :: r => negb (dmem r k) && dnodup r end.

Lemma dmem_dset : forall d k v k', dmem (dset d k v) k' = keyeq k' k || dmem d k'.
Proof.
  intros d k v k'. unfold dmem. rewrite dget_dset. destruct (keyeq k' k); reflexivity.
Qed.

Lemma dnodup_dset : forall d k v, dnodup d = true -> dnodup (dset d k v) = true.
Proof.
  induction d as [|[k0 v0] d IH]; intros k v H; cbn [dset dnodup] in *; [reflexivity|].
  apply andb_true_iff in H as [H1 H2]. destruct (keyeq k k0) eqn:E; cbn [dnodup].
  - rewrite H1, H2. reflexivity.
  - rewrite IH by assumption. rewrite dmem_dset. rewrite keyeq_sym, E. cbn [orb].
    rewrite H1. reflexivity.
Qed.

Lemma dmem_ddel_imp : forall d k k', dmem d k' = false -> dmem (ddel d k) k' = false.
Proof.
  intros d k k' H. unfold dmem in *. destruct (keyeq k' k) eqn:E; [|rewrite dget_ddel_other; assumption].
  destruct (dget d k') eqn:E'; [discriminate|]. clear H.
  induction d as [|[k0 v0] d IH]; [reflexivity|]. cbn [dget] in E'. cbn [ddel].
  destruct (keyeq k' k0) eqn:E0; [discriminate|].
  destruct (keyeq k k0); cbn [dget]; rewrite ?E0; [rewrite E'; reflexivity|]. apply IH; assumption.
Qed.

Lemma dnodup_ddel : forall d k, dnodup d = true -> dnodup (ddel d k) = true.
Proof.
  induction d as [|[k0 v0] d IH]; intros k H; cbn [ddel dnodup] in *; [reflexivity|].
  apply andb_true_iff in H as [H1 H2]. destruct (keyeq k k0) eqn:E; [assumption|]. cbn [dnodup].
  rewrite IH by assumption. apply negb_true_iff in H1. rewrite (dmem_ddel_imp d k k0 H1). reflexivity.
Qed.

Lemma dget_ddel_same : forall d k k', dnodup d = true -> keyeq k' k = true -> dget (ddel d k) k' = None.
Proof.
  induction d as [|[k0 v0] d IH]; intros k k' H E; cbn [ddel dnodup] in *; [reflexivity|].
  apply andb_true_iff in H as [H1 H2]. destruct (keyeq k k0) eqn:E0.
  - apply negb_true_iff in H1. unfold dmem in H1.
    rewrite (dget_cong d k' k0) by (eapply keyeq_trans; eassumption).
    destruct (dget d k0); [discriminate|reflexivity].
  - cbn [dget]. rewrite (keyeq_cong k' k k0 E), E0. apply IH; assumption.
Qed.

Lemma dget_ddel : forall d k k', dnodup d = true ->
  dget (ddel d k) k' = if keyeq k' k then None else dget d k'.
Proof.
  intros d k k' H. destruct (keyeq k' k) eqn:E;
    [apply dget_ddel_same|apply dget_ddel_other]; assumption.
Qed.

Lemma dmem_true : forall d k, dmem d k = true <-> exists v, dget d k = Some v.
Proof.
  intros d k. unfold dmem. destruct (dget d k) as [v|]; split; intros H; eauto; try discriminate.
  destruct H as [? ?]; discriminate.
Qed.

Lemma dmem_false : forall d k, dmem d k = false <-> dget d k = None.
Proof. intros d k. unfold dmem. destruct (dget d k); split; congruence. Qed.

Lemma dset_fresh : forall d k v, dmem d k = false -> dset d k v = d ++ [(k, v)].
Proof.
  induction d as [|[k0 v0] d IH]; intros k v H; cbn [dset app]; [reflexivity|].
  unfold dmem in H. cbn [dget] in H. destruct (keyeq k k0); [discriminate|].
  rewrite IH by exact H. reflexivity.
Qed.

Lemma dget_app : forall d e k, dget (d ++ e) k = match dget d k with Some v => Some v | None => dget e k end.
Proof.
  induction d as [|[k0 v0] d IH]; intros e k; cbn [app dget]; [reflexivity|].
  destruct (keyeq k k0); [reflexivity|]. apply IH.
Qed.

Lemma dupdate_cons : forall d k v e, dupdate d ((k, v) :: e) = dupdate (dset d k v) e.
Proof. reflexivity. Qed.

Lemma dnodup_dupdate : forall e d, dnodup d = true -> dnodup (dupdate d e) = true.
Proof.
  induction e as [|[k v] e IH]; intros d H; [assumption|].
  rewrite dupdate_cons. apply IH, dnodup_dset. assumption.
Qed.

Lemma dnodup_of_pairs : forall l, dnodup (dict_of_pairs l) = true.
Proof. intros l. apply dnodup_dupdate. reflexivity. Qed.

(** Appending a disjoint duplicate-free dictionary. *)
Lemma dupdate_disjoint : forall e d, dnodup e = true ->
  (forall k v, In (k, v) e -> dmem d k = false) -> dupdate d e = d ++ e.
Proof.
  induction e as [|[k v] e IH]; intros d H HD; [symmetry; apply app_nil_r|].
  rewrite dupdate_cons. cbn [dnodup] in H. apply andb_true_iff in H as [H1 H2].
  rewrite dset_fresh by (eapply HD; left; reflexivity).
  rewrite IH; [rewrite <- app_assoc; reflexivity|assumption|].
  intros k' v' Hin. unfold dmem. rewrite dget_app.
  assert (HF : dmem d k' = false) by (eapply HD; right; eassumption).
  apply dmem_false in HF. rewrite HF. cbn [dget].
  destruct (keyeq k' k) eqn:E; [|reflexivity].
  exfalso. apply negb_true_iff in H1. rewrite <- (dmem_cong e k' k E) in H1.
  assert (HT : dmem e k' = true).
  { clear - Hin. induction e as [|[k0 v0] e IH]; [destruct Hin|]. unfold dmem. cbn [dget].
    destruct (keyeq k' k0) eqn:E; [reflexivity|]. destruct Hin as [H|H].
    - injection H as -> ->. rewrite keyeq_refl in E. discriminate.
    - apply IH in H. exact H. }
  congruence.
Qed.

Lemma dict_of_pairs_nodup : forall d, dnodup d = true -> dict_of_pairs d = d.
Proof. intros d H. unfold dict_of_pairs. rewrite dupdate_disjoint; auto. Qed.

(** [d.update(e)]: the last value given wins. *)
Lemma dget_dupdate : forall e d k, dget (dupdate d e) k =
  match dget (rev e) k with Some v => Some v | None => dget d k end.
Proof.
  induction e as [|[k0 v0] e IH]; intros d k; [reflexivity|].
  rewrite dupdate_cons, IH. cbn [rev]. rewrite dget_app. cbn [dget].
  destruct (dget (rev e) k); [reflexivity|]. rewrite dget_dset.
  destruct (keyeq k k0); reflexivity.
Qed.

Lemma dget_In : forall d k v, dget d k = Some v -> exists k', In (k', v) d /\ keyeq k k' = true.
Proof.
  induction d as [|[k0 v0] d IH]; intros k v H; cbn [dget] in H; [discriminate|].
  destruct (keyeq k k0) eqn:E.
  - injection H as ->. exists k0. split; [left; reflexivity|assumption].
  - destruct (IH _ _ H) as (k' & Hin & Hk). exists k'. split; [right; assumption|assumption].
Qed.

Lemma In_dget : forall d k v, dnodup d = true -> In (k, v) d -> dget d k = Some v.
Proof.
  induction d as [|[k0 v0] d IH]; intros k v H Hin; [destruct Hin|].
  cbn [dnodup] in H. apply andb_true_iff in H as [H1 H2]. cbn [dget].
  destruct Hin as [Hin|Hin].
  - injection Hin as -> ->. rewrite keyeq_refl. reflexivity.
  - destruct (keyeq k k0) eqn:E; [|apply IH; assumption].
    apply negb_true_iff in H1. rewrite <- (dmem_cong d k k0 E) in H1.
    apply dmem_false in H1. rewrite (IH _ _ H2 Hin) in H1. discriminate.
Qed.

Lemma In_dmem : forall d k v, In (k, v) d -> dmem d k = true.
Proof.
  induction d as [|[k0 v0] d IH]; intros k v Hin; [destruct Hin|]. unfold dmem. cbn [dget].
  destruct (keyeq k k0) eqn:E; [reflexivity|]. destruct Hin as [H|H].
  - injection H as -> ->. rewrite keyeq_refl in E. discriminate.
  - apply (IH k v). assumption.
Qed.

Lemma dset_In : forall d k v p, In p (dset d k v) -> In p d \/ (snd p = v /\ keyeq (fst p) k = true).
Proof.
  induction d as [|[k0 v0] d IH]; intros k v p H; cbn [dset] in H.
  - destruct H as [<-|[]]. right. split; [reflexivity|apply keyeq_refl].
  - destruct (keyeq k k0) eqn:E.
    + destruct H as [<-|H]; [right; split; [reflexivity|cbn [fst]; rewrite keyeq_sym; assumption]|].
      left. right. assumption.
    + destruct H as [<-|H]; [left; left; reflexivity|].
      destruct (IH _ _ _ H) as [H'|H']; [left; right; assumption|right; assumption].
Qed.

Lemma ddel_In : forall d k p, In p (ddel d k) -> In p d.
Proof.
  induction d as [|[k0 v0] d IH]; intros k p H; cbn [ddel] in H; [destruct H|].
  destruct (keyeq k k0); [right; assumption|].
  destruct H as [<-|H]; [left; reflexivity|right; eapply IH; eassumption].
Qed.

Lemma dget_nodup_map : forall (f : pyval -> pyval) d k,
  dget (map (fun kv => (fst kv, f (snd kv))) d) k = option_map f (dget d k).
Proof.
  induction d as [|[k0 v0] d IH]; intros k; cbn [map dget fst snd]; [reflexivity|].
  destruct (keyeq k k0); [reflexivity|]. apply IH.
Qed.
