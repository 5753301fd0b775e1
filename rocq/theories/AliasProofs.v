(** Proofs for C114. *)
From Coq Require Import NArith ZArith Bool String Lia.
From Coq Require Import Init.Byte List.
From Verif Require Import Bytes Value Registry Crypto Keys Headers SpecRegistry Alias SpecAlias ValueProofs HdrProofs.
Import ListNotations.

(** ** Reading *)

Lemma opt_items_impl : forall (g g' : hv -> option pyval) its d,
  (forall k x v, In (k, x) its -> g x = Some v -> g' x = Some v) -> opt_items g its = Some d -> opt_items g' its = Some d.
Proof.
  intros g g' its. induction its as [|[k x] r IH]; intros d H HD; cbn [opt_items] in *; [exact HD|].
  destruct (g x) eqn:E; [|discriminate]. destruct (opt_items g r) eqn:E2; [|discriminate]. injection HD as <-.
  rewrite (H k x _ (or_introl eq_refl) E), (IH _ (fun k' x' v' HI => H k' x' v' (or_intror HI)) eq_refl). reflexivity.
Qed.

Lemma opt_items_in : forall (g : hv -> option pyval) its d k x, opt_items g its = Some d -> In (k, x) its -> exists v, g x = Some v.
Proof.
  intros g its. induction its as [|[k' x'] r IH]; intros d k x HD HI; cbn [opt_items] in HD; [destruct HI|].
  destruct (g x') eqn:E; [|discriminate]. destruct (opt_items g r) eqn:E2; [|discriminate].
  destruct HI as [HI|HI]; [injection HI as -> ->; eauto|exact (IH _ _ _ eq_refl HI)].
Qed.

Lemma view_S : forall n f x v, view n f x = Some v -> view (S n) f x = Some v.
Proof.
  induction n as [|n IH]; intros f x v H; destruct x as [w|l]; try exact H; [discriminate|].
  cbn [view] in H. destruct (opt_items (view n f) (o_items (f l))) eqn:E; [|discriminate].
  change (view (S (S n)) f (At l)) with
    (match opt_items (view (S n) f) (o_items (f l)) with Some d => Some (build (o_kind (f l)) d) | None => None end).
  rewrite (opt_items_impl _ (view (S n) f) _ _ (fun _ x v _ => IH f x v) E). exact H.
Qed.

Lemma view_le : forall n m f x v, n <= m -> view n f x = Some v -> view m f x = Some v.
Proof. intros n m f x v H HV. induction H; [exact HV|apply view_S; assumption]. Qed.

Lemma reads_det : forall f x v v', reads f x v -> reads f x v' -> v = v'.
Proof.
  intros f x v v' [n H] [n' H']. apply (view_le _ (Nat.max n n')) in H; [|lia]. apply (view_le _ (Nat.max n n')) in H'; [|lia]. congruence.
Qed.

(** Objects of [S] refer to objects of [S] only. *)
Definition ref_in (P : N -> Prop) (x : hv) : Prop := match x with At l => P l | Imm _ => True end.
Definition inside (P : N -> Prop) (f : N -> obj) : Prop := forall l, P l -> Forall (fun e => ref_in P (snd e)) (o_items (f l)).

Lemma view_inside : forall P f f', inside P f -> (forall l, P l -> f' l = f l) ->
  forall n x v, ref_in P x -> view n f x = Some v -> view n f' x = Some v.
Proof.
  intros P f f' HI HF. induction n as [|n IH]; intros x v HX H; destruct x as [w|l]; try exact H.
  cbn [ref_in] in HX. cbn [view] in *. rewrite (HF _ HX).
  destruct (opt_items (view n f) (o_items (f l))) eqn:E; [|discriminate].
  rewrite (opt_items_impl _ (view n f') _ _ (fun k x v HK HV => IH x v (proj1 (Forall_forall _ _) (HI _ HX) (k, x) HK) HV) E). exact H.
Qed.

(** An object that is not seen at this depth is not part of what is seen. *)
Lemma view_unseen : forall l f f', (forall a, a <> l -> f' a = f a) ->
  forall n x v, view n f (At l) = None -> view n f x = Some v -> view n f' x = Some v.
Proof.
  intros l f f' HF. induction n as [|n IH]; intros x v HL H; destruct x as [w|a]; try exact H.
  destruct (N.eq_dec a l) as [->|NE]; [congruence|].
  assert (HL' : view n f (At l) = None).
  { destruct (view n f (At l)) as [u|] eqn:E; [|reflexivity]. apply view_S in E. congruence. }
  cbn [view] in H |- *. rewrite (HF _ NE). destruct (opt_items (view n f) (o_items (f a))) eqn:E; [|discriminate].
  rewrite (opt_items_impl _ (view n f') _ _ (fun k y u _ HV => IH y u HL' HV) E). exact H.
Qed.

(** So what an object contains does not change when the object itself does. *)
Lemma contents_kept : forall l f f' v k x, (forall a, a <> l -> f' a = f a) -> reads f (At l) v -> In (k, x) (o_items (f l)) ->
  exists n w, view n f x = Some w /\ view n f' x = Some w.
Proof.
  intros l f f' v k x HF [n HV] HI.
  assert (HM : exists n0, view n0 f (At l) = None /\ view (S n0) f (At l) <> None).
  { induction n as [|n IH]; [discriminate|]. destruct (view n f (At l)) as [u|] eqn:E.
    - destruct n as [|n']; [discriminate|]. apply IH. apply view_S in E. congruence.
    - exists n. split; [exact E|congruence]. }
  destruct HM as (n0 & H0 & H1). cbn [view] in H1. destruct (opt_items (view n0 f) (o_items (f l))) as [d|] eqn:E; [|congruence].
  destruct (opt_items_in _ _ _ _ _ E HI) as [w HW]. exists n0, w. split; [exact HW|exact (view_unseen l f f' HF n0 x w H0 HW)].
Qed.

(** ** Copying *)

Definition sim (s : memo) (x y : hv) : Prop :=
  match x, y with Imm v, Imm v' => v = v' | At a, At b => In (a, b) s | _, _ => False end.

Lemma sim_incl : forall s s' x y, incl s s' -> sim s x y -> sim s' x y.
Proof. intros s s' [v|a] [v'|b] H HS; cbn [sim] in *; auto. Qed.

Lemma copied_in : forall s l l', copied s l = Some l' -> In (l, l') s.
Proof.
  induction s as [|[a b] r IH]; cbn [copied]; intros l l' H; [discriminate|].
  destruct (N.eqb l a) eqn:E; [apply N.eqb_eq in E; subst; injection H as ->; left; reflexivity|right; auto].
Qed.

Section Copy.
Context (f0 : N -> obj) (n0 : N).
Context (HC : inside (fun l => (l < n0)%N) f0).

Definition entries (s : memo) (l l' : list (pyval * hv)) : Prop :=
  Forall2 (fun e e' => fst e = fst e' /\ sim s (snd e) (snd e')) l l'.
Definition done (s : memo) (m : mem) (a b : N) : Prop :=
  o_kind (m_obj m b) = o_kind (f0 a) /\ entries s (o_items (f0 a)) (o_items (m_obj m b)).

Lemma entries_incl : forall s s' l l', incl s s' -> entries s l l' -> entries s' l l'.
Proof.
  intros s s' l l' HI H. induction H as [|e e' l l' [H1 H2] H IH]; [constructor|].
  constructor; [split; [exact H1|exact (sim_incl _ _ _ _ HI H2)]|exact IH].
Qed.

(** Before the call. *)
Definition before (s : memo) (m : mem) : Prop :=
  (forall l, (l < n0)%N -> m_obj m l = f0 l) /\ (n0 <= m_next m)%N /\
  (forall a b, In (a, b) s -> (a < n0)%N /\ between n0 (m_next m) b).
(** After it. *)
Definition after (s : memo) (m : mem) (s' : memo) (m' : mem) : Prop :=
  incl s s' /\ (m_next m <= m_next m')%N /\ (forall l, (l < m_next m)%N -> m_obj m' l = m_obj m l) /\
  (forall a b, In (a, b) s' -> In (a, b) s \/ (a < n0)%N /\ between (m_next m) (m_next m') b /\ done s' m' a b) /\
  (forall b, between (m_next m) (m_next m') b -> exists a, In (a, b) s').

Lemma after_refl : forall s m, after s m s m.
Proof. intros s m. split; [apply incl_refl|]. split; [lia|]. split; [reflexivity|]. split; [intros a b H; left; exact H|]. intros b [H1 H2]. lia. Qed.

Lemma after_before : forall s m s' m', before s m -> after s m s' m' -> before s' m'.
Proof.
  intros s m s' m' (B1 & B2 & B3) (A1 & A2 & A3 & A4 & _). split; [|split].
  - intros l HL. rewrite A3 by lia. exact (B1 _ HL).
  - lia.
  - intros a b HI. destruct (A4 _ _ HI) as [H|(H1 & [H2 H3] & _)]; [destruct (B3 _ _ H) as [H1 [H2 H3]]|]; (split; [exact H1|split; lia]).
Qed.

Lemma after_trans : forall s m s1 m1 s2 m2, after s m s1 m1 -> after s1 m1 s2 m2 -> after s m s2 m2.
Proof.
  intros s m s1 m1 s2 m2 (A1 & A2 & A3 & A4 & A5) (C1 & C2 & C3 & C4 & C5).
  split; [exact (incl_tran A1 C1)|]. split; [lia|]. split; [intros l HL; rewrite C3 by lia; exact (A3 _ HL)|]. split.
  2:{ intros b [H1 H2]. destruct (N.lt_ge_cases b (m_next m1)) as [HLT|HGE]; [|exact (C5 _ (conj HGE H2))].
      destruct (A5 _ (conj H1 HLT)) as [a HA]. exists a. exact (C1 _ HA). }
  intros a b HI. destruct (C4 _ _ HI) as [H|(H1 & [H2 H3] & H4)].
  - destruct (A4 _ _ H) as [H'|(H1 & [H2 H3] & [D1 D2])]; [left; exact H'|]. right. split; [exact H1|]. split; [split; lia|].
    unfold done. rewrite C3 by lia. split; [exact D1|exact (entries_incl _ _ _ _ C1 D2)].
  - right. split; [exact H1|]. split; [split; lia|exact H4].
Qed.

Lemma copy_after : forall n s m x m' s' y, copy n s m x = Some (m', s', y) -> before s m -> ref_in (fun l => (l < n0)%N) x ->
  after s m s' m' /\ sim s' x y.
Proof.
  induction n as [|n IH]; intros s m x m' s' y H HB HX; destruct x as [v|l]; cbn [copy] in H.
  - injection H as <- <- <-. split; [apply after_refl|reflexivity].
  - destruct (copied s l) as [l'|] eqn:E; [|discriminate]. injection H as <- <- <-. split; [apply after_refl|exact (copied_in _ _ _ E)].
  - injection H as <- <- <-. split; [apply after_refl|reflexivity].
  - destruct (copied s l) as [l'|] eqn:E; [injection H as <- <- <-; split; [apply after_refl|exact (copied_in _ _ _ E)]|].
    unfold alloc in H. cbn [ref_in] in HX. set (l' := m_next m) in *.
    set (m1 := Mem (fun j => if N.eqb j l' then Obj (o_kind (m_obj m l)) [] else m_obj m j) (N.succ l')) in *.
    destruct HB as (B1 & B2 & B3).
    assert (HB1 : before ((l, l') :: s) m1).
    { split; [|split].
      - intros a HA. unfold m1. cbn [m_obj]. destruct (N.eqb_spec a l') as [->|_]; [unfold l' in HA; lia|exact (B1 _ HA)].
      - unfold m1. cbn [m_next]. unfold l'. lia.
      - intros a b [HI|HI]; [injection HI as <- <-; unfold m1, between; cbn [m_next]; unfold l'; split; [exact HX|lia]|].
        destruct (B3 _ _ HI) as [H1 [H2 H3]]. unfold m1, between. cbn [m_next]. unfold l'. split; [exact H1|lia]. }
    assert (HL : m_obj m l = f0 l) by exact (B1 _ HX). rewrite HL in H.
    destruct (copy_items (copy n) ((l, l') :: s) m1 (o_items (f0 l))) as [[[m2 s2] its]|] eqn:EC; [|discriminate].
    injection H as <- <- <-.
    assert (HG : forall its0 s0 m0 mm ss its', copy_items (copy n) s0 m0 its0 = Some (mm, ss, its') -> before s0 m0 ->
               Forall (fun e => ref_in (fun l => (l < n0)%N) (snd e)) its0 -> after s0 m0 ss mm /\ entries ss its0 its').
    { clear - IH. induction its0 as [|[k x] r IHr]; intros s0 m0 mm ss its' H HB HF; cbn [copy_items] in H.
      - injection H as <- <- <-. split; [apply after_refl|constructor].
      - destruct (copy n s0 m0 x) as [[[ma sa] y]|] eqn:E1; [|discriminate].
        destruct (copy_items (copy n) sa ma r) as [[[mb sb] r']|] eqn:E2; [|discriminate]. injection H as <- <- <-.
        inversion HF as [|? ? HX HR]; subst. destruct (IH _ _ _ _ _ _ E1 HB HX) as [HA HS].
        destruct (IHr _ _ _ _ _ E2 (after_before _ _ _ _ HB HA) HR) as [HA2 HE].
        split; [exact (after_trans _ _ _ _ _ _ HA HA2)|]. constructor; [|exact HE].
        split; [reflexivity|]. cbn [snd]. exact (sim_incl _ _ _ _ (proj1 HA2) HS). }
    destruct (HG _ _ _ _ _ _ EC HB1 (HC _ HX)) as [(A1 & A2 & A3 & A4 & A5) HE]. unfold m1 in A2. cbn [m_next] in A2.
    assert (HIN : In (l, l') s2) by (apply A1; left; reflexivity).
    split; [|exact HIN]. split; [exact (fun p HP => A1 _ (or_intror HP))|]. split; [cbn [put m_next]; unfold l' in *; lia|]. split.
    + intros a HA. unfold put. cbn [m_obj]. destruct (N.eqb_spec a l') as [->|NE]; [unfold l' in HA; lia|].
      rewrite A3 by (unfold m1; cbn [m_next]; unfold l' in *; lia). unfold m1. cbn [m_obj]. destruct (N.eqb_spec a l'); [contradiction|reflexivity].
    + split. 2:{ intros b [H1 H2]. cbn [put m_next] in H2. destruct (N.eq_dec b l') as [->|NE]; [exists l; exact HIN|].
        apply A5. unfold m1, between. cbn [m_next]. unfold l' in *. lia. }
      intros a b HI. destruct (A4 _ _ HI) as [[HP|HP]|(H1 & [H2 H3] & [D1 D2])].
      * injection HP as <- <-. right. split; [exact HX|]. split; [unfold between; cbn [put m_next]; unfold l' in *; lia|].
        unfold done, put. cbn [m_obj]. rewrite N.eqb_refl. cbn [o_kind o_items]. split; [reflexivity|exact HE].
      * left. exact HP.
      * right. split; [exact H1|]. unfold m1 in H2. cbn [m_next] in H2. split; [unfold between; cbn [put m_next]; unfold l' in *; lia|].
        unfold done, put. cbn [m_obj]. destruct (N.eqb_spec b l') as [->|_]; [lia|]. split; [exact D1|exact D2].
Qed.

(** What a copy reads. *)
Lemma view_done : forall s m, (forall a b, In (a, b) s -> done s m a b) ->
  forall n x y v, sim s x y -> view n f0 x = Some v -> view n (m_obj m) y = Some v.
Proof.
  intros s m HD. induction n as [|n IH]; intros x y v HS HV; destruct x as [w|a], y as [w'|b]; cbn [sim] in HS; try contradiction.
  - subst. exact HV.
  - discriminate.
  - subst. exact HV.
  - cbn [view] in *. destruct (HD _ _ HS) as [D1 D2]. rewrite D1.
    destruct (opt_items (view n f0) (o_items (f0 a))) as [d|] eqn:E; [|discriminate].
    assert (HE : opt_items (view n (m_obj m)) (o_items (m_obj m b)) = Some d).
    { clear - D2 E IH. revert d E. induction D2 as [|[k x] [k' y] l l' [H1 H2] H IHl]; intros d E; [exact E|].
      cbn [opt_items fst snd] in *. subst k'. destruct (view n f0 x) as [w|] eqn:E1; [|discriminate].
      destruct (opt_items (view n f0) l) as [d'|] eqn:E2; [|discriminate]. injection E as <-.
      rewrite (IH _ _ _ H2 E1), (IHl _ eq_refl). reflexivity. }
    rewrite HE. exact HV.
Qed.

End Copy.

(** Every reference in [m] is to an object in [m]. *)
Definition closed (m : mem) : Prop := inside (fun l => (l < m_next m)%N) (m_obj m).

Lemma copy_spec : forall n m l m' s y, closed m -> (l < m_next m)%N -> copy n [] m (At l) = Some (m', s, y) ->
  exists l', y = At l' /\ between (m_next m) (m_next m') l' /\ (m_next m <= m_next m')%N /\
    (forall a, (a < m_next m)%N -> m_obj m' a = m_obj m a) /\
    inside (between (m_next m) (m_next m')) (m_obj m') /\
    In (l, l') s /\ (forall a b, In (a, b) s -> between (m_next m) (m_next m') b /\ done (m_obj m) s m' a b).
Proof.
  intros n m l m' s y HC HL H.
  destruct (copy_after (m_obj m) (m_next m) HC n [] m (At l) m' s y H) as [(_ & A2 & A3 & A4 & A5) HS].
  { split; [reflexivity|]. split; [lia|]. intros a b []. }
  { exact HL. }
  destruct y as [v|l']; cbn [sim] in HS; [contradiction|]. exists l'. split; [reflexivity|].
  assert (HD : forall a b, In (a, b) s -> between (m_next m) (m_next m') b /\ done (m_obj m) s m' a b).
  { intros a b HI. destruct (A4 _ _ HI) as [[]|(_ & H2 & H3)]. split; assumption. }
  split; [exact (proj1 (HD _ _ HS))|]. split; [exact A2|]. split; [exact A3|]. split; [|split; [exact HS|exact HD]].
  intros b HB. destruct (A5 _ HB) as [a HI].
  destruct (HD _ _ HI) as [_ [_ D2]]. clear - D2 HD.
  induction D2 as [|e e' x x' [_ H] _ IH]; [constructor|]. constructor; [|exact IH].
  destruct (snd e) as [v|c], (snd e') as [v'|d]; cbn [sim ref_in] in *; try exact I; try contradiction. exact (proj1 (HD _ _ H)).
Qed.

(** The copy has the value of the original, whatever becomes of all objects the call did not
    make. *)
Lemma copy_reads : forall n m l m' s y v f', closed m -> (l < m_next m)%N -> copy n [] m (At l) = Some (m', s, y) ->
  reads (m_obj m) (At l) v -> (forall a, between (m_next m) (m_next m') a -> f' a = m_obj m' a) -> reads f' y v.
Proof.
  intros n m l m' s y v f' HC HL H [k HV] HF. destruct (copy_spec _ _ _ _ _ _ HC HL H) as (l' & -> & HR & _ & _ & _ & HI & HD).
  exists k. apply (view_done (m_obj m) s (Mem f' (m_next m'))) with (x := At l); [|exact HI|exact HV].
  intros a b HP. destruct (HD _ _ HP) as [HB [D1 D2]]. unfold done. cbn [m_obj]. rewrite (HF _ HB). split; assumption.
Qed.

Lemma Forall_ref : forall (P Q : N -> Prop) (l : list (pyval * hv)), (forall a, P a -> Q a) ->
  Forall (fun e => ref_in P (snd e)) l -> Forall (fun e => ref_in Q (snd e)) l.
Proof. intros P Q l H. apply Forall_impl. intros [k [v|a]]; cbn [snd ref_in]; auto. Qed.

Lemma copy_closed : forall n m l m' s y, closed m -> (l < m_next m)%N -> copy n [] m (At l) = Some (m', s, y) -> closed m'.
Proof.
  intros n m l m' s y HC HL H. destruct (copy_spec _ _ _ _ _ _ HC HL H) as (l' & -> & HR & HN & HO & HIN & HI & HD).
  intros a HA'. destruct (N.lt_ge_cases a (m_next m)) as [HLT|HGE].
  - rewrite HO by exact HLT. eapply Forall_ref; [|exact (HC _ HLT)]. cbn beta. lia.
  - eapply Forall_ref; [|exact (HIN _ (conj HGE HA'))]. unfold between. lia.
Qed.

(** ** Entries of a dict *)

Lemma hset_Forall : forall (P : hv -> Prop) h k x, Forall (fun e => P (snd e)) h -> P x -> Forall (fun e => P (snd e)) (hset h k x).
Proof.
  induction h as [|[k' y] r IH]; intros k x HF HP; cbn [hset]; [repeat constructor; exact HP|].
  inversion HF as [|? ? H1 H2]; subst. destruct (keyeq k k'); constructor; [exact HP|exact H2|exact H1|exact (IH _ _ H2 HP)].
Qed.

Lemma hupdate_Forall : forall (P : hv -> Prop) u h, Forall (fun e => P (snd e)) h -> Forall (fun e => P (snd e)) u ->
  Forall (fun e => P (snd e)) (hupdate h u).
Proof.
  induction u as [|[k x] r IH]; intros h HF HU; cbn [hupdate]; [exact HF|].
  inversion HU as [|? ? H1 H2]; subst. apply IH; [apply hset_Forall; [exact HF|exact H1]|exact H2].
Qed.

Lemma hset_view : forall g h d k x v, opt_items g h = Some d -> g x = Some v -> opt_items g (hset h k x) = Some (dset d k v).
Proof.
  intros g. induction h as [|[k' y] r IH]; intros d k x v HD HX; cbn [opt_items hset] in *.
  - injection HD as <-. cbn [dset]. rewrite HX. reflexivity.
  - destruct (g y) as [w|] eqn:E; [|discriminate]. destruct (opt_items g r) as [d'|] eqn:E2; [|discriminate]. injection HD as <-.
    cbn [dset]. destruct (keyeq k k'); cbn [opt_items]; [rewrite HX, E2; reflexivity|]. rewrite E, (IH _ _ _ _ eq_refl HX). reflexivity.
Qed.

Lemma hupdate_view : forall g u h d du, opt_items g h = Some d -> opt_items g u = Some du ->
  opt_items g (hupdate h u) = Some (dupdate d du).
Proof.
  intros g. induction u as [|[k x] r IH]; intros h d du HD HU; cbn [opt_items] in HU.
  - injection HU as <-. exact HD.
  - destruct (g x) as [w|] eqn:E; [|discriminate]. destruct (opt_items g r) as [d'|] eqn:E2; [|discriminate]. injection HU as <-.
    unfold hupdate, dupdate. cbn [fold_left fst snd]. apply IH; [exact (hset_view _ _ _ _ _ _ HD E)|reflexivity].
Qed.

(** ** The parser *)

Definition extends (m m' : mem) : Prop := (m_next m <= m_next m')%N /\ (forall l, (l < m_next m)%N -> m_obj m' l = m_obj m l).

Lemma extends_refl : forall m, extends m m.
Proof. intros m. split; [lia|reflexivity]. Qed.

Lemma extends_trans : forall a b c, extends a b -> extends b c -> extends a c.
Proof. intros a b c [H1 H2] [H3 H4]. split; [lia|]. intros l HL. rewrite H4 by lia. exact (H2 _ HL). Qed.

Lemma exists_at_ref : forall m x, exists_at m x = ref_in (fun l => (l < m_next m)%N) x.
Proof. intros m [v|l]; reflexivity. Qed.

Lemma exists_extends : forall m m' x, extends m m' -> exists_at m x -> exists_at m' x.
Proof. intros m m' [v|l] [H _] HX; cbn [exists_at] in *; [exact I|lia]. Qed.

Lemma view_extends : forall n m m' x v, closed m -> extends m m' -> exists_at m x -> view n (m_obj m) x = Some v -> view n (m_obj m') x = Some v.
Proof.
  intros n m m' x v HC [_ HE] HX. apply (view_inside _ _ _ HC HE). rewrite exists_at_ref in HX. exact HX.
Qed.

Lemma extends_alloc : forall m o, extends m (fst (alloc m o)).
Proof.
  intros m o. split; cbn [alloc fst m_next m_obj]; [lia|]. intros l HL. destruct (N.eqb_spec l (m_next m)); [lia|reflexivity].
Qed.

Lemma closed_alloc : forall m o, closed m -> exists_in (fst (alloc m o)) o -> closed (fst (alloc m o)).
Proof.
  intros m o HC HO l HL. cbn [alloc fst m_next m_obj] in *. destruct (N.eqb_spec l (m_next m)) as [->|NE].
  - exact HO.
  - eapply Forall_ref; [|apply HC; lia]. cbn beta. lia.
Qed.

Lemma closed_put : forall m l o, closed m -> exists_in m o -> closed (put m l o).
Proof.
  intros m l o HC HO a HA. cbn [put m_next m_obj] in *. destruct (N.eqb_spec a l) as [->|NE]; [exact HO|exact (HC _ HA)].
Qed.

Lemma parser_cases : forall a, remade a \/
  (forall m v' x, parsed_ref m a v' x = (m, x)) /\ (forall X v v', parse_value X a v = Ok v' -> v' = v).
Proof.
  assert (HB : forall v v', is_bstr v = Ok v' -> v' = v) by (intros v v'; destruct v; cbn; congruence).
  assert (HC : forall v v', crit_is_array v = Ok v' -> v' = v).
  { intros v v' H. unfold crit_is_array in H.
    repeat match type of H with context [match ?e with _ => _ end] => destruct e end; congruence. }
  assert (HT : forall v v', content_type_is_uint_or_tstr v = Ok v' -> v' = v).
  { intros v v' H. unfold content_type_is_uint_or_tstr in H.
    repeat match type of H with context [match ?e with _ => _ end] => destruct e end; congruence. }
  intros a. destruct a as [| | | | | | |b|u|l|l|d|t v|t v|c|kc ks ke]; try (right; split; [reflexivity|cbn; congruence]).
  destruct c as [f z]. destruct f; try (right; split; [reflexivity|cbn; congruence]).
  destruct (Z.eq_dec z 1) as [->|N1]; [left; left; reflexivity|].
  destruct (Z.eq_dec z (-1)) as [->|N2]; [left; right; left; reflexivity|].
  destruct (Z.eq_dec z (-2)) as [->|N3]; [left; right; right; reflexivity|].
  right. destruct z as [|p|p]; [split; [reflexivity|cbn; congruence]| |].
  - do 4 (try destruct p as [p|p|]); cbn [parsed_ref parse_value]; try congruence; (split; [reflexivity|]); intros X v v' H; first [injection H as <-; reflexivity|exact (HB _ _ H)|exact (HC _ _ H)|exact (HT _ _ H)].
  - do 2 (try destruct p as [p|p|]); cbn [parsed_ref parse_value]; try congruence; (split; [reflexivity|]); intros X v v' H; injection H as <-; reflexivity.
Qed.

(** Where a reference in a parsed header comes from. *)
Definition flat (m : mem) (x : hv) : Prop :=
  match x with Imm _ => True | At l => Forall (fun e => exists v, snd e = Imm v) (o_items (m_obj m l)) end.
Definition origin (m m' : mem) (x y : hv) : Prop := y = x \/ flat m' y /\ match y with Imm _ => True | At l => between (m_next m) (m_next m') l end.

Lemma parsed_ref_ok : forall X n m a x v v' m' y, closed m -> exists_at m x -> view n (m_obj m) x = Some v -> parse_value X a v = Ok v' ->
  parsed_ref m a v' x = (m', y) ->
  extends m m' /\ closed m' /\ exists_at m' y /\ view (S n) (m_obj m') y = Some v' /\ origin m m' x y.
Proof.
  intros X n m a x v v' m' y HC HX HV HP H. destruct (parser_cases a) as [HR|[H1 H2]].
  2:{ rewrite H1 in H. injection H as <- <-. apply H2 in HP as ->. split; [apply extends_refl|]. split; [exact HC|]. split; [exact HX|].
      split; [exact (view_S _ _ _ _ HV)|left; reflexivity]. }
  assert (HK : (m', y) = (m, Imm v') \/ exists c s e, v' = VKey c s e /\
            (m', y) = (fst (alloc m (Obj (KKey c e) (map (fun kv => (fst kv, Imm (snd kv))) s))), At (m_next m))).
  { destruct HR as [->|[->| ->]]; cbn in H.
    - left. congruence.
    - destruct v'; try (left; congruence). right. do 3 eexists. split; [reflexivity|]. unfold alloc. cbn [fst]. congruence.
    - destruct v'; try (left; congruence). right. do 3 eexists. split; [reflexivity|]. unfold alloc. cbn [fst]. congruence. }
  clear H. destruct HK as [HK|(c & s & e & -> & HK)]; injection HK as -> ->.
  - split; [apply extends_refl|]. split; [exact HC|]. split; [exact I|]. split; [reflexivity|right; split; exact I].
  - set (o := Obj (KKey c e) (map (fun kv => (fst kv, Imm (snd kv))) s)).
    assert (HI : Forall (fun e => exists v, snd e = Imm v) (o_items o)).
    { unfold o. cbn [o_items]. clear. induction s as [|[k v] r IH]; constructor; [exists v; reflexivity|exact IH]. }
    split; [apply extends_alloc|]. split.
    { apply closed_alloc; [exact HC|]. unfold exists_in. eapply Forall_impl; [|exact HI]. intros p [v0 ->]. exact I. }
    split; [cbn [exists_at alloc fst m_next]; lia|].
    assert (HO : m_obj (fst (alloc m o)) (m_next m) = o) by (cbn [alloc fst m_obj]; rewrite N.eqb_refl; reflexivity).
    split.
    + assert (HS : forall f n, opt_items (view n f) (o_items o) = Some s).
      { intros f n'. unfold o. cbn [o_items]. clear.
        induction s as [|[k v] r IH]; [reflexivity|]. cbn [map opt_items fst snd]. rewrite IH. destruct n'; reflexivity. }
      change (match opt_items (view n (m_obj (fst (alloc m o)))) (o_items (m_obj (fst (alloc m o)) (m_next m))) with
              | Some d => Some (build (o_kind (m_obj (fst (alloc m o)) (m_next m))) d) | None => None end = Some (VKey c s e)).
      rewrite HO, HS. reflexivity.
    + right. split; [change (Forall (fun e => exists v, snd e = Imm v) (o_items (m_obj (fst (alloc m o)) (m_next m)))); rewrite HO; exact HI|]. split; cbn [alloc fst m_next]; lia.
Qed.

Section Parse.
Context (X : crypto) (depth : nat).

Lemma parse_refs_ok : forall allow h m acc m' h', closed m -> Forall (fun e => exists_at m (snd e)) h ->
  Forall (fun e => exists_at m (snd e)) acc -> parse_refs X depth allow m h acc = Ok (m', h') ->
  extends m m' /\ closed m' /\ Forall (fun e => exists_at m' (snd e)) h' /\
  (forall da, opt_items (view (S depth) (m_obj m)) acc = Some da ->
     exists d hd, opt_items (view depth (m_obj m)) h = Some d /\ parse_items X allow d da = Ok hd /\
       opt_items (view (S depth) (m_obj m')) h' = Some hd).
Proof.
  intros allow. induction h as [|[k x] r IH]; intros m acc m' h' HC HH HA H; cbn [parse_refs] in H.
  - injection H as <- <-. split; [apply extends_refl|]. split; [exact HC|]. split; [exact HA|].
    intros da HD. exists [], da. split; [reflexivity|]. split; [reflexivity|exact HD].
  - apply bind_ok in H as (a & HF & H). apply bind_ok in H as (v & HV & H). apply bind_ok in H as (v' & HP & H).
    destruct (view depth (m_obj m) x) as [w|] eqn:EV; [|discriminate]. injection HV as ->.
    destruct (parsed_ref m a v' x) as [m1 y] eqn:ER. inversion HH as [|? ? HX HR]; subst. cbn [snd] in HX.
    destruct (parsed_ref_ok _ _ _ _ _ _ _ _ _ HC HX EV HP ER) as (HE & HC1 & HY & HV1 & _).
    assert (HR1 : Forall (fun e => exists_at m1 (snd e)) r) by (eapply Forall_impl; [|exact HR]; intros e; apply exists_extends; exact HE).
    assert (HA1 : Forall (fun e => exists_at m1 (snd e)) (hset acc a y)).
    { apply hset_Forall; [|exact HY]. eapply Forall_impl; [|exact HA]; intros e; apply exists_extends; exact HE. }
    destruct (IH _ _ _ _ HC1 HR1 HA1 H) as (HE2 & HC2 & HH2 & HD2).
    split; [exact (extends_trans _ _ _ HE HE2)|]. split; [exact HC2|]. split; [exact HH2|].
    intros da HD. destruct (HD2 (dset da a v')) as (d & hd & HD3 & HP3 & HV3).
    { apply hset_view; [|exact HV1]. eapply opt_items_impl; [|exact HD]. intros k0 x0 v0 HI. apply view_extends; [exact HC|exact HE|].
      exact (proj1 (Forall_forall _ _) HA (k0, x0) HI). }
    exists ((k, v) :: d), hd. cbn [opt_items parse_items]. rewrite EV.
    assert (HD4 : opt_items (view depth (m_obj m)) r = Some d).
    { clear - HD3 HR HE HC HC1. revert d HD3. induction r as [|[k x] r IH]; intros d H; cbn [opt_items] in *; [exact H|].
      inversion HR as [|? ? HX HR']; subst. cbn [snd] in HX. destruct (view depth (m_obj m1) x) as [w|] eqn:E1; [|discriminate].
      destruct (opt_items (view depth (m_obj m1)) r) as [d'|] eqn:E2; [|discriminate]. injection H as <-.
      rewrite (IH HR' _ eq_refl).
      assert (EX : view depth (m_obj m) x = Some w); [|rewrite EX; reflexivity].
      revert E1. apply (view_inside (fun l => (l < m_next m)%N)); [| |rewrite exists_at_ref in HX; exact HX].
      - intros l HL. rewrite (proj2 HE _ HL). exact (HC _ HL).
      - intros l HL. symmetry. exact (proj2 HE _ HL). }
    rewrite HD4, HF. cbn [bind]. rewrite HP. cbn [bind]. split; [reflexivity|]. split; [exact HP3|exact HV3].
Qed.

Lemma parse_refs_origin : forall allow h m acc m' h', parse_refs X depth allow m h acc = Ok (m', h') ->
  closed m -> Forall (fun e => exists_at m (snd e)) h ->
  Forall (fun e => In (snd e) (map snd h) \/ In (snd e) (map snd acc) \/
    flat m' (snd e) /\ match snd e with Imm _ => True | At l => between (m_next m) (m_next m') l end) h'.
Proof.
  intros allow. induction h as [|[k x] r IH]; intros m acc m' h' H HC HH; cbn [parse_refs] in H.
  - injection H as <- <-. apply Forall_forall. intros e HI. right. left. exact (in_map snd _ _ HI).
  - apply bind_ok in H as (a & HF & H). apply bind_ok in H as (v & HV & H). apply bind_ok in H as (v' & HP & H).
    destruct (view depth (m_obj m) x) as [w|] eqn:EV; [|discriminate]. injection HV as ->.
    destruct (parsed_ref m a v' x) as [m1 y] eqn:ER. inversion HH as [|? ? HX HR]; subst. cbn [snd] in HX.
    destruct (parsed_ref_ok _ _ _ _ _ _ _ _ _ HC HX EV HP ER) as (HE & HC1 & HY & _ & HO).
    assert (HR1 : Forall (fun e => exists_at m1 (snd e)) r) by (eapply Forall_impl; [|exact HR]; intros e; apply exists_extends; exact HE).
    assert (HE2 : extends m1 m').
    { clear - H HC1 HR1. revert m1 HC1 HR1 H. generalize (hset acc a y) as acc'. clear.
      induction r as [|[k x] r IH]; intros acc' m1 HC1 HR1 H; cbn [parse_refs] in H; [injection H as <- <-; apply extends_refl|].
      apply bind_ok in H as (a & HF & H). apply bind_ok in H as (v & HV & H). apply bind_ok in H as (v' & HP & H).
      destruct (view depth (m_obj m1) x) as [w|] eqn:EV; [|discriminate]. injection HV as ->.
      destruct (parsed_ref m1 a v' x) as [m2 y] eqn:ER. inversion HR1 as [|? ? HX HR]; subst.
      destruct (parsed_ref_ok _ _ _ _ _ _ _ _ _ HC1 HX EV HP ER) as (HE & HC2 & _).
      apply (extends_trans _ _ _ HE). eapply (IH _ _ HC2); [|exact H]. eapply Forall_impl; [|exact HR]; intros e; apply exists_extends; exact HE. }
    eapply Forall_impl; [|exact (IH _ _ _ _ H HC1 HR1)]. intros [k0 z]. cbn [snd map].
    intros [HI|[HI|[HI HB]]].
    + left. right. exact HI.
    + assert (HZ : z = y \/ In z (map snd acc)).
      { clear - HI. induction acc as [|[k u] q IHq]; cbn [hset map] in *; [destruct HI as [HI|[]]; left; symmetry; exact HI|].
        destruct (keyeq a k); cbn [map] in HI; destruct HI as [HI|HI].
        - left. symmetry. exact HI.
        - right. right. exact HI.
        - right. left. exact HI.
        - destruct (IHq HI) as [HZ|HZ]; [left; exact HZ|right; right; exact HZ]. }
      destruct HZ as [->|HZ]; [|right; left; exact HZ]. destruct HO as [->|[HO1 HO2]]; [left; left; reflexivity|].
      right. right. destruct y as [u|l]; [split; exact I|]. destruct HO2 as [B1 B2]. split.
      * cbn [flat] in *. rewrite (proj2 HE2) by exact B2. exact HO1.
      * destruct HE2 as [B3 _]. split; lia.
    + right. right. split; [exact HI|]. destruct z; [exact I|]. destruct HE as [B3 _], HB as [B1 B2]. split; lia.
Qed.

End Parse.

(** ** All states of a program *)

Record inv (w : shared) : Prop := {
  inv_closed : closed (s_mem w);
  inv_dict : forall g l, (g < s_count w)%N -> In l (buckets (s_msg w g)) -> (l < m_next (s_mem w))%N /\ o_kind (m_obj (s_mem w) l) = KDict;
  inv_own : forall g, (g < s_count w)%N -> NoDup (buckets (s_msg w g));
  inv_apart : forall g g' l, (g < s_count w)%N -> (g' < s_count w)%N -> g <> g' -> In l (buckets (s_msg w g)) -> ~ In l (buckets (s_msg w g')) }.

Lemma dict_items_inv : forall m x its, dict_items m x = Ok its -> exists l, x = At l /\ o_kind (m_obj m l) = KDict /\ its = o_items (m_obj m l).
Proof.
  intros m [v|l] its H; cbn [dict_items] in H; [discriminate|]. exists l. destruct (o_kind (m_obj m l)); try discriminate.
  injection H as <-. repeat split.
Qed.

Lemma closed_items : forall m l, closed m -> (l < m_next m)%N -> Forall (fun e => exists_at m (snd e)) (o_items (m_obj m l)).
Proof. intros m l HC HL. exact (HC _ HL). Qed.

(** Adding a message with three new dicts. *)
Lemma inv_new : forall w m' lp lu ll raw, inv w -> extends (s_mem w) m' -> closed m' ->
  (forall l, In l [lp; lu; ll] -> between (m_next (s_mem w)) (m_next m') l /\ o_kind (m_obj m' l) = KDict) -> NoDup [lp; lu; ll] ->
  inv (Shared m' (fun j => if N.eqb j (s_count w) then MsgObj lp lu ll raw else s_msg w j) (N.succ (s_count w))).
Proof.
  intros w m' lp lu ll raw HI HE HC HN HD. destruct HI as [I1 I2 I3 I4]. destruct HE as [E1 E2].
  constructor; cbn [s_mem s_msg s_count].
  - exact HC.
  - intros g l HG. destruct (N.eqb_spec g (s_count w)) as [->|NE]; intros HL.
    + destruct (HN _ HL) as [[_ H1] H2]. split; assumption.
    + destruct (I2 g l) as [H1 H2]; [lia|exact HL|]. split; [lia|]. rewrite E2 by exact H1. exact H2.
  - intros g HG. destruct (N.eqb_spec g (s_count w)) as [->|NE]; [exact HD|apply I3; lia].
  - intros g g' l HG HG' NE. destruct (N.eqb_spec g (s_count w)) as [->|NE1], (N.eqb_spec g' (s_count w)) as [->|NE2]; intros HL HL'.
    + contradiction.
    + destruct (HN _ HL) as [[H1 _] _]. destruct (I2 g' l) as [H2 _]; [lia|exact HL'|lia].
    + destruct (HN _ HL') as [[H1 _] _]. destruct (I2 g l) as [H2 _]; [lia|exact HL|lia].
    + exact (I4 g g' l ltac:(lia) ltac:(lia) NE HL HL').
Qed.

(** One of the dicts of a message replaced by a new one, the others kept. *)
Lemma inv_set : forall w m' g b, inv w -> (g < s_count w)%N -> extends (s_mem w) m' -> closed m' -> NoDup (buckets b) ->
  (forall l, In l (buckets b) -> In l (buckets (s_msg w g)) \/ between (m_next (s_mem w)) (m_next m') l /\ o_kind (m_obj m' l) = KDict) ->
  inv (set_msg w m' g b).
Proof.
  intros w m' g b HI HG HE HC HD HB. destruct HI as [I1 I2 I3 I4]. destruct HE as [E1 E2].
  constructor; unfold set_msg; cbn [s_mem s_msg s_count].
  - exact HC.
  - intros g0 l HG0. destruct (N.eqb_spec g0 g) as [->|NE]; intros HL.
    + destruct (HB _ HL) as [H|[[_ H1] H2]]; [|split; assumption].
      destruct (I2 g l HG H) as [H1 H2]. split; [lia|]. rewrite E2 by exact H1. exact H2.
    + destruct (I2 g0 l HG0 HL) as [H1 H2]. split; [lia|]. rewrite E2 by exact H1. exact H2.
  - intros g0 HG0. destruct (N.eqb_spec g0 g) as [->|NE]; [exact HD|exact (I3 _ HG0)].
  - intros g0 g1 l H0 H1 NE. destruct (N.eqb_spec g0 g) as [->|N1], (N.eqb_spec g1 g) as [->|N2]; intros HL HL'.
    + contradiction.
    + destruct (HB _ HL) as [H|[[H _] _]]; [exact (I4 _ _ _ HG H1 NE H HL')|]. destruct (I2 g1 l H1 HL') as [H2 _]. lia.
    + destruct (HB _ HL') as [H|[[H _] _]]; [exact (I4 _ _ _ H0 HG NE HL H)|]. destruct (I2 g0 l H0 HL) as [H2 _]. lia.
    + exact (I4 _ _ _ H0 H1 NE HL HL').
Qed.

(** A dict changed in place. *)
Lemma inv_put : forall w l o sm, inv w -> (l < m_next (s_mem w))%N -> exists_in (s_mem w) o -> o_kind o = o_kind (m_obj (s_mem w) l) ->
  (forall g, (g < s_count w)%N -> buckets (sm g) = buckets (s_msg w g)) -> inv (Shared (put (s_mem w) l o) sm (s_count w)).
Proof.
  intros w l o sm HI HL HO HK HS. destruct HI as [I1 I2 I3 I4]. constructor; cbn [s_mem s_msg s_count].
  - exact (closed_put _ _ _ I1 HO).
  - intros g a HG HA. rewrite (HS _ HG) in HA. destruct (I2 _ _ HG HA) as [H1 H2]. split; [exact H1|].
    unfold put. cbn [m_obj]. destruct (N.eqb_spec a l) as [->|_]; [rewrite HK|]; exact H2.
  - intros g HG. rewrite (HS _ HG). exact (I3 _ HG).
  - intros g g' a HG HG' NE. rewrite (HS _ HG), (HS _ HG'). exact (I4 _ _ _ HG HG' NE).
Qed.

(** What the constructor does. *)
Lemma new_inv : forall X depth w p u allow w' r, inv w -> exists_at (s_mem w) p -> exists_at (s_mem w) u ->
  astep X depth w (New p u allow) = (w', Ok r) ->
  exists lp lu m1 m2 ph uh, p = At lp /\ u = At lu /\
    parse_refs X depth allow (s_mem w) (o_items (m_obj (s_mem w) lp)) [] = Ok (m1, ph) /\
    parse_refs X depth allow m1 (o_items (m_obj (s_mem w) lu)) [] = Ok (m2, uh) /\
    extends (s_mem w) m1 /\ closed m1 /\ extends m1 m2 /\ closed m2 /\
    Forall (fun e => exists_at m1 (snd e)) ph /\ Forall (fun e => exists_at m2 (snd e)) uh /\
    r = Some (s_count w) /\
    exists m', w' = Shared m' (fun j => if N.eqb j (s_count w) then MsgObj (N.succ (m_next m2)) (N.succ (N.succ (m_next m2))) (m_next m2) None else s_msg w j) (N.succ (s_count w)) /\
      extends m2 m' /\ closed m' /\ m_next m' = N.succ (N.succ (N.succ (m_next m2))) /\ m_obj m' (m_next m2) = Obj KDict [] /\
      m_obj m' (N.succ (m_next m2)) = Obj KDict ph /\ m_obj m' (N.succ (N.succ (m_next m2))) = Obj KDict uh.
Proof.
  intros X depth w p u allow w' r HI HP HU H. cbn [astep] in H. destruct HI as [HC _ _ _].
  destruct (dict_items (s_mem w) p) as [pi|] eqn:E1; [|discriminate]. cbn [bind] in H.
  destruct (dict_items (s_mem w) u) as [ui|] eqn:E2; [|discriminate]. cbn [bind] in H.
  destruct (parse_refs X depth allow (s_mem w) pi []) as [[m1 ph]|] eqn:E3; [|discriminate]. cbn [bind] in H.
  destruct (parse_refs X depth allow m1 ui []) as [[m2 uh]|] eqn:E4; [|discriminate]. cbn [bind] in H.
  apply dict_items_inv in E1 as (lp & -> & _ & ->). apply dict_items_inv in E2 as (lu & -> & _ & ->). cbn [exists_at] in HP, HU.
  destruct (parse_refs_ok X depth allow _ _ _ _ _ HC (closed_items _ _ HC HP) (Forall_nil _) E3) as (X1 & C1 & F1 & _).
  assert (HF : Forall (fun e => exists_at m1 (snd e)) (o_items (m_obj (s_mem w) lu))).
  { eapply Forall_impl; [|exact (closed_items _ _ HC HU)]. intros e. apply exists_extends. exact X1. }
  destruct (parse_refs_ok X depth allow _ _ _ _ _ C1 HF (Forall_nil _) E4) as (X2 & C2 & F2 & _).
  exists lp, lu, m1, m2, ph, uh. do 2 (split; [reflexivity|]). split; [exact E3|]. split; [exact E4|]. split; [exact X1|]. split; [exact C1|].
  split; [exact X2|]. split; [exact C2|]. split; [exact F1|]. split; [exact F2|].
  set (a0 := alloc m2 (Obj KDict [])) in *. set (a1 := alloc (fst a0) (Obj KDict ph)). set (a2 := alloc (fst a1) (Obj KDict uh)).
  assert (Hw : (w', r) = (Shared (fst a2) (fun j => if N.eqb j (s_count w) then MsgObj (N.succ (m_next m2)) (N.succ (N.succ (m_next m2))) (m_next m2) None else s_msg w j) (N.succ (s_count w)), Some (s_count w))).
  { unfold a2, a1, a0, alloc. unfold a0, alloc in H. cbn [fst snd m_next] in *. congruence. }
  injection Hw as -> ->. split; [reflexivity|]. exists (fst a2). split; [reflexivity|].
  assert (Y0 : extends m2 (fst a0)) by apply extends_alloc. assert (Y1 : extends (fst a0) (fst a1)) by apply extends_alloc.
  assert (Y2 : extends (fst a1) (fst a2)) by apply extends_alloc.
  split; [exact (extends_trans _ _ _ Y0 (extends_trans _ _ _ Y1 Y2))|]. split.
  { apply closed_alloc; [apply closed_alloc; [apply closed_alloc; [exact C2|constructor]|]|].
    - unfold exists_in. cbn [o_items]. eapply Forall_impl; [|exact F1]. intros e HE.
      exact (exists_extends _ _ _ (extends_trans _ _ _ (extends_trans _ _ _ X2 Y0) Y1) HE).
    - unfold exists_in. cbn [o_items]. eapply Forall_impl; [|exact F2]. intros e HE.
      exact (exists_extends _ _ _ (extends_trans _ _ _ (extends_trans _ _ _ Y0 Y1) Y2) HE). }
  unfold a2, a1, a0, alloc. cbn [fst m_next m_obj]. split; [reflexivity|].
  repeat split; repeat (rewrite N.eqb_refl || (rewrite (proj2 (N.eqb_neq _ _)) by lia)); reflexivity.
Qed.

Lemma step_inv : forall X depth w o, inv w -> possible w o -> inv (fst (astep X depth w o)).
Proof.
  intros X depth w o HI HP. destruct o as [p u allow|g x|g x|g x|g x|g x|o|l o]; cbn [possible] in HP.
  - destruct HP as [HP HU]. destruct (astep X depth w (New p u allow)) as [w' [r|e]] eqn:E.
    2:{ cbn [astep] in E. destruct (bind _ _) as [[[? ?] ?]|] in E; injection E as <- E; [discriminate|exact HI]. }
    destruct (new_inv _ _ _ _ _ _ _ _ HI HP HU E) as (lp & lu & m1 & m2 & ph & uh & -> & -> & _ & _ & X1 & _ & X2 & _ & _ & _ & _ & m' & -> & X3 & C3 & HN & O1 & O2 & O3).
    cbn [fst]. pose proof (extends_trans _ _ _ X1 X2) as X4. apply inv_new; [exact HI|exact (extends_trans _ _ _ X4 X3)|exact C3| |].
    + destruct X4 as [N4 _]. intros l [<-|[<-|[<-|[]]]]; (split; [split; lia|]); [rewrite O2|rewrite O3|rewrite O1]; reflexivity.
    + repeat constructor; cbn [In]; lia.
  - destruct HP as [HG HX]. cbn [astep]. destruct (dict_items (s_mem w) x) as [its|] eqn:ED; [|exact HI].
    destruct (dict_items_inv _ _ _ ED) as (l & -> & HK & ->). cbn [exists_at] in HX.
    destruct (copy depth [] (s_mem w) (At l)) as [[[m' s] y]|] eqn:EC; [|exact HI].
    pose proof (copy_closed _ _ _ _ _ _ (inv_closed _ HI) HX EC) as HC'.
    destruct (copy_spec _ _ _ _ _ _ (inv_closed _ HI) HX EC) as (l' & -> & HR & HN & HO & _ & HS & HD). cbn [fst].
    assert (HK' : o_kind (m_obj m' l') = KDict) by (rewrite (proj1 (proj2 (HD _ _ HS))); exact HK).
    pose proof (inv_own _ HI _ HG) as HND. pose proof (fun a => inv_dict _ HI g a HG) as HDI.
    destruct (s_msg w g) as [bp bu bl raw] eqn:EB. unfold buckets in *. cbn [b_phdr b_uhdr b_local b_raw] in *. apply inv_set.
    + exact HI.
    + exact HG.
    + split; assumption.
    + exact HC'.
    + unfold buckets. cbn [b_phdr b_uhdr b_local]. inversion HND as [|? ? _ HND']; subst. constructor; [|exact HND'].
      intros HIN. destruct (HDI l' (or_intror HIN)) as [HLT _]. destruct HR. lia.
    + rewrite EB. unfold buckets. cbn [b_phdr b_uhdr b_local In]. intros a [<-|HA]; [right; split; assumption|left; right; exact HA].
  - destruct HP as [HG HX]. cbn [astep]. destruct (dict_items (s_mem w) x) as [its|] eqn:ED; [|exact HI].
    destruct (dict_items_inv _ _ _ ED) as (l & -> & HK & ->). cbn [exists_at] in HX.
    destruct (copy depth [] (s_mem w) (At l)) as [[[m' s] y]|] eqn:EC; [|exact HI].
    pose proof (copy_closed _ _ _ _ _ _ (inv_closed _ HI) HX EC) as HC'.
    destruct (copy_spec _ _ _ _ _ _ (inv_closed _ HI) HX EC) as (l' & -> & HR & HN & HO & _ & HS & HD). cbn [fst].
    assert (HK' : o_kind (m_obj m' l') = KDict) by (rewrite (proj1 (proj2 (HD _ _ HS))); exact HK).
    pose proof (inv_own _ HI _ HG) as HND. pose proof (fun a => inv_dict _ HI g a HG) as HDI.
    destruct (s_msg w g) as [bp bu bl raw] eqn:EB. unfold buckets in *. cbn [b_phdr b_uhdr b_local b_raw] in *. apply inv_set.
    + exact HI.
    + exact HG.
    + split; assumption.
    + exact HC'.
    + unfold buckets. cbn [b_phdr b_uhdr b_local].
      assert (NP : bp <> l') by (intros ->; destruct (HDI l' (or_introl eq_refl)) as [HLT _]; destruct HR; lia).
      assert (NL : bl <> l') by (intros ->; destruct (HDI l' (or_intror (or_intror (or_introl eq_refl)))) as [HLT _]; destruct HR; lia).
      inversion HND as [|? ? H1 H2]; subst. cbn [In] in H1. repeat constructor; cbn [In]; intuition congruence.
    + rewrite EB. unfold buckets. cbn [b_phdr b_uhdr b_local In]. intros a [<-|[<-|[<-|[]]]]; [left; left; reflexivity|right; split; assumption|left; right; right; left; reflexivity].
  - destruct HP as [HG HX]. cbn [astep]. destruct (dict_items (s_mem w) x) as [its|] eqn:ED; [|exact HI]. cbn [fst].
    destruct (dict_items_inv _ _ _ ED) as (l & -> & HK & ->). cbn [exists_at] in HX.
    destruct (inv_dict _ HI g (b_phdr (s_msg w g)) HG (or_introl eq_refl)) as [HB HBK].
    unfold set_msg. apply inv_put; [exact HI|exact HB| |rewrite HBK; reflexivity|intros j _; cbn beta; destruct (N.eqb_spec j g) as [->|_]; reflexivity].
    unfold exists_in. cbn [o_items]. apply (hupdate_Forall (exists_at (s_mem w))); apply closed_items; first [exact (inv_closed _ HI)|assumption].
  - destruct HP as [HG HX]. cbn [astep]. destruct (dict_items (s_mem w) x) as [its|] eqn:ED; [|exact HI]. cbn [fst].
    destruct (dict_items_inv _ _ _ ED) as (l & -> & HK & ->). cbn [exists_at] in HX.
    destruct (inv_dict _ HI g (b_uhdr (s_msg w g)) HG (or_intror (or_introl eq_refl))) as [HB HBK].
    unfold set_msg. apply inv_put; [exact HI|exact HB| |rewrite HBK; reflexivity|intros j _; cbn beta; destruct (N.eqb_spec j g) as [->|_]; reflexivity].
    unfold exists_in. cbn [o_items]. apply (hupdate_Forall (exists_at (s_mem w))); apply closed_items; first [exact (inv_closed _ HI)|assumption].
  - destruct HP as [HG HX]. cbn [astep]. destruct (mapping_items (s_mem w) x) as [its|] eqn:ED; [|exact HI]. cbn [fst].
    assert (HF : Forall (fun e => exists_at (s_mem w) (snd e)) its).
    { destruct x as [v|l]; cbn [mapping_items] in ED; [discriminate|]. cbn [exists_at] in HX.
      pose proof (closed_items _ _ (inv_closed _ HI) HX) as HF. destruct (o_kind (m_obj (s_mem w) l)); try discriminate; injection ED as <-; exact HF. }
    destruct (inv_dict _ HI g (b_local (s_msg w g)) HG (or_intror (or_intror (or_introl eq_refl)))) as [HB HBK].
    unfold set_msg. apply inv_put; [exact HI|exact HB| |rewrite HBK; reflexivity|intros j _; cbn beta; destruct (N.eqb_spec j g) as [->|_]; reflexivity].
    unfold exists_in. cbn [o_items]. apply (hupdate_Forall (exists_at (s_mem w))); [|exact HF]. apply closed_items; [exact (inv_closed _ HI)|exact HB].
  - change (inv (Shared (fst (alloc (s_mem w) o)) (s_msg w) (s_count w))).
    pose proof (extends_alloc (s_mem w) o) as [E1 E2]. destruct HI as [I1 I2 I3 I4]. constructor; cbn [s_mem s_msg s_count].
    + apply closed_alloc; [exact I1|]. eapply Forall_impl; [|exact HP]. intros e. apply exists_extends. split; assumption.
    + intros g l HG HL. destruct (I2 _ _ HG HL) as [H1 H2]. split; [lia|]. rewrite E2 by exact H1. exact H2.
    + exact I3.
    + exact I4.
  - destruct HP as (HL & HK & HO). cbn [astep fst]. apply inv_put; [exact HI|exact HL|exact HO|exact HK|reflexivity].
Qed.

Lemma reached_inv : forall X depth w, reached X depth w -> inv w.
Proof.
  intros X depth w H. induction H as [|w o H IH HP]; [|exact (step_inv _ _ _ _ IH HP)].
  constructor; cbn [nothing s_mem s_msg s_count m_next]; try (intros; lia). intros l HL. cbn [m_next] in HL. lia.
Qed.
