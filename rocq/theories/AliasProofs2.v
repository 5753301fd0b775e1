(** More proofs for C114: histories. *)
From Coq Require Import NArith ZArith Bool String Lia.
From Coq Require Import Init.Byte List.
From Verif Require Import Bytes Value Registry Crypto Keys Headers SpecRegistry Alias SpecAlias ValueProofs HdrProofs AliasProofs.
Import ListNotations.

Lemma reached_run : forall X depth os w, reached X depth w -> all_possible X depth w os -> reached X depth (run X depth w os).
Proof.
  intros X depth. induction os as [|o r IH]; intros w HR HP; cbn [run all_possible] in *; [exact HR|].
  destruct HP as [HP HA]. exact (IH _ (ReachedStep X depth w o HR HP) HA).
Qed.

(** The message an operation is on. *)
Definition about (o : aop) : option N :=
  match o with SetP g _ | SetU g _ | UpdP g _ | UpdU g _ | SetL g _ => Some g | _ => None end.

Lemma step_frame : forall X depth w o, inv w -> possible w o ->
  (m_next (s_mem w) <= m_next (s_mem (fst (astep X depth w o))))%N /\
  (s_count w <= s_count (fst (astep X depth w o)))%N /\
  (forall g, (g < s_count w)%N -> about o <> Some g -> s_msg (fst (astep X depth w o)) g = s_msg w g) /\
  (forall g l, (g < s_count (fst (astep X depth w o)))%N -> In l (buckets (s_msg (fst (astep X depth w o)) g)) ->
     (g < s_count w)%N /\ In l (buckets (s_msg w g)) \/ (m_next (s_mem w) <= l)%N) /\
  (forall l, (l < m_next (s_mem w))%N -> (forall g, about o = Some g -> ~ In l (buckets (s_msg w g))) ->
     (forall o', o <> Change l o') -> m_obj (s_mem (fst (astep X depth w o))) l = m_obj (s_mem w) l).
Proof.
  intros X depth w o HI HP.
  assert (HSAME : forall A B : Prop, A -> B -> A /\ B) by (intros; split; assumption).
  assert (HREFL : (m_next (s_mem w) <= m_next (s_mem w))%N /\ (s_count w <= s_count w)%N /\
    (forall g, (g < s_count w)%N -> about o <> Some g -> s_msg w g = s_msg w g) /\
    (forall g l, (g < s_count w)%N -> In l (buckets (s_msg w g)) -> (g < s_count w)%N /\ In l (buckets (s_msg w g)) \/ (m_next (s_mem w) <= l)%N) /\
    (forall l, (l < m_next (s_mem w))%N -> (forall g, about o = Some g -> ~ In l (buckets (s_msg w g))) ->
       (forall o', o <> Change l o') -> m_obj (s_mem w) l = m_obj (s_mem w) l)).
  { split; [lia|]. split; [lia|]. split; [reflexivity|]. split; [|reflexivity]. intros g l H1 H2. left. split; assumption. }
  assert (HSET : forall m' g b, about o = Some g -> (g < s_count w)%N -> extends (s_mem w) m' ->
     (forall l, In l (buckets b) -> In l (buckets (s_msg w g)) \/ (m_next (s_mem w) <= l)%N) ->
     (m_next (s_mem w) <= m_next (s_mem (set_msg w m' g b)))%N /\ (s_count w <= s_count (set_msg w m' g b))%N /\
    (forall g0, (g0 < s_count w)%N -> about o <> Some g0 -> s_msg (set_msg w m' g b) g0 = s_msg w g0) /\
    (forall g0 l, (g0 < s_count (set_msg w m' g b))%N -> In l (buckets (s_msg (set_msg w m' g b) g0)) -> (g0 < s_count w)%N /\ In l (buckets (s_msg w g0)) \/ (m_next (s_mem w) <= l)%N) /\
    (forall l, (l < m_next (s_mem w))%N -> (forall g, about o = Some g -> ~ In l (buckets (s_msg w g))) ->
       (forall o', o <> Change l o') -> m_obj (s_mem (set_msg w m' g b)) l = m_obj (s_mem w) l)).
  { intros m' g b HA HG [E1 E2] HB. unfold set_msg. cbn [s_mem s_msg s_count]. split; [exact E1|]. split; [lia|]. split.
    - intros g0 _ HN. destruct (N.eqb_spec g0 g) as [->|_]; [congruence|reflexivity].
    - split; [|intros l HL _ _; exact (E2 _ HL)].
      intros g0 l HG0. destruct (N.eqb_spec g0 g) as [->|_]; intros HL; [|left; split; assumption].
      destruct (HB _ HL) as [H|H]; [left; split; assumption|right; exact H]. }
  assert (HPUT : forall a ob g b, about o = Some g -> (g < s_count w)%N -> In a (buckets (s_msg w g)) -> buckets b = buckets (s_msg w g) ->
     (m_next (s_mem w) <= m_next (s_mem (set_msg w (put (s_mem w) a ob) g b)))%N /\ (s_count w <= s_count (set_msg w (put (s_mem w) a ob) g b))%N /\
    (forall g0, (g0 < s_count w)%N -> about o <> Some g0 -> s_msg (set_msg w (put (s_mem w) a ob) g b) g0 = s_msg w g0) /\
    (forall g0 l, (g0 < s_count (set_msg w (put (s_mem w) a ob) g b))%N -> In l (buckets (s_msg (set_msg w (put (s_mem w) a ob) g b) g0)) -> (g0 < s_count w)%N /\ In l (buckets (s_msg w g0)) \/ (m_next (s_mem w) <= l)%N) /\
    (forall l, (l < m_next (s_mem w))%N -> (forall g, about o = Some g -> ~ In l (buckets (s_msg w g))) ->
       (forall o', o <> Change l o') -> m_obj (s_mem (set_msg w (put (s_mem w) a ob) g b)) l = m_obj (s_mem w) l)).
  { intros a ob g b HA HG HIN HB. unfold set_msg. cbn [s_mem s_msg s_count put m_next m_obj]. split; [lia|]. split; [lia|]. split.
    - intros g0 _ HN. destruct (N.eqb_spec g0 g) as [->|_]; [congruence|reflexivity].
    - split.
      + intros g0 l HG0. destruct (N.eqb_spec g0 g) as [->|_]; [rewrite HB|]; intros HL; left; split; assumption.
      + intros l HL HN _. destruct (N.eqb_spec l a) as [->|_]; [destruct (HN _ HA HIN)|reflexivity]. }
  destruct o as [p u allow|g x|g x|g x|g x|g x|o|l o]; cbn [possible] in HP.
  - destruct HP as [HP HU]. destruct (astep X depth w (New p u allow)) as [w' [r|e]] eqn:E.
    2:{ cbn [astep] in E. destruct (bind _ _) as [[[? ?] ?]|] in E; injection E as <- E; [discriminate|exact HREFL]. }
    destruct (new_inv _ _ _ _ _ _ _ _ HI HP HU E) as (lp & lu & m1 & m2 & ph & uh & -> & -> & _ & _ & X1 & _ & X2 & _ & _ & _ & _ & m' & -> & X3 & C3 & HN & O1 & O2 & O3).
    pose proof (extends_trans _ _ _ X1 X2) as X4. destruct (extends_trans _ _ _ X4 X3) as [E1 E2]. destruct X4 as [E3 _]. cbn [fst s_mem s_msg s_count].
    split; [exact E1|]. split; [lia|]. split.
    + intros g HG _. destruct (N.eqb_spec g (s_count w)); [lia|reflexivity].
    + split; [|intros l HL _ _; exact (E2 _ HL)]. intros g l HG. destruct (N.eqb_spec g (s_count w)) as [->|NE]; intros HL.
      * right. destruct HL as [<-|[<-|[<-|[]]]]; cbn [b_phdr b_uhdr b_local]; lia.
      * left. split; [lia|exact HL].
  - destruct HP as [HG HX]. cbn [astep]. destruct (dict_items (s_mem w) x) as [its|] eqn:ED; [|exact HREFL].
    destruct (dict_items_inv _ _ _ ED) as (l & -> & HK & ->). cbn [exists_at] in HX.
    destruct (copy depth [] (s_mem w) (At l)) as [[[m' s] y]|] eqn:EC; [|exact HREFL].
    destruct (copy_spec _ _ _ _ _ _ (inv_closed _ HI) HX EC) as (l' & -> & HR & HN & HO & _ & HS & HD). cbn [fst].
    apply HSET; [reflexivity|exact HG|split; assumption|].
    intros a [<-|HA]; [right; exact (proj1 HR)|left; right; exact HA].
  - destruct HP as [HG HX]. cbn [astep]. destruct (dict_items (s_mem w) x) as [its|] eqn:ED; [|exact HREFL].
    destruct (dict_items_inv _ _ _ ED) as (l & -> & HK & ->). cbn [exists_at] in HX.
    destruct (copy depth [] (s_mem w) (At l)) as [[[m' s] y]|] eqn:EC; [|exact HREFL].
    destruct (copy_spec _ _ _ _ _ _ (inv_closed _ HI) HX EC) as (l' & -> & HR & HN & HO & _ & HS & HD). cbn [fst].
    apply HSET; [reflexivity|exact HG|split; assumption|].
    intros a [<-|[<-|[<-|[]]]]; [left; left; reflexivity|right; exact (proj1 HR)|left; right; right; left; reflexivity].
  - destruct HP as [HG HX]. cbn [astep]. destruct (dict_items (s_mem w) x) as [its|] eqn:ED; [|exact HREFL]. cbn [fst].
    apply HPUT; [reflexivity|exact HG|left; reflexivity|reflexivity].
  - destruct HP as [HG HX]. cbn [astep]. destruct (dict_items (s_mem w) x) as [its|] eqn:ED; [|exact HREFL]. cbn [fst].
    apply HPUT; [reflexivity|exact HG|right; left; reflexivity|reflexivity].
  - destruct HP as [HG HX]. cbn [astep]. destruct (mapping_items (s_mem w) x) as [its|] eqn:ED; [|exact HREFL]. cbn [fst].
    apply HPUT; [reflexivity|exact HG|right; right; left; reflexivity|reflexivity].
  - pose proof (extends_alloc (s_mem w) o) as [E1 E2].
    change (fst (astep X depth w (Make o))) with (Shared (fst (alloc (s_mem w) o)) (s_msg w) (s_count w)). cbn [s_mem s_msg s_count].
    split; [exact E1|]. split; [lia|]. split; [reflexivity|]. split; [intros g l H1 H2; left; split; assumption|intros l HL _ _; exact (E2 _ HL)].
  - cbn [astep fst s_mem s_msg s_count put m_next m_obj]. split; [lia|]. split; [lia|]. split; [reflexivity|].
    split; [intros g a H1 H2; left; split; assumption|]. intros a HA _ HN. destruct (N.eqb_spec a l) as [->|_]; [destruct (HN o eq_refl)|reflexivity].
Qed.

Lemma about_not : forall g l o, not_on g l o -> about o <> Some g.
Proof. intros g l [p u allow|g' x|g' x|g' x|g' x|g' x|o|l' o] H; cbn [not_on about] in *; congruence. Qed.

(** Objects [P] that only message [g] uses as its dicts: they stay as they are as long as
    nobody changes them. *)
Lemma run_frame : forall X depth g (P : N -> Prop) os w, inv w -> (g < s_count w)%N -> (forall l, P l -> (l < m_next (s_mem w))%N) ->
  (forall g' l, (g' < s_count w)%N -> g' <> g -> P l -> ~ In l (buckets (s_msg w g'))) -> all_possible X depth w os ->
  (exists l, P l) -> (forall o l, In o os -> P l -> not_on g l o) ->
  s_msg (run X depth w os) g = s_msg w g /\ (forall l, P l -> m_obj (s_mem (run X depth w os)) l = m_obj (s_mem w) l).
Proof.
  intros X depth g P. induction os as [|o r IH]; intros w HI HG HP HA HO HE HN; cbn [run all_possible] in *; [split; reflexivity|].
  destruct HO as [HO HR]. destruct (step_frame X depth w o HI HO) as (F1 & F2 & F3 & F4 & F5). destruct HE as [l0 HL0].
  pose proof (about_not _ _ _ (HN o l0 (or_introl eq_refl) HL0)) as HAB.
  destruct (IH (fst (astep X depth w o))) as [R1 R2].
  - exact (step_inv _ _ _ _ HI HO).
  - lia.
  - intros l HL. specialize (HP _ HL). lia.
  - intros g' l HG' NE HL HIN. destruct (F4 _ _ HG' HIN) as [[H1 H2]|H]; [exact (HA _ _ H1 NE HL H2)|]. specialize (HP _ HL). lia.
  - exact HR.
  - exists l0. exact HL0.
  - intros o' l HI' HL. exact (HN o' l (or_intror HI') HL).
  - rewrite R1, (F3 _ HG HAB). split; [reflexivity|]. intros l HL. rewrite (R2 _ HL). apply F5; [exact (HP _ HL)| |].
    + intros g' HG'. destruct (N.eq_dec g' g) as [->|NE]; [congruence|]. destruct (N.lt_ge_cases g' (s_count w)) as [HLT|HGE]; [exact (HA _ _ HLT NE HL)|].
      exfalso. clear - HG' HO HGE. destruct o; cbn [about possible] in *; try discriminate; injection HG' as ->; lia.
    + intros o' ->. pose proof (HN _ l (or_introl eq_refl) HL) as H. cbn [not_on] in H. congruence.
Qed.

Lemma opt_items_reads : forall f' (h : hv -> option pyval) its d, (forall k x v, In (k, x) its -> h x = Some v -> reads f' x v) ->
  opt_items h its = Some d -> exists n, opt_items (view n f') its = Some d.
Proof.
  intros f' h. induction its as [|[k x] r IH]; intros d H HD; cbn [opt_items] in HD; [injection HD as <-; exists 0; reflexivity|].
  destruct (h x) as [v|] eqn:E; [|discriminate]. destruct (opt_items h r) as [d'|] eqn:E2; [|discriminate]. injection HD as <-.
  destruct (H k x v (or_introl eq_refl) E) as [n1 H1]. destruct (IH _ (fun k0 x0 v0 HI => H k0 x0 v0 (or_intror HI)) eq_refl) as [n2 H2].
  exists (Nat.max n1 n2). cbn [opt_items]. rewrite (view_le n1 (Nat.max n1 n2) _ _ _ ltac:(lia) H1).
  rewrite (opt_items_impl (view n2 f') (view (Nat.max n1 n2) f') r d' (fun _ x0 v0 _ => view_le n2 (Nat.max n1 n2) f' x0 v0 ltac:(lia)) H2). reflexivity.
Qed.

Lemma reads_dict : forall f l its n d, f l = Obj KDict its -> opt_items (view n f) its = Some d -> reads f (At l) (VDict d).
Proof. intros f l its n d HF HD. exists (S n). cbn [view]. rewrite HF. cbn [o_items o_kind]. rewrite HD. reflexivity. Qed.

(** A parsed header does not depend on the dict it was parsed from. *)
Lemma parsed_kept : forall X depth allow m la m1 h b m' f' d, closed m -> (la < m_next m)%N ->
  parse_refs X depth allow m (o_items (m_obj m la)) [] = Ok (m1, h) -> extends m1 m' ->
  m_obj m' b = Obj KDict h -> b <> la -> opt_items (view (S depth) (m_obj m1)) h = Some d ->
  (forall a, a <> la -> f' a = m_obj m' a) ->
  (exists v, reads (m_obj m) (At la) v) -> Forall (fun e => exists_at m1 (snd e)) h -> reads f' (At b) (VDict d).
Proof.
  intros X depth allow m la m1 h b m' f' d HC HL HP HE HO NB HD HF [v HV] HX.
  destruct (parse_refs_ok X depth allow _ _ _ _ _ HC (closed_items _ _ HC HL) (Forall_nil _) HP) as (X1 & C1 & _ & _).
  pose proof (parse_refs_origin X depth allow _ _ _ _ _ HP HC (closed_items _ _ HC HL)) as HOR.
  pose proof (extends_trans _ _ _ X1 HE) as X2.
  destruct (opt_items_reads f' (view (S depth) (m_obj m1)) h d) as [n Hn]; [|exact HD|].
  2:{ apply (reads_dict f' b h n d); [|exact Hn]. rewrite HF by exact NB. exact HO. }
  intros k x w HI HVX. pose proof (proj1 (Forall_forall _ _) HOR (k, x) HI) as HXO. cbn [snd map In] in HXO.
  pose proof (proj1 (Forall_forall _ _) HX (k, x) HI) as HXE. cbn [snd] in HXE.
  pose proof (view_extends _ _ _ _ _ C1 HE HXE HVX) as HVM.
  destruct HXO as [HXO|[[]|[HFL HB]]].
  - apply in_map_iff in HXO as ([k0 x0] & HX0 & HI0). cbn [snd] in HX0. subst x0.
    destruct HV as [nv HV]. pose proof (view_extends nv _ _ (At la) _ HC X2 HL HV) as HVL.
    rewrite <- (proj2 X2 _ HL) in HI0.
    destruct (contents_kept la (m_obj m') f' v k0 x HF (ex_intro _ nv HVL) HI0) as (n' & w' & H1 & H2).
    assert (w' = w) as -> by (apply (reads_det (m_obj m') x); [exists n'; exact H1|exists (S depth); exact HVM]).
    exists n'. exact H2.
  - destruct x as [u|l]; [exists 0; cbn [view] in *; exact HVX|]. cbn [flat] in HFL. destruct HB as [B1 B2].
    assert (NL : l <> la) by lia. exists (S depth). cbn [view] in HVM |- *. rewrite (HF _ NL).
    rewrite <- (proj2 HE l B2) in HFL. revert HVM.
    assert (HEQ : opt_items (view depth f') (o_items (m_obj m' l)) = opt_items (view depth (m_obj m')) (o_items (m_obj m' l))).
    { clear - HFL. induction HFL as [|[k y] r [v0 H] _ IH]; [reflexivity|]. cbn [snd] in H. subst y. cbn [opt_items]. rewrite IH. destruct depth; reflexivity. }
    rewrite HEQ. exact (fun H => H).
Qed.

(** ** Lookups *)

Lemma hget_hset : forall h a x k, hget (hset h a x) k = if keyeq k a then Some x else hget h k.
Proof.
  induction h as [|[k' y] r IH]; intros a x k; cbn [hset hget]; [reflexivity|].
  destruct (keyeq a k') eqn:E; cbn [hget].
  - destruct (keyeq k k') eqn:E1.
    + rewrite (keyeq_trans k k' a E1) by (rewrite keyeq_sym; exact E). reflexivity.
    + destruct (keyeq k a) eqn:E2; [|reflexivity]. rewrite (keyeq_trans k a k' E2 E) in E1. discriminate.
  - rewrite IH. destruct (keyeq k k') eqn:E1; [|reflexivity]. destruct (keyeq k a) eqn:E2; [|reflexivity].
    rewrite (keyeq_trans a k k') in E; [discriminate|rewrite keyeq_sym; exact E2|exact E1].
Qed.

Lemma hget_app : forall h h' k, hget (h ++ h') k = match hget h k with Some x => Some x | None => hget h' k end.
Proof. induction h as [|[k' x] r IH]; intros h' k; cbn [app hget]; [reflexivity|]. destruct (keyeq k k'); [reflexivity|apply IH]. Qed.

Lemma hget_hupdate : forall u h k, hget (hupdate h u) k = match last_entry u k with Some x => Some x | None => hget h k end.
Proof.
  unfold last_entry. induction u as [|[a x] r IH]; intros h k; [reflexivity|].
  unfold hupdate. cbn [fold_left fst snd rev]. fold (hupdate (hset h a x) r). rewrite IH, hget_app, hget_hset. cbn [hget].
  destruct (hget (rev r) k); [reflexivity|]. destruct (keyeq k a); reflexivity.
Qed.

Lemma parse_refs_last : forall X depth allow pre k l a m acc m' h', parse_refs X depth allow m (pre ++ [(k, At l)]) acc = Ok (m', h') ->
  from_id FHdr allow k = Ok a -> ~ remade a -> hget h' a = Some (At l).
Proof.
  intros X depth allow. induction pre as [|[k0 x0] r IH]; intros k l a m acc m' h' H HF HN; cbn [app parse_refs] in H.
  - apply bind_ok in H as (a' & HF' & H). apply bind_ok in H as (v & HV & H). apply bind_ok in H as (v' & HP & H).
    rewrite HF in HF'. injection HF' as <-. destruct (parser_cases a) as [HR|[H1 _]]; [contradiction|]. rewrite H1 in H. injection H as <- <-.
    rewrite hget_hset, keyeq_refl. reflexivity.
  - apply bind_ok in H as (a' & HF' & H). apply bind_ok in H as (v & HV & H). apply bind_ok in H as (v' & HP & H).
    destruct (parsed_ref m a' v' x0) as [m1 y]. exact (IH _ _ _ _ _ _ _ H HF HN).
Qed.

(** ** Copying succeeds *)

Lemma copy_total : forall f0 n0, inside (fun l => (l < n0)%N) f0 ->
  forall n s m x v, before f0 n0 s m -> ref_in (fun l => (l < n0)%N) x -> view n f0 x = Some v -> exists r, copy n s m x = Some r.
Proof.
  intros f0 n0 HC. induction n as [|n IH]; intros s m x v HB HX HV; destruct x as [u|l]; cbn [copy].
  - eauto.
  - discriminate.
  - eauto.
  - destruct (copied s l) as [l'|] eqn:E; [eauto|]. unfold alloc. cbn [ref_in] in HX. set (l' := m_next m).
    set (m1 := Mem (fun j => if N.eqb j l' then Obj (o_kind (m_obj m l)) [] else m_obj m j) (N.succ l')).
    destruct HB as (B1 & B2 & B3).
    assert (HB1 : before f0 n0 ((l, l') :: s) m1).
    { split; [|split].
      - intros a HA. unfold m1. cbn [m_obj]. destruct (N.eqb_spec a l') as [->|_]; [unfold l' in HA; lia|exact (B1 _ HA)].
      - unfold m1. cbn [m_next]. unfold l'. lia.
      - intros a b [HI|HI]; [injection HI as <- <-; unfold m1, between; cbn [m_next]; unfold l'; split; [exact HX|lia]|].
        destruct (B3 _ _ HI) as [H1 [H2 H3]]. unfold m1, between. cbn [m_next]. unfold l'. split; [exact H1|lia]. }
    rewrite (B1 _ HX). cbn [view] in HV. destruct (opt_items (view n f0) (o_items (f0 l))) as [d|] eqn:ED; [|discriminate].
    assert (HG : forall its s0 m0 d0, opt_items (view n f0) its = Some d0 -> before f0 n0 s0 m0 ->
               Forall (fun e => ref_in (fun l => (l < n0)%N) (snd e)) its -> exists r, copy_items (copy n) s0 m0 its = Some r).
    { clear - IH HC. induction its as [|[k x] r IHr]; intros s0 m0 d0 HD HB HF; cbn [copy_items opt_items] in *; [eauto|].
      destruct (view n f0 x) as [w|] eqn:EV; [|discriminate]. destruct (opt_items (view n f0) r) as [d'|] eqn:E2; [|discriminate].
      inversion HF as [|? ? HX HR]; subst. cbn [snd] in HX. destruct (IH s0 m0 x w HB HX EV) as [[[ma sa] y] EC]. rewrite EC.
      destruct (copy_after f0 n0 HC _ _ _ _ _ _ _ EC HB HX) as [HA _].
      destruct (IHr sa ma d' eq_refl (after_before _ _ _ _ _ _ HB HA) HR) as [[[mb sb] r'] EC2]. rewrite EC2. eauto. }
    destruct (HG _ _ _ _ ED HB1 (HC _ HX)) as [[[m2 s2] its] EC]. rewrite EC. eauto.
Qed.

(** ** A copy has the shape of the original *)

Definition good (s : memo) (m : mem) : Prop :=
  NoDup (map fst s) /\ NoDup (map snd s) /\ Forall (fun p => (snd p < m_next m)%N) s.

Lemma copied_none : forall s l, copied s l = None -> ~ In l (map fst s).
Proof.
  induction s as [|[a b] r IH]; intros l H HI; [exact HI|]. cbn [copied map fst In] in *.
  destruct (N.eqb l a) eqn:E; [discriminate|]. destruct HI as [HI|HI]; [|exact (IH _ H HI)].
  subst a. rewrite N.eqb_refl in E. discriminate.
Qed.

Lemma copy_good : forall n s m x m' s' y, copy n s m x = Some (m', s', y) -> good s m -> good s' m'.
Proof.
  induction n as [|n IH]; intros s m x m' s' y H HG; destruct x as [v|l]; cbn [copy] in H; try (injection H as <- <- <-; exact HG).
  - destruct (copied s l); [injection H as <- <- <-; exact HG|discriminate].
  - destruct (copied s l) as [l'|] eqn:E; [injection H as <- <- <-; exact HG|]. unfold alloc in H.
    destruct (copy_items (copy n) _ _ _) as [[[m2 s2] its]|] eqn:EC in H; [|discriminate]. injection H as <- <- <-.
    assert (HI : forall its0 s0 m0 mm ss its', copy_items (copy n) s0 m0 its0 = Some (mm, ss, its') -> good s0 m0 -> good ss mm).
    { clear - IH. induction its0 as [|[k x] r IHr]; intros s0 m0 mm ss its' H HG; cbn [copy_items] in H; [injection H as <- <- <-; exact HG|].
      destruct (copy n s0 m0 x) as [[[ma sa] y]|] eqn:E1; [|discriminate].
      destruct (copy_items (copy n) sa ma r) as [[[mb sb] r']|] eqn:E2; [|discriminate]. injection H as <- <- <-.
      exact (IHr _ _ _ _ _ E2 (IH _ _ _ _ _ _ E1 HG)). }
    apply (HI _ _ _ _ _ _ EC). destruct HG as (G1 & G2 & G3). split; [|split]; cbn [map fst snd m_next].
    + constructor; [exact (copied_none _ _ E)|exact G1].
    + constructor; [|exact G2]. intros HIN. apply in_map_iff in HIN as ([a b] & EB & HIN). cbn [snd] in EB.
      pose proof (proj1 (Forall_forall _ _) G3 _ HIN) as HLT. cbn [snd] in HLT. lia.
    + constructor; [cbn [snd]; lia|]. eapply Forall_impl; [|exact G3]. intros p. cbn beta. lia.
Qed.

Lemma copied_some : forall s a b, NoDup (map fst s) -> In (a, b) s -> copied s a = Some b.
Proof.
  induction s as [|[c d] r IH]; intros a b HN HI; [destruct HI|]. cbn [map fst copied] in *. destruct HI as [HI|HI].
  - injection HI as -> ->. rewrite N.eqb_refl. reflexivity.
  - inversion HN as [|? ? H1 H2]; subst. destruct (N.eqb_spec a c) as [->|_]; [|exact (IH _ _ H2 HI)].
    destruct H1. exact (in_map fst _ _ HI).
Qed.

Lemma NoDup_snd : forall (s : memo) a a' b, NoDup (map snd s) -> In (a, b) s -> In (a', b) s -> a = a'.
Proof.
  induction s as [|[c d] r IH]; intros a a' b HN H1 H2; [destruct H1|]. cbn [map snd] in HN. inversion HN as [|? ? HN1 HN2]; subst.
  destruct H1 as [H1|H1], H2 as [H2|H2]; try (injection H1 as -> ->); try (injection H2 as -> ->).
  - congruence.
  - destruct HN1. exact (in_map snd _ _ H2).
  - destruct HN1. exact (in_map snd _ _ H1).
  - exact (IH _ _ _ HN2 H1 H2).
Qed.

Lemma copy_shape : forall n m l m' s l', closed m -> (l < m_next m)%N -> copy n [] m (At l) = Some (m', s, At l') ->
  exists ren, ren l = l' /\
    (forall a, reaches (m_obj m) l a -> between (m_next m) (m_next m') (ren a) /\ m_obj m' (ren a) = renamed ren (m_obj m a)) /\
    (forall a a', reaches (m_obj m) l a -> reaches (m_obj m) l a' -> ren a = ren a' -> a = a').
Proof.
  intros n m l m' s l' HC HL H. destruct (copy_spec _ _ _ _ _ _ HC HL H) as (l0 & E0 & HB & _ & _ & _ & HI & HD). injection E0 as <-.
  assert (HG : good s m') by (apply (copy_good _ _ _ _ _ _ _ H); split; [constructor|split; constructor]).
  destruct HG as (G1 & G2 & _).
  set (ren := fun a => match copied s a with Some b => b | None => 0%N end).
  assert (HR : forall a b, In (a, b) s -> ren a = b) by (intros a b HIN; unfold ren; rewrite (copied_some _ _ _ G1 HIN); reflexivity).
  assert (HS : forall x y, sim s x y -> y = rename ren x).
  { intros [v|a] [v'|b] HS; cbn [sim rename] in *; try contradiction; [subst; reflexivity|]. rewrite (HR _ _ HS). reflexivity. }
  assert (HE : forall a b, In (a, b) s -> m_obj m' b = renamed ren (m_obj m a) /\ (forall k c, In (k, At c) (o_items (m_obj m a)) -> In (c, ren c) s)).
  { intros a b HIN. destruct (HD _ _ HIN) as [_ [D1 D2]]. split.
    - unfold renamed. destruct (m_obj m' b) as [kd its]. cbn [o_kind o_items] in *. subst kd. f_equal.
      clear - D2 HS. induction D2 as [|[k x] [k' y] u u' [H1 H2] _ IH]; [reflexivity|]. cbn [map fst snd] in *. subst k'. rewrite IH, (HS _ _ H2). reflexivity.
    - intros k c HK. clear - D2 HK HR. induction D2 as [|[k0 x] [k' y] u u' [H1 H2] _ IH]; [destruct HK|]. destruct HK as [HK|HK]; [|exact (IH HK)].
      injection HK as -> ->. cbn [snd] in H2. destruct y as [v|b0]; cbn [sim] in H2; [contradiction|]. rewrite (HR _ _ H2). exact H2. }
  assert (HP : forall a, reaches (m_obj m) l a -> In (a, ren a) s).
  { intros a HA. induction HA as [|a k c HA IH HK]; [rewrite (HR _ _ HI); exact HI|]. exact (proj2 (HE _ _ IH) _ _ HK). }
  exists ren. split; [exact (HR _ _ HI)|]. split.
  - intros a HA. split; [exact (proj1 (HD _ _ (HP _ HA)))|exact (proj1 (HE _ _ (HP _ HA)))].
  - intros a a' HA HA' E. apply (NoDup_snd s a a' (ren a) G2); [exact (HP _ HA)|rewrite E; exact (HP _ HA')].
Qed.
