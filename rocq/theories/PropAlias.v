(** C114: which objects a message shares with the program. *)
From Coq Require Import NArith ZArith Bool String Lia.
From Coq Require Import Init.Byte List.
From Verif Require Import Bytes Value Registry Crypto Keys Headers SpecRegistry Alias SpecAlias ValueProofs HdrProofs AliasProofs AliasProofs2 Toy.
Import ListNotations.

(** A header map that is assigned is taken over as it is at that moment: the message has that
    value after the call, and keeps it whatever the program and other messages do later, as
    long as nobody calls a method on this message or changes an object the call has made. *)
Theorem C114_assigned : forall X depth w s g x v w' os,
  s <> Local -> reached X depth w -> possible w (assign s g x) -> astep X depth w (assign s g x) = (w', Ok None) ->
  reads (m_obj (s_mem w)) x v ->
  all_possible X depth w' os -> (forall o l, In o os -> made w w' l -> not_on g l o) ->
  reads (m_obj (s_mem w')) (bucket s w' g) v /\
  reads (m_obj (s_mem (run X depth w' os))) (bucket s (run X depth w' os) g) v.
Proof.
  intros X depth w s g x v w' os NS HR HP H HV HA HN. pose proof (reached_inv _ _ _ HR) as HI.
  assert (HI' : inv w') by (change w' with (fst (w', @Ok (option N) None)); rewrite <- H; exact (step_inv _ _ _ _ HI HP)).
  assert (HM : exists l m' sm l', x = At l /\ (l < m_next (s_mem w))%N /\ (g < s_count w)%N /\ copy depth [] (s_mem w) (At l) = Some (m', sm, At l') /\
             s_mem w' = m' /\ s_count w' = s_count w /\ dict_of s (s_msg w' g) = l' /\ forall g', g' <> g -> s_msg w' g' = s_msg w g').
  { destruct s; [| |congruence]; destruct HP as [HG HX]; cbn [assign astep] in H;
    (destruct (dict_items (s_mem w) x) as [its|] eqn:ED; [|discriminate]); destruct (dict_items_inv _ _ _ ED) as (l & -> & _ & _);
    (destruct (copy depth [] (s_mem w) (At l)) as [[[m' sm] [u|l']]|] eqn:EC; [discriminate| |discriminate]); injection H as <-;
    exists l, m', sm, l'; (split; [reflexivity|]); (split; [exact HX|]); (split; [exact HG|]); (split; [exact EC|]); (split; [reflexivity|]); (split; [reflexivity|]);
    cbn [set_msg s_msg]; rewrite N.eqb_refl; (split; [reflexivity|]); intros g' NE; destruct (N.eqb_spec g' g); congruence. }
  destruct HM as (l & m' & sm & l' & -> & HL & HG & HC & HM1 & HM2 & HM3 & HM4). unfold made in HN.
  destruct (copy_spec _ _ _ _ _ _ (inv_closed _ HI) HL HC) as (l0 & HE & HB & _). injection HE as <-.
  destruct (run_frame X depth g (made w w') os w' HI') as [R1 R2].
  - rewrite HM2. exact HG.
  - intros a [_ H2]. exact H2.
  - intros g' a HG' NE [H1 _] HIN. rewrite (HM4 _ NE) in HIN. rewrite HM2 in HG'. destruct (inv_dict _ HI _ _ HG' HIN) as [H3 _]. lia.
  - exact HA.
  - exists l'. unfold made. rewrite HM1. exact HB.
  - exact HN.
  - unfold bucket. rewrite R1, HM3. split.
    + rewrite HM1. exact (copy_reads _ _ _ _ _ _ v _ (inv_closed _ HI) HL HC HV (fun _ _ => eq_refl)).
    + apply (copy_reads _ _ _ _ _ _ v _ (inv_closed _ HI) HL HC HV). intros a HA'. rewrite R2 by (unfold made; rewrite HM1; exact HA').
      rewrite HM1. reflexivity.
Qed.
Print Assumptions C114_assigned.

(** What is assigned is a copy of the same shape, whatever objects the dict leads to (also
    shared ones and itself): all of it is new, object by object. *)
Theorem C114_shape : forall X depth w s g l w',
  s <> Local -> reached X depth w -> possible w (assign s g (At l)) -> astep X depth w (assign s g (At l)) = (w', Ok None) ->
  exists ren, bucket s w' g = At (ren l) /\
    (forall a, reaches (m_obj (s_mem w)) l a -> made w w' (ren a) /\ m_obj (s_mem w') (ren a) = renamed ren (m_obj (s_mem w) a)) /\
    (forall a a', reaches (m_obj (s_mem w)) l a -> reaches (m_obj (s_mem w)) l a' -> ren a = ren a' -> a = a').
Proof.
  intros X depth w s g l w' NS HR HP H. pose proof (inv_closed _ (reached_inv _ _ _ HR)) as HC.
  assert (HL : (l < m_next (s_mem w))%N) by (destruct s; exact (proj2 HP)).
  assert (HM : exists m' sm l', copy depth [] (s_mem w) (At l) = Some (m', sm, At l') /\ s_mem w' = m' /\ bucket s w' g = At l').
  { unfold bucket. destruct s; [| |congruence]; cbn [assign astep] in H; (destruct (dict_items (s_mem w) (At l)) as [its|] eqn:ED; [|discriminate]);
    (destruct (copy depth [] (s_mem w) (At l)) as [[[m' sm] [u|l']]|] eqn:EC; [discriminate| |discriminate]); injection H as <-;
    exists m', sm, l'; (split; [reflexivity|]); (split; [reflexivity|]); cbn [set_msg s_msg]; rewrite N.eqb_refl; reflexivity. }
  destruct HM as (m' & sm & l' & EC & EM & EB). destruct (copy_shape _ _ _ _ _ _ HC HL EC) as (ren & R1 & R2 & R3).
  exists ren. rewrite EB, R1. split; [reflexivity|]. split; [|exact R3]. unfold made. rewrite EM. exact R2.
Qed.
Print Assumptions C114_shape.

(** Every dict that nests no deeper than deepcopy can follow can be assigned. *)
Theorem C114_assignable : forall X depth w s g x d, s <> Local -> reached X depth w -> possible w (assign s g x) ->
  view depth (m_obj (s_mem w)) x = Some (VDict d) -> (forall v, x <> Imm v) -> snd (astep X depth w (assign s g x)) = Ok None.
Proof.
  intros X depth w s g x d NS HR HP HV NX. pose proof (inv_closed _ (reached_inv _ _ _ HR)) as HC.
  destruct x as [v|l]; [destruct (NX v eq_refl)|].
  assert (HL : (l < m_next (s_mem w))%N) by (destruct s; exact (proj2 HP)).
  assert (HK : dict_items (s_mem w) (At l) = Ok (o_items (m_obj (s_mem w) l))).
  { destruct depth as [|n]; [discriminate|]. cbn [view dict_items] in *. destruct (opt_items _ _); [|discriminate].
    destruct (o_kind (m_obj (s_mem w) l)); [reflexivity|discriminate|discriminate]. }
  destruct (copy_total (m_obj (s_mem w)) (m_next (s_mem w)) HC depth [] (s_mem w) (At l) (VDict d)) as [[[m' sm] y] EC].
  - split; [reflexivity|]. split; [lia|]. intros a b [].
  - exact HL.
  - exact HV.
  - destruct (copy_spec _ _ _ _ _ _ HC HL EC) as (l' & -> & _). destruct s; [| |congruence]; cbn [assign astep]; rewrite HK, EC; reflexivity.
Qed.
Print Assumptions C114_assignable.

(** The dicts of a message are its own: no two messages share one, no message uses one twice,
    and they are changed by calls on this message and by writing to them only. *)
Theorem C114_separate : forall X depth w g g', reached X depth w -> (g < s_count w)%N -> (g' < s_count w)%N ->
  NoDup (buckets (s_msg w g)) /\ (g <> g' -> forall l, In l (buckets (s_msg w g)) -> ~ In l (buckets (s_msg w g'))).
Proof.
  intros X depth w g g' HR HG HG'. pose proof (reached_inv _ _ _ HR) as HI. split; [exact (inv_own _ HI _ HG)|].
  intros NE l. exact (inv_apart _ HI _ _ _ HG HG' NE).
Qed.
Print Assumptions C114_separate.

Theorem C114_elsewhere : forall X depth w os g s, reached X depth w -> (g < s_count w)%N -> all_possible X depth w os ->
  (forall o, In o os -> not_on g (dict_of s (s_msg w g)) o) ->
  bucket s (run X depth w os) g = bucket s w g /\ entries_of s (run X depth w os) g = entries_of s w g.
Proof.
  intros X depth w os g s HR HG HA HN. pose proof (reached_inv _ _ _ HR) as HI.
  assert (HIN : In (dict_of s (s_msg w g)) (buckets (s_msg w g))) by (destruct s; cbn [dict_of buckets In]; tauto).
  destruct (run_frame X depth g (fun l => l = dict_of s (s_msg w g)) os w HI HG) as [R1 R2].
  - intros l ->. exact (proj1 (inv_dict _ HI _ _ HG HIN)).
  - intros g' l HG' NE ->. exact (inv_apart _ HI _ _ _ HG HG' (not_eq_sym NE) HIN).
  - exact HA.
  - eexists. reflexivity.
  - intros o l HO ->. exact (HN _ HO).
  - unfold bucket, entries_of. rewrite R1. split; [reflexivity|]. rewrite (R2 _ eq_refl). reflexivity.
Qed.
Print Assumptions C114_elsewhere.

(** A message that is constructed from two dicts has new dicts, with the parsed headers. They
    do not change when the program changes the dicts it passed. (What is missing: they do
    change when it changes a list or dict inside them, see below.) *)
Theorem C114_constructed_partial : forall X depth w lp lu allow w' g,
  reached X depth w -> possible w (New (At lp) (At lu) allow) -> astep X depth w (New (At lp) (At lu) allow) = (w', Ok (Some g)) ->
  exists pd ud ph uh,
    reads (m_obj (s_mem w)) (At lp) (VDict pd) /\ reads (m_obj (s_mem w)) (At lu) (VDict ud) /\
    parse_items X allow pd [] = Ok ph /\ parse_items X allow ud [] = Ok uh /\
    reads (m_obj (s_mem w')) (bucket Protected w' g) (VDict ph) /\
    reads (m_obj (s_mem w')) (bucket Unprotected w' g) (VDict uh) /\
    entries_of Local w' g = [] /\
    (forall l, In l (buckets (s_msg w' g)) -> made w w' l) /\
    (forall o, possible w' (Change lp o) -> reads (m_obj (s_mem (fst (astep X depth w' (Change lp o))))) (bucket Protected w' g) (VDict ph)) /\
    (forall o, possible w' (Change lu o) -> reads (m_obj (s_mem (fst (astep X depth w' (Change lu o))))) (bucket Unprotected w' g) (VDict uh)).
Proof.
  intros X depth w lp lu allow w' g HR [HP HU] H. pose proof (reached_inv _ _ _ HR) as HI. pose proof (inv_closed _ HI) as HC.
  assert (HK : o_kind (m_obj (s_mem w) lp) = KDict /\ o_kind (m_obj (s_mem w) lu) = KDict).
  { cbn [astep dict_items] in H. destruct (o_kind (m_obj (s_mem w) lp)); cbn [bind] in H; try discriminate.
    destruct (o_kind (m_obj (s_mem w) lu)); cbn [bind] in H; try discriminate. split; reflexivity. }
  destruct HK as [KP KU].
  destruct (new_inv _ _ _ _ _ _ _ _ HI HP HU H) as (lp' & lu' & m1 & m2 & ph & uh & EP & EU & P1 & P2 & X1 & C1 & X2 & C2 & F1 & F2 & EG & m' & -> & X3 & C3 & HN & O1 & O2 & O3).
  injection EP as <-. injection EU as <-. injection EG as ->. cbn [exists_at] in HP, HU.
  destruct (parse_refs_ok X depth allow _ _ _ _ _ HC (closed_items _ _ HC HP) (Forall_nil _) P1) as (_ & _ & _ & D1).
  assert (HF : Forall (fun e => exists_at m1 (snd e)) (o_items (m_obj (s_mem w) lu))).
  { eapply Forall_impl; [|exact (closed_items _ _ HC HU)]. intros e. apply exists_extends. exact X1. }
  destruct (parse_refs_ok X depth allow _ _ _ _ _ C1 HF (Forall_nil _) P2) as (_ & _ & _ & D2).
  destruct (D1 [] eq_refl) as (pd & phd & V1 & I1 & R1). destruct (D2 [] eq_refl) as (ud & uhd & V2 & I2 & R2).
  assert (RP : reads (m_obj (s_mem w)) (At lp) (VDict pd)) by (exists (S depth); cbn [view]; rewrite V1, KP; reflexivity).
  assert (EU : m_obj m1 lu = m_obj (s_mem w) lu) by exact (proj2 X1 _ HU).
  assert (RU1 : reads (m_obj m1) (At lu) (VDict ud)) by (exists (S depth); cbn [view]; rewrite EU, V2, KU; reflexivity).
  assert (RU : reads (m_obj (s_mem w)) (At lu) (VDict ud)).
  { destruct RU1 as [n HV]. exists n. revert HV. apply (view_inside (fun l => (l < m_next (s_mem w))%N)); [| |exact HU].
    - intros l HL. rewrite (proj2 X1 _ HL). exact (HC _ HL).
    - intros l HL. symmetry. exact (proj2 X1 _ HL). }
  assert (BP : dict_of Protected (s_msg (Shared m' (fun j => if N.eqb j (s_count w) then MsgObj (N.succ (m_next m2)) (N.succ (N.succ (m_next m2))) (m_next m2) None else s_msg w j) (N.succ (s_count w))) (s_count w)) = N.succ (m_next m2))
    by (cbn [s_msg]; rewrite N.eqb_refl; reflexivity).
  assert (BU : dict_of Unprotected (s_msg (Shared m' (fun j => if N.eqb j (s_count w) then MsgObj (N.succ (m_next m2)) (N.succ (N.succ (m_next m2))) (m_next m2) None else s_msg w j) (N.succ (s_count w))) (s_count w)) = N.succ (N.succ (m_next m2)))
    by (cbn [s_msg]; rewrite N.eqb_refl; reflexivity).
  pose proof (proj1 X1) as L1. pose proof (proj1 X2) as L2.
  assert (KEEPP : forall f', (forall a, a <> lp -> f' a = m_obj m' a) -> reads f' (At (N.succ (m_next m2))) (VDict phd)).
  { intros f' HF'. apply (parsed_kept X depth allow (s_mem w) lp m1 ph _ m' f' phd HC HP P1); try assumption.
    - exact (extends_trans _ _ _ X2 X3).
    - lia.
    - exists (VDict pd). exact RP. }
  assert (HU1 : (lu < m_next m1)%N) by lia. rewrite <- EU in P2.
  assert (KEEPU : forall f', (forall a, a <> lu -> f' a = m_obj m' a) -> reads f' (At (N.succ (N.succ (m_next m2)))) (VDict uhd)).
  { intros f' HF'. apply (parsed_kept X depth allow m1 lu m2 uh _ m' f' uhd C1 HU1 P2); try assumption.
    - lia.
    - exists (VDict ud). exact RU1. }
  unfold bucket. rewrite BP, BU. clear BP BU.
  exists pd, ud, phd, uhd. split; [exact RP|]. split; [exact RU|]. split; [exact I1|]. split; [exact I2|].
  split; [exact (KEEPP _ (fun _ _ => eq_refl))|]. split; [exact (KEEPU _ (fun _ _ => eq_refl))|]. split.
  { unfold entries_of. cbn [s_msg s_mem dict_of]. rewrite N.eqb_refl. cbn [b_local]. rewrite O1. reflexivity. }
  split.
  { intros l. cbn [s_msg]. rewrite N.eqb_refl. unfold made, between. cbn [s_mem buckets b_phdr b_uhdr b_local In]. intros [<-|[<-|[<-|[]]]]; lia. }
  split; intros o _; cbn [astep fst s_mem put m_obj].
  - apply KEEPP. intros a NE. destruct (N.eqb_spec a lp); [contradiction|reflexivity].
  - apply KEEPU. intros a NE. destruct (N.eqb_spec a lu); [contradiction|reflexivity].
Qed.
Print Assumptions C114_constructed_partial.

(** Refuted: "the headers of a message are its own". A list, dict or key in the dict that is
    passed to the constructor is in the message too, unless the header is the algorithm or a
    key that is parsed: for every such header, whatever the program makes of its list is what
    the message has. *)
Theorem C114_nested_refuted : forall X depth w lp lu allow w' g pre k l a o v,
  reached X depth w -> possible w (New (At lp) (At lu) allow) -> astep X depth w (New (At lp) (At lu) allow) = (w', Ok (Some g)) ->
  from_id FHdr allow k = Ok a -> ~ remade a -> possible w' (Change l o) ->
  let w'' := fst (astep X depth w' (Change l o)) in
  reads (m_obj (s_mem w'')) (At l) v ->
  (o_items (m_obj (s_mem w) lp) = pre ++ [(k, At l)] -> header_value Protected w'' g a v) /\
  (o_items (m_obj (s_mem w) lu) = pre ++ [(k, At l)] -> header_value Unprotected w'' g a v).
Proof.
  intros X depth w lp lu allow w' g pre k l a o v HR [HP HU] H HF NR HO w'' HV. pose proof (reached_inv _ _ _ HR) as HI. pose proof (inv_closed _ HI) as HC.
  destruct (new_inv _ _ _ _ _ _ _ _ HI HP HU H) as (lp' & lu' & m1 & m2 & ph & uh & EP & EU & P1 & P2 & X1 & C1 & X2 & C2 & F1 & F2 & EG & m' & EW & X3 & C3 & HN & O1 & O2 & O3).
  injection EP as <-. injection EU as <-. injection EG as ->. pose proof (proj1 X1) as L1. pose proof (proj1 X2) as L2. cbn [exists_at] in HP, HU.
  split; intros HE.
  - assert (HL : (l < m_next (s_mem w))%N).
    { pose proof (closed_items _ _ HC HP) as HFA. rewrite HE in HFA. apply Forall_app in HFA as [_ HFA]. inversion HFA as [|? ? HX _]; subst. exact HX. }
    rewrite HE in P1. exists (At l). split; [|exact HV]. unfold entries_of, w''. rewrite EW. cbn [astep fst s_msg s_mem put m_obj]. rewrite N.eqb_refl. cbn [dict_of b_phdr].
    destruct (N.eqb_spec (N.succ (m_next m2)) l) as [EL|_]; [lia|]. rewrite O2. cbn [o_items]. exact (parse_refs_last _ _ _ _ _ _ _ _ _ _ _ P1 HF NR).
  - assert (HL : (l < m_next (s_mem w))%N).
    { pose proof (closed_items _ _ HC HU) as HFA. rewrite HE in HFA. apply Forall_app in HFA as [_ HFA]. inversion HFA as [|? ? HX _]; subst. exact HX. }
    rewrite HE in P2. exists (At l). split; [|exact HV]. unfold entries_of, w''. rewrite EW. cbn [astep fst s_msg s_mem put m_obj]. rewrite N.eqb_refl. cbn [dict_of b_uhdr].
    destruct (N.eqb_spec (N.succ (N.succ (m_next m2))) l) as [EL|_]; [lia|]. rewrite O3. cbn [o_items]. exact (parse_refs_last _ _ _ _ _ _ _ _ _ _ _ P2 HF NR).
Qed.
Print Assumptions C114_nested_refuted.

(** What an update does to the dict: the entries given replace those with the same key, all
    others stay. This goes for local attributes too, although they are assigned: the entries
    from before are not dropped. The message has the values of the entries after the call, and
    keeps them if the program changes the dict it passed. *)
Theorem C114_update_partial : forall X depth w s g lx w',
  reached X depth w -> possible w (update s g (At lx)) -> astep X depth w (update s g (At lx)) = (w', Ok None) ->
  (forall k, hget (entries_of s w' g) k =
     match last_entry (o_items (m_obj (s_mem w) lx)) k with Some y => Some y | None => hget (entries_of s w g) k end) /\
  (forall s', s' <> s -> entries_of s' w' g = entries_of s' w g) /\
  bucket s w' g = bucket s w g /\
  (bucket s w g <> At lx -> forall k y v o, last_entry (o_items (m_obj (s_mem w) lx)) k = Some y ->
     reads (m_obj (s_mem w')) y v -> (exists u, reads (m_obj (s_mem w')) (At lx) u) -> possible w' (Change lx o) ->
     header_value s w' g k v /\ header_value s (fst (astep X depth w' (Change lx o))) g k v).
Proof.
  intros X depth w s g lx w' HR HP H. pose proof (reached_inv _ _ _ HR) as HI.
  assert (HG : (g < s_count w)%N) by (destruct s; exact (proj1 HP)).
  assert (HM : (forall s', dict_of s' (s_msg w' g) = dict_of s' (s_msg w g)) /\
     s_mem w' = put (s_mem w) (dict_of s (s_msg w g)) (Obj KDict (hupdate (entries_of s w g) (o_items (m_obj (s_mem w) lx))))).
  { destruct s; cbn [update astep] in H.
    - destruct (dict_items (s_mem w) (At lx)) as [its|] eqn:ED; [|discriminate]. destruct (dict_items_inv _ _ _ ED) as (l & EL & _ & ->). injection EL as <-.
      injection H as <-. cbn [set_msg s_msg s_mem]. rewrite N.eqb_refl. split; [intros []; reflexivity|reflexivity].
    - destruct (dict_items (s_mem w) (At lx)) as [its|] eqn:ED; [|discriminate]. destruct (dict_items_inv _ _ _ ED) as (l & EL & _ & ->). injection EL as <-.
      injection H as <-. cbn [set_msg s_msg s_mem]. rewrite N.eqb_refl. split; [intros []; reflexivity|reflexivity].
    - destruct (mapping_items (s_mem w) (At lx)) as [its|] eqn:ED; [|discriminate]. cbn [mapping_items] in ED.
      assert (its = o_items (m_obj (s_mem w) lx)) as -> by (destruct (o_kind (m_obj (s_mem w) lx)); congruence).
      injection H as <-. cbn [set_msg s_msg s_mem]. rewrite N.eqb_refl. split; [intros []; reflexivity|reflexivity]. }
  destruct HM as [HM1 HM2].
  assert (HE : entries_of s w' g = hupdate (entries_of s w g) (o_items (m_obj (s_mem w) lx))).
  { unfold entries_of at 1. rewrite HM1, HM2. cbn [put m_obj]. rewrite N.eqb_refl. reflexivity. }
  split; [intros k; rewrite HE; apply hget_hupdate|]. split.
  { intros s' NS. unfold entries_of. rewrite HM1, HM2. cbn [put m_obj]. destruct (N.eqb_spec (dict_of s' (s_msg w g)) (dict_of s (s_msg w g))) as [E|_]; [|reflexivity].
    exfalso. pose proof (inv_own _ HI _ HG) as HND. unfold buckets in HND. inversion HND as [|? ? H1 H2]; subst. inversion H2 as [|? ? H3 _]; subst. cbn [In] in H1, H3.
    destruct s, s'; cbn [dict_of] in E; try congruence; intuition congruence. }
  split; [unfold bucket; rewrite HM1; reflexivity|].
  intros NB k y v o HK HV [u HU] HO.
  assert (HH : hget (entries_of s w' g) k = Some y) by (rewrite HE, hget_hupdate, HK; reflexivity).
  split; [exists y; split; assumption|]. exists y. cbn [astep fst]. split.
  - unfold entries_of. cbn [s_msg s_mem put m_obj]. destruct (N.eqb_spec (dict_of s (s_msg w' g)) lx) as [E|_]; [|exact HH].
    exfalso. apply NB. unfold bucket. rewrite <- HM1, E. reflexivity.
  - cbn [s_mem put m_obj].
    assert (HOX : m_obj (s_mem w') lx = m_obj (s_mem w) lx).
    { rewrite HM2. cbn [put m_obj]. destruct (N.eqb_spec lx (dict_of s (s_msg w g))) as [->|_]; [destruct (NB eq_refl)|reflexivity]. }
    assert (HIN : exists k', In (k', y) (o_items (m_obj (s_mem w') lx))).
    { rewrite HOX. unfold last_entry in HK. assert (HR' : exists k', In (k', y) (rev (o_items (m_obj (s_mem w) lx)))).
      { clear - HK. induction (rev (o_items (m_obj (s_mem w) lx))) as [|[k0 x0] r IH]; cbn [hget] in HK; [discriminate|].
        destruct (keyeq k k0); [injection HK as ->; exists k0; left; reflexivity|]. destruct (IH HK) as [k' HI]. exists k'. right. exact HI. }
      destruct HR' as [k' HI']. exists k'. apply in_rev. exact HI'. }
    destruct HIN as [k' HIN].
    destruct (contents_kept lx (m_obj (s_mem w')) (fun j => if N.eqb j lx then o else m_obj (s_mem w') j) u k' y) as (n & v' & H1 & H2).
    + intros a NE. destruct (N.eqb_spec a lx); [contradiction|reflexivity].
    + exact HU.
    + exact HIN.
    + assert (v' = v) as -> by (apply (reads_det (m_obj (s_mem w')) y); [exists n; exact H1|exact HV]). exists n. exact H2.
Qed.
Print Assumptions C114_update_partial.

(** Refuted for updates too: an object among the entries is in the message itself. *)
Theorem C114_update_nested_refuted : forall X depth w s g lx w' k l o v,
  reached X depth w -> possible w (update s g (At lx)) -> astep X depth w (update s g (At lx)) = (w', Ok None) ->
  last_entry (o_items (m_obj (s_mem w) lx)) k = Some (At l) -> bucket s w g <> At l -> possible w' (Change l o) ->
  reads (m_obj (s_mem (fst (astep X depth w' (Change l o))))) (At l) v ->
  header_value s (fst (astep X depth w' (Change l o))) g k v.
Proof.
  intros X depth w s g lx w' k l o v HR HP H HK NB HO HV.
  destruct (C114_update_partial X depth w s g lx w' HR HP H) as (H1 & _ & H3 & _).
  exists (At l). split; [|exact HV]. unfold entries_of. cbn [astep fst s_msg s_mem put m_obj].
  destruct (N.eqb_spec (dict_of s (s_msg w' g)) l) as [E|_].
  - exfalso. apply NB. rewrite <- H3. unfold bucket. rewrite E. reflexivity.
  - change (hget (entries_of s w' g) k = Some (At l)). rewrite H1, HK. reflexivity.
Qed.
Print Assumptions C114_update_nested_refuted.

(** ** A program: two messages from the same dict with a list of critical headers *)

(** [l = [4]; d = {Critical: l}; e = {}; m0 = Sign1Message(d, e); m1 = Sign1Message(d, e);
    m1.phdr = d; m0.local_attrs = d]. *)
Definition prog : list aop :=
  [ Make (Obj KList [(VInt 0, Imm (VInt 4))]); Make (Obj KDict [(Critical, At 0)]); Make (Obj KDict []);
    New (At 1) (At 2) true; New (At 1) (At 2) true; SetP 1 (At 1); SetL 0 (At 1) ].
Definition prog_end : shared := run toy 5 nothing prog.

Example prog_possible : all_possible toy 5 nothing prog.
Proof. vm_compute. repeat split; repeat constructor. Qed.
Example prog_reached : reached toy 5 prog_end.
Proof. apply reached_run; [constructor|exact prog_possible]. Qed.

(** Appending 5 to the list changes message 0, not message 1, whose headers were assigned. *)
Example prog_append : let w := fst (astep toy 5 prog_end (Change 0 (Obj KList [(VInt 0, Imm (VInt 4)); (VInt 1, Imm (VInt 5))]))) in
  view 5 (m_obj (s_mem prog_end)) (bucket Protected prog_end 0) = Some (VDict [(Critical, VList [VInt 4])]) /\
  view 5 (m_obj (s_mem w)) (bucket Protected w 0) = Some (VDict [(Critical, VList [VInt 4; VInt 5])]) /\
  view 5 (m_obj (s_mem w)) (bucket Local w 0) = Some (VDict [(Critical, VList [VInt 4; VInt 5])]) /\
  view 5 (m_obj (s_mem w)) (bucket Protected w 1) = Some (VDict [(Critical, VList [VInt 4])]).
Proof. vm_compute. repeat split. Qed.

(** Clearing the dict changes neither. *)
Example prog_clear : let w := fst (astep toy 5 prog_end (Change 1 (Obj KDict []))) in
  view 5 (m_obj (s_mem w)) (bucket Protected w 0) = Some (VDict [(Critical, VList [VInt 4])]) /\
  view 5 (m_obj (s_mem w)) (bucket Protected w 1) = Some (VDict [(Critical, VList [VInt 4])]).
Proof. vm_compute. repeat split. Qed.

(** Local attributes are merged; a key in the headers is copied by an assignment. *)
Example prog_more : let w := run toy 5 prog_end
    [ Make (Obj (KKey KSym []) [(VInt (-1), Imm (VBytes [x01]))]); Make (Obj KDict [(IV, Imm (VBytes [x02])); (StaticKey, At 11)]);
      SetL 0 (At 12); SetU 0 (At 12); Change 11 (Obj (KKey KSym []) []) ] in
  view 5 (m_obj (s_mem w)) (bucket Local w 0) =
    Some (VDict [(Critical, VList [VInt 4]); (IV, VBytes [x02]); (StaticKey, VKey KSym [] [])]) /\
  view 5 (m_obj (s_mem w)) (bucket Unprotected w 0) =
    Some (VDict [(IV, VBytes [x02]); (StaticKey, VKey KSym [(VInt (-1), VBytes [x01])] [])]).
Proof. vm_compute. repeat split. Qed.

(** A dict that contains itself is copied as such. *)
Example prog_cycle : let w := run toy 5 prog_end [ Make (Obj KDict []); Change 11 (Obj KDict [(IV, At 11)]); SetU 0 (At 11) ] in
  bucket Unprotected w 0 = At 12 /\ entries_of Unprotected w 0 = [(IV, At 12)].
Proof. vm_compute. repeat split. Qed.
