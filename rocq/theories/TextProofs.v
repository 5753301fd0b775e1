(** Proofs for C113. *)
From Coq Require Import NArith ZArith Bool String Permutation Sorted Lia.
From Coq Require Import Init.Byte List.
From Verif Require Import Bytes Value Registry Crypto Keys Algorithms Headers Messages Recipients Repr SpecData SpecHdr SpecText ValueProofs DataProofs BytesProofs KeyProofs ReprProofs OrderProofs.
Import ListNotations.

(** ** Sorting *)

Lemma insert_perm : forall e l, Permutation (e :: l) (insert_entry e l).
Proof.
  intros e l. induction l as [|x l IH]; cbn [insert_entry]; [apply Permutation_refl|]. destruct (Z.leb _ _); [apply Permutation_refl|].
  eapply Permutation_trans; [apply perm_swap|]. apply perm_skip. exact IH.
Qed.
Lemma sort_perm : forall l, Permutation l (sort_entries l).
Proof.
  induction l as [|e l IH]; [apply Permutation_refl|]. cbn [sort_entries fold_right]. eapply Permutation_trans; [apply perm_skip; exact IH|]. apply insert_perm.
Qed.

Lemma rank_number : forall a, rank a = number a.
Proof. intros a. destruct a; reflexivity. Qed.

Lemma insert_sorted : forall e l, StronglySorted in_order l -> StronglySorted in_order (insert_entry e l).
Proof.
  intros e l. induction l as [|x l IH]; intros H; cbn [insert_entry]; [apply SSorted_cons; [apply SSorted_nil|apply Forall_nil]|].
  inversion H as [|? ? HS HF]; subst. destruct (Z.leb _ _) eqn:E.
  - apply Z.leb_le in E. rewrite !rank_number in E. apply SSorted_cons; [assumption|]. apply Forall_cons; [exact E|].
    eapply Forall_impl; [|exact HF]. intros y HY. unfold in_order in *. lia.
  - apply Z.leb_gt in E. rewrite !rank_number in E. apply SSorted_cons; [auto|]. rewrite Forall_forall in *. intros y HY.
    apply (proj1 (insert_In _ _ _)) in HY as [->|HY]; [unfold in_order; lia|auto].
Qed.
Lemma sort_sorted : forall l, StronglySorted in_order (sort_entries l).
Proof. induction l as [|e l IH]; [apply SSorted_nil|]. cbn [sort_entries fold_right]. apply insert_sorted. exact IH. Qed.

(** ** Names *)

Lemma titles_ok : forall c t, In (c, t) titles -> py_name c = bs t.
Proof.
  assert (H : forallb (fun e => bytes_eqb (py_name (fst e)) (bs (snd e))) titles = true) by (vm_compute; reflexivity).
  intros c t HI. rewrite forallb_forall in H. specialize (H _ HI). apply bytes_eqb_eq in H. exact H.
Qed.

Lemma written_named : forall v, written v (named v).
Proof. intros v. destruct v; try reflexivity. cbn [written named]. eexists. split; [reflexivity|]. intros t HT. apply titles_ok. exact HT. Qed.

Lemma titles_unique : forall c t c' t', In (c, t) titles -> In (c', t') titles -> bs t = bs t' -> c = c'.
Proof.
  assert (H : forallb (fun e => forallb (fun e' => negb (bytes_eqb (bs (snd e)) (bs (snd e'))) || veqb (VClass (fst e)) (VClass (fst e'))) titles) titles = true)
    by (vm_compute; reflexivity).
  intros c t c' t' HI HI' HE. rewrite forallb_forall in H. specialize (H _ HI). rewrite forallb_forall in H. specialize (H _ HI').
  cbn [fst snd] in H. apply bytes_eqb_eq in HE. rewrite HE in H. cbn [negb orb] in H. apply veqb_eq in H. congruence.
Qed.

Lemma in_titles : forall c, In c (map fst titles) -> exists t, In (c, t) titles.
Proof. intros c H. apply in_map_iff in H as ([c' t] & <- & H). eauto. Qed.

(** ** Entries *)

Definition names_of (d : dict) : dict := map (fun e => (named (fst e), named (snd e))) d.

Lemma names_distinct : forall d, dnodup d = true -> ordinary_labels d -> dnodup (names_of d) = true.
Proof.
  induction d as [|[a v] d IH]; intros HN HO; [reflexivity|]. cbn [names_of map dnodup fst snd] in *.
  apply andb_true_iff in HN as [HM HN]. apply andb_true_iff. split; [|apply IH; [assumption|]; intros b w HI; apply HO with w; right; assumption].
  apply negb_true_iff in HM. apply negb_true_iff. destruct (dmem (map _ d) (named a)) eqn:E; [|reflexivity]. exfalso.
  rewrite dmem_existsb in E. apply existsb_exists in E as (e & HI & HK). apply in_map_iff in HI as ([b w] & <- & HI). cbn [fst snd] in HK.
  assert (HF : forall b w, In (b, w) d -> keyeq a b = true -> False).
  { intros b0 w0 HI0 HK0. rewrite dmem_existsb in HM. assert (HX : existsb (fun e => keyeq a (fst e)) d = true) by (apply existsb_exists; exists (b0, w0); auto). congruence. }
  pose proof (HO a v (or_introl eq_refl)) as HA. pose proof (HO b w (or_intror HI)) as HB.
  assert (HC : forall u b', b = VClass b' -> named a = VStr u -> In b' (map fst titles) -> py_name b' = u -> False).
  { intros u b' -> HNa HT HP. apply in_titles in HT as [t HT]. pose proof (titles_ok _ _ HT) as HP'. destruct a as [| | | | | | | |u0| | | | | |ca|]; try discriminate HNa.
    - cbn [named] in HNa. injection HNa as ->. apply HA. apply in_or_app. right. apply in_map_iff. exists (b', t). split; [cbn [snd]; congruence|assumption].
    - cbn [named] in HNa. injection HNa as HNa. apply in_titles in HA as [ta HA]. pose proof (titles_ok _ _ HA) as HPa.
      assert (ca = b') by (eapply titles_unique; [exact HA|exact HT|congruence]). subst ca. exact (HF _ _ HI (keyeq_refl _)). }
  assert (HS : (exists u, named a = VStr u) \/ (named a = a /\ named b = b) \/ exists c, b = VClass c /\ named a = a).
  { destruct a; try (left; eexists; reflexivity); right; destruct b; try (left; split; reflexivity); right; eexists; split; reflexivity. }
  destruct HS as [(u & HS)|[(H1 & H2)|(c & -> & HS)]].
  - rewrite HS in HK. apply keyeq_str_l in HK. destruct b as [| | | | | | | |u'| | | | | |cb|]; cbn [named] in HK; try discriminate.
    + injection HK as ->. destruct a as [| | | | | | | |u0| | | | | |ca|]; try discriminate HS; cbn [named] in HS; injection HS as HS.
      * subst u0. exact (HF _ _ HI (keyeq_refl _)).
      * apply in_titles in HA as [t HA]. apply HB. apply in_or_app. right. apply in_map_iff. exists (ca, t). split; [cbn [snd]; rewrite <- HS; symmetry; apply titles_ok; assumption|assumption].
    + injection HK as HK. exact (HC u _ eq_refl HS HB HK).
  - rewrite H1, H2 in HK. exact (HF _ _ HI HK).
  - rewrite HS in HK. cbn [named] in HK. rewrite keyeq_sym in HK. apply keyeq_str_l in HK. exact (HC (py_name c) _ eq_refl ltac:(rewrite HS; exact HK) HB eq_refl).
Qed.

(** ** Abbreviations *)

Definition short (v w : pyval) : Prop :=
  (py_len v = Ok 0 /\ w = v) \/ exists n s, py_len v = Ok (S n) /\ first5 v = Ok s /\ w = VTuple [s; VInt (Z.of_nat (S n))].

Lemma dset_map : forall d k w, dnodup d = true -> dmem d k = true -> dset d k w = map (fun e => if keyeq k (fst e) then (fst e, w) else e) d.
Proof.
  induction d as [|[a v] d IH]; intros k w HN HM; [discriminate|]. cbn [dnodup dset map fst] in *. apply andb_true_iff in HN as [HA HN].
  unfold dmem in HM. cbn [dget] in HM. destruct (keyeq k a) eqn:E; [|f_equal; apply IH; [assumption|exact HM]].
  f_equal. apply negb_true_iff in HA. rewrite dmem_existsb in HA.
  transitivity (map (fun e : pyval * pyval => e) d); [symmetry; apply map_id|]. apply map_ext_in. intros [b x] HI. cbn [fst].
  destruct (keyeq k b) eqn:EB; [|reflexivity]. exfalso.
  assert (HX : existsb (fun e => keyeq a (fst e)) d = true).
  { apply existsb_exists. exists (b, x). split; [assumption|]. cbn [fst]. rewrite keyeq_sym in E. exact (keyeq_trans _ _ _ E EB). }
  congruence.
Qed.

Definition cut_entry (ns : list string) (e t : pyval * pyval) : Prop :=
  fst t = fst e /\ ((exists n, In n ns /\ fst e = VStr (bs n) /\ short (snd e) (snd t)) \/ ((forall n, In n ns -> fst e <> VStr (bs n)) /\ snd t = snd e)).

Lemma Forall2_map_r : forall (A B : Type) (R : A -> B -> Prop) f l, (forall a, In a l -> R a (f a)) -> Forall2 R l (map f l).
Proof. intros A B R f l. induction l as [|a l IH]; intros H; cbn [map]; constructor; [apply H; left; reflexivity|]. apply IH. intros b HB. apply H. right. assumption. Qed.

Lemma shorten_spec : forall d n d', dnodup d = true -> shorten d n = Ok d' -> Forall2 (cut_entry [n]) d d'.
Proof.
  intros d n d' HN H. unfold shorten in H. destruct (dget d (VStr (bs n))) as [v|] eqn:E.
  - assert (HU : forall e, In e d -> fst e = VStr (bs n) -> snd e = v).
    { intros [a x] HI HA. cbn [fst snd] in *. subst a. apply (In_dget _ _ _ HN) in HI. congruence. }
    apply bind_ok in H as (k & HK & H). destruct (Nat.eqb k 0) eqn:EK.
    + apply Nat.eqb_eq in EK. subst k. injection H as <-. rewrite <- (map_id d) at 2. apply Forall2_map_r. intros e HI. split; [reflexivity|].
      destruct (keyeq (VStr (bs n)) (fst e)) eqn:EE.
      * apply keyeq_str_l in EE. left. exists n. split; [left; reflexivity|]. split; [assumption|]. left. rewrite (HU _ HI EE). split; [exact HK|reflexivity].
      * right. split; [|reflexivity]. intros m [<-|[]] HX. rewrite HX, keyeq_refl in EE. discriminate.
    + apply bind_ok in H as (t & HT & H). injection H as <-. rewrite dset_map by (try assumption; unfold dmem; rewrite E; reflexivity).
      apply Forall2_map_r. intros e HI. destruct (keyeq (VStr (bs n)) (fst e)) eqn:EE; (split; [reflexivity|]).
      * apply keyeq_str_l in EE. left. exists n. split; [left; reflexivity|]. split; [assumption|]. cbn [snd]. rewrite (HU _ HI EE).
        unfold truncate in HT. apply bind_ok in HT as (s & HS & HT). rewrite HK in HT. cbn [bind] in HT. injection HT as <-. right.
        destruct k as [|k]; [discriminate|]. exists k, s. auto.
      * right. split; [|reflexivity]. intros m [<-|[]] HX. rewrite HX, keyeq_refl in EE. discriminate.
  - injection H as <-. rewrite <- (map_id d) at 2. apply Forall2_map_r. intros e HI. split; [reflexivity|]. right. split; [|reflexivity].
    intros m [<-|[]] HX. destruct e as [a x]. cbn [fst] in HX. subst a. apply (In_dget _ _ _ HN) in HI. congruence.
Qed.

Lemma cut_keys : forall ns d d', Forall2 (cut_entry ns) d d' -> map fst d' = map fst d.
Proof. intros ns d d' H. induction H as [|e t d d' [HK _] H IH]; [reflexivity|]. cbn [map]. congruence. Qed.

Lemma dnodup_keys : forall d d', map fst d' = map fst d -> dnodup d = dnodup d'.
Proof.
  assert (HM : forall k d d', map fst d' = map fst d -> dmem d k = dmem d' k).
  { intros k d d' H. rewrite !dmem_existsb. revert d' H. induction d as [|[a v] d IH]; intros [|[b w] d'] H; try discriminate; [reflexivity|].
    cbn [map fst existsb] in *. injection H as -> H. f_equal. apply IH. assumption. }
  induction d as [|[a v] d IH]; intros [|[b w] d'] H; try discriminate; [reflexivity|]. cbn [map fst dnodup] in *. injection H as -> H.
  rewrite (HM _ _ _ H), (IH _ H). reflexivity.
Qed.

Lemma cut_trans : forall n ns d d1 d2, ~ In (bs n) (map bs ns) -> Forall2 (cut_entry [n]) d d1 -> Forall2 (cut_entry ns) d1 d2 -> Forall2 (cut_entry (n :: ns)) d d2.
Proof.
  intros n ns d d1 d2 HN H1. revert d2. induction H1 as [|e t d d1 HE H1 IH]; intros d2 H2; inversion H2 as [|? f ? d3 HT H3]; subst; constructor; [|auto].
  destruct HE as [HK HE], HT as [HK' HT]. split; [congruence|]. destruct HE as [(m & [<-|[]] & HE1 & HE2)|[HE1 HE2]].
  - left. exists n. split; [left; reflexivity|]. split; [assumption|]. destruct HT as [(m & HM & HT1 & HT2)|[_ HT2]]; [|rewrite HT2; assumption].
    exfalso. apply HN. apply in_map_iff. exists m. split; [|assumption]. congruence.
  - destruct HT as [(m & HM & HT1 & HT2)|[HT1 HT2]].
    + left. exists m. split; [right; assumption|]. split; [congruence|]. congruence.
    + right. split; [|congruence]. intros m [<-|HM] HX; [exact (HE1 n (or_introl eq_refl) HX)|]. apply (HT1 m HM). congruence.
Qed.

Lemma shorten_all_spec : forall ns d d', NoDup (map bs ns) -> dnodup d = true -> shorten_all d ns = Ok d' -> Forall2 (cut_entry ns) d d'.
Proof.
  induction ns as [|n ns IH]; intros d d' HN HD H; cbn [shorten_all] in H.
  - injection H as <-. rewrite <- (map_id d) at 2. apply Forall2_map_r. intros e _. split; [reflexivity|]. right. split; [intros n []|reflexivity].
  - apply bind_ok in H as (d1 & H1 & H2). cbn [map] in HN. inversion HN as [|? ? HN1 HN2]; subst. pose proof (shorten_spec _ _ _ HD H1) as HC.
    eapply cut_trans; [exact HN1|exact HC|]. apply IH; [assumption| |assumption]. rewrite <- (dnodup_keys d); [assumption|]. exact (cut_keys _ _ _ HC).
Qed.

(** ** Openings *)

Lemma begins_range : forall b, begins b = negb (in_range 128 191 b).
Proof. intros b. reflexivity. Qed.
Lemma str_len_characters : forall u, str_len u = characters u.
Proof. intros u. reflexivity. Qed.

Lemma str_take_opening : forall u n, exists r, u = str_take n u ++ r /\ characters (str_take n u) <= n /\
  (characters (str_take n u) < n -> r = []) /\ (forall b r', r = b :: r' -> begins b = true).
Proof.
  induction u as [|b u IH]; intros n; cbn [str_take].
  - exists []. split; [reflexivity|]. split; [apply Nat.le_0_l|]. split; [reflexivity|discriminate].
  - destruct (in_range 128 191 b) eqn:E.
    + destruct (IH n) as (r & H1 & H2 & H3 & H4). exists r. unfold characters in *. cbn [app filter]. rewrite begins_range, E. cbn [negb].
      split; [congruence|]. split; [assumption|]. split; assumption.
    + destruct n as [|n].
      * exists (b :: u). split; [reflexivity|]. split; [apply Nat.le_refl|]. split; [intros H; exfalso; revert H; apply Nat.nlt_0_r|].
        intros c r' HE. injection HE as <- _. rewrite begins_range, E. reflexivity.
      * destruct (IH n) as (r & H1 & H2 & H3 & H4). exists r. unfold characters in *. cbn [app filter]. rewrite begins_range, E. cbn [negb length].
        split; [congruence|]. split; [lia|]. split; [intros H; apply H3; lia|assumption].
Qed.

Lemma first5_opening : forall v s n, first5 v = Ok s -> py_len v = Ok n -> opening v s n.
Proof.
  intros v s n HF HL. destruct v as [| | | | | | |b|u|l|l|d|t v|t v|c|kc ks ke]; try discriminate HF; cbn [first5 py_len] in *; injection HF as <-; injection HL as <-; try constructor.
  rewrite str_len_characters. destruct (str_take_opening u 5) as (r & H1 & H2 & H3 & H4). rewrite H1 at 1 3. constructor; assumption.
Qed.

(** ** Keys *)

Lemma named_title : forall s a v c n, ordinary_labels s -> In (a, v) s -> In (c, n) titles -> (named a = VStr (bs n) <-> a = VClass c).
Proof.
  intros s a v c n HO HI HT. split; [|intros ->; cbn [named]; rewrite (titles_ok _ _ HT); reflexivity].
  intros HN. specialize (HO _ _ HI). destruct a as [| | | | | | | |u| | | | | |ca|]; try discriminate HN; cbn [named] in HN.
  - injection HN as ->. exfalso. apply HO. apply in_or_app. right. apply in_map_iff. exists (c, n). split; [reflexivity|assumption].
  - injection HN as HN. apply in_titles in HO as [t HO]. f_equal. eapply titles_unique; [exact HO|exact HT|]. rewrite <- (titles_ok _ _ HO). exact HN.
Qed.

Lemma named_not : forall s a v n, ordinary_labels s -> In (a, v) s -> In n ["BASE_IV"; "PARTIAL_IV"; "OKPKpY"]%string -> named a <> VStr (bs n).
Proof.
  intros s a v n HO HI HT HN. specialize (HO _ _ HI). destruct a as [| | | | | | | |u| | | | | |ca|]; try discriminate HN; cbn [named] in HN.
  - injection HN as ->. apply HO. apply in_or_app. left. apply in_map. assumption.
  - injection HN as HN. apply in_titles in HO as [t HO]. rewrite (titles_ok _ _ HO) in HN.
    assert (HX : forallb (fun e => forallb (fun n => negb (bytes_eqb (bs (snd e)) (bs n))) ["BASE_IV"; "PARTIAL_IV"; "OKPKpY"]%string) titles = true) by (vm_compute; reflexivity).
    rewrite forallb_forall in HX. specialize (HX _ HO). rewrite forallb_forall in HX. specialize (HX _ HT). cbn [snd] in HX. apply bytes_eqb_eq in HN. rewrite HN in HX. discriminate.
Qed.

Lemma shortened_names : forall c s a v, ordinary_labels s -> In (a, v) s ->
  ((exists n, In n (shortened c) /\ named a = VStr (bs n)) <-> In a (map VClass (abbreviated c))).
Proof.
  intros c s a v HO HI.
  assert (HK : forall p n, In (p, n) titles -> (named a = VStr (bs n) <-> a = VClass p)) by (intros p n HT; exact (named_title _ _ _ _ _ HO HI HT)).
  assert (HX : named a <> VStr (bs "OKPKpY")) by (apply (named_not _ _ _ _ HO HI); right; right; left; reflexivity).
  pose proof (HK SymKpK "SymKpK"%string) as H1. pose proof (HK OKPKpX "OKPKpX"%string) as H2. pose proof (HK OKPKpD "OKPKpD"%string) as H3.
  pose proof (HK EC2KpX "EC2KpX"%string) as H4. pose proof (HK EC2KpY "EC2KpY"%string) as H5. pose proof (HK EC2KpD "EC2KpD"%string) as H6.
  assert (HT : forall p n, existsb (fun e => veqb (VClass (fst e)) (VClass p) && String.eqb (snd e) n) titles = true -> In (p, n) titles).
  { intros p n H. apply existsb_exists in H as ([q m] & HI' & HE). apply andb_true_iff in HE as [HE1 HE2]. apply veqb_eq in HE1. apply String.eqb_eq in HE2. cbn [fst snd] in *. congruence. }
  specialize (H1 (HT SymKpK "SymKpK"%string eq_refl)). specialize (H2 (HT OKPKpX "OKPKpX"%string eq_refl)). specialize (H3 (HT OKPKpD "OKPKpD"%string eq_refl)).
  specialize (H4 (HT EC2KpX "EC2KpX"%string eq_refl)). specialize (H5 (HT EC2KpY "EC2KpY"%string eq_refl)). specialize (H6 (HT EC2KpD "EC2KpD"%string eq_refl)).
  destruct c; cbn [shortened abbreviated map In].
  - split; [intros (n & [<-|[]] & HN); left; symmetry; tauto|]. intros [<-|[]]. eexists. split; [left; reflexivity|]. tauto.
  - split; [intros (n & [<-|[<-|[<-|[]]]] & HN); [right; left; symmetry; tauto|left; symmetry; tauto|contradiction]|].
    intros [<-|[<-|[]]].
    + exists "OKPKpX"%string. split; [right; left; reflexivity|tauto].
    + exists "OKPKpD"%string. split; [left; reflexivity|tauto].
  - split; [intros (n & [<-|[<-|[<-|[]]]] & HN); [right; right; left; symmetry; tauto|left; symmetry; tauto|right; left; symmetry; tauto]|].
    intros [<-|[<-|[<-|[]]]].
    + exists "EC2KpX"%string. split; [right; left; reflexivity|tauto].
    + exists "EC2KpY"%string. split; [right; right; left; reflexivity|tauto].
    + exists "EC2KpD"%string. split; [left; reflexivity|tauto].
  - split; [intros (n & [] & _)|intros []].
Qed.

Lemma key_text : forall c s d, dnodup s = true -> ordinary_labels s -> key_repr c s = Ok d ->
  exists s', Permutation s s' /\ StronglySorted in_order s' /\ Forall2 (line (abbreviated c)) s' d.
Proof.
  intros c s d HD HO H. exists (sort_entries s). split; [apply sort_perm|]. split; [apply sort_sorted|].
  assert (HO' : ordinary_labels (sort_entries s)) by (intros a v HI; apply (HO a v); apply sort_In; assumption).
  assert (HD' : dnodup (sort_entries s) = true) by (rewrite <- (perm_dnodup _ _ (sort_perm s)); assumption).
  clear HO HD. revert HO' HD' H. unfold key_repr, key_names. generalize (sort_entries s) as e. clear s. intros s HO HD H.
  apply bind_ok in H as (d2 & H2 & H3). apply bind_ok in H2 as (d1 & H1 & H2).
  assert (EN : named_dict s = names_of s) by (unfold named_dict; apply dict_of_pairs_nodup; apply names_distinct; assumption).
  rewrite EN in H1. pose proof (names_distinct _ HD HO) as HN.
  assert (HT4 : In (KpKeyOps, "KpKeyOps"%string) titles) by (do 3 right; left; reflexivity).
  (* after the operations *)
  assert (HS1 : Forall2 (fun e t => fst t = named (fst e) /\
     ((fst e <> VClass KpKeyOps /\ snd t = named (snd e)) \/ (fst e = VClass KpKeyOps /\ exists l, py_iter (named (snd e)) = Ok l /\ snd t = VList (map named l)))) s d1).
  { destruct (dget (names_of s) (VStr (bs "KpKeyOps"))) as [v|] eqn:E.
    - apply bind_ok in H1 as (l & HL & H1). injection H1 as <-. rewrite dset_map by (try assumption; unfold dmem; rewrite E; reflexivity).
      unfold names_of. rewrite map_map. apply Forall2_map_r. intros [a x] HI. cbn [fst snd].
      pose proof (named_title _ _ _ _ _ HO HI HT4) as HX.
      destruct (keyeq (VStr (bs "KpKeyOps")) (named a)) eqn:EK; (split; [reflexivity|]); cbn [fst snd].
      + apply keyeq_str_l in EK. right. split; [apply HX; exact EK|]. exists l. split; [|reflexivity].
        assert (HG : dget (names_of s) (VStr (bs "KpKeyOps")) = Some (named x)).
        { apply In_dget; [assumption|]. rewrite <- EK. unfold names_of. apply in_map_iff. exists (a, x). split; [reflexivity|assumption]. }
        rewrite HG in E. injection E as <-. exact HL.
      + left. split; [|reflexivity]. intros HA. apply HX in HA. rewrite HA, keyeq_refl in EK. discriminate.
    - injection H1 as <-. unfold names_of. apply Forall2_map_r. intros [a x] HI. cbn [fst snd]. split; [reflexivity|]. left. split; [|reflexivity].
      intros HA. apply (named_title _ _ _ _ _ HO HI HT4) in HA.
      assert (HG : dget (names_of s) (VStr (bs "KpKeyOps")) = Some (named x)).
      { apply In_dget; [assumption|]. rewrite <- HA. unfold names_of. apply in_map_iff. exists (a, x). split; [reflexivity|assumption]. }
      congruence. }
  assert (HK1 : map fst d1 = map fst (names_of s)).
  { clear -HS1. unfold names_of. rewrite map_map. cbn [fst]. induction HS1 as [|e t s d1 [HA _] _ IH]; [reflexivity|]. cbn [map]. congruence. }
  assert (HN1 : dnodup d1 = true) by (rewrite <- (dnodup_keys (names_of s)); assumption).
  pose proof (shorten_spec _ _ _ HN1 H2) as HC2.
  assert (HN2 : dnodup d2 = true) by (rewrite <- (dnodup_keys d1); [assumption|exact (cut_keys _ _ _ HC2)]).
  apply shorten_all_spec in H3; [|destruct c; vm_compute; repeat constructor; cbn; intuition discriminate|assumption].
  assert (HI : exists s0, s0 = s) by eauto. destruct HI as [s0 ES]. rewrite <- ES in HS1. rewrite <- ES.
  assert (HI : incl s0 s) by (rewrite ES; apply incl_refl). clear -HI HS1 HC2 H3 HO. revert d d2 HI HC2 H3.
  induction HS1 as [|e t s1 d1 [HE1 HE2] HS1 IH]; intros d d2 HI HC2 H3; inversion HC2 as [|? t2 ? d2' HT2 HC2']; subst; inversion H3 as [|? t3 ? d3' HT3 H3']; subst; constructor.
  2: { eapply IH; [intros x HX; apply HI; right; exact HX|eassumption|eassumption]. }
  assert (HIn : In e s) by (apply HI; left; reflexivity). destruct e as [a v]. cbn [fst snd] in *.
  destruct HT2 as [HA2 HV2]. assert (HV2' : snd t2 = snd t).
  { destruct HV2 as [(n & [<-|[]] & HX & _)|[_ HV2]]; [|assumption]. exfalso. rewrite HE1 in HX. refine (named_not _ _ _ _ HO HIn _ HX). left. reflexivity. }
  destruct HT3 as [HA3 HV3]. rewrite HV2', HA2, HE1 in *. pose proof (shortened_names c s a v HO HIn) as HAb.
  split; cbn [fst snd]; [rewrite HA3; apply written_named|].
  destruct HV3 as [(n & Hn & HX & HV3)|[HX HV3]].
  - assert (HCut : In a (map VClass (abbreviated c))) by (apply HAb; eauto).
    assert (HNo : a <> VClass KpKeyOps) by (intros ->; destruct c; cbn in HCut; intuition discriminate).
    destruct HE2 as [(_ & HE2)|(HE2 & _)]; [|contradiction]. rewrite HE2 in HV3. destruct HV3 as [(HL & ->)|(k & b & HL & HF & ->)].
    + apply SA_empty; [assumption|apply written_named|assumption].
    + apply SA_cut with (named v); [assumption|apply written_named|]. apply first5_opening; assumption.
  - assert (HCut : ~ In a (map VClass (abbreviated c))) by (intros HCut; apply HAb in HCut as (n & Hn & HE); exact (HX n Hn HE)).
    rewrite HV3. destruct HE2 as [(HNo & ->)|(-> & l & HL & ->)].
    + apply SA_plain; [assumption|assumption|apply written_named].
    + apply SA_ops with (named v) l; [reflexivity|apply written_named|exact HL|].
      apply Forall2_map_r. intros x _. apply written_named.
Qed.

(** ** Headers *)

Lemma hdr_text : forall d t, dnodup d = true -> ordinary_labels d -> ~ In (VClass KpKeyOps) (map fst d) -> hdr_repr d = Ok t ->
  Forall2 (line [Cls FHdr 5]) d t.
Proof.
  intros d t HD HO HK H. unfold hdr_repr in H. apply bind_ok in H as (d1 & H1 & H2).
  assert (EN : named_dict d = names_of d) by (unfold named_dict; apply dict_of_pairs_nodup; apply names_distinct; assumption).
  rewrite EN in H1. pose proof (names_distinct _ HD HO) as HN. pose proof (shorten_spec _ _ _ HN H1) as HC1.
  assert (HN1 : dnodup d1 = true) by (rewrite <- (dnodup_keys (names_of d)); [assumption|exact (cut_keys _ _ _ HC1)]).
  pose proof (shorten_spec _ _ _ HN1 H2) as HC2. assert (HTI : In (Cls FHdr 5, "IV"%string) titles).
  { assert (HX : existsb (fun e => veqb (VClass (fst e)) (VClass (Cls FHdr 5)) && String.eqb (snd e) "IV") titles = true) by reflexivity.
    apply existsb_exists in HX as ([q m] & HI' & HE). apply andb_true_iff in HE as [HE1 HE2]. apply veqb_eq in HE1. apply String.eqb_eq in HE2. cbn [fst snd] in *. congruence. }
  assert (HI : exists s0, s0 = d) by eauto. destruct HI as [s0 ES]. rewrite <- ES in HC1. rewrite <- ES.
  assert (HI : incl s0 d) by (rewrite ES; apply incl_refl). clear -HI HC1 HC2 HO HK HTI. revert d1 t HC1 HC2.
  induction s0 as [|[a v] s0 IH]; intros d1 t HC1 HC2; cbn [names_of map] in HC1; inversion HC1 as [|? t1 ? d1' HT1 HC1']; subst;
    inversion HC2 as [|? t2 ? d2' HT2 HC2']; subst; constructor.
  2: { eapply IH; [intros x HX; apply HI; right; exact HX|eassumption|eassumption]. }
  assert (HIn : In (a, v) d) by (apply HI; left; reflexivity).
  destruct HT1 as [HA1 HV1], HT2 as [HA2 HV2]. cbn [fst snd] in *.
  assert (HV2' : snd t2 = snd t1).
  { destruct HV2 as [(n & [<-|[]] & HX & _)|[_ HV2]]; [|assumption]. exfalso. rewrite HA1 in HX. refine (named_not _ _ _ _ HO HIn _ HX). right; left. reflexivity. }
  split; cbn [fst snd]; [rewrite HA2, HA1; apply written_named|]. rewrite HV2'.
  assert (HNo : a <> VClass KpKeyOps) by (intros ->; apply HK; apply (in_map fst) in HIn; exact HIn).
  pose proof (named_title _ _ _ _ _ HO HIn HTI) as HX.
  destruct HV1 as [(n & [<-|[]] & HE & HV1)|[HE HV1]].
  - assert (HCut : In a (map VClass [Cls FHdr 5])) by (left; symmetry; apply HX; exact HE).
    destruct HV1 as [(HL & ->)|(k & b & HL & HF & ->)].
    + apply SA_empty; [assumption|apply written_named|assumption].
    + apply SA_cut with (named v); [assumption|apply written_named|]. apply first5_opening; assumption.
  - rewrite HV1. apply SA_plain; [assumption| |apply written_named]. intros [HB|[]]. symmetry in HB. apply HX in HB. exact (HE "IV"%string (or_introl eq_refl) HB).
Qed.

(** ** Names that clash *)

Lemma dset_length : forall d k v, length (dset d k v) = if dmem d k then length d else S (length d).
Proof.
  induction d as [|[a x] d IH]; intros k v; [reflexivity|]. cbn [dset]. unfold dmem in *. cbn [dget]. destruct (keyeq k a); [reflexivity|].
  cbn [length]. rewrite IH. destruct (dget d k); reflexivity.
Qed.

Lemma dmem_keyeq : forall d k k', keyeq k k' = true -> dmem d k = true -> dmem d k' = true.
Proof.
  intros d k k' HK HM. rewrite dmem_existsb in *. apply existsb_exists in HM as (e & HI & HE). apply existsb_exists. exists e. split; [assumption|].
  rewrite keyeq_sym in HK. exact (keyeq_trans _ _ _ HK HE).
Qed.

Section Clash.
  Context (A : Type) (f : A -> pyval * pyval).

  Lemma update_le : forall l d, length (dupdate d (map f l)) <= length d + length l.
  Proof.
    induction l as [|x l IH]; intros d; cbn [map]; [cbn; lia|]. destruct (f x) as [k v]. rewrite dupdate_cons. specialize (IH (dset d k v)).
    rewrite dset_length in IH. cbn [length]. destruct (dmem d k); lia.
  Qed.

  Lemma update_lt1 : forall l d k e, dmem d k = true -> In e l -> keyeq k (fst (f e)) = true -> length (dupdate d (map f l)) < length d + length l.
  Proof.
    induction l as [|x l IH]; intros d k e HM HI HK; [destruct HI|]. cbn [map]. destruct (f x) as [k' v'] eqn:EF. rewrite dupdate_cons. cbn [length].
    destruct HI as [->|HI].
    - rewrite EF in HK. cbn [fst] in HK. pose proof (update_le l (dset d k' v')) as HL. rewrite dset_length in HL.
      assert (HM' : dmem d k' = true) by exact (dmem_keyeq d k k' HK HM). rewrite HM' in HL. lia.
    - specialize (IH (dset d k' v') k e). rewrite dset_length in IH.
      assert (HM' : dmem (dset d k' v') k = true) by (rewrite dmem_dset, HM; apply orb_true_r).
      specialize (IH HM' HI HK). destruct (dmem d k'); lia.
  Qed.

  Lemma update_lt : forall l d e1 e2, In e1 l -> In e2 l -> e1 <> e2 -> keyeq (fst (f e1)) (fst (f e2)) = true -> length (dupdate d (map f l)) < length d + length l.
  Proof.
    induction l as [|x l IH]; intros d e1 e2 H1 H2 HN HK; [destruct H1|]. cbn [map]. destruct (f x) as [k v] eqn:EF. rewrite dupdate_cons. cbn [length].
    assert (HD : dmem (dset d k v) k = true) by (rewrite dmem_dset, keyeq_refl; reflexivity).
    assert (HLen : length (dset d k v) <= S (length d)) by (rewrite dset_length; destruct (dmem d k); lia).
    destruct H1 as [->|H1], H2 as [->|H2].
    - contradiction.
    - rewrite EF in HK. pose proof (update_lt1 l _ k e2 HD H2 HK). lia.
    - rewrite EF in HK. rewrite keyeq_sym in HK. pose proof (update_lt1 l _ k e1 HD H1 HK). lia.
    - specialize (IH (dset d k v) e1 e2 H1 H2 HN HK). lia.
  Qed.
End Clash.

Lemma clash : forall c s p v w d, In (VClass p, v) s -> In (VStr (py_name p), w) s -> key_repr c s = Ok d -> length d < length s.
Proof.
  intros c s p v w d H1 H2 H. unfold key_repr, key_names in H. apply bind_ok in H as (d2 & HQ & H3). apply bind_ok in HQ as (d1 & HQ & H2').
  assert (HL : length (named_dict (sort_entries s)) < length s).
  { rewrite (Permutation_length (sort_perm s)). unfold named_dict, dict_of_pairs.
    apply (update_lt _ _ (sort_entries s) [] (VClass p, v) (VStr (py_name p), w)); [apply sort_In; assumption|apply sort_In; assumption|discriminate|]. apply keyeq_refl. }
  assert (HS : forall d n d', shorten d n = Ok d' -> length d' = length d).
  { intros a n b HX. unfold shorten in HX. destruct (dget a (VStr (bs n))) eqn:E; [|injection HX as <-; reflexivity]. apply bind_ok in HX as (k & _ & HX).
    destruct (Nat.eqb k 0); [injection HX as <-; reflexivity|]. apply bind_ok in HX as (t & _ & HX). injection HX as <-. rewrite dset_length. unfold dmem. rewrite E. reflexivity. }
  assert (HA : forall ns d d', shorten_all d ns = Ok d' -> length d' = length d).
  { induction ns as [|n ns IH]; intros a b HX; cbn [shorten_all] in HX; [injection HX as <-; reflexivity|]. apply bind_ok in HX as (q & HX1 & HX2).
    rewrite (IH _ _ HX2). exact (HS _ _ _ HX1). }
  rewrite (HA _ _ _ H3), (HS _ _ _ H2'). destruct (dget _ (VStr (bs "KpKeyOps"))) eqn:E; [|injection HQ as <-; exact HL].
  apply bind_ok in HQ as (l & _ & HQ). injection HQ as <-. rewrite dset_length. unfold dmem. rewrite E. exact HL.
Qed.

(** For examples. *)
Definition ordinary_b (s : dict) : bool :=
  forallb (fun e => match fst e with
    | VClass c => existsb (fun t => veqb (VClass (fst t)) (VClass c)) titles
    | VStr u => negb (existsb (bytes_eqb u) (map bs ["BASE_IV"; "PARTIAL_IV"; "OKPKpY"]%string ++ map (fun e => bs (snd e)) titles))
    | _ => true end) s.
Lemma ordinary_ok : forall s, ordinary_b s = true -> ordinary_labels s.
Proof.
  intros s H a v HI. unfold ordinary_b in H. rewrite forallb_forall in H. specialize (H _ HI). cbn [fst] in H. destruct a as [| | | | | | | |u| | | | | |ca|]; try exact I.
  - intros HX. apply negb_true_iff in H. assert (HE : existsb (bytes_eqb u) (map bs ["BASE_IV"; "PARTIAL_IV"; "OKPKpY"]%string ++ map (fun e => bs (snd e)) titles) = true).
    { apply existsb_exists. eexists. split; [exact HX|]. apply bytes_eqb_eq. reflexivity. }
    congruence.
  - apply existsb_exists in H as (t & HT & HE). apply veqb_eq in HE. injection HE as HE. rewrite <- HE. apply in_map. assumption.
Qed.
