(** Lemmas about keys as mappings (C91). *)
From Coq Require Import NArith ZArith Bool String Lia.
From Coq Require Import Init.Byte List.
From Verif Require Import Bytes Value Registry Crypto Keys ValueProofs SpecRegistry RegistryProofs SpecKeys SpecMapping
  KeyProofs KeyProofs2 KeyProofs3 KeyProofs4.
Import ListNotations.
Local Open Scope result_scope.

Lemma hashable_knorm : forall v, hashable (knorm v) = hashable v.
Proof.
  fix IH 1. intros v. destruct v; try reflexivity.
  - cbn [knorm]. destruct (float_int bits); reflexivity.
  - cbn [knorm hashable]. induction l as [|x l IHl]; [reflexivity|]. cbn [map forallb].
    rewrite (IH x), IHl. reflexivity.
Qed.

Lemma keyeq_hashable : forall a b, keyeq a b = true -> hashable a = hashable b.
Proof.
  intros a b H. apply veqb_eq in H. rewrite <- (hashable_knorm a), H. apply hashable_knorm.
Qed.

(** ** What the stored labels look like *)

Definition label_good (c : kclass) (t : pyval) : Prop := key_transform c true t = Ok t /\ hashable t = true.

Definition labels_good (k : key) : Prop := Forall (fun e => label_good (k_cls k) (fst e)) (k_store k).

Lemma forall_dset : forall (P : pyval -> Prop) d t v, P t -> Forall (fun e => P (fst e)) d ->
  Forall (fun e => P (fst e)) (dset d t v).
Proof.
  intros P d t v HT H. induction H as [|[a w] d HA H IH]; cbn [dset]; [repeat constructor; assumption|].
  destruct (keyeq t a); constructor; assumption.
Qed.

Lemma forall_ddel : forall (P : pyval * pyval -> Prop) d t, Forall P d -> Forall P (ddel d t).
Proof.
  intros P d t H. induction H as [|[a w] d HA H IH]; cbn [ddel]; [constructor|].
  destruct (keyeq t a); [assumption|]. constructor; assumption.
Qed.

Lemma mods_labels : forall P k k', mods P k k' ->
  (forall p v, P p v -> label_good (k_cls k) (VClass p)) -> labels_good k -> labels_good k'.
Proof.
  intros P k k' H HP HL. induction H; auto.
  - specialize (IHmods HP HL). unfold labels_good in *. destruct H1 as [HC _ HS]. rewrite HC, HS.
    apply forall_dset; [|assumption]. rewrite (mods_cls _ _ _ H). eapply HP. eassumption.
  - specialize (IHmods HP HL). unfold labels_good in *. cbn [with_store k_cls k_store].
    apply forall_dset; [|assumption]. split; assumption.
Qed.

Lemma registered_good : forall c p n, In (p, n) (registered (param_fam c)) -> label_good c (VClass p).
Proof. intros c p n H. split; [|reflexivity]. eapply registered_class. eassumption. Qed.

Ltac known := split; vm_compute; reflexivity.

Lemma prop_target_good : forall c p q v, prop_target c p q v -> label_good c (VClass q).
Proof.
  intros c p q v H.
  destruct p; cbn [prop_target] in H;
    try (subst q; destruct c; known);
    try (destruct H as [-> _]; destruct c; known);
    destruct c; cbn [crv_prop bytes_prop] in H; destruct H as [H HV]; try discriminate;
    try (injection H as <-; known); destruct HV as [-> _]; known.
Qed.

Lemma denotes_good : forall c a p, denotes c a p -> label_good c (VClass p).
Proof. intros c a p H. split; [|reflexivity]. eapply from_id_fixed; [apply denotes_iff; exact H|reflexivity]. Qed.

Lemma base_del_labels : forall k a, labels_good k -> labels_good (fst (base_del k a)).
Proof.
  intros k a H. destruct (base_del k a) as [k' x] eqn:E. cbn [fst].
  apply base_del_cases in E as [(e & _ & ->)|(_ & t & _ & _ & _ & ->)]; [assumption|].
  unfold labels_good. cbn [with_store k_cls k_store]. apply forall_ddel. assumption.
Qed.

(** An invariant of single deletions is an invariant of [del key[a]]. *)
Lemma item_del_inv : forall (Q : key -> Prop), (forall k a, Q k -> Q (fst (base_del k a))) ->
  forall k a, Q k -> Q (fst (item_del k a)).
Proof.
  intros Q HQ k a HK. pose proof (HQ k a HK) as HB. unfold item_del. cbv zeta. destruct (k_cls k).
  - destruct (key_transform KSym false a); [|assumption]. destruct (_ && _); assumption.
  - destruct (key_transform KOKP false a); [|assumption]. destruct (_ && _); [|assumption].
    destruct (_ && _); assumption.
  - destruct (key_transform KEC2 false a); [|assumption]. destruct (_ && _); [|assumption].
    destruct (_ && _); [assumption|]. destruct (_ && _); [assumption|]. destruct (_ && _); [|assumption].
    pose proof (HQ k (VClass EC2KpX) HK) as HX.
    destruct (base_del k (VClass EC2KpX)) as [k1 [x|e]]; [|assumption]. apply HQ. assumption.
  - assumption.
Qed.

Lemma item_pop_fst : forall k a, fst (item_pop k a) = k \/ fst (item_pop k a) = fst (item_del k a).
Proof.
  intros k a. unfold item_pop. destruct (item_get k a); [right|left; reflexivity].
  destruct (item_del k a) as [k' [x|e]]; reflexivity.
Qed.

(** An invariant of single assignments and of [del key[a]] is an invariant of every
    operation. *)
Lemma step_invariant : forall (Q : key -> Prop),
  (forall k a, Q k -> Q (fst (item_del k a))) ->
  (forall P k k', mods P k k' -> (forall p v, P p v -> label_good (k_cls k) (VClass p)) -> Q k -> Q k') ->
  forall o k, Q k -> Q (key_step k o).
Proof.
  intros Q HD HM o k HK.
  assert (HPop : forall k a, Q k -> Q (fst (item_pop k a))).
  { intros k1 a H1. destruct (item_pop_fst k1 a) as [-> | ->]; auto. }
  assert (HPi : forall k, Q k -> Q (fst (item_popitem k))).
  { intros k1 H1. rewrite popitem_fst. destruct (k_store k1) as [|[a v] r]; auto. }
  assert (HCl : forall n k, Q k -> Q (fst (item_clear n k))).
  { induction n as [|n IH]; intros k1 H1; [assumption|]. cbn [item_clear]. pose proof (HPi k1 H1) as H2.
    destruct (item_popitem k1) as [k2 [x|[]]]; cbn [fst] in *; auto. }
  destruct o; cbn [key_step]; auto.
  - destruct (prop_set k p v) as [k' x] eqn:E. apply prop_set_mods in E. eapply HM; [exact E| |assumption].
    apply prop_target_good.
  - destruct (item_set k a v) as [k' x] eqn:E. apply item_set_mods in E. eapply HM; [exact E| |assumption].
    intros p w [_ HP]. eapply denotes_good. eassumption.
  - destruct (item_update k d) as [k' x] eqn:E. apply item_update_mods in E. eapply HM; [exact E| |assumption].
    intros p w (a & _ & HP). eapply denotes_good. eassumption.
  - destruct (item_setdefault k a v) as [k' x] eqn:E. apply item_setdefault_mods in E.
    eapply HM; [exact E| |assumption]. intros p w [_ HP]. eapply denotes_good. eassumption.
Qed.

Lemma step_labels : forall o k, labels_good k -> labels_good (key_step k o).
Proof.
  apply step_invariant; [|exact mods_labels]. apply item_del_inv. exact base_del_labels.
Qed.

Lemma common_init_labels : forall c opt allow k, common_init c opt allow = Ok k -> labels_good k.
Proof.
  intros c opt allow k H. pose proof (fr_cls _ _ (common_init_fresh _ _ _ _ H)) as HC.
  unfold common_init in H. inv_bind H opts. inv_bind H d.
  assert (HD : Forall (fun e => label_good c (fst e)) d).
  { refine (transform_params_inv (fun d => Forall (fun e => label_good c (fst e)) d) c allow _ _ _ _ H1 _).
    - intros d0 a p v w HP HH _ HQ. apply forall_dset; [|assumption]. split; [|assumption].
      eapply from_id_fixed; [|assumption]. destruct allow; [|apply from_id_allow]; eassumption.
    - constructor; [|constructor]. destruct c; known. }
  destruct (veqb _ _); [|discriminate]. unfold labels_good. rewrite HC. unfold base_init in H.
  destruct (dget d (VClass KpKeyOps)).
  - inv_bind H n. destruct (Nat.eqb n 0); injection H as <-; cbn [k_store]; [apply forall_ddel|]; assumption.
  - injection H as <-. assumption.
Qed.

Lemma updates_labels : forall p v k k', updates p v k k' -> label_good (k_cls k) (VClass p) ->
  labels_good k -> labels_good k'.
Proof.
  intros p v k k' [HC _ HS] HP HL. unfold labels_good. rewrite HC, HS. apply forall_dset; assumption.
Qed.

Lemma unless_labels : forall p v k k', set_unless_empty p v k = Ok k' -> label_good (k_cls k) (VClass p) ->
  labels_good k -> labels_good k' /\ k_cls k' = k_cls k.
Proof.
  intros p v k k' H HP HL. apply set_unless_empty_ok in H as [[_ ->]|[_ HU]]; [auto|].
  split; [eapply updates_labels; eassumption|apply HU].
Qed.

Lemma bytes_labels : forall p v k k', set_bytes_param p v k = Ok k' -> label_good (k_cls k) (VClass p) ->
  labels_good k -> labels_good k' /\ k_cls k' = k_cls k.
Proof.
  intros p v k k' H HP HL. apply set_bytes_param_ok in H as [_ HU].
  split; [eapply updates_labels; eassumption|apply HU].
Qed.

Lemma extra_unless_labels : forall n v k, labels_good k -> labels_good (extra_unless_empty n v k).
Proof. intros n v k H. unfold extra_unless_empty. destruct (veqb _ _); assumption. Qed.

Ltac lstep :=
  match goal with
  | HL : labels_good ?k, HC : k_cls ?k = _, HS : set_unless_empty _ _ ?k = Ok ?k' |- _ =>
    apply unless_labels in HS; [|rewrite HC; known|assumption];
    let H1 := fresh "HL" in let H2 := fresh "HC" in destruct HS as [H1 H2]; rewrite HC in H2; clear HL HC
  | HL : labels_good ?k, HC : k_cls ?k = _, HS : set_bytes_param _ _ ?k = Ok ?k' |- _ =>
    apply bytes_labels in HS; [|rewrite HC; known|assumption];
    let H1 := fresh "HL" in let H2 := fresh "HC" in destruct HS as [H1 H2]; rewrite HC in H2; clear HL HC
  end.

Lemma constructed_labels : forall X k, constructed X k -> labels_good k.
Proof.
  intros X k H. destruct H as [? ? ? ? H|? ? ? ? ? ? H|? ? ? ? ? ? ? H|? ? ? ? H].
  - unfold sym_init in H. inv_bind H k0. pose proof (common_init_labels _ _ _ _ H0) as HL.
    pose proof (fr_cls _ _ (common_init_fresh _ _ _ _ H0)) as HC.
    destruct (veqb kv (VBytes [])); [discriminate|]. apply set_k_ok in H as [_ HU].
    eapply updates_labels; [exact HU|rewrite HC; known|assumption].
  - unfold okp_init in H. inv_bind H k0. pose proof (common_init_labels _ _ _ _ H0) as HL.
    pose proof (fr_cls _ _ (common_init_fresh _ _ _ _ H0)) as HC.
    inv_bind H nx. inv_bind H none. destruct none; [discriminate|]. destruct (is_none crv); [discriminate|].
    inv_bind H k1. inv_bind H k2. apply set_crv_ok in H3 as (w & _ & HW & HU1). specialize (HW KOKP eq_refl).
    apply updates_labels in HU1 as HL1; [|rewrite HC; known|assumption].
    assert (HC1 : k_cls k1 = KOKP) by (destruct HU1; congruence). clear HL HC.
    lstep. lstep. assumption.
  - unfold ec2_init in H. inv_bind H k0. pose proof (common_init_labels _ _ _ _ H0) as HL.
    pose proof (fr_cls _ _ (common_init_fresh _ _ _ _ H0)) as HC.
    destruct (is_none crv); [discriminate|].
    inv_bind H k1. apply set_crv_ok in H1 as (w & _ & HW & HU1). specialize (HW KEC2 eq_refl).
    apply updates_labels in HU1 as HL1; [|rewrite HC; known|assumption].
    assert (HC1 : k_cls k1 = KEC2) by (destruct HU1; congruence). clear HL HC.
    destruct (_ && _ && _); [discriminate|]. destruct (_ && _); [discriminate|].
    apply bind_ok in H as ([x1 y1] & HXY & H). inv_bind H y2. inv_bind H k2. inv_bind H k3.
    lstep. lstep. lstep. assumption.
  - unfold rsa_init in H. cbv zeta in H. inv_bind H ok. destruct ok; [|discriminate]. cbn [negb] in H.
    inv_bind H k0. pose proof (common_init_labels _ _ _ _ H1) as HL.
    pose proof (fr_cls _ _ (common_init_fresh _ _ _ _ H1)) as HC. clear H1.
    do 8 (let k1 := fresh "k" in inv_bind H k1; lstep).
    injection H as <-. apply extra_unless_labels, extra_unless_labels, extra_unless_labels.
    destruct (truthy _); assumption.
Qed.

Lemma reachable_good : forall X k, reachable X k -> dnodup (k_store k) = true /\ labels_good k.
Proof.
  intros X k (k0 & ops & HC & ->). split; [eapply reachable_nodup; eassumption|].
  apply (run_inv labels_good); [intros o k1 _; apply step_labels|]. eapply constructed_labels. eassumption.
Qed.

(** ** Reading *)

Lemma label_in : forall k a v, labels_good k -> In (a, v) (k_store k) -> label_good (k_cls k) a.
Proof. intros k a v H HI. apply (proj1 (Forall_forall _ _) H (a, v) HI). Qed.

Lemma item_get_label : forall k a v, dnodup (k_store k) = true -> labels_good k -> In (a, v) (k_store k) ->
  item_get k a = Ok v /\ item_in k a = Ok true.
Proof.
  intros k a v HN HL HI. destruct (label_in _ _ _ HL HI) as [HT HH]. unfold item_get, item_in. rewrite HT.
  cbn [bind]. rewrite HH. cbn [negb]. unfold dmem. rewrite (In_dget _ _ _ HN HI). auto.
Qed.

Lemma mapM_ok : forall {A B} (f : A -> result B) g l, (forall x, In x l -> f x = Ok (g x)) -> mapM f l = Ok (map g l).
Proof.
  intros A B f g. induction l as [|x l IH]; intros H; [reflexivity|]. cbn [mapM map].
  rewrite (H x (or_introl eq_refl)). cbn [bind]. rewrite IH; [reflexivity|]. intros y HY. apply H. right. assumption.
Qed.

Lemma mapM_fst : forall {A B C} (f : A -> result C) (l : list (A * B)) (g : A * B -> C),
  (forall x, In x l -> f (fst x) = Ok (g x)) -> mapM f (map fst l) = Ok (map g l).
Proof.
  intros A B C f l g. induction l as [|x l IH]; intros H; [reflexivity|]. cbn [mapM map].
  rewrite (H x (or_introl eq_refl)). cbn [bind]. rewrite IH; [reflexivity|]. intros y HY. apply H. right. assumption.
Qed.

Lemma items_store : forall k, dnodup (k_store k) = true -> labels_good k ->
  key_items k = Ok (k_store k) /\ key_values k = Ok (map snd (k_store k)).
Proof.
  intros k HN HL. unfold key_items, key_values, key_iter. split.
  - rewrite (mapM_fst _ _ (fun x => x)); [rewrite map_id; reflexivity|]. intros [a v] HI. cbn [fst].
    destruct (item_get_label _ _ _ HN HL HI) as [-> _]. reflexivity.
  - apply mapM_fst. intros [a v] HI. apply (item_get_label _ _ _ HN HL HI).
Qed.

Lemma dget_In : forall d t v, dget d t = Some v -> exists t', In (t', v) d /\ keyeq t t' = true.
Proof.
  induction d as [|[a w] d IH]; intros t v H; [discriminate|]. cbn [dget] in H. destruct (keyeq t a) eqn:E.
  - injection H as <-. exists a. split; [left; reflexivity|assumption].
  - destruct (IH _ _ H) as (t' & HI & HE). exists t'. split; [right; assumption|assumption].
Qed.

Lemma nodup_distinct : forall d, dnodup d = true -> distinct (map fst d).
Proof.
  induction d as [|[a v] d IH]; intros H i j x y HI HJ HE.
  - destruct i; discriminate.
  - cbn [dnodup] in H. apply andb_true_iff in H as [HN H]. apply negb_true_iff in HN. apply dmem_false in HN.
    assert (HA : forall n y, nth_error (map fst d) n = Some y -> keyeq a y = true -> False).
    { intros n z HZ HK. apply nth_error_In in HZ. apply in_map_iff in HZ as ([z' w] & <- & HIn).
      cbn [fst] in *. rewrite (dget_cong d a z' HK), (In_dget _ _ _ H HIn) in HN. discriminate. }
    cbn [map fst] in *. destruct i, j; cbn [nth_error] in *.
    + reflexivity.
    + injection HI as <-. exfalso. eapply HA; eassumption.
    + injection HJ as <-. exfalso. rewrite keyeq_sym in HE. eapply HA; eassumption.
    + f_equal. eapply IH; eassumption.
Qed.

Lemma stands_transform : forall c a s, stands_for (params_of c) a s -> key_transform c true a = Ok s.
Proof. intros c a s. apply stands_from_id. Qed.

Lemma transform_stands : forall c a s, key_transform c true a = Ok s -> hashable s = true -> stands_for (params_of c) a s.
Proof.
  intros c a s H HH. apply from_id_stands; [exact H|]. intros l ->. unfold key_transform in H. cbn [from_id] in H.
  destruct (mapM _ l); [|discriminate]. injection H as <-. discriminate.
Qed.

Lemma iteration : forall X k, reachable X k ->
  distinct (key_iter k) /\ key_len k = length (key_iter k) /\
  (forall a, item_in k a = Ok true <->
     exists t, In t (key_iter k) /\ same_param k a t) /\
  (exists l, key_items k = Ok l /\ map fst l = key_iter k /\ key_values k = Ok (map snd l) /\
     forall a v, In (a, v) l -> item_get k a = Ok v).
Proof.
  intros X k HR. destruct (reachable_good _ _ HR) as [HN HL]. destruct (items_store _ HN HL) as [HI HV].
  split; [apply nodup_distinct; assumption|].
  split; [unfold key_len, key_iter; rewrite map_length; reflexivity|]. split.
  - intros a. unfold item_in. split.
    + intros H. inv_bind H t. destruct (hashable t) eqn:HH; [|discriminate]. cbn [negb] in H. injection H as H.
      unfold dmem in H. destruct (dget (k_store k) t) as [v|] eqn:E; [|discriminate].
      apply dget_In in E as (t' & HIn & HE). exists t'. split; [apply in_map_iff; exists (t', v); auto|].
      destruct (label_in _ _ _ HL HIn) as [HZ HH'].
      exists t, t'. split; [eapply transform_stands; eassumption|]. split; [eapply transform_stands; eassumption|assumption].
    + intros (t & HIn & s & t' & HS & HT & HE). apply stands_transform in HS, HT. unfold key_iter in HIn. apply in_map_iff in HIn as ([z v] & <- & HIn).
      cbn [fst] in *. destruct (label_in _ _ _ HL HIn) as [HZ HH]. rewrite HZ in HT. injection HT as <-.
      rewrite HS. cbn [bind].
      assert (HG : dget (k_store k) s = Some v) by (rewrite (dget_cong _ s z HE); apply In_dget; assumption).
      destruct (hashable s) eqn:HHs.
      * cbn [negb]. unfold dmem. rewrite HG. reflexivity.
      * exfalso. rewrite (keyeq_hashable _ _ HE), HH in HHs. discriminate.
  - exists (k_store k). repeat split; try assumption; try reflexivity.
    intros a v HIn. apply (item_get_label _ _ _ HN HL HIn).
Qed.

Lemma mapM_fails : forall A B (f : A -> result B) l x, mapM f l = Err x -> exists a, In a l /\ f a = Err x.
Proof.
  intros A B f. induction l as [|a l IH]; intros x H; [discriminate|]. cbn [mapM] in H. destruct (f a) as [b|e] eqn:E; cbn [bind] in H.
  - destruct (mapM f l) as [bs|e] eqn:EL; [discriminate|]. cbn [bind] in H. destruct (IH x) as (a' & HI & HA); [congruence|]. exists a'. split; [right; exact HI|exact HA].
  - exists a. split; [left; reflexivity|congruence].
Qed.
Lemma from_id_true_err : forall f v x, from_id f true v = Err x -> x = CoseException.
Proof.
  assert (HX : forall f v x, from_id f false v = Err x -> x = CoseException).
  { intros f. induction v as [|b|z|g|n| | |b|b|l HF|l HF|d HF|t v IH|t v IH|c|k s e HS HE] using pyval_ind'; intros x H; cbn [from_id] in H;
      try congruence; try (destruct (dget _ _); congruence).
    destruct (mapM _ l) as [l'|y] eqn:EM; [discriminate|]. apply mapM_fails in EM as (a & HI & HA). injection H as <-. rewrite Forall_forall in HF. eauto. }
  intros f v x H. destruct v; cbn [from_id] in H; try congruence; try (destruct (dget _ _); congruence).
  destruct (mapM _ l) as [l'|y] eqn:EM; [discriminate|]. apply mapM_fails in EM as (a & _ & HA). injection H as <-. eapply HX. exact HA.
Qed.

Lemma get_default : forall k a d,
  (item_in k a = Ok true -> exists v, item_get k a = Ok v /\ key_get k a d = Ok v) /\
  (item_in k a = Ok false -> item_get k a = Err KeyError /\ key_get k a d = Ok d) /\
  (forall e, item_in k a = Err e -> item_get k a = Err e /\ key_get k a d = Err e).
Proof.
  intros k a d. unfold key_get, item_get, item_in, key_transform.
  destruct (from_id (param_fam (k_cls k)) true a) as [t|e] eqn:ET; cbn [bind].
  - destruct (hashable t); cbn [negb]; [|split; [discriminate|split; [discriminate|]]; intros e H; injection H as <-; auto]. unfold dmem.
    destruct (dget (k_store k) t) as [v|]; split; [| | |]; try (split; [|discriminate]); intros H; try discriminate; eauto.
  - split; [discriminate|]. split; [discriminate|]. intros e' H. injection H as <-. rewrite (from_id_true_err _ _ _ ET). auto.
Qed.

(** ** Deleting *)

Lemma del_cases : forall k a k' x, item_del k a = (k', x) ->
  (exists e, x = Err e /\ k' = k) \/
  (x = Ok tt /\ base_del k a = (k', Ok tt)) \/
  (coordinate k a /\ removed k k' [VClass EC2KpX; VClass EC2KpY] /\ x = Ok tt /\ has k EC2KpX /\ has k EC2KpY) \/
  (coordinate k a /\ removed k k' [VClass EC2KpX] /\ x = Err KeyError).
Proof.
  intros k a k' x H.
  assert (HB : base_del k a = (k', x) -> (exists e, x = Err e /\ k' = k) \/ (x = Ok tt /\ base_del k a = (k', Ok tt))).
  { intros HB. pose proof HB as HB'. apply base_del_cases in HB' as [(e & -> & ->)|(-> & _)]; [left; eauto|right; auto]. }
  assert (HR : forall e, (k, @Err unit e) = (k', x) -> exists e, x = Err e /\ k' = k).
  { intros e HE. injection HE as <- <-. eauto. }
  unfold item_del in H. cbv zeta in H. destruct (k_cls k) eqn:EC.
  - destruct (key_transform KSym false a); [|left; eapply HR; eassumption].
    destruct (_ && _); [|left; eapply HR; eassumption]. destruct (HB H); auto.
  - destruct (key_transform KOKP false a); [|left; eapply HR; eassumption].
    destruct (_ && _); [|left; eapply HR; eassumption]. destruct (_ && _); [left; eapply HR; eassumption|].
    destruct (HB H); auto.
  - destruct (key_transform KEC2 false a) as [t|] eqn:ET; [|left; eapply HR; eassumption].
    destruct (_ && _); [|left; eapply HR; eassumption]. destruct (_ && _); [left; eapply HR; eassumption|].
    destruct (_ && _); [left; eapply HR; eassumption|].
    destruct ((veqb t (VClass EC2KpX) || veqb t (VClass EC2KpY)) && dmem (k_store k) (VClass EC2KpD)) eqn:E5.
    + apply andb_true_iff in E5 as [E5 _].
      assert (HCo : coordinate k a).
      { split; [assumption|]. rewrite !denotes_iff, (transform_allow _ _ _ ET).
        apply orb_true_iff in E5 as [E5|E5]; apply veqb_eq in E5; subst; auto. }
      rewrite base_del_class in H by (rewrite EC; apply ec2_x_registered).
      destruct (dmem (k_store k) (VClass EC2KpX)) eqn:MX; [|left; eapply HR; eassumption].
      rewrite base_del_class in H by (cbn [with_store k_cls]; rewrite EC; apply ec2_y_registered).
      cbn [with_store k_store] in H. rewrite dmem_ddel_other in H by reflexivity.
      destruct (dmem (k_store k) (VClass EC2KpY)) eqn:MY; injection H as <- <-; right; right; [left|right];
        (split; [assumption|]); (split; [repeat split|]).
      * split; [reflexivity|]. split; apply dmem_has; assumption.
      * reflexivity.
    + destruct (HB H); auto.
  - destruct (HB H); auto.
Qed.

Lemma item_get_same : forall k k' b t, k_cls k' = k_cls k -> key_transform (k_cls k) true b = Ok t ->
  dget (k_store k') t = dget (k_store k) t -> item_get k' b = item_get k b.
Proof. intros k k' b t HC HT HD. unfold item_get. rewrite HC, HT. cbn [bind]. rewrite HD. reflexivity. Qed.

Lemma del_other : forall k a k' x b, item_del k a = (k', x) -> other_param k a b ->
  ~ (coordinate k a /\ coordinate k b) -> item_get k' b = item_get k b.
Proof.
  intros k a k' x b H (s & t & HS & HT & HE) HC. apply stands_transform in HS, HT.
  assert (HK : forall p, In p [EC2KpX; EC2KpY] -> coordinate k a -> keyeq t (VClass p) = false).
  { intros p HP HA. destruct (keyeq t (VClass p)) eqn:E; [|reflexivity]. exfalso. apply HC. split; [assumption|].
    destruct HA as [HA _]. split; [assumption|]. rewrite keyeq_sym in E. apply keyeq_class in E. subst t.
    rewrite !denotes_iff, <- HA, HT. destruct HP as [<-|[<-|[]]]; auto. }
  apply del_cases in H as [(e & _ & ->)|[(_ & H)|[(HA & (H1 & _ & H3) & _)|(HA & (H1 & _ & H3) & _)]]].
  - reflexivity.
  - apply base_del_cases in H as [(e & HD & _)|(_ & t' & HT' & HH & HM & ->)]; [discriminate|].
    rewrite HS in HT'. injection HT' as <-. eapply item_get_same; [reflexivity|exact HT|].
    cbn [with_store k_store]. rewrite dget_ddel_other; [reflexivity|]. rewrite keyeq_sym. assumption.
  - eapply item_get_same; [assumption|exact HT|]. rewrite H3. cbn [fold_left].
    rewrite !dget_ddel_other; [reflexivity| |]; apply HK; cbn; auto.
  - eapply item_get_same; [assumption|exact HT|]. rewrite H3. cbn [fold_left].
    rewrite dget_ddel_other; [reflexivity|]; apply HK; cbn; auto.
Qed.

Lemma del_failed : forall k a k' e, item_del k a = (k', Err e) -> ~ coordinate k a -> k' = k.
Proof.
  intros k a k' e H HC.
  apply del_cases in H as [(e' & _ & ->)|[(H & _)|[(HA & _ & H & _)|(HA & _ & _)]]];
    [reflexivity|discriminate|discriminate|contradiction].
Qed.

Lemma delete : forall X k a k' x, reachable X k -> item_del k a = (k', x) ->
  (x = Ok tt -> (exists v, item_get k a = Ok v) /\ item_in k' a = Ok false) /\
  (forall b, other_param k a b -> ~ (coordinate k a /\ coordinate k b) -> item_get k' b = item_get k b) /\
  (forall e, x = Err e -> ~ coordinate k a -> k' = k).
Proof.
  intros X k a k' x HR H. destruct (reachable_good _ _ HR) as [HN _]. split.
  - intros ->. split; [|eapply item_del_gone; eassumption].
    apply del_cases in H as [(e & HD & _)|[(_ & H)|[((HC & HA) & _ & _ & HX & HY)|(_ & _ & HD)]]]; try discriminate.
    + apply base_del_cases in H as [(e & HD & _)|(_ & t & HT & HH & HM & _)]; [discriminate|].
      unfold item_get. rewrite HT. cbn [bind]. rewrite HH. cbn [negb]. unfold dmem in HM.
      destruct (dget (k_store k) t); [eauto|discriminate].
    + unfold item_get. rewrite !denotes_iff in HA. unfold has, param in *. rewrite HC.
      destruct HA as [-> | ->]; cbn [bind hashable negb].
      * destruct (dget (k_store k) (VClass EC2KpX)); [eauto|congruence].
      * destruct (dget (k_store k) (VClass EC2KpY)); [eauto|congruence].
  - split; [intros; eapply del_other; eassumption|]. intros e ->. eapply del_failed. eassumption.
Qed.

Lemma pop : forall X k a k' v, reachable X k -> item_pop k a = (k', Ok v) ->
  item_get k a = Ok v /\ item_del k a = (k', Ok tt) /\ item_in k' a = Ok false /\
  (forall b, other_param k a b -> ~ (coordinate k a /\ coordinate k b) -> item_get k' b = item_get k b).
Proof.
  intros X k a k' v HR H. destruct (reachable_good _ _ HR) as [HN _]. unfold item_pop in H.
  destruct (item_get k a) as [w|e]; [|discriminate].
  destruct (item_del k a) as [k1 [[]|e]] eqn:E; [|discriminate]. injection H as <- <-.
  split; [reflexivity|]. split; [reflexivity|]. split; [eapply item_del_gone; eassumption|].
  intros. eapply del_other; eassumption.
Qed.

(** The first entry of a key that is not RSA is its type, whatever is done to it. *)
Lemma hd_fold_ddel : forall l d, hd_kty d -> (forall t, In t l -> keyeq t (VClass KpKty) = false) ->
  hd_kty (fold_left ddel l d).
Proof.
  induction l as [|t l IH]; intros d H HL; [assumption|]. cbn [fold_left]. apply IH.
  - apply hd_kty_ddel; [assumption|]. apply HL. left. reflexivity.
  - intros t' HT. apply HL. right. assumption.
Qed.

Lemma kty_first : forall X k, reachable X k -> k_cls k <> KRSA -> hd_kty (k_store k).
Proof.
  intros X k (k0 & ops & HC & ->).
  apply (run_inv (fun k => k_cls k <> KRSA -> hd_kty (k_store k))).
  - intros o k _ HQ. revert HQ. apply (step_invariant (fun k => k_cls k <> KRSA -> hd_kty (k_store k))).
    + intros k1 a HQ. destruct (item_del k1 a) as [k' x] eqn:E. cbn [fst]. intros HR.
      assert (HE : k_cls k' = k_cls k1).
      { pose proof (key_step_cls (KDelItem a) k1) as HS. cbn [key_step] in HS. rewrite E in HS. exact HS. }
      rewrite HE in HR. specialize (HQ HR). destruct (k_cls k1) eqn:EC.
      * apply sym_del_removed in E as [(_ & _ & ->)|(t & _ & _ & (_ & _ & ->) & HT & _)]; [exact HQ| |assumption].
        apply hd_fold_ddel; [assumption|]. intros t' [<-|[]]. apply keyeq_ne_class. assumption.
      * apply okp_del_removed in E as [(_ & _ & ->)|(t & _ & _ & (_ & _ & ->) & HT & _)]; [exact HQ| |assumption].
        apply hd_fold_ddel; [assumption|]. intros t' [<-|[]]. apply keyeq_ne_class. assumption.
      * apply ec2_del_removed in E as [(_ & _ & ->)|[(t & _ & _ & (_ & _ & ->) & HT & _)|[(_ & (_ & _ & ->) & _)|(_ & (_ & _ & ->) & _)]]];
          [exact HQ| | | |assumption]; apply hd_fold_ddel; try assumption.
        -- intros t' [<-|[]]. apply keyeq_ne_class. assumption.
        -- intros t' [<-|[]]. reflexivity.
        -- intros t' [<-|[<-|[]]]; reflexivity.
      * contradiction.
    + intros P k1 k' HM _ HQ HR. rewrite (mods_cls _ _ _ HM) in HR. specialize (HQ HR). clear -HM HQ.
      induction HM; auto.
      * destruct H0 as [_ _ ->]. apply hd_kty_dset. auto.
      * cbn [with_store k_store]. apply hd_kty_dset. auto.
  - intros _. destruct HC as [? ? ? ? H|? ? ? ? ? ? H|? ? ? ? ? ? ? H|? ? ? ? H].
    + apply sym_init_fresh in H as (HF & _). apply HF.
    + apply okp_init_fresh in H as (HF & _). apply HF.
    + apply ec2_init_fresh in H as (HF & _). apply HF.
    + apply rsa_init_fresh in H. apply H.
Qed.

Lemma clear_never : forall X k, reachable X k -> k_cls k <> KRSA ->
  item_popitem k = (k, Err CoseInvalidKey) /\ item_clear (S (key_len k)) k = (k, Err CoseInvalidKey).
Proof.
  intros X k HR HC. destruct (kty_first _ _ HR HC) as (v & r & HS).
  assert (HP : item_popitem k = (k, Err CoseInvalidKey)).
  { unfold item_popitem. rewrite HS. unfold item_pop, item_get.
    assert (HT : forall allow, key_transform (k_cls k) allow (VClass KpKty) = Ok (VClass KpKty))
      by (intros allow; destruct (k_cls k); vm_compute; reflexivity).
    rewrite HT. cbn [bind hashable negb]. rewrite HS. cbn [dget]. rewrite keyeq_refl.
    unfold item_del. destruct (k_cls k) eqn:EC; try (elim HC; reflexivity); rewrite HT; reflexivity. }
  split; [assumption|]. cbn [item_clear]. rewrite HP. reflexivity.
Qed.

(** RSA keys can be emptied. *)
Lemma rsa_popitem : forall k a v r, k_cls k = KRSA -> labels_good k -> k_store k = (a, v) :: r ->
  item_popitem k = (with_store k r, Ok (VTuple [a; v])).
Proof.
  intros k a v r HC HL HS. unfold item_popitem. rewrite HS.
  assert (HA : label_good (k_cls k) a) by (eapply label_in; [eassumption|rewrite HS; left; reflexivity]).
  destruct HA as [HT HH]. unfold item_pop, item_get. rewrite HT. cbn [bind]. rewrite HH. cbn [negb].
  rewrite HS. cbn [dget]. rewrite keyeq_refl. unfold item_del. rewrite HC in *. unfold base_del. rewrite HC, HT.
  cbn [bind]. rewrite HH. cbn [negb]. unfold dmem. rewrite HS. cbn [dget ddel]. rewrite keyeq_refl. reflexivity.
Qed.

Lemma rsa_clear : forall n k, k_cls k = KRSA -> labels_good k -> length (k_store k) < n ->
  item_clear n k = (with_store k [], Ok tt).
Proof.
  induction n as [|n IH]; intros k HC HL HN; [lia|]. cbn [item_clear].
  destruct (k_store k) as [|[a v] r] eqn:E.
  - unfold item_popitem. rewrite E. destruct k as [c s e]. cbn in E |- *. subst. reflexivity.
  - rewrite (rsa_popitem _ _ _ _ HC HL E). rewrite IH.
    + reflexivity.
    + assumption.
    + unfold labels_good in *. cbn [with_store k_cls k_store]. rewrite E in HL. inversion HL; assumption.
    + cbn [with_store k_store length] in *. lia.
Qed.

Lemma rsa_emptied : forall X k, reachable X k -> k_cls k = KRSA ->
  (forall a l, key_iter k = a :: l -> exists k' v, item_get k a = Ok v /\
     item_popitem k = (k', Ok (VTuple [a; v])) /\ key_iter k' = l /\
     (forall b, In b l -> item_get k' b = item_get k b)) /\
  (exists k', item_clear (S (key_len k)) k = (k', Ok tt) /\ key_len k' = 0).
Proof.
  intros X k HR HC. destruct (reachable_good _ _ HR) as [HN HL]. split.
  - intros a l HI. unfold key_iter in HI. destruct (k_store k) as [|[a' v] r] eqn:E; [discriminate|].
    cbn [map fst] in HI. injection HI as -> <-. exists (with_store k r), v.
    assert (HIn : In (a, v) (k_store k)) by (rewrite E; left; reflexivity).
    rewrite <- E in HN. split; [apply (item_get_label _ _ _ HN HL HIn)|].
    split; [eapply rsa_popitem; eassumption|]. split; [reflexivity|].
    intros b HB. apply in_map_iff in HB as ([b' w] & <- & HB). cbn [fst].
    assert (HIb : In (b', w) (k_store k)) by (rewrite E; right; assumption).
    destruct (label_in _ _ _ HL HIb) as [HT _]. eapply item_get_same; [reflexivity|exact HT|].
    cbn [with_store k_store]. rewrite (In_dget _ _ _ HN HIb). apply In_dget; [|assumption].
    rewrite E in HN. cbn [dnodup] in HN. apply andb_true_iff in HN as [_ HN]. assumption.
  - exists (with_store k []). split; [|reflexivity]. apply rsa_clear; [assumption|assumption|]. unfold key_len. lia.
Qed.

(** ** Assigning *)

Lemma setdefault : forall k a v,
  (item_in k a = Ok true -> item_setdefault k a v = (k, item_get k a)) /\
  (item_in k a = Ok false -> exists k', item_set k a v = (k', Ok tt) /\ item_setdefault k a v = (k', Ok v)).
Proof.
  intros k a v. destruct (get_default k a v) as (H1 & H2 & _). unfold item_setdefault. split.
  - intros H. destruct (H1 H) as (w & -> & _). reflexivity.
  - intros H. destruct (H2 H) as [-> _]. unfold item_in in H. inv_bind H t.
    destruct (hashable t) eqn:HH; [|discriminate].
    exists (with_store k (dset (k_store k) t v)). unfold item_set. rewrite H0. cbn [bind]. rewrite HH.
    cbn [negb attempt]. auto.
Qed.

Lemma other_param_cls : forall k k' a b, k_cls k' = k_cls k -> other_param k a b -> other_param k' a b.
Proof. intros k k' a b HC H. unfold other_param. rewrite HC. exact H. Qed.

Lemma update_other : forall d k k' b, item_update k d = (k', Ok tt) ->
  Forall (fun e => other_param k (fst e) b) d -> item_get k' b = item_get k b.
Proof.
  induction d as [|[a v] d IH]; intros k k' b H HF; cbn [item_update] in H; [injection H as <-; reflexivity|].
  destruct (item_set k a v) as [k1 [[]|e]] eqn:E; [|discriminate]. inversion HF as [|? ? HA HF']; subst.
  pose proof (mods_cls _ _ _ (item_set_mods _ _ _ _ _ E)) as HC.
  assert (HF1 : Forall (fun e => other_param k1 (fst e) b) d).
  { eapply Forall_impl; [|exact HF']. intros e0. apply other_param_cls. assumption. }
  rewrite (IH _ _ _ H HF1). destruct HA as (s & t & HS & HT & HE). cbn [fst] in *. apply stands_transform in HS, HT.
  eapply item_set_other; [exact E|exact HS|exact HT|]. rewrite keyeq_sym. assumption.
Qed.

Lemma update_last : forall d1 a v d2 k k', item_update k (d1 ++ (a, v) :: d2) = (k', Ok tt) ->
  Forall (fun e => other_param k (fst e) a) d2 -> item_get k' a = Ok v.
Proof.
  induction d1 as [|[a1 v1] d1 IH]; intros a v d2 k k' H HF; cbn [app item_update] in H.
  - destruct (item_set k a v) as [k1 [[]|e]] eqn:E; [|discriminate].
    pose proof (mods_cls _ _ _ (item_set_mods _ _ _ _ _ E)) as HC.
    rewrite (update_other _ _ _ a H).
    + eapply item_set_get; [exact E|reflexivity].
    + eapply Forall_impl; [|exact HF]. intros e0. apply other_param_cls. assumption.
  - destruct (item_set k a1 v1) as [k1 [[]|e]] eqn:E; [|discriminate].
    pose proof (mods_cls _ _ _ (item_set_mods _ _ _ _ _ E)) as HC.
    eapply IH; [exact H|]. eapply Forall_impl; [|exact HF]. intros e0. apply other_param_cls. assumption.
Qed.

(** ** Equality *)

Lemma ddel_length : forall d k, dmem d k = true -> S (length (ddel d k)) = length d.
Proof.
  induction d as [|[a v] d IH]; intros k H; [discriminate|]. unfold dmem in H. cbn [dget ddel] in *.
  destruct (keyeq k a); [reflexivity|]. cbn [length]. rewrite IH; [reflexivity|exact H].
Qed.

Lemma included : forall d e, dnodup d = true -> dnodup e = true ->
  (forall k v, In (k, v) d -> dmem e k = true) -> length d <= length e.
Proof.
  induction d as [|[k v] d IH]; intros e HD HE H; [cbn; lia|]. cbn [dnodup] in HD.
  apply andb_true_iff in HD as [HN HD]. apply negb_true_iff in HN.
  pose proof (ddel_length e k (H k v (or_introl eq_refl))) as HL. cbn [length]. rewrite <- HL.
  apply le_n_S. apply IH; [assumption|apply dnodup_ddel; assumption|].
  intros k' v' HI. rewrite dmem_ddel_other; [eapply H; right; exact HI|].
  destruct (keyeq k' k) eqn:E; [|reflexivity]. exfalso. apply dmem_false in HN.
  rewrite keyeq_sym in E. rewrite (dget_cong d k k' E), (In_dget _ _ _ HD HI) in HN. discriminate.
Qed.

Definition entries_eq (e : dict) : dict -> bool :=
  fix go (d : dict) : bool :=
    match d with
    | [] => true
    | (k, x) :: r => match dget e k with Some y => pyeq x y | None => false end && go r
    end.

Lemma entries_eq_spec : forall e d, entries_eq e d = true <->
  forall k x, In (k, x) d -> exists y, dget e k = Some y /\ pyeq x y = true.
Proof.
  intros e. induction d as [|[k x] d IH]; cbn [entries_eq]; [split; [intros _ ? ? []|reflexivity]|].
  rewrite andb_true_iff, IH. split.
  - intros [H1 H2] k' x' [HI|HI]; [|apply H2; assumption]. injection HI as <- <-.
    destruct (dget e k); [eauto|discriminate].
  - intros H. split; [|intros k' x' HI; apply H; right; assumption].
    destruct (H k x (or_introl eq_refl)) as (y & -> & HY). assumption.
Qed.

Lemma pyeq_dict : forall d e, dnodup d = true -> dnodup e = true ->
  (forall k v, In (k, v) d -> hashable k = true) -> (forall k v, In (k, v) e -> hashable k = true) ->
  (pyeq (VDict d) (VDict e) = true <-> forall t, hashable t = true -> agree (dget d t) (dget e t)).
Proof.
  intros d e HD HE HHd HHe.
  change (pyeq (VDict d) (VDict e)) with (Nat.eqb (length d) (length e) && entries_eq e d).
  rewrite andb_true_iff, entries_eq_spec, Nat.eqb_eq. split.
  - intros [HL H] t HT. unfold agree. destruct (dget d t) as [v|] eqn:ED.
    + apply dget_In in ED as (t' & HI & HK). destruct (H _ _ HI) as (y & HY & HP).
      rewrite (dget_cong e t t' HK), HY. assumption.
    + destruct (dget e t) as [w|] eqn:EE; [|exact I].
      assert (HS : length ((t, w) :: d) <= length e); [|cbn [length] in HS; lia].
      apply included; [|assumption|].
      * cbn [dnodup]. rewrite HD, andb_true_r. apply negb_true_iff, dmem_false. assumption.
      * intros k v [HI|HI]; [injection HI as <- <-; unfold dmem; rewrite EE; reflexivity|].
        destruct (H _ _ HI) as (y & HY & _). unfold dmem. rewrite HY. reflexivity.
  - intros H.
    assert (H1 : forall k x, In (k, x) d -> exists y, dget e k = Some y /\ pyeq x y = true).
    { intros k x HI. pose proof (H k (HHd _ _ HI)) as HA. rewrite (In_dget _ _ _ HD HI) in HA. cbn [agree] in HA.
      destruct (dget e k); [eauto|contradiction]. }
    split; [|assumption]. apply Nat.le_antisymm; apply included; try assumption.
    + intros k v HI. destruct (H1 _ _ HI) as (y & HY & _). unfold dmem. rewrite HY. reflexivity.
    + intros k v HI. destruct (dmem d k) eqn:EM; [reflexivity|]. apply dmem_false in EM.
      pose proof (H k (HHe _ _ HI)) as HA. rewrite EM, (In_dget _ _ _ HE HI) in HA. contradiction.
Qed.

Lemma equality : forall X k k', reachable X k -> reachable X k' ->
  exists b, key_eq k k' = Ok b /\
    (b = true <-> forall t, hashable t = true -> agree (dget (k_store k) t) (dget (k_store k') t)).
Proof.
  intros X k k' HR HR'. destruct (reachable_good _ _ HR) as [HN HL]. destruct (reachable_good _ _ HR') as [HN' HL'].
  unfold key_eq. rewrite (proj1 (items_store _ HN HL)), (proj1 (items_store _ HN' HL')). cbn [bind].
  rewrite !dict_of_pairs_nodup by assumption. eexists. split; [reflexivity|]. apply pyeq_dict; try assumption.
  - intros t v HI. apply (label_in _ _ _ HL HI).
  - intros t v HI. apply (label_in _ _ _ HL' HI).
Qed.
