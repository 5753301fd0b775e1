(** Proofs about what a new key holds. *)
From Coq Require Import NArith ZArith Bool String Lia.
From Coq Require Import Init.Byte List.
From Verif Require Import Bytes BytesProofs Value ValueProofs Registry RegistryProofs Crypto Keys KeyProofs KeyProofs4 KeyTrip KeyTrip3 SpecGen
  SpecKeys SpecHdr HdrProofs SpecRegistry SpecTrip SpecData SpecInit.
Import ListNotations.
Local Open Scope result_scope.

Lemma from_id_attribute_list : forall f l,
  Forall (fun v => forall w, from_id f false v = Ok w -> attribute_value f v w) l ->
  forall l', mapM (from_id f false) l = Ok l' -> Forall2 (attribute_value f) l l'.
Proof.
  intros f. induction l as [|x l IH]; intros HF l' H; cbn [mapM] in H.
  - injection H as <-. constructor.
  - inversion HF; subst. apply bind_ok in H as (y & HY & H). apply bind_ok in H as (ys & HYS & H).
    injection H as <-. constructor; auto.
Qed.

Lemma from_id_attribute : forall f v w, from_id f false v = Ok w -> attribute_value f v w.
Proof.
  intros f. induction v as [|b|z|x|n| | |b|b|l HF|l HF|d HF|t v IH|t v IH|c|k s e HS HE] using pyval_ind';
    intros w H; destruct (from_id_cases _ _ _ _ H) as [(c' & n' & HI' & HS' & ->)|[(E & _)|(l0 & l' & E & -> & HM)]];
    try discriminate; try (econstructor; eassumption).
  injection E as ->. constructor. apply from_id_attribute_list; assumption.
Qed.

Lemma cls_dec : forall p q : cls, {p = q} + {p <> q}.
Proof. decide equality; [apply Z.eq_dec|apply fam_eq_dec]. Qed.

Lemma parse_kp_value : forall p v w, p <> KpKty -> parse_kp (VClass p) v = Ok w -> param_value p v w.
Proof.
  intros p v w HN H.
  assert (HA : p = KpAlg \/ p = KpKeyOps \/ p = OKPKpCurve \/ p = EC2KpCurve \/ ~ In p [KpAlg; KpKeyOps; OKPKpCurve; EC2KpCurve]).
  { destruct (cls_dec p KpAlg); [auto|]. destruct (cls_dec p KpKeyOps); [auto|].
    destruct (cls_dec p OKPKpCurve); [auto|]. destruct (cls_dec p EC2KpCurve); [auto|].
    right. right. right. right. cbn [In]. intuition congruence. }
  destruct HA as [->|[->|[->|[->|HA]]]].
  - split; [intros _; apply from_id_attribute; exact H|]. split; [discriminate|]. split; [intros [E|E]; discriminate E|].
    intros HX. elim HX. left. reflexivity.
  - split; [discriminate|]. split; [intros _; apply from_id_attribute; exact H|]. split; [intros [E|E]; discriminate E|].
    intros HX. elim HX. right. left. reflexivity.
  - split; [discriminate|]. split; [discriminate|]. split; [intros _; apply from_id_attribute; exact H|].
    intros HX. elim HX. cbn [In]. auto.
  - split; [discriminate|]. split; [discriminate|]. split; [intros _; apply from_id_attribute; exact H|].
    intros HX. elim HX. cbn [In]. auto.
  - assert (E : w = v).
    { destruct p as [f z]. unfold parse_kp in H.
      repeat match type of H with
      | context [match ?x with _ => _ end] => is_var x; destruct x
      end; try (injection H as <-; reflexivity).
      all: exfalso; (apply HN; reflexivity) || (apply HA; cbn [In]; auto; fail). }
    subst w. cbn [In] in HA. split; [intros ->; elim HA; auto|]. split; [intros ->; elim HA; auto|].
    split; [intros [->| ->]; elim HA; auto|]. auto.
Qed.

Lemma registered_crv : forall f z n, In (Cls f z, n) (registered FCrv) -> f = FCrv.
Proof.
  intros f z n H. assert (HT : forallb (fun e => match fam_eq_dec (c_fam (fst e)) FCrv with left _ => true | right _ => false end) (registered FCrv) = true)
    by (vm_compute; reflexivity).
  rewrite forallb_forall in HT. specialize (HT _ H). cbn [fst c_fam] in HT. destruct (fam_eq_dec f FCrv); [assumption|discriminate].
Qed.

Lemma attribute_curve : forall z cw, attribute_value FCrv (VClass (Cls FCrv z)) (VClass cw) -> cw = Cls FCrv z.
Proof.
  intros z [f y] H. inversion H; subst.
  match goal with HI : In _ (registered FCrv) |- _ => apply registered_crv in HI end.
  subst f. cbn [spells c_id] in *. congruence.
Qed.

Section Transform.
Variable c : kclass.
Variable allow : bool.

Lemma transform_app : forall d1 d2 acc,
  transform_params c allow (d1 ++ d2) acc = (m <- transform_params c allow d1 acc ;; transform_params c allow d2 m).
Proof.
  induction d1 as [|[k v] d1 IH]; intros d2 acc; [reflexivity|]. cbn [app transform_params].
  destruct (from_id _ _ _) as [p|]; [|reflexivity]. cbn [bind]. destruct (parse_kp p v); [|reflexivity]. cbn [bind].
  destruct (hashable p); [apply IH|reflexivity].
Qed.

Lemma transform_absent : forall p n d acc h, In (p, n) (registered (param_fam c)) ->
  transform_params c allow d acc = Ok h -> no_value (spells p n) d -> dget h (VClass p) = dget acc (VClass p).
Proof.
  intros p n. induction d as [|[k v] d IH]; intros acc h HI H HN; cbn [transform_params] in H.
  - injection H as <-. reflexivity.
  - inv_bind H q. inv_bind H w. destruct (hashable q); [|discriminate].
    rewrite (IH _ _ HI H) by (intros k' v' HK; eapply HN; right; eassumption).
    apply dget_dset_other. apply keyeq_class_neq.
    eapply not_spelled_other; [exact HI|exact H0|]. eapply HN. left. reflexivity.
Qed.

Lemma transform_last : forall p n d acc h v, In (p, n) (registered (param_fam c)) -> p <> KpKty ->
  transform_params c allow d acc = Ok h -> last_value (spells p n) d v ->
  exists w, param_value p v w /\ dget h (VClass p) = Some w.
Proof.
  intros p n d acc h v HI HT H (pre & k & post & -> & HS & HN). rewrite transform_app in H.
  apply bind_ok in H as (m & HP & H). cbn [transform_params] in H.
  rewrite (from_id_spells _ _ _ _ _ HI HS) in H. cbn [bind] in H. inv_bind H w. cbn [hashable] in H.
  exists w. split; [apply parse_kp_value; assumption|].
  rewrite (transform_absent _ _ _ _ _ HI H HN). apply dget_dset_same, keyeq_refl.
Qed.

Definition plain_label (a : pyval) : Prop := (exists z, a = VInt z) \/ (exists u, a = VStr u).

Lemma unknown_same : forall f a b, unknown_attr f a -> plain_label a -> keyeq a b = true ->
  (forall x, b <> VClass x) /\ unknown_attr f b.
Proof.
  intros f a b HU HP HK. apply keyeq_spec in HK. destruct HP as [[z ->]|[u ->]].
  - destruct b as [|b|z'|x|n| | |b|u|l|l|d|t v|t v|x|kc ks ke]; cbn [knorm] in HK; try discriminate HK;
      (split; [discriminate|]); cbn [unknown_attr int_value] in *; try (intros ? E; discriminate E).
    + injection HK as ->. exact HU.
    + injection HK as ->. exact HU.
  - destruct b as [|b|z'|x|n| | |b|u'|l|l|d|t v|t v|x|kc ks ke]; cbn [knorm] in HK; try discriminate HK;
      (split; [discriminate|]); cbn [unknown_attr int_value] in *.
    + destruct (float_int x); discriminate HK.
    + injection HK as ->. exact HU.
Qed.

Lemma unknown_other : forall f a b q, plain_label a -> from_id f allow b = Ok q -> hashable q = true -> keyeq a b = false ->
  keyeq a q = false.
Proof.
  intros f a b q HP H HH HK. destruct (from_id_cases _ _ _ _ H) as [(c' & n' & HI' & HS' & ->)|[(_ & _ & ->)|(l & l' & -> & -> & HM)]].
  - rewrite keyeq_sym. apply keyeq_class_neq. destruct HP as [[z ->]|[u ->]]; discriminate.
  - assumption.
  - discriminate HH.
Qed.

Lemma transform_unknown_absent : forall a d acc h, plain_label a ->
  transform_params c allow d acc = Ok h -> no_value (fun b => keyeq a b = true) d -> dget h a = dget acc a.
Proof.
  intros a. induction d as [|[k v] d IH]; intros acc h HP H HN; cbn [transform_params] in H.
  - injection H as <-. reflexivity.
  - inv_bind H q. inv_bind H w. destruct (hashable q) eqn:EH; [|discriminate].
    rewrite (IH _ _ HP H) by (intros k' v' HK; eapply HN; right; eassumption).
    apply dget_dset_other. eapply unknown_other; [exact HP|exact H0|exact EH|].
    destruct (keyeq a k) eqn:E; [|reflexivity]. elim (HN k v); [left; reflexivity|exact E].
Qed.

Lemma parse_kp_plain : forall b v, (forall x, b <> VClass x) -> parse_kp b v = Ok v.
Proof. intros b v H. destruct b; try reflexivity. elim (H c0). reflexivity. Qed.

Lemma transform_unknown_last : forall a d acc h v, unknown_attr (param_fam c) a -> plain_label a ->
  transform_params c allow d acc = Ok h -> last_value (fun b => keyeq a b = true) d v -> dget h a = Some v.
Proof.
  intros a d acc h v HU HP H (pre & k & post & -> & HS & HN). rewrite transform_app in H.
  apply bind_ok in H as (m & HM & H). cbn [transform_params] in H.
  destruct (unknown_same _ _ _ HU HP HS) as [HC HUk].
  inv_bind H q. inv_bind H w. destruct (hashable q) eqn:EH; [|discriminate].
  assert (q = k) as ->.
  { destruct (from_id_cases _ _ _ _ H0) as [(c' & n' & HI' & HS' & ->)|[(_ & _ & ->)|(l & l' & -> & -> & _)]].
    - elim (unknown_not_spelled _ _ _ _ HUk HI' HS').
    - reflexivity.
    - discriminate EH. }
  rewrite (parse_kp_plain _ _ HC) in H1. injection H1 as <-.
  rewrite (transform_unknown_absent _ _ _ _ HP H HN). apply dget_dset_same. exact HS.
Qed.
End Transform.

Lemma options_items : forall opt d, options opt d -> opt_items opt = Ok d.
Proof. intros opt d [->|[-> ->]]; reflexivity. Qed.

Lemma py_len_ops : forall v w, param_value KpKeyOps v w -> py_len w = Ok 0 -> w = VList [].
Proof.
  intros v w (_ & H & _) HL. specialize (H eq_refl). inversion H; subst; cbn [py_len] in HL; [discriminate|].
  injection HL as HL. destruct l'; [reflexivity|discriminate].
Qed.

Lemma own_param_kty : forall c p n, In (p, n) (registered (param_fam c)) -> p <> KpKty -> keyeq (VClass p) (VClass KpKty) = false.
Proof. intros c p n _ H. apply keyeq_class_neq. congruence. Qed.

Lemma common_keeps : forall c opt allow d k, options opt d -> common_init c opt allow = Ok k -> keeps c [] d k.
Proof.
  intros c opt allow d k HO H. pose proof (common_init_fresh _ _ _ _ H) as HF. unfold common_init in H.
  rewrite (options_items _ _ HO) in H. cbn [bind] in H. inv_bind H s.
  destruct (veqb _ _) eqn:EV; [|discriminate]. apply veqb_eq in EV.
  assert (HK : dget s (VClass KpKty) = Some (kty_of c)).
  { unfold dget_or in EV. destruct (dget s (VClass KpKty)); [congruence|]. destruct c; discriminate EV. }
  assert (HP : forall p n, In (p, n) (registered (param_fam c)) -> p <> KpKty ->
     (forall v, last_value (spells p n) d v -> exists w, param_value p v w /\ dget s (VClass p) = Some w) /\
     (no_value (spells p n) d -> dget s (VClass p) = None)).
  { intros p n HI HN. split; intros.
    - eapply transform_last; eassumption.
    - rewrite (transform_absent _ _ _ _ _ _ _ HI H0 H1). cbn [dget]. rewrite (own_param_kty _ _ _ HI HN). reflexivity. }
  assert (HU : forall a, unknown_attr (param_fam c) a -> plain_label a ->
     (forall v, last_value (fun b => keyeq a b = true) d v -> dget s a = Some v) /\
     (no_value (fun b => keyeq a b = true) d -> dget s a = None)).
  { intros a HA HL. split; intros.
    - eapply transform_unknown_last; eassumption.
    - rewrite (transform_unknown_absent _ _ _ _ _ _ HL H0 H1). cbn [dget].
      destruct HL as [[z ->]|[u ->]]; reflexivity. }
  assert (HD : dnodup s = true).
  { refine (transform_params_inv (fun d => dnodup d = true) c allow _ _ _ _ H0 eq_refl).
    intros d0 a p v w _ _ _ HA. apply dnodup_dset. assumption. }
  assert (HT : kty_of c = VClass (Cls FKty (type_number c))) by (destruct c; reflexivity).
  rewrite HT in HK. clear HT EV HF.
  unfold base_init in H. destruct (dget s (VClass KpKeyOps)) as [ops|] eqn:EO.
  - inv_bind H ln. destruct (Nat.eqb ln 0) eqn:EL; injection H as <-.
    + apply Nat.eqb_eq in EL. subst ln. unfold keeps, param. cbn [k_cls k_store]. split; [reflexivity|].
      split; [rewrite dget_ddel_other; [assumption|reflexivity]|]. split.
      * intros p n HI HN _. destruct (HP _ _ HI HN) as [P1 P2]. destruct (cls_dec p KpKeyOps) as [->|HQ].
        -- split; [|intros _; apply dget_ddel_same; [assumption|apply keyeq_refl]].
           intros v HL. destruct (P1 _ HL) as (w & HW & HG). exists w. split; [assumption|]. right.
           split; [reflexivity|]. split; [|apply dget_ddel_same; [assumption|apply keyeq_refl]].
           rewrite EO in HG. injection HG as ->. eapply py_len_ops; eassumption.
        -- rewrite dget_ddel_other by (apply keyeq_class_neq; congruence).
           split; [|assumption]. intros v HL. destruct (P1 _ HL) as (w & HW & HG). eauto.
      * intros a HA HL. rewrite dget_ddel_other; [apply HU; assumption|].
        destruct HL as [[z ->]|[u ->]]; reflexivity.
    + unfold keeps, param. cbn [k_cls k_store]. split; [reflexivity|]. split; [assumption|]. split; [|assumption].
      intros p n HI HN _. destruct (HP _ _ HI HN) as [P1 P2].
      split; [|assumption]. intros v HL. destruct (P1 _ HL) as (w & HW & HG). eauto.
  - injection H as <-. unfold keeps, param. cbn [k_cls k_store]. split; [reflexivity|]. split; [assumption|]. split; [|assumption].
    intros p n HI HN _. destruct (HP _ _ HI HN) as [P1 P2].
    split; [|assumption]. intros v HL. destruct (P1 _ HL) as (w & HW & HG). eauto.
Qed.

(** Setting one parameter more. *)
Lemma keeps_updates : forall c own d k k' p v, keeps c own d k -> p <> KpKty -> updates p v k k' -> keeps c (own ++ [p]) d k'.
Proof.
  intros c own d k k' p v (HC & HT & HP & HU) HN UP. pose proof UP as [U1 U2 U3]. split; [congruence|].
  split; [rewrite (updates_other _ _ _ _ _ UP); [assumption|congruence]|]. split.
  - intros q n HI HQ HO. assert (q <> p) by (intros ->; apply HO, in_or_app; right; left; reflexivity).
    rewrite (updates_other _ _ _ _ _ UP) by assumption. apply HP; [assumption|assumption|].
    intros HX. apply HO, in_or_app. left. assumption.
  - intros a HA HL. rewrite U3. rewrite dget_dset_other; [apply HU; assumption|].
    destruct HL as [[z ->]|[u ->]]; reflexivity.
Qed.

Lemma keeps_incl : forall c own own' d k, keeps c own d k -> incl own own' -> keeps c own' d k.
Proof.
  intros c own own' d k (HC & HT & HP & HU) HI. split; [assumption|]. split; [assumption|]. split; [|assumption].
  intros p n HR HN HO. apply HP; [assumption|assumption|]. intros HX. apply HO, HI, HX.
Qed.

(** A sequence of optional arguments. *)
Fixpoint set_all (l : list (cls * pyval)) (k : key) : result key :=
  match l with [] => Ok k | (p, v) :: r => k' <- set_unless_empty p v k ;; set_all r k' end.

Lemma set_all_spec : forall c own d l k k', keeps c own d k -> set_all l k = Ok k' ->
  NoDup (map fst l) -> ~ In KpKty (map fst l) ->
  keeps c (own ++ map fst (supplied l)) d k' /\ holds k' (supplied l) /\ k_extra k' = k_extra k /\
  (forall q, ~ In q (map fst l) -> param k' q = param k q) /\
  Forall (fun e => exists b, snd e = VBytes b) l.
Proof.
  intros c own d l. revert own. induction l as [|[p v] l IH]; intros own k k' HK H HD HT; cbn [set_all] in H.
  - injection H as <-. cbn [supplied filter map]. rewrite app_nil_r. split; [assumption|]. split; [constructor|]. split; [reflexivity|].
    split; [reflexivity|constructor].
  - inv_bind H k1. cbn [map fst] in HD, HT. inversion HD as [|? ? HNI HD']; subst.
    assert (HTp : p <> KpKty) by (intros ->; apply HT; left; reflexivity).
    assert (HT' : ~ In KpKty (map fst l)) by (intros HX; apply HT; right; assumption).
    apply set_unless_empty_ok in H0 as [[-> ->]|[(b & -> & HB) UP]].
    + destruct (IH _ _ _ HK H HD' HT') as (A & B & C & D & E). change (supplied ((p, VBytes []) :: l)) with (supplied l). split; [exact A|]. split; [exact B|].
      split; [exact C|]. split; [intros q HQ; apply D; intros HX; apply HQ; right; assumption|].
      constructor; [exists []; reflexivity|exact E].
    + assert (HK1 : keeps c (own ++ [p]) d k1) by (eapply keeps_updates; eassumption).
      destruct (IH _ _ _ HK1 H HD' HT') as (A & B & C & D & E).
      assert (ES : supplied ((p, VBytes b) :: l) = (p, VBytes b) :: supplied l).
      { unfold supplied. cbn [filter snd]. destruct b; [elim HB; reflexivity|reflexivity]. }
      rewrite ES. cbn [map fst]. split; [rewrite <- app_assoc in A; exact A|]. split.
      { constructor; [|exact B]. cbn [fst snd]. rewrite D by assumption. eapply updates_same; eassumption. }
      split; [rewrite C; apply (up_extra _ _ _ _ UP)|]. split.
      { intros q HQ. rewrite D by (intros HX; apply HQ; right; assumption). eapply updates_other; [eassumption|].
        intros ->. apply HQ. left. reflexivity. }
      constructor; [exists b; reflexivity|exact E].
Qed.

Lemma sym_keeps : forall kv opt allow d k, options opt d -> sym_init kv opt allow = Ok k ->
  keeps KSym [SymKpK] d k /\ param k SymKpK = Some kv.
Proof.
  intros kv opt allow d k HO H. unfold sym_init in H. inv_bind H k0. apply (common_keeps _ _ _ _ _ HO) in H0.
  destruct (veqb kv (VBytes [])); [discriminate|]. apply set_k_ok in H as [_ UP].
  split; [|eapply updates_same; eassumption]. eapply (keeps_updates _ [] _ _ _ _ _ H0); [discriminate|exact UP].
Qed.

Lemma okp_keeps : forall crv x d opt allow o k, options opt o -> okp_init crv x d opt allow = Ok k ->
  (exists cv, attribute_value FCrv crv (VClass cv) /\ param k OKPKpCurve = Some (VClass cv)) /\
  holds k (supplied [(OKPKpX, x); (OKPKpD, d)]) /\
  keeps KOKP (OKPKpCurve :: map fst (supplied [(OKPKpX, x); (OKPKpD, d)])) o k.
Proof.
  intros crv x d opt allow o k HO H. unfold okp_init in H. inv_bind H k0. apply (common_keeps _ _ _ _ _ HO) in H0.
  inv_bind H nx. inv_bind H none. destruct none; [discriminate|]. destruct (is_none crv); [discriminate|].
  inv_bind H k1. apply set_crv_ok in H3 as (w & HW & HCV & UP).
  destruct (HCV KOKP eq_refl) as (z & -> & _). set (cv := Cls FCrv z) in *.
  apply (fun A B => keeps_updates _ _ _ _ _ _ _ A B UP) in H0; [|discriminate].
  assert (HS : set_all [(OKPKpX, x); (OKPKpD, d)] k1 = Ok k).
  { cbn [set_all]. destruct (set_unless_empty OKPKpX x k1) as [k2|]; [|discriminate]. cbn [bind] in *. rewrite H. reflexivity. }
  apply (set_all_spec _ _ _ _ _ _ H0) in HS as (A & B & _ & D & _).
  - split; [|split; [exact B|exact A]]. exists cv. split; [apply from_id_attribute; exact HW|].
    rewrite D; [eapply updates_same; exact UP|]. cbn [map fst In]. intuition discriminate.
  - cbn [map fst]. repeat constructor; cbn [In]; intuition discriminate.
  - cbn [map fst In]. intuition discriminate.
Qed.

Lemma rsa_keeps : forall a opt allow o k, options opt o -> rsa_init a opt allow = Ok k ->
  let given := [(RSAKpD, ra_d a); (RSAKpP, ra_p a); (RSAKpQ, ra_q a); (RSAKpDP, ra_dp a); (RSAKpDQ, ra_dq a); (RSAKpQInv, ra_qinv a)] in
  param k RSAKpE = Some (ra_e a) /\ param k RSAKpN = Some (ra_n a) /\ holds k (supplied given) /\
  keeps KRSA (RSAKpE :: RSAKpN :: map fst (supplied given)) o k.
Proof.
  intros a opt allow o k HO H given. unfold rsa_init in H. cbn [ra_n ra_e ra_d ra_p ra_q ra_dp ra_dq ra_qinv ra_other ra_ri ra_di ra_ti] in H.
  inv_bind H ok. destruct (negb ok); [discriminate|]. inv_bind H k0. apply (common_keeps _ _ _ _ _ HO) in H1.
  inv_bind H k1. apply set_bytes_param_ok in H2 as [_ U1]. inv_bind H k2. apply set_bytes_param_ok in H2 as [_ U2].
  apply (fun A B => keeps_updates _ _ _ _ _ _ _ A B U1) in H1; [|discriminate].
  apply (fun A B => keeps_updates _ _ _ _ _ _ _ A B U2) in H1; [|discriminate].
  assert (HS : exists k3, set_all given k2 = Ok k3 /\ k_store k = k_store k3 /\ k_cls k = k_cls k3).
  { unfold given. cbn [set_all].
    repeat match type of H with
    | bind (set_unless_empty ?p ?v ?q) _ = _ => destruct (set_unless_empty p v q); [|discriminate H]; cbn [bind] in *
    end.
    eexists. split; [reflexivity|]. injection H as <-.
    unfold extra_unless_empty, extra_set. destruct (truthy _), (veqb _ _), (veqb _ _), (veqb _ _); split; reflexivity. }
  destruct HS as (k3 & HS & E1 & E2).
  apply (set_all_spec _ _ _ _ _ _ H1) in HS as (A & B & _ & D & _).
  - assert (HP : forall q, param k q = param k3 q) by (intros q; unfold param; rewrite E1; reflexivity).
    rewrite !HP. split.
    { rewrite D by (cbn [map fst In given]; intuition discriminate). rewrite (updates_other _ _ _ _ _ U2) by discriminate.
      eapply updates_same; exact U1. }
    split. { rewrite D by (cbn [map fst In given]; intuition discriminate). eapply updates_same; exact U2. }
    split. { eapply Forall_impl; [|exact B]. intros e HE. rewrite HP. exact HE. }
    destruct A as (A1 & A2 & A3 & A4). split; [congruence|]. split; [rewrite HP; exact A2|]. split.
    + intros p n HI HN HO'. rewrite HP. apply A3; assumption.
    + rewrite E1. exact A4.
  - cbn [map fst given]. repeat constructor; cbn [In]; intuition discriminate.
  - cbn [map fst In given]. intuition discriminate.
Qed.

Lemma put_keeps : forall c own d s e p v, keeps c own d (Key c s e) -> p <> KpKty -> keeps c (own ++ [p]) d (Key c (put p v s) e).
Proof.
  intros c own d s e p v HK HP. unfold put. destruct (veqb v (VBytes [])).
  - eapply keeps_incl; [exact HK|]. apply incl_appl, incl_refl.
  - eapply keeps_updates; [exact HK|exact HP|]. constructor; reflexivity.
Qed.

Section WithCrypto.
Variable X : crypto.

Lemma private_given : forall crv d x y x1 y1, ec2_from_private X crv d x y = Ok (x1, y1) ->
  (truthy x = true -> x1 = x) /\ (truthy y = true -> y1 = y).
Proof.
  intros crv d x y x1 y1 H. unfold ec2_from_private in H. inv_bind H db. apply bind_ok in H as ([px py] & _ & H).
  inv_bind H bx. inv_bind H x'. inv_bind H by_. inv_bind H y'. injection H as <- <-. split; intros HT.
  - rewrite HT in H2. destruct (veqb x (VBytes bx)); [|discriminate]. congruence.
  - rewrite HT in H4. destruct (veqb y (VBytes by_)); [|discriminate]. congruence.
Qed.

Lemma ec2_keeps : forall crv x y d opt allow o k, options opt o -> ec2_init X crv x y d opt allow = Ok k ->
  (exists cv, attribute_value FCrv crv (VClass cv) /\ param k EC2KpCurve = Some (VClass cv)) /\
  holds k (supplied [(EC2KpX, x); (EC2KpY, y); (EC2KpD, d)]) /\
  keeps KEC2 (EC2KpCurve :: EC2KpX :: EC2KpY :: map fst (supplied [(EC2KpD, d)])) o k.
Proof.
  intros crv x y d opt allow o k HO H.
  apply ec2_init_store in H as (k0 & cv & x1 & y1 & y2 & H0 & HN & HC & HK & HT & HP & HY & (bx & by_ & bd & -> & -> & ->) & ->).
  assert (HX1 : truthy x = true -> x = VBytes bx).
  { intros TX. destruct (truthy (VBytes bd)); [|congruence]. apply private_given in HP as [HP _]. symmetry. auto. }
  assert (HY1 : truthy y = true -> y = VBytes by_).
  { intros TY. assert (E : y1 = y).
    { destruct (truthy (VBytes bd)); [|congruence]. apply private_given in HP as [_ HP]. auto. }
    subst y1. rewrite TY in HY. rewrite andb_false_r in HY. congruence. }
  apply (common_keeps _ _ _ _ _ HO) in H0. pose proof (proj1 H0) as HCL.
  split; [exists cv; split; [apply from_id_attribute; assumption|]|split].
  - unfold param. cbn [k_store]. rewrite !dget_put_other by discriminate. apply dget_dset_same, keyeq_refl.
  - unfold holds, supplied. rewrite Forall_forall. intros [p v] HI. apply filter_In in HI as [HI HV].
    cbn [fst snd] in *. unfold param. cbn [k_store].
    destruct HI as [E|[E|[E|[]]]]; injection E as <- <-.
    + specialize (HX1 HV). subst x. rewrite !dget_put_other by discriminate. apply dget_put_same. intros E. rewrite E in HV. discriminate.
    + specialize (HY1 HV). subst y. rewrite !dget_put_other by discriminate. apply dget_put_same. intros E. rewrite E in HV. discriminate.
    + apply dget_put_same. intros E. rewrite E in HV. discriminate.
  - assert (H1 : keeps KEC2 ([] ++ [EC2KpCurve]) o (Key KEC2 (dset (k_store k0) (VClass EC2KpCurve) (VClass cv)) [])).
    { eapply keeps_updates with (k := Key KEC2 (k_store k0) []); [|discriminate|constructor; reflexivity].
      destruct H0 as (_ & A2 & A3 & A4). split; [reflexivity|]. split; [exact A2|]. split; [exact A3|exact A4]. }
    apply (put_keeps _ _ _ _ _ EC2KpX (VBytes bx)) in H1; [|discriminate].
    apply (put_keeps _ _ _ _ _ EC2KpY (VBytes by_)) in H1; [|discriminate].
    destruct bd as [|b0 bd].
    + rewrite dget_put_empty. exact H1.
    + apply (put_keeps _ _ _ _ _ EC2KpD (VBytes (b0 :: bd))) in H1; [|discriminate]. exact H1.
Qed.

(** ** Imports *)

Lemma numbers_registered : forall c p, In p (numbers c) -> In (p, cls_fullname p) (registered (param_fam c)).
Proof.
  intros c p H.
  assert (HT : forallb (fun q => existsb (fun e => veqb (VClass (fst e)) (VClass q) && bytes_eqb (snd e) (cls_fullname q))
     (registered (param_fam c))) (numbers c) = true) by (destruct c; vm_compute; reflexivity).
  rewrite forallb_forall in HT. specialize (HT _ H). apply existsb_exists in HT as ([q n] & HI & HE). cbn [fst snd] in HE.
  apply andb_true_iff in HE as [E HE]. apply veqb_eq in E. injection E as ->. apply bytes_eqb_eq in HE. subst n. exact HI.
Qed.

Section Silent.
Variable c : kclass.
Variable o : dict.
Hypothesis HS : silent c o.

Lemma silent_get : forall p, In p (numbers c) ->
  dget o (VClass p) = None /\ dget o (VInt (c_id p)) = None /\ dget o (VStr (cls_fullname p)) = None.
Proof.
  intros p HP. pose proof (numbers_registered _ _ HP) as HR. specialize (HS _ _ HP HR). split; [|split].
  - destruct (dget o (VClass p)) eqn:E; [|reflexivity]. apply dget_In in E as (k' & HI & HK). apply keyeq_class in HK. subst k'.
    elim (HS _ _ HI). left. reflexivity.
  - destruct (dget o (VInt (c_id p))) eqn:E; [|reflexivity]. apply dget_In in E as (k' & HI & HK). elim (HS _ _ HI). right. assumption.
  - destruct (dget o (VStr (cls_fullname p))) eqn:E; [|reflexivity]. apply dget_In in E as (k' & HI & HK).
    elim (HS _ _ HI). left. apply keyeq_spec in HK. destruct k'; cbn [knorm] in HK; try discriminate HK.
    + destruct (float_int bits); discriminate HK.
    + injection HK as <-. cbn [spells]. apply (names_upper _ _ _ HR).
Qed.

Variable d0 : dict.
Hypothesis HK : Forall (fun e => exists p, In p (numbers c) /\ fst e = VClass p) d0.

Lemma classes_get_none : forall a, (forall p, a <> VClass p) -> dget d0 a = None.
Proof.
  intros a HA. destruct (dget d0 a) as [w|] eqn:E; [|reflexivity]. apply dget_In in E as (k' & HI & HE).
  rewrite Forall_forall in HK. destruct (HK _ HI) as (p & _ & EP). cbn [fst] in EP. subst k'.
  rewrite keyeq_sym in HE. apply keyeq_class in HE. elim (HA _ HE).
Qed.

Lemma import_update : dnodup o = true -> dupdate d0 o = d0 ++ o.
Proof.
  intros HD. apply dupdate_disjoint; [assumption|]. intros k v HI. unfold dmem. destruct (dget d0 k) as [w|] eqn:E; [|reflexivity].
  exfalso. apply dget_In in E as (k' & HI' & HE). rewrite Forall_forall in HK. destruct (HK _ HI') as (p & HP & EP). cbn [fst] in EP. subst k'.
  rewrite keyeq_sym in HE. apply keyeq_class in HE. subst k. elim (HS _ _ HP (numbers_registered _ _ HP) _ _ HI). left. reflexivity.
Qed.

Lemma import_extract : forall p dflt, In p (numbers c) ->
  extract (VDict (d0 ++ o)) p dflt = Ok (match dget d0 (VClass p) with Some v => v | None => dflt end).
Proof.
  intros p dflt HP. destruct (silent_get p HP) as (A & B & C). unfold extract. cbn [map_get bind]. rewrite !dget_app.
  rewrite A, B, C. rewrite (classes_get_none (VInt _)) by discriminate. rewrite (classes_get_none (VStr _)) by discriminate.
  destruct (dget d0 (VClass p)); reflexivity.
Qed.
End Silent.

Lemma ddel_app : forall d e k, dget e k = None -> ddel (d ++ e) k = ddel d k ++ e.
Proof.
  induction d as [|[a v] d IH]; intros e k H; cbn [app ddel]; [apply ddel_absent; assumption|].
  destruct (keyeq k a); [reflexivity|]. rewrite IH by assumption. reflexivity.
Qed.

Lemma remove_app : forall c o p d, silent c o -> In p (numbers c) -> remove (d ++ o) p = remove d p ++ o.
Proof.
  intros c o p d HS HP. destruct (silent_get _ _ HS p HP) as (A & B & C). unfold remove. rewrite !ddel_app by assumption. reflexivity.
Qed.

Lemma remove_all_app : forall c o l d, silent c o -> incl l (numbers c) -> remove_all (d ++ o) l = remove_all d l ++ o.
Proof.
  intros c o l. unfold remove_all. induction l as [|p l IH]; intros d HS HI; [reflexivity|]. cbn [fold_left].
  rewrite (remove_app c) by (try assumption; apply HI; left; reflexivity). apply IH; [assumption|].
  intros q HQ. apply HI. right. assumption.
Qed.

Lemma add_params_options : forall opt o d, options opt o -> add_params d opt = Ok (dupdate d o).
Proof. intros opt o d [->|[-> ->]]; unfold add_params; [destruct o; reflexivity|reflexivity]. Qed.

Lemma keeps_absent : forall c own d k p, keeps c own d k -> silent c d -> In p (numbers c) -> ~ In p own -> param k p = None.
Proof.
  intros c own d k p (_ & _ & HP & _) HS HI HO. pose proof (numbers_registered _ _ HI) as HR.
  apply (HP _ _ HR); [|assumption|].
  - intros ->. destruct c; cbn in HI; intuition discriminate.
  - intros a v HA HX. eapply HS; [exact HI|exact HR|exact HA|]. left. exact HX.
Qed.

Lemma okp_import_with : forall cv pub priv opt o k, options opt o -> dnodup o = true -> silent KOKP o ->
  from_ext X (ExtOKP cv pub priv) opt = Ok k ->
  imported (ExtOKP cv pub priv) k /\ keeps KOKP (numbers KOKP) o k.
Proof.
  intros cv pub priv opt o k HO HD HS H. cbn [from_ext] in H. unfold okp_from_ext in H.
  set (d0 := match priv with Some (b :: r) => _ | _ => _ end) in H.
  rewrite (add_params_options _ _ _ HO) in H. cbn [bind] in H.
  set (dv := match priv with Some (b :: r) => VBytes (b :: r) | _ => VBytes [] end).
  assert (HI : okp_init (VClass (Cls FCrv cv)) (VBytes pub) dv (VDict o) true = Ok k).
  { rewrite <- H. unfold d0, dv.
    destruct priv as [[|b r]|];
      (rewrite (import_update KOKP) by (try assumption; repeat constructor; cbn [fst numbers]; eexists; (split; [|reflexivity]); cbn [In]; auto));
      unfold okp_from_dict;
      rewrite !(import_extract KOKP) by (try assumption; try (cbn [numbers In]; tauto); repeat constructor; cbn [fst numbers]; eexists; (split; [|reflexivity]); cbn [In]; auto);
      cbn [bind items_of]; rewrite (remove_all_app KOKP) by (try assumption; intros q HQ; cbn [numbers In] in *; tauto); reflexivity. }
  clear H. apply (okp_keeps _ _ _ _ _ _ _ (or_introl eq_refl)) in HI as ((cw & HA & HC) & HH & HK).
  apply attribute_curve in HA. subst cw. split.
  - cbn [imported]. split; [exact HC|]. split.
    + intros HN. unfold holds in HH. rewrite Forall_forall in HH. apply (HH (OKPKpX, VBytes pub)). apply filter_In. split; [left; reflexivity|].
      destruct pub; [elim HN; reflexivity|reflexivity].
    + unfold holds in HH. rewrite Forall_forall in HH. destruct priv as [[|b r]|].
      * eapply keeps_absent; [exact HK|exact HS|cbn [numbers In]; auto|]. unfold dv. destruct pub; cbn; intuition discriminate.
      * apply (HH (OKPKpD, VBytes (b :: r))). apply filter_In. split; [right; left; reflexivity|reflexivity].
      * eapply keeps_absent; [exact HK|exact HS|cbn [numbers In]; auto|]. unfold dv. destruct pub; cbn; intuition discriminate.
  - eapply keeps_incl; [exact HK|]. intros q [<-|HQ]; [left; reflexivity|]. apply in_map_iff in HQ as ([q' v] & E & HQ).
    cbn [fst] in E. subst q'. apply filter_In in HQ as [HQ _]. cbn [In] in HQ. destruct HQ as [E|[E|[]]]; injection E as <- _; cbn [numbers In]; auto.
Qed.

Lemma holds_get : forall k l p v, holds k (supplied l) -> In (p, v) l -> truthy v = true -> param k p = Some v.
Proof.
  intros k l p v H HI HT. unfold holds in H. rewrite Forall_forall in H. apply (H (p, v)). apply filter_In. split; assumption.
Qed.

Lemma truthy_bytes : forall b, b <> [] -> truthy (VBytes b) = true.
Proof. intros [|b r] H; [elim H; reflexivity|reflexivity]. Qed.

Ltac class_labels := repeat constructor; cbn [fst numbers]; eexists; (split; [|reflexivity]); cbn [In]; tauto.

Lemma ec2_import_with : forall c x y priv opt o k, options opt o -> dnodup o = true -> silent KEC2 o ->
  from_ext X (ExtEC c x y priv) opt = Ok k ->
  imported (ExtEC c x y priv) k /\ keeps KEC2 (numbers KEC2) o k.
Proof.
  intros c x y priv opt o k HO HD HS H. cbn [from_ext] in H. unfold ec2_from_ext in H.
  destruct c as [c|]; [|discriminate]. inv_bind H bx. inv_bind H by_. inv_bind H d0.
  rewrite (add_params_options _ _ _ HO) in H. cbn [bind] in H.
  assert (HI : exists bd, ec2_init X (VClass (Cls FCrv c)) (VBytes bx) (VBytes by_) (VBytes bd) (VDict o) true = Ok k /\
     match priv with Some m => to_bytes_checked (curve_size c) m = Ok bd | None => bd = [] end).
  { destruct priv as [m|].
    - inv_bind H2 bd. exists bd. split; [|exact H3]. injection H2 as <-. rewrite <- H. cbn [dset keyeq veqb knorm].
      change (dset _ _ _) with [(VClass EC2KpCurve, VClass (Cls FCrv c)); (VClass EC2KpX, VBytes bx); (VClass EC2KpY, VBytes by_); (VClass EC2KpD, VBytes bd)].
      rewrite (import_update KEC2) by (try assumption; class_labels). unfold ec2_from_dict.
      rewrite !(import_extract KEC2) by (try assumption; try (cbn [numbers In]; tauto); class_labels).
      cbn [bind items_of]. rewrite (remove_all_app KEC2) by (try assumption; intros q HQ; cbn [numbers In] in *; tauto). reflexivity.
    - injection H2 as <-. exists []. split; [|reflexivity]. rewrite <- H.
      rewrite (import_update KEC2) by (try assumption; class_labels). unfold ec2_from_dict.
      rewrite !(import_extract KEC2) by (try assumption; try (cbn [numbers In]; tauto); class_labels).
      cbn [bind items_of]. rewrite (remove_all_app KEC2) by (try assumption; intros q HQ; cbn [numbers In] in *; tauto). reflexivity. }
  clear H H2 d0. destruct HI as (bd & HI & HB).
  apply (ec2_keeps _ _ _ _ _ _ _ _ (or_introl eq_refl)) in HI as ((cw & HA & HC) & HH & HK).
  apply attribute_curve in HA. subst cw.
  apply to_bytes_checked_ok in H0 as [Lx Ox]. apply to_bytes_checked_ok in H1 as [Ly Oy].
  split.
  - exists c. split; [reflexivity|]. split; [exact HC|]. intros size HSZ. destruct (curve_size_spec _ _ HSZ) as [E HN]. rewrite E in *.
    assert (NE : forall b : bytes, length b = size -> truthy (VBytes b) = true).
    { intros b HL. apply truthy_bytes. intros ->. apply HN. symmetry. exact HL. }
    split. { exists bx. split; [|auto]. eapply holds_get; [exact HH|left; reflexivity|apply NE; exact Lx]. }
    split. { exists by_. split; [|auto]. eapply holds_get; [exact HH|right; left; reflexivity|apply NE; exact Ly]. }
    destruct priv as [m|].
    + apply to_bytes_checked_ok in HB as [Ld Od]. exists bd. split; [|auto]. eapply holds_get; [exact HH|right; right; left; reflexivity|apply NE; exact Ld].
    + subst bd. eapply keeps_absent; [exact HK|exact HS|cbn [numbers In]; auto|]. cbn. intuition discriminate.
  - eapply keeps_incl; [exact HK|]. intros q HQ. cbn [In] in HQ. cbn [numbers In]. destruct HQ as [<-|[<-|[<-|HQ]]]; auto.
    unfold supplied in HQ. cbn [filter snd] in HQ. destruct (truthy (VBytes bd)); cbn [map fst In] in HQ; [destruct HQ as [<-|[]]; auto|destruct HQ].
Qed.

Lemma min_stored : forall k p n v l, holds k (supplied l) -> In (p, VBytes (min_be n)) l -> v = n -> n <> 0%N -> stored_min k p v.
Proof.
  intros k p n v l HH HI -> HN. exists (min_be n). destruct (min_be_minimal_be n) as [A B]. split; [|split; assumption].
  eapply holds_get; [exact HH|exact HI|]. apply truthy_bytes. intros E. rewrite E in A. apply HN. symmetry. exact A.
Qed.

Lemma rsa_import_with : forall pub priv opt o k, options opt o -> dnodup o = true -> silent KRSA o ->
  from_ext X (ExtRSA pub priv) opt = Ok k ->
  imported (ExtRSA pub priv) k /\ keeps KRSA (numbers KRSA) o k.
Proof.
  intros pub priv opt o k HO HD HS H. cbn [from_ext] in H. unfold rsa_from_ext in H. cbv zeta in H.
  rewrite (add_params_options _ _ _ HO) in H. cbn [bind] in H.
  set (v := fun f : rsa_priv -> N => match priv with Some q => VBytes (min_be (f q)) | None => VBytes [] end).
  assert (HI : rsa_init (RsaArgs (VBytes (min_be (rsa_n pub))) (VBytes (min_be (rsa_e pub))) (v rsa_d) (v rsa_p) (v rsa_q) (v rsa_dmp1) (v rsa_dmq1) (v rsa_iqmp)
      (VList []) (VBytes []) (VBytes []) (VBytes [])) (VDict o) true = Ok k).
  { rewrite <- H. clear H. unfold v. destruct priv as [q|].
    - change (dupdate [(VClass RSAKpE, VBytes (min_be (rsa_e pub))); (VClass RSAKpN, VBytes (min_be (rsa_n pub)))] _) with
        [(VClass RSAKpE, VBytes (min_be (rsa_e pub))); (VClass RSAKpN, VBytes (min_be (rsa_n pub)));
         (VClass RSAKpD, VBytes (min_be (rsa_d q))); (VClass RSAKpP, VBytes (min_be (rsa_p q))); (VClass RSAKpQ, VBytes (min_be (rsa_q q)));
         (VClass RSAKpDP, VBytes (min_be (rsa_dmp1 q))); (VClass RSAKpDQ, VBytes (min_be (rsa_dmq1 q))); (VClass RSAKpQInv, VBytes (min_be (rsa_iqmp q)))].
      rewrite (import_update KRSA) by (try assumption; class_labels). unfold rsa_from_dict.
      rewrite !(import_extract KRSA) by (try assumption; try (cbn [numbers In]; tauto); class_labels).
      cbn [bind items_of]. rewrite (remove_all_app KRSA) by (try assumption; intros p HQ; cbn [numbers In] in *; tauto). reflexivity.
    - rewrite (import_update KRSA) by (try assumption; class_labels). unfold rsa_from_dict.
      rewrite !(import_extract KRSA) by (try assumption; try (cbn [numbers In]; tauto); class_labels).
      cbn [bind items_of]. rewrite (remove_all_app KRSA) by (try assumption; intros p HQ; cbn [numbers In] in *; tauto). reflexivity. }
  clear H.
  assert (HNE : rsa_n pub <> 0%N /\ rsa_e pub <> 0%N).
  { unfold rsa_init in HI. cbn [ra_n ra_e ra_d ra_p ra_q ra_dp ra_dq ra_qinv ra_other ra_ri ra_di ra_ti is_none] in HI.
    split; intros E; rewrite E in HI; unfold rsa_valid in HI; cbn [ra_n ra_e ra_d ra_p ra_q ra_dp ra_dq ra_qinv ra_other ra_ri ra_di ra_ti] in HI;
      change (min_be 0) with (@nil byte) in HI; cbn [all_len py_len length Nat.eqb Bool.eqb bind] in HI.
    - discriminate HI.
    - destruct (Bool.eqb (Nat.eqb (length (min_be (rsa_n pub))) 0) false); discriminate HI. }
  destruct HNE as [NN NE].
  apply (rsa_keeps _ _ _ _ _ (or_introl eq_refl)) in HI as (HE & HN & HH & HK).
  cbn [ra_n ra_e ra_d ra_p ra_q ra_dp ra_dq ra_qinv ra_other ra_ri ra_di ra_ti] in *.
  split.
  - cbn [imported]. split; [exists (min_be (rsa_n pub)); split; [exact HN|apply min_be_minimal_be]|].
    split; [exists (min_be (rsa_e pub)); split; [exact HE|apply min_be_minimal_be]|].
    destruct priv as [q|].
    + unfold v in HH. repeat constructor; cbn [fst snd]; intros HQ; (eapply min_stored; [exact HH| |reflexivity|exact HQ]); cbn [In]; tauto.
    + repeat constructor; (eapply keeps_absent; [exact HK|exact HS|cbn [numbers In]; tauto|]); cbn; intuition discriminate.
  - eapply keeps_incl; [exact HK|]. intros p HP. cbn [In] in HP. destruct HP as [<-|[<-|HP]]; [cbn [numbers In]; tauto|cbn [numbers In]; tauto|].
    apply in_map_iff in HP as ([p' w] & E & HP). cbn [fst] in E. subst p'. apply filter_In in HP as [HP _]. cbn [In] in HP.
    repeat (destruct HP as [E|HP]; [injection E as <- _; cbn [numbers In]; tauto|]). destruct HP.
Qed.

Lemma ec2_init_curve : forall crv x y d opt allow k cv, ec2_init X crv x y d opt allow = Ok k ->
  param k EC2KpCurve = Some (VClass cv) -> In (c_id cv, curve_size (c_id cv)) ec2_curves.
Proof.
  intros crv x y d opt allow k cv H HC.
  apply ec2_init_store in H as (k0 & cv' & x1 & y1 & y2 & _ & _ & _ & HK & _ & _ & _ & _ & ->).
  unfold param in HC. cbn [k_store] in HC. rewrite !dget_put_other in HC by discriminate.
  rewrite dget_dset_same in HC by apply keyeq_refl. injection HC as ->. apply ec2_curve_in. assumption.
Qed.
End WithCrypto.
