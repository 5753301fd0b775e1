(** Lemmas about keys: key_ops assignment, properties, mapping interface, RSA forms,
    imported integers, EC2 consistency. *)
From Coq Require Import NArith ZArith Bool String Lia ZifyBool ZifyNat ZifyN.
From Coq Require Import Init.Byte List.
From Verif Require Import Bytes BytesProofs Value ValueProofs Registry RegistryProofs Crypto Keys SpecKeys KeyProofs KeyProofs2.
Import ListNotations.
Local Open Scope result_scope.

(** ** key_ops *)

Lemma legal_op_iff : forall c z, legal_op c z <-> In z (supported_ops c).
Proof. intros [] z; cbn [legal_op supported_ops In]; split; intuition. Qed.

Lemma supported_ops_registered : forall c z, In z (supported_ops c) -> In z [1; 2; 3; 4; 5; 6; 7; 8; 9; 10]%Z.
Proof. intros [] z H; cbn [supported_ops In] in *; intuition. Qed.

Lemma names_op_lookup : forall c z o, In z (supported_ops c) -> names_op z o ->
  from_id FOps false o = Ok (VClass (Cls FOps z)).
Proof.
  intros c z o HZ HO. apply supported_ops_registered in HZ. cbn [In] in HZ.
  destruct HO as [-> |[-> | ->]];
    repeat (destruct HZ as [<-|HZ]; [vm_compute; reflexivity|]); destruct HZ.
Qed.

Lemma supported_by_true : forall c o, supported c o -> supported_by c o = Ok true.
Proof.
  intros c o (z & HZ & HO). apply legal_op_iff in HZ. unfold supported_by.
  assert (HH : hashable o = true) by (destruct HO as [-> |[-> | ->]]; reflexivity).
  rewrite HH. cbn [negb]. f_equal. apply existsb_exists. exists z. split; [assumption|].
  destruct HO as [-> |[-> | ->]]; rewrite keyeq_refl; rewrite ?orb_true_r; reflexivity.
Qed.

Lemma keyeq_str_eq : forall u v, keyeq (VStr u) v = true <-> v = VStr u.
Proof.
  intros u v. rewrite keyeq_spec. cbn [knorm]. split; [|intros ->; reflexivity].
  destruct v; cbn [knorm]; intros H; try discriminate; try congruence.
  destruct (float_int bits); discriminate.
Qed.

Lemma supported_by_proper : forall c o, proper_op o -> supported_by c o = Ok true -> supported c o.
Proof.
  intros c o HP H. unfold supported_by in H. destruct (hashable o); [|discriminate]. cbn [negb] in H.
  injection H as H. apply existsb_exists in H as (z & HZ & H). exists z. split; [apply legal_op_iff; assumption|].
  apply orb_true_iff in H as [H|H]; [apply orb_true_iff in H as [H|H]|].
  - rewrite keyeq_sym in H. apply keyeq_class in H. left. assumption.
  - destruct o; cbn [proper_op] in HP; try contradiction.
    + cbn [keyeq knorm] in H. unfold keyeq in H. cbn [knorm] in H. apply veqb_eq in H. right. left. assumption.
    + unfold keyeq in H. cbn [knorm] in H. apply veqb_eq in H. discriminate.
    + unfold keyeq in H. cbn [knorm] in H. apply veqb_eq in H. discriminate.
  - rewrite keyeq_sym in H. apply keyeq_str_eq in H. right. right. assumption.
Qed.

Lemma supported_by_false : forall c o, proper_op o -> ~ supported c o -> supported_by c o = Ok false.
Proof.
  intros c o HP HN. pose proof (supported_by_proper c o HP) as H. unfold supported_by in *.
  assert (HH : hashable o = true) by (destruct o; cbn [proper_op] in HP; try contradiction; reflexivity).
  rewrite HH in *. cbn [negb] in *.
  destruct (existsb _ (supported_ops c)); [elim HN; apply H|]; reflexivity.
Qed.

Lemma store_set_twice : forall k c v w, store_set (store_set k c v) c w = store_set k c w.
Proof.
  intros k c v w. unfold store_set, with_store. cbn [k_cls k_store k_extra]. f_equal.
  generalize (k_store k). induction d as [|[k0 v0] d IH]; cbn [dset].
  - rewrite keyeq_refl. reflexivity.
  - destruct (keyeq (VClass c) k0) eqn:E; cbn [dset]; rewrite E; [reflexivity|]. rewrite IH. reflexivity.
Qed.

Lemma loop_supported : forall l m, mapM (from_id FOps false) l = Ok m ->
  forall r k, Forall (supported (k_cls k)) r -> r <> [] ->
  key_ops_loop (VList l) r k = (store_set k KpKeyOps (VList m), Ok tt).
Proof.
  intros l m HM. induction r as [|o r IH]; intros k HF HN; [elim HN; reflexivity|].
  inversion HF as [|? ? Ho Hr]; subst. cbn [key_ops_loop]. rewrite (supported_by_true _ _ Ho).
  cbn [base_set_key_ops]. rewrite HM. cbn [bind].
  destruct r as [|o' r]; [reflexivity|].
  rewrite IH; [|assumption|discriminate]. rewrite store_set_twice. reflexivity.
Qed.

Lemma supported_mapM : forall c l, Forall (supported c) l ->
  exists zs, mapM (from_id FOps false) l = Ok (map (fun z => VClass (Cls FOps z)) zs) /\
    Forall2 names_op zs l.
Proof.
  intros c l H. induction H as [|o l (z & HZ & HO) H IH].
  - exists []. split; [reflexivity|constructor].
  - destruct IH as (zs & HM & HF). exists (z :: zs). split; [|constructor; assumption].
    cbn [mapM map]. apply legal_op_iff in HZ. rewrite (names_op_lookup _ _ _ HZ HO). cbn [bind]. rewrite HM. reflexivity.
Qed.

Lemma key_ops_accepted : forall k l, Forall (supported (k_cls k)) l -> l <> [] ->
  exists zs, Forall2 names_op zs l /\
    prop_set k PKeyOps (VList l) = (store_set k KpKeyOps (VList (map (fun z => VClass (Cls FOps z)) zs)), Ok tt).
Proof.
  intros k l HF HN. destruct (supported_mapM _ _ HF) as (zs & HM & HZ). exists zs. split; [assumption|].
  cbn [prop_set py_iter]. apply loop_supported; assumption.
Qed.

Lemma loop_rejected : forall v r k, Forall proper_op r -> ~ Forall (supported (k_cls k)) r ->
  exists k' e, key_ops_loop v r k = (k', Err e) /\
    (k' = k \/ exists l m, v = VList l /\ mapM (from_id FOps false) l = Ok m /\ k' = store_set k KpKeyOps (VList m)).
Proof.
  intros v. induction r as [|o r IH]; intros k HP HN; [elim HN; constructor|].
  inversion HP as [|? ? Po Pr]; subst. cbn [key_ops_loop].
  destruct (supported_by (k_cls k) o) as [[|]|e] eqn:E.
  - assert (HN' : ~ Forall (supported (k_cls k)) r).
    { intros HF. apply HN. constructor; [apply supported_by_proper; assumption|assumption]. }
    destruct (base_set_key_ops v k) as [k1|e] eqn:EB; [|eauto 6].
    destruct v; cbn [base_set_key_ops] in EB; try discriminate. inv_bind EB m. injection EB as <-.
    destruct (IH (store_set k KpKeyOps (VList m)) Pr HN') as (k' & e & HE & HK).
    exists k', e. split; [assumption|]. right. exists l, m. split; [reflexivity|]. split; [assumption|].
    destruct HK as [->|(l' & m' & HL & HM & ->)]; [reflexivity|].
    injection HL as <-. rewrite H in HM. injection HM as <-. apply store_set_twice.
  - eauto 6.
  - eauto 6.
Qed.

Lemma key_ops_rejected : forall k l, Forall proper_op l -> ~ Forall (supported (k_cls k)) l ->
  exists k' e, prop_set k PKeyOps (VList l) = (k', Err e) /\
    (k' = k \/ exists m, mapM (from_id FOps false) l = Ok m /\ k' = store_set k KpKeyOps (VList m)).
Proof.
  intros k l HP HN. cbn [prop_set py_iter].
  destruct (loop_rejected (VList l) l k HP HN) as (k' & e & HE & HK). exists k', e. split; [assumption|].
  destruct HK as [->|(l' & m & HL & HM & ->)]; [auto|]. injection HL as <-. right. eauto.
Qed.

Lemma key_ops_first_bad : forall k o l, proper_op o -> ~ supported (k_cls k) o ->
  prop_set k PKeyOps (VList (o :: l)) = (k, Err CoseIllegalKeyOps).
Proof.
  intros k o l HP HN. cbn [prop_set py_iter key_ops_loop]. rewrite supported_by_false by assumption. reflexivity.
Qed.

(** ** Properties read back *)

Lemma prop_name_inj : forall p q, bs (prop_name p) = bs (prop_name q) -> p = q.
Proof. intros [] []; intros H; try reflexivity; vm_compute in H; discriminate. Qed.

Lemma extra_get_set : forall k p v, extra_get (extra_set (prop_name p) v k) p = Ok v.
Proof.
  intros k p v. unfold extra_get, extra_set, with_extra. cbn [k_extra]. rewrite dget_dset_same by apply keyeq_refl.
  reflexivity.
Qed.

Lemma extra_get_other : forall k p q v, q <> p -> extra_get (extra_set (prop_name p) v k) q = extra_get k q.
Proof.
  intros k p q v H. unfold extra_get, extra_set, with_extra. cbn [k_extra]. rewrite dget_dset_other; [reflexivity|].
  rewrite keyeq_str. destruct (bytes_eqb _ _) eqn:E; [|reflexivity]. apply bytes_eqb_eq in E.
  apply prop_name_inj in E. contradiction.
Qed.

(** Where a property lives: a parameter of the store, or an instance attribute. *)
Definition place (c : kclass) (p : kprop) : option cls :=
  match p with
  | PKty => Some KpKty | PAlg => Some KpAlg | PKeyOps => Some KpKeyOps
  | PCrv => crv_prop c
  | PK => match c with KSym => Some SymKpK | _ => None end
  | _ => bytes_prop c p
  end.

(** What reading gives when the parameter is absent. *)
Definition absent_value (p : kprop) : result pyval :=
  match p with
  | PKty | PAlg => Ok VNone
  | PKeyOps => Ok (VList [])
  | PCrv | PK => Err CoseInvalidKey
  | _ => Ok (VBytes [])
  end.

Lemma prop_get_place : forall k p, prop_get k p =
  match place (k_cls k) p with
  | Some q => match param k q with Some v => Ok v | None => absent_value p end
  | None => extra_get k p
  end.
Proof.
  intros k p. destruct p; cbn [prop_get place absent_value]; unfold dget_or, param;
    try (destruct (k_cls k); cbn [crv_prop bytes_prop]); try reflexivity;
    match goal with |- context [dget ?s ?q] => destruct (dget s q); reflexivity end.
Qed.

Lemma prop_set_place : forall k p v k', p <> PKty -> p <> PKeyOps -> prop_set k p v = (k', Ok tt) ->
  match place (k_cls k) p with
  | Some q => exists w, normalised (k_cls k) p v w /\ updates q w k k'
  | None => k' = extra_set (prop_name p) v k
  end.
Proof.
  intros k p v k' H1 H2 H.
  assert (HB : match bytes_prop (k_cls k) p with
    | Some c => attempt k (set_bytes_param c v k)
    | None => (extra_set (prop_name p) v k, Ok tt) end = (k', Ok tt) ->
    match bytes_prop (k_cls k) p with
    | Some q => exists w, v = w /\ updates q w k k' | None => k' = extra_set (prop_name p) v k end).
  { intros HB. destruct (bytes_prop (k_cls k) p).
    - apply attempt_cases in HB as [(e & _ & HE & _)|[HB _]]; [discriminate|].
      apply set_bytes_param_ok in HB as [_ HU]. eauto.
    - injection HB as <-. reflexivity. }
  destruct p; try (elim H1; reflexivity); try (elim H2; reflexivity); cbn [place normalised] in *;
    try (apply HB; assumption).
  - cbn [prop_set] in H. apply attempt_cases in H as [(e & _ & HE & _)|[H _]]; [discriminate|].
    inv_bind H a. injection H as <-. exists a. split; [apply from_id_names; assumption|apply updates_store_set].
  - cbn [prop_set] in H. destruct (k_cls k) eqn:EC; cbn [crv_prop] in H |- *;
      try (injection H as <-; reflexivity);
      (apply attempt_cases in H as [(e & _ & HE & _)|[H _]]; [discriminate|];
       apply set_crv_ok in H as (w & HW & _ & HU); exists w; split; [apply from_id_names|]; assumption).
  - cbn [prop_set] in H. destruct (k_cls k) eqn:EC; try (injection H as <-; reflexivity).
    apply attempt_cases in H as [(e & _ & HE & _)|[H _]]; [discriminate|].
    apply set_k_ok in H as [_ HU]. eauto.
Qed.

Lemma place_inj : forall c p q a, place c p = Some a -> place c q = Some a -> p = q.
Proof.
  intros c p q a HP HQ. destruct c, p; cbn in HP; try discriminate; injection HP as <-;
    destruct q; cbn in HQ; try discriminate; reflexivity.
Qed.

Lemma prop_roundtrip : forall k p v k', p <> PKty -> p <> PKeyOps -> prop_set k p v = (k', Ok tt) ->
  k_cls k' = k_cls k /\
  (exists w, normalised (k_cls k) p v w /\ prop_get k' p = Ok w) /\
  (forall q, q <> p -> prop_get k' q = prop_get k q).
Proof.
  intros k p v k' H1 H2 H. apply prop_set_place in H; [|assumption|assumption].
  destruct (place (k_cls k) p) as [a|] eqn:EP.
  - destruct H as (w & HN & HU). split; [apply HU|]. split.
    + exists w. split; [assumption|]. rewrite prop_get_place, (up_cls _ _ _ _ HU), EP.
      rewrite (updates_same _ _ _ _ HU). reflexivity.
    + intros q HQ. rewrite !prop_get_place, (up_cls _ _ _ _ HU).
      destruct (place (k_cls k) q) as [b|] eqn:EQ.
      * rewrite (updates_other _ _ _ _ b HU); [reflexivity|]. intros ->. apply HQ. eapply place_inj; eassumption.
      * unfold extra_get. rewrite (up_extra _ _ _ _ HU). reflexivity.
  - subst k'. split; [reflexivity|]. split.
    + exists v. split; [destruct p; cbn [normalised] in *; auto; try discriminate; destruct (k_cls k); auto; discriminate|]. rewrite prop_get_place.
      cbn [extra_set with_extra k_cls]. rewrite EP. apply extra_get_set.
    + intros q HQ. rewrite !prop_get_place. cbn [extra_set with_extra k_cls].
      destruct (place (k_cls k) q) as [b|]; [reflexivity|]. apply extra_get_other. assumption.
Qed.

(** [key.kty = v] never stores a key type. *)
Lemma kty_never : forall k v k', prop_set k PKty v = (k', Ok tt) ->
  (forall l, v <> VList l) -> exists c n, In (c, n) (registered FKP) /\ prop_get k' PKty = Ok (VClass c).
Proof.
  intros k v k' H HL. cbn [prop_set] in H. apply attempt_cases in H as [(e & _ & HE & _)|[H _]]; [discriminate|].
  inv_bind H t. injection H as <-. apply from_id_sound in H0 as (c & n & -> & HI); [|assumption].
  exists c, n. split; [assumption|]. cbn [prop_get]. unfold dget_or, store_set. cbn [with_store k_store].
  rewrite dget_dset_same by apply keyeq_refl. reflexivity.
Qed.

(** ** Mapping interface *)

Lemma item_set_get : forall k a v k' b, item_set k a v = (k', Ok tt) ->
  key_transform (k_cls k) true b = key_transform (k_cls k) true a ->
  k_cls k' = k_cls k /\ item_get k' b = Ok v /\ item_in k' b = Ok true.
Proof.
  intros k a v k' b H HB. unfold item_set in H. apply attempt_cases in H as [(e & _ & HE & _)|[H _]]; [discriminate|].
  inv_bind H t. destruct (hashable t) eqn:EH; [|discriminate]. cbn [negb] in H. injection H as <-.
  split; [reflexivity|]. unfold item_get, item_in. cbn [with_store k_cls k_store]. rewrite HB, H0. cbn [bind].
  rewrite EH. cbn [negb]. unfold dmem. rewrite dget_dset_same by apply keyeq_refl. auto.
Qed.

Lemma item_set_other : forall k a v k' b t s, item_set k a v = (k', Ok tt) ->
  key_transform (k_cls k) true a = Ok t -> key_transform (k_cls k) true b = Ok s -> keyeq s t = false ->
  item_get k' b = item_get k b.
Proof.
  intros k a v k' b t s H HA HB HN. unfold item_set in H.
  apply attempt_cases in H as [(e & _ & HE & _)|[H _]]; [discriminate|].
  rewrite HA in H. cbn [bind] in H. destruct (hashable t); [|discriminate]. cbn [negb] in H. injection H as <-.
  unfold item_get. cbn [with_store k_cls k_store]. rewrite HB. cbn [bind].
  rewrite dget_dset_other by assumption. reflexivity.
Qed.

Lemma base_del_gone : forall k a k', dnodup (k_store k) = true -> base_del k a = (k', Ok tt) ->
  item_in k' a = Ok false /\ item_get k' a = Err KeyError.
Proof.
  intros k a k' HN H. apply base_del_cases in H as [(e & HE & _)|(_ & t & HT & HH & HM & ->)]; [discriminate|].
  unfold item_in, item_get. cbn [with_store k_cls k_store]. rewrite HT. cbn [bind]. rewrite HH. cbn [negb].
  unfold dmem. rewrite dget_ddel_same; [auto|assumption|apply keyeq_refl].
Qed.

Lemma removed_gone : forall k k' l t a, removed k k' l -> dnodup (k_store k) = true -> In t l ->
  key_transform (k_cls k) true a = Ok t -> hashable t = true ->
  item_in k' a = Ok false /\ item_get k' a = Err KeyError.
Proof.
  intros k k' l t a (H1 & _ & H3) HN HI HT HH. unfold item_in, item_get. rewrite H1, HT. cbn [bind]. rewrite HH.
  cbn [negb]. assert (HD : dget (k_store k') t = None); [|unfold dmem; rewrite HD; auto].
  rewrite H3. clear -HN HI. revert HN. generalize (k_store k). induction l as [|u l IH]; intros d HN; [destruct HI|].
  cbn [fold_left]. destruct HI as [->|HI].
  - assert (HG : dget (ddel d t) t = None) by (apply dget_ddel_same; [assumption|apply keyeq_refl]).
    clear IH. assert (HN' : dnodup (ddel d t) = true) by (apply dnodup_ddel; assumption).
    revert HG HN'. generalize (ddel d t). induction l as [|u l IH]; intros d0 HG HN'; cbn [fold_left]; [assumption|].
    apply IH; [|apply dnodup_ddel; assumption]. apply dmem_false. apply dmem_ddel_imp. apply dmem_false. assumption.
  - apply IH; [assumption|]. apply dnodup_ddel. assumption.
Qed.

Lemma item_del_gone : forall k a k', dnodup (k_store k) = true -> item_del k a = (k', Ok tt) ->
  item_in k' a = Ok false /\ item_get k' a = Err KeyError.
Proof.
  intros k a k' HN H. unfold item_del in H. cbv zeta in H. destruct (k_cls k) eqn:EC.
  - destruct (key_transform KSym false a); [|discriminate].
    destruct (negb _ && negb _); [|discriminate]. eapply base_del_gone; eassumption.
  - destruct (key_transform KOKP false a); [|discriminate].
    destruct (negb _ && negb _); [|discriminate]. destruct (_ && _); [discriminate|].
    eapply base_del_gone; eassumption.
  - destruct (key_transform KEC2 false a) as [t|] eqn:ET; [|discriminate].
    destruct (negb (veqb t (VClass KpKty)) && negb _); [|discriminate].
    destruct (veqb t (VClass EC2KpD) && _); [discriminate|].
    destruct (veqb t (VClass EC2KpX) && _); [discriminate|].
    destruct ((veqb t (VClass EC2KpX) || veqb t (VClass EC2KpY)) && dmem (k_store k) (VClass EC2KpD)) eqn:E5;
      [|eapply base_del_gone; eassumption].
    apply andb_true_iff in E5 as [E5 _].
    rewrite base_del_class in H by (rewrite EC; apply ec2_x_registered).
    destruct (dmem (k_store k) (VClass EC2KpX)); [|discriminate].
    rewrite base_del_class in H by (cbn [with_store k_cls]; rewrite EC; apply ec2_y_registered).
    destruct (dmem (k_store (with_store k (ddel (k_store k) (VClass EC2KpX)))) (VClass EC2KpY)); [|discriminate].
    injection H as <-. cbn [with_store k_store k_cls k_extra].
    eapply (removed_gone k _ [VClass EC2KpX; VClass EC2KpY] t).
    + repeat split.
    + assumption.
    + apply orb_true_iff in E5 as [E5|E5]; apply veqb_eq in E5; subst; [left|right; left]; reflexivity.
    + rewrite EC. apply transform_allow. assumption.
    + apply orb_true_iff in E5 as [E5|E5]; apply veqb_eq in E5; subst; reflexivity.
  - eapply base_del_gone; eassumption.
Qed.

(** Stores never hold a parameter twice, whatever is done to the key. *)
Lemma mods_nodup : forall P k k', mods P k k' -> dnodup (k_store k) = true -> dnodup (k_store k') = true.
Proof.
  intros P k k' H HN. induction H; auto.
  - destruct H1 as [_ _ ->]. apply dnodup_dset. auto.
  - cbn [with_store k_store]. apply dnodup_dset. auto.
Qed.

Lemma base_del_nodup : forall k a, dnodup (k_store k) = true -> dnodup (k_store (fst (base_del k a))) = true.
Proof.
  intros k a HN. destruct (base_del k a) as [k' x] eqn:E. cbn [fst].
  apply base_del_cases in E as [(e & _ & ->)|(_ & t & _ & _ & _ & ->)]; [assumption|].
  cbn [with_store k_store]. apply dnodup_ddel. assumption.
Qed.

Lemma item_del_nodup : forall k a, dnodup (k_store k) = true -> dnodup (k_store (fst (item_del k a))) = true.
Proof.
  intros k a HN. pose proof (base_del_nodup k a HN) as HB. unfold item_del. cbv zeta. destruct (k_cls k).
  - destruct (key_transform KSym false a); [|assumption]. destruct (_ && _); assumption.
  - destruct (key_transform KOKP false a); [|assumption]. destruct (_ && _); [|assumption].
    destruct (_ && _); assumption.
  - destruct (key_transform KEC2 false a); [|assumption]. destruct (_ && _); [|assumption].
    destruct (_ && _); [assumption|]. destruct (_ && _); [assumption|]. destruct (_ && _); [|assumption].
    pose proof (base_del_nodup k (VClass EC2KpX) HN) as HX.
    destruct (base_del k (VClass EC2KpX)) as [k1 [x|e]]; [|assumption]. apply base_del_nodup. assumption.
  - assumption.
Qed.

Lemma item_pop_nodup : forall k a, dnodup (k_store k) = true -> dnodup (k_store (fst (item_pop k a))) = true.
Proof.
  intros k a HN. unfold item_pop. destruct (item_get k a); [|assumption].
  pose proof (item_del_nodup k a HN). destruct (item_del k a) as [k' [x|e]]; assumption.
Qed.

Lemma item_popitem_nodup : forall k, dnodup (k_store k) = true -> dnodup (k_store (fst (item_popitem k))) = true.
Proof.
  intros k HN. rewrite popitem_fst. destruct (k_store k) as [|[a v] r] eqn:E; [rewrite E; reflexivity|].
  apply item_pop_nodup. rewrite E. assumption.
Qed.

Lemma item_clear_nodup : forall n k, dnodup (k_store k) = true -> dnodup (k_store (fst (item_clear n k))) = true.
Proof.
  induction n as [|n IH]; intros k HN; [assumption|]. cbn [item_clear].
  pose proof (item_popitem_nodup k HN) as HP. destruct (item_popitem k) as [k' [x|[]]]; cbn [fst] in *; auto.
Qed.

Lemma step_nodup : forall o k, dnodup (k_store k) = true -> dnodup (k_store (key_step k o)) = true.
Proof.
  intros o k HN. destruct o; cbn [key_step].
  - destruct (prop_set k p v) as [k' x] eqn:E. apply prop_set_mods in E. eapply mods_nodup; eassumption.
  - destruct (item_set k a v) as [k' x] eqn:E. apply item_set_mods in E. eapply mods_nodup; eassumption.
  - apply item_del_nodup. assumption.
  - apply item_pop_nodup. assumption.
  - apply item_popitem_nodup. assumption.
  - apply item_clear_nodup. assumption.
  - destruct (item_update k d) as [k' x] eqn:E. apply item_update_mods in E. eapply mods_nodup; eassumption.
  - destruct (item_setdefault k a v) as [k' x] eqn:E. apply item_setdefault_mods in E. eapply mods_nodup; eassumption.
Qed.

Lemma constructed_nodup : forall X k, constructed X k -> dnodup (k_store k) = true.
Proof.
  intros X k H. destruct H as [? ? ? ? H|? ? ? ? ? ? H|? ? ? ? ? ? ? H|? ? ? ? H].
  - apply sym_init_fresh in H as (HF & _). apply HF.
  - apply okp_init_fresh in H as (HF & _). apply HF.
  - apply ec2_init_fresh in H as (HF & _). apply HF.
  - apply rsa_init_fresh in H. apply H.
Qed.

Lemma reachable_nodup : forall X k ops, constructed X k -> dnodup (k_store (key_run k ops)) = true.
Proof.
  intros X k ops H. apply (run_inv (fun k => dnodup (k_store k) = true)).
  - intros o k0 _. apply step_nodup.
  - eapply constructed_nodup. eassumption.
Qed.

(** Deletion after any history. *)
Lemma del_gone : forall X k ops a k', constructed X k -> item_del (key_run k ops) a = (k', Ok tt) ->
  item_in k' a = Ok false /\ item_get k' a = Err KeyError.
Proof.
  intros X k ops a k' HC H. eapply item_del_gone; [|eassumption]. eapply reachable_nodup. eassumption.
Qed.

(** Common parameters other than the key type can be deleted from every key. *)
Lemma optional_deletable : forall k p a v, In p [KpKid; KpAlg; KpKeyOps; KpBaseIV] ->
  key_transform (k_cls k) false a = Ok (VClass p) -> param k p = Some v ->
  exists k', item_del k a = (k', Ok tt).
Proof.
  intros k p a v HP HT HV.
  assert (HB : base_del k a = (with_store k (ddel (k_store k) (VClass p)), Ok tt)).
  { unfold base_del. rewrite (transform_allow _ _ _ HT). cbn [bind hashable negb].
    unfold dmem, param in *. rewrite HV. reflexivity. }
  assert (HE : item_del k a = base_del k a); [|rewrite HE, HB; eauto].
  unfold item_del. destruct (k_cls k); try reflexivity; rewrite HT; cbv zeta;
    repeat (destruct HP as [<-|HP]; [reflexivity|]); destruct HP.
Qed.

(** ** RSA forms *)

Lemma all_len_true : forall e l, Forall (fun v => exists n, py_len v = Ok n) l ->
  exists b, all_len e l = Ok b /\
    (b = true <-> Forall (fun v => exists n, py_len v = Ok n /\ Nat.eqb n 0 = e) l).
Proof.
  intros e l H. induction H as [|v l (n & HN) H IH].
  - exists true. split; [reflexivity|]. split; auto.
  - destruct IH as (b & HB & HI). cbn [all_len]. rewrite HN. cbn [bind].
    destruct (Bool.eqb (Nat.eqb n 0) e) eqn:E.
    + exists b. split; [assumption|]. apply eqb_prop in E. rewrite HI. split.
      * intros HF. constructor; eauto.
      * intros HF. inversion HF; assumption.
    + exists false. split; [reflexivity|]. split; [discriminate|]. intros HF.
      inversion HF as [|? ? (n' & HN' & HE') _]; subst. rewrite HN in HN'. injection HN' as <-.
      rewrite eqb_reflx in E. discriminate.
Qed.

Lemma absent_len : forall v n, py_len v = Ok n -> (exists b, v = VBytes b) \/ (exists l, v = VList l) ->
  Nat.eqb n 0 = true <-> absent v.
Proof.
  intros v n HN [[b ->]|[l ->]]; cbn [py_len] in HN; injection HN as <-; unfold absent.
  - destruct b; cbn; split; intros H; try discriminate; auto. destruct H as [H|[H|H]]; discriminate.
  - destruct l; cbn; split; intros H; try discriminate; auto. destruct H as [H|[H|H]]; discriminate.
Qed.

Definition sized (v : pyval) : Prop := (exists b, v = VBytes b) \/ (exists l, v = VList l).

Lemma sized_len : forall v, sized v -> exists n, py_len v = Ok n.
Proof. intros v [[b ->]|[l ->]]; cbn [py_len]; eauto. Qed.

Lemma all_len_spec : forall (e : bool) l, Forall sized l ->
  exists b, all_len e l = Ok b /\ (b = true <-> Forall (fun v => if e then absent v else ~ absent v) l).
Proof.
  intros e l H. destruct (all_len_true e l) as (b & HB & HI).
  - eapply Forall_impl; [|exact H]. apply sized_len.
  - exists b. split; [assumption|]. rewrite HI. clear HB HI b. induction H as [|v l HS H IH].
    + split; intros _; constructor.
    + assert (HE : (exists n, py_len v = Ok n /\ Nat.eqb n 0 = e) <-> (if e then absent v else ~ absent v)).
      { destruct (sized_len v HS) as [n HN]. pose proof (absent_len v n HN HS) as HA. split.
        - intros (n' & HN' & HE). rewrite HN in HN'. injection HN' as <-.
          destruct e; [apply HA; assumption|]. intros H'. apply HA in H'. congruence.
        - intros HE. exists n. split; [assumption|]. destruct e; [apply HA; assumption|].
          destruct (Nat.eqb n 0); [elim HE; apply HA; reflexivity|reflexivity]. }
      split; intros HF; inversion HF; subst; constructor; try (apply HE; assumption); apply IH; assumption.
Qed.

Ltac forall_list := repeat (apply Forall_cons; [assumption|]); apply Forall_nil.

Lemma rsa_valid_spec : forall a, rsa_typed a -> (exists l, ra_other a = VList l) ->
  exists b, rsa_valid a = Ok b /\
    (b = true <-> rsa_public_form a \/ rsa_two_prime_form a \/ rsa_multi_prime_form a).
Proof.
  intros a [HB _] HO. destruct a as [n e d p q dp dq qi ot ri di ti].
  cbn [ra_n ra_e ra_d ra_p ra_q ra_dp ra_dq ra_qinv ra_other ra_ri ra_di ra_ti] in *.
  assert (HS : Forall sized [n; e; d; p; q; dp; dq; qi; ri; di; ti]).
  { eapply Forall_impl; [|exact HB]. intros v Hv. left. assumption. }
  assert (HSo : sized ot) by (right; assumption). clear HB HO.
  repeat match goal with H : Forall _ (_ :: _) |- _ => inversion H; clear H; subst end.
  unfold rsa_valid, rsa_public_form, rsa_two_prime_form, rsa_multi_prime_form.
  cbn [ra_n ra_e ra_d ra_p ra_q ra_dp ra_dq ra_qinv ra_other ra_ri ra_di ra_ti].
  assert (FP : forall l, Forall sized l -> forall e, exists b, all_len e l = Ok b /\
    (b = true <-> Forall (fun v => if e then absent v else ~ absent v) l)) by (intros; apply all_len_spec; assumption).
  destruct (FP [n; e] ltac:(forall_list) false) as (b1 & -> & I1).
  destruct (FP [d; p; q; dp; dq; qi; ot; ri; di; ti] ltac:(forall_list) true) as (b2 & E2 & I2).
  destruct (FP [ot; ri; ti; di] ltac:(forall_list) true) as (b3 & E3 & I3).
  destruct (FP [n; e; d; p; q; dp; dq; qi] ltac:(forall_list) false) as (b4 & E4 & I4).
  destruct (FP [n; e; d; p; q; dp; dq; qi; ot; ri; di; ti] ltac:(forall_list) false) as (b5 & E5 & I5).
  cbv beta iota in I1, I2, I3, I4, I5. cbn [bind].
  assert (I3' : b3 = true <-> Forall absent [ot; ri; di; ti]).
  { rewrite I3. split; intros HF; repeat match goal with H : Forall _ (_ :: _) |- _ => inversion H; clear H; subst end;
      forall_list. }
  destruct b1; cbn [bind]; rewrite ?E2; cbn [bind].
  - destruct b2.
    + exists true. split; [reflexivity|]. split; [|reflexivity]. intros _. left.
      split; [apply I1; reflexivity|apply I2; reflexivity].
    + rewrite E3. cbn [bind]. destruct b3; cbn [bind]; rewrite ?E4; cbn [bind].
      * destruct b4.
        -- exists true. split; [reflexivity|]. split; [|reflexivity]. intros _. right. left.
           split; [apply I4; reflexivity|apply I3'; reflexivity].
        -- exists b5. split; [assumption|]. rewrite I5. split; [auto|]. intros [[_ H]|[[H _]|H]]; [| |assumption].
           ++ apply I2 in H. discriminate.
           ++ apply I4 in H. discriminate.
      * exists b5. split; [assumption|]. rewrite I5. split; [auto|]. intros [[_ H]|[[_ H]|H]]; [| |assumption].
        -- apply I2 in H. discriminate.
        -- apply I3' in H. discriminate.
  - rewrite E3. cbn [bind].
    assert (HN : ~ Forall (fun v => ~ absent v) [n; e]) by (intros H; apply I1 in H; discriminate).
    destruct b3; cbn [bind]; rewrite ?E4; cbn [bind].
    + destruct b4.
      * exists true. split; [reflexivity|]. split; [|reflexivity]. intros _. right. left.
        split; [apply I4; reflexivity|apply I3'; reflexivity].
      * exists b5. split; [assumption|]. rewrite I5. split; [auto|]. intros [[H _]|[[H _]|H]]; [| |assumption].
        -- contradiction.
        -- apply I4 in H. discriminate.
    + exists b5. split; [assumption|]. rewrite I5. split; [auto|]. intros [[H _]|[[_ H]|H]]; [| |assumption].
      * contradiction.
      * apply I3' in H. discriminate.
Qed.

Definition rsa_default (a : rsa_args) : rsa_args :=
  let other := if is_none (ra_other a) then VList [] else ra_other a in
  RsaArgs (ra_n a) (ra_e a) (ra_d a) (ra_p a) (ra_q a) (ra_dp a) (ra_dq a)
          (ra_qinv a) other (ra_ri a) (ra_di a) (ra_ti a).

Lemma rsa_forms_default : forall a, rsa_typed a ->
  (rsa_public_form a \/ rsa_two_prime_form a \/ rsa_multi_prime_form a <->
   rsa_public_form (rsa_default a) \/ rsa_two_prime_form (rsa_default a) \/ rsa_multi_prime_form (rsa_default a)).
Proof.
  intros a [_ [HO|[l HO]]]; unfold rsa_default; rewrite HO; cbn [is_none].
  - destruct a as [n e d p q dp dq qi ot ri di ti]. cbn [ra_other] in HO. subst ot.
    unfold rsa_public_form, rsa_two_prime_form, rsa_multi_prime_form.
    cbn [ra_n ra_e ra_d ra_p ra_q ra_dp ra_dq ra_qinv ra_other ra_ri ra_di ra_ti].
    assert (A1 : absent VNone) by (unfold absent; auto). assert (A2 : absent (VList [])) by (unfold absent; auto).
    split; (intros [[H1 H2]|[[H1 H2]|H1]]; [left|right; left|right; right]);
      repeat match goal with H : Forall _ (_ :: _) |- _ => inversion H; clear H; subst end;
      try contradiction; try split; forall_list.
  - rewrite <- HO. destruct a; reflexivity.
Qed.

Lemma set_bytes_total : forall p b k, exists k', set_bytes_param p (VBytes b) k = Ok k'.
Proof. intros. cbn [set_bytes_param]. eauto. Qed.
Lemma set_unless_total : forall p b k, exists k', set_unless_empty p (VBytes b) k = Ok k'.
Proof. intros. unfold set_unless_empty. destruct (veqb _ _); cbn [set_bytes_param]; eauto. Qed.

Lemma rsa_init_iff : forall a allow, rsa_typed a ->
  ((exists k, rsa_init a VNone allow = Ok k) <->
   rsa_public_form a \/ rsa_two_prime_form a \/ rsa_multi_prime_form a) /\
  (~ (rsa_public_form a \/ rsa_two_prime_form a \/ rsa_multi_prime_form a) ->
   rsa_init a VNone allow = Err CoseInvalidKey).
Proof.
  intros a allow HT.
  assert (HT' : rsa_typed (rsa_default a)).
  { destruct HT as [H1 H2]. split; [exact H1|]. unfold rsa_default. cbn [ra_other].
    destruct H2 as [->|[l ->]]; cbn [is_none]; eauto. }
  assert (HO : exists l, ra_other (rsa_default a) = VList l).
  { destruct HT as [_ [H|[l H]]]; unfold rsa_default; cbn [ra_other]; rewrite H; cbn [is_none]; eauto. }
  destruct (rsa_valid_spec _ HT' HO) as (b & HV & HI).
  rewrite <- (rsa_forms_default a HT) in HI.
  assert (HE : rsa_init a VNone allow = if b then rsa_init a VNone allow else Err CoseInvalidKey).
  { destruct b; [reflexivity|]. unfold rsa_init. cbv zeta.
    change (rsa_valid _) with (rsa_valid (rsa_default a)). rewrite HV. reflexivity. }
  split; [split|].
  - intros [k H]. apply HI. destruct b; [reflexivity|]. rewrite HE in H. discriminate.
  - intros HF. apply HI in HF. subst b. unfold rsa_init. cbv zeta.
    change (rsa_valid _) with (rsa_valid (rsa_default a)). rewrite HV. cbn [bind negb].
    assert (HC : exists k, common_init KRSA VNone allow = Ok k) by (vm_compute; eauto).
    destruct HC as [k HC]. rewrite HC. cbn [bind].
    destruct HT as [HB _]. destruct a as [n e d p q dp dq qi ot ri di ti].
    cbn [ra_n ra_e ra_d ra_p ra_q ra_dp ra_dq ra_qinv ra_other ra_ri ra_di ra_ti] in *.
    repeat match goal with H : Forall _ (_ :: _) |- _ => inversion H; clear H; subst end.
    repeat match goal with H : exists b, _ = VBytes b |- _ => destruct H as [? ->] end.
    repeat match goal with
    | |- exists k', bind (set_bytes_param ?p (VBytes ?b) ?k) _ = _ =>
      let k1 := fresh "k" in let E := fresh "E" in
      destruct (set_bytes_total p b k) as [k1 E]; rewrite E; cbn [bind]; clear E
    | |- exists k', bind (set_unless_empty ?p (VBytes ?b) ?k) _ = _ =>
      let k1 := fresh "k" in let E := fresh "E" in
      destruct (set_unless_total p b k) as [k1 E]; rewrite E; cbn [bind]; clear E
    end. eauto.
  - intros HN. rewrite HE. destruct b; [elim HN; apply HI|]; reflexivity.
Qed.
