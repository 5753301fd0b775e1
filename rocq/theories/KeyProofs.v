(** Lemmas about key objects: construction, invariants under any history. *)
From Coq Require Import NArith ZArith Bool String Lia ZifyBool ZifyNat ZifyN.
From Coq Require Import Init.Byte List.
From Verif Require Import Bytes BytesProofs Value ValueProofs Registry SpecRegistry RegistryProofs Crypto Keys SpecKeys.
Import ListNotations.
Local Open Scope result_scope.

Ltac inv_bind H x := apply bind_ok in H as (x & ? & H).

(** ** Lookup *)

Lemma from_id_allow : forall f v w, from_id f false v = Ok w -> from_id f true v = Ok w.
Proof.
  intros f v w H. destruct v; cbn [from_id] in *; try discriminate; try assumption;
    destruct (dget (registry f) _); assumption || discriminate.
Qed.

Lemma from_id_hashable : forall f allow v w, from_id f allow v = Ok w -> hashable w = false ->
  hashable v = false.
Proof.
  intros f allow v w H HW. destruct (hashable v) eqn:E; [|reflexivity].
  destruct v; cbn [from_id hashable] in *; try discriminate;
    try (destruct allow; [injection H as <-; cbn [hashable] in HW; congruence|discriminate]);
    match type of H with context [dget ?r ?k] => destruct (dget r k) eqn:D end;
    try (destruct allow; [injection H as <-; cbn [hashable] in HW; congruence|discriminate]);
    apply registry_get in D as (c' & n & _ & -> & _); injection H as <-; discriminate.
Qed.

(** Looking up the result of a lookup changes nothing. *)
Lemma from_id_fixed : forall f a t, from_id f true a = Ok t -> hashable t = true -> from_id f true t = Ok t.
Proof.
  intros f a t H HT.
  assert (HR : forall k c, dget (registry f) k = Some c -> from_id f true c = Ok c).
  { intros k c D. apply registry_get in D as (c' & n & HI & -> & _).
    apply (from_id_registered f c' n HI). }
  destruct a; cbn [from_id] in H;
    try (match type of H with context [dget ?r ?k] => destruct (dget r k) eqn:D end;
         [injection H as <-; eapply HR; eassumption|injection H as <-; cbn [from_id]; rewrite D; reflexivity]);
    try (injection H as <-; reflexivity).
  inv_bind H l'. injection H as <-. discriminate.
Qed.

(** ** Construction *)

Definition hd_kty (d : dict) : Prop := exists v r, d = (VClass KpKty, v) :: r.

Lemma hd_kty_dset : forall d k v, hd_kty d -> hd_kty (dset d k v).
Proof.
  intros d k v (v0 & r & ->). cbn [dset]. destruct (keyeq k (VClass KpKty)); red; eauto.
Qed.

Lemma hd_kty_ddel : forall d k, hd_kty d -> keyeq k (VClass KpKty) = false -> hd_kty (ddel d k).
Proof. intros d k (v0 & r & ->) H. cbn [ddel]. rewrite H. red. eauto. Qed.

Lemma transform_params_inv : forall (Q : dict -> Prop) c allow,
  (forall d a p v w, from_id (param_fam c) allow a = Ok p -> hashable p = true -> parse_kp p v = Ok w -> Q d -> Q (dset d p w)) ->
  forall opts acc d, transform_params c allow opts acc = Ok d -> Q acc -> Q d.
Proof.
  intros Q c allow HQ. induction opts as [|[a v] opts IH]; intros acc d H HA; cbn [transform_params] in H.
  - injection H as <-. assumption.
  - inv_bind H kp. inv_bind H v'. destruct (hashable kp) eqn:HH; [|discriminate]. eapply IH; [eassumption|]. eapply HQ; eassumption.
Qed.

Record fresh (c : kclass) (k : key) : Prop := {
  fr_cls : k_cls k = c;
  fr_nodup : dnodup (k_store k) = true;
  fr_hd : hd_kty (k_store k);
  fr_kty : param k KpKty = Some (kty_of c) }.

Lemma common_init_fresh : forall c opt allow k, common_init c opt allow = Ok k -> fresh c k.
Proof.
  intros c opt allow k H. unfold common_init in H. inv_bind H opts. inv_bind H d.
  assert (HD : dnodup d = true /\ hd_kty d).
  { refine (transform_params_inv (fun d => dnodup d = true /\ hd_kty d) c allow _ _ _ _ H1 _).
    - intros d0 a p v w _ _ _ [Ha Hb]. split; [apply dnodup_dset|apply hd_kty_dset]; assumption.
    - split; [reflexivity|]. red. eauto. }
  destruct HD as [HN HH].
  destruct (veqb (dget_or d (VClass KpKty) VNone) (kty_of c)) eqn:E; [|discriminate].
  apply veqb_eq in E. unfold dget_or in E.
  assert (HK : dget d (VClass KpKty) = Some (kty_of c)).
  { destruct (dget d (VClass KpKty)) as [v|]; [congruence|]. destruct c; discriminate. }
  unfold base_init in H. destruct (dget d (VClass KpKeyOps)) as [ops|] eqn:EO.
  - inv_bind H n. destruct (Nat.eqb n 0); injection H as <-.
    + constructor; cbn [k_cls k_store]; try reflexivity.
      * apply dnodup_ddel. assumption.
      * apply hd_kty_ddel; [assumption|reflexivity].
      * unfold param. cbn [k_store]. rewrite dget_ddel_other by reflexivity. assumption.
    + constructor; try reflexivity; assumption.
  - injection H as <-. constructor; try reflexivity; assumption.
Qed.

(** Setters keep everything but their own parameter. *)
Record updates (p : cls) (v : pyval) (k k' : key) : Prop := {
  up_cls : k_cls k' = k_cls k;
  up_extra : k_extra k' = k_extra k;
  up_store : k_store k' = dset (k_store k) (VClass p) v }.

Lemma updates_store_set : forall k p v, updates p v k (store_set k p v).
Proof. intros k p v. constructor; reflexivity. Qed.

Lemma updates_same : forall p v k k', updates p v k k' -> param k' p = Some v.
Proof. intros p v k k' [_ _ H]. unfold param. rewrite H. apply dget_dset_same, keyeq_refl. Qed.

Lemma keyeq_class_ne : forall p q, p <> q -> keyeq (VClass p) (VClass q) = false.
Proof.
  intros p q H. destruct (keyeq (VClass p) (VClass q)) eqn:E; [|reflexivity].
  apply keyeq_class in E. congruence.
Qed.

Lemma updates_other : forall p v k k' q, updates p v k k' -> q <> p -> param k' q = param k q.
Proof.
  intros p v k k' q [_ _ H] HN. unfold param. rewrite H. apply dget_dset_other.
  apply keyeq_class_ne. assumption.
Qed.

Lemma updates_fresh : forall p v c k k', updates p v k k' -> fresh c k ->
  (p <> KpKty \/ v = kty_of c) -> fresh c k'.
Proof.
  intros p v c k k' HU HF HP. pose proof HU as [H1 H2 H3]. destruct HF as [F1 F3 F4 F5].
  constructor; try congruence.
  - rewrite H3. apply dnodup_dset. assumption.
  - rewrite H3. apply hd_kty_dset. assumption.
  - destruct HP as [HP| ->].
    + rewrite (updates_other _ _ _ _ KpKty HU) by congruence. assumption.
    + unfold param. rewrite H3, dget_dset. destruct (keyeq (VClass KpKty) (VClass p)); [reflexivity|].
      assumption.
Qed.

Lemma set_bytes_param_ok : forall p v k k', set_bytes_param p v k = Ok k' ->
  (exists b, v = VBytes b) /\ updates p v k k'.
Proof.
  intros p v k k' H. destruct v; cbn [set_bytes_param] in H; try discriminate. injection H as <-.
  split; [eauto|apply updates_store_set].
Qed.

Lemma set_unless_empty_ok : forall p v k k', set_unless_empty p v k = Ok k' ->
  (v = VBytes [] /\ k' = k) \/ (exists b, v = VBytes b /\ b <> []) /\ updates p v k k'.
Proof.
  intros p v k k' H. unfold set_unless_empty in H. destruct (veqb v (VBytes [])) eqn:E.
  - apply veqb_eq in E. injection H as <-. auto.
  - apply set_bytes_param_ok in H as [[b ->] HU]. right. split; [|assumption].
    exists b. split; [reflexivity|]. intros ->. discriminate.
Qed.

Lemma set_k_ok : forall v k k', set_k v k = Ok k' -> legal_k v /\ updates SymKpK v k k'.
Proof.
  intros v k k' H. destruct v; cbn [set_k] in H; try discriminate.
  destruct (existsb (Nat.eqb (length b)) [16; 24; 32]) eqn:E; [|discriminate]. injection H as <-.
  split; [|apply updates_store_set]. exists b. split; [reflexivity|].
  apply existsb_exists in E as (n & HI & HE). apply Nat.eqb_eq in HE. congruence.
Qed.

Lemma type_of_kty : forall c, type_of c = kty_of c.
Proof. intros []; reflexivity. Qed.

Lemma curve_ids_kty : forall c z, In z (curve_ids c) <-> curve_key_type z = kty_of c.
Proof.
  intros c z. unfold curve_key_type. destruct (existsb (Z.eqb z) [1; 2; 3; 8]%Z) eqn:E1.
  - apply existsb_exists in E1 as (n & HI & HE). apply Z.eqb_eq in HE. subst n.
    cbn [In] in HI. repeat destruct HI as [<-|HI]; [..|destruct HI]; destruct c; cbn; (split; intros H); try discriminate; intuition discriminate.
  - destruct (existsb (Z.eqb z) [4; 5; 6; 7]%Z) eqn:E2.
    + apply existsb_exists in E2 as (n & HI & HE). apply Z.eqb_eq in HE. subst n.
      cbn [In] in HI. repeat destruct HI as [<-|HI]; [..|destruct HI]; destruct c; cbn; (split; intros H); try discriminate; intuition discriminate.
    + split; intros H.
      * exfalso. destruct c; cbn in H; repeat destruct H as [<-|H]; try discriminate; destruct H.
      * destruct c; discriminate.
Qed.

Lemma ec2_curve_in : forall c, curve_key_type c = KtyEC2 -> In (c, curve_size c) ec2_curves.
Proof.
  intros c H. destruct c as [|q|q]; try discriminate H.
  repeat (destruct q as [q|q|]; try discriminate H); cbn [ec2_curves In]; vm_compute; tauto.
Qed.

Lemma curve_size_spec : forall c size, In (c, size) ec2_curves -> curve_size c = size /\ size <> 0.
Proof.
  intros c size H. cbn [ec2_curves In] in H. destruct H as [E|[E|[E|[E|[]]]]]; injection E as <- <-; (split; [reflexivity|discriminate]).
Qed.

Lemma denotes_iff : forall c a p, denotes c a p <-> key_transform c true a = Ok (VClass p).
Proof. intros c a p. unfold denotes, key_transform. change (params_of c) with (param_fam c). apply stands_class. Qed.

Lemma set_crv_ok : forall p kty v k k', set_crv p kty v k = Ok k' ->
  exists w, from_id FCrv false v = Ok w /\ (forall c, kty = kty_of c -> curve_of c w) /\ updates p w k k'.
Proof.
  intros p kty v k k' H. unfold set_crv in H. inv_bind H w. exists w. split; [assumption|].
  destruct w; try discriminate.
  destruct (veqb (curve_key_type (c_id c)) kty) eqn:E; [|discriminate]. injection H as <-.
  apply veqb_eq in E. split; [|apply updates_store_set]. intros c' ->.
  apply from_id_names in H0. inversion H0 as [? c0 n HI|]; subst.
  assert (HF : c_fam c = FCrv).
  { change (registered FCrv) with (classes_of FCrv (own_table FCrv)) in HI. unfold classes_of in HI.
    apply in_map_iff in HI as (e & HE & _). injection HE as <- _. reflexivity. }
  exists (c_id c). split; [destruct c; cbn in HF; subst; reflexivity|]. apply curve_ids_kty. exact E.
Qed.

(** Fresh keys by class. *)
Lemma sym_init_fresh : forall kv opt allow k, sym_init kv opt allow = Ok k ->
  fresh KSym k /\ legal_k kv /\ param k SymKpK = Some kv.
Proof.
  intros kv opt allow k H. unfold sym_init in H. inv_bind H k0. apply common_init_fresh in H0.
  destruct (veqb kv (VBytes [])); [discriminate|]. apply set_k_ok in H as [HL HU].
  split; [|split; [assumption|eapply updates_same; eassumption]].
  eapply updates_fresh; [eassumption|assumption|]. left. discriminate.
Qed.

Ltac fresh_step :=
  match goal with
  | HU : updates ?p ?v ?k ?k', HF : fresh ?c ?k |- _ =>
    lazymatch goal with
    | _ : fresh c k' |- _ => fail
    | _ => assert (fresh c k') by (eapply updates_fresh; [exact HU|exact HF|left; discriminate])
    end
  end.

Lemma okp_init_fresh : forall crv x d opt allow k, okp_init crv x d opt allow = Ok k ->
  fresh KOKP k /\ (exists w, param k OKPKpCurve = Some w /\ curve_of KOKP w) /\
  (has k OKPKpX \/ has k OKPKpD).
Proof.
  intros crv x d opt allow k H. unfold okp_init in H. inv_bind H k0. apply common_init_fresh in H0.
  inv_bind H nx. inv_bind H none. destruct none; [discriminate|].
  destruct (is_none crv); [discriminate|].
  inv_bind H k1. inv_bind H k2. apply set_crv_ok in H3 as (w & _ & HW & HU1).
  specialize (HW KOKP eq_refl).
  fresh_step.
  assert (HC1 : param k1 OKPKpCurve = Some w) by (eapply updates_same; eassumption).
  apply set_unless_empty_ok in H4 as [[-> ->]|[[bx [-> Hbx]] HU2]];
    apply set_unless_empty_ok in H as [[-> ->]|[[bd [-> Hbd]] HU3]].
  - cbn [py_len length] in H1. injection H1 as <-. cbn in H2. discriminate.
  - fresh_step. split; [assumption|]. split.
    + exists w. rewrite (updates_other _ _ _ _ OKPKpCurve HU3) by discriminate. auto.
    + right. unfold has. rewrite (updates_same _ _ _ _ HU3). discriminate.
  - fresh_step. split; [assumption|]. split.
    + exists w. rewrite (updates_other _ _ _ _ OKPKpCurve HU2) by discriminate. auto.
    + left. unfold has. rewrite (updates_same _ _ _ _ HU2). discriminate.
  - fresh_step. fresh_step. split; [assumption|]. split.
    + exists w. rewrite (updates_other _ _ _ _ OKPKpCurve HU3) by discriminate.
      rewrite (updates_other _ _ _ _ OKPKpCurve HU2) by discriminate. auto.
    + right. unfold has. rewrite (updates_same _ _ _ _ HU3). discriminate.
Qed.

Lemma truthy_not_empty : forall v, truthy v = true -> v <> VBytes [].
Proof. intros v H ->. discriminate. Qed.

Section WithX.
Variable X : crypto.

Lemma ec2_init_fresh : forall crv x y d opt allow k, ec2_init X crv x y d opt allow = Ok k ->
  fresh KEC2 k /\ (exists w, param k EC2KpCurve = Some w /\ curve_of KEC2 w) /\
  (has k EC2KpX \/ has k EC2KpD).
Proof.
  intros crv x y d opt allow k H. unfold ec2_init in H. inv_bind H k0. apply common_init_fresh in H0.
  destruct (is_none crv); [discriminate|].
  inv_bind H k1. apply set_crv_ok in H1 as (w & _ & HW & HU1).
  specialize (HW KEC2 eq_refl). fresh_step.
  assert (HC1 : param k1 EC2KpCurve = Some w) by (eapply updates_same; eassumption).
  destruct (negb (truthy x) && negb (truthy y) && negb (truthy d)); [discriminate|].
  destruct (negb (truthy d) && negb (truthy x)) eqn:ET; [discriminate|].
  apply bind_ok in H as ([x1 y1] & HXY & H). inv_bind H y2. inv_bind H k2. inv_bind H k3.
  apply set_unless_empty_ok in H3 as [[-> ->]|[[bx [-> Hbx]] HU2]];
  apply set_unless_empty_ok in H4 as [[-> ->]|[[by_ [-> Hby]] HU3]];
  apply set_unless_empty_ok in H as [[-> ->]|[[bd [-> Hbd]] HU4]];
  repeat fresh_step;
  (split; [assumption|]); (split;
   [exists w; split; [|assumption];
    repeat match goal with HU : updates ?p ?v ?k ?k' |- param ?k' _ = _ =>
      rewrite (updates_other _ _ _ _ EC2KpCurve HU) by discriminate end; assumption|]);
  try (right; unfold has; rewrite (updates_same _ _ _ _ HU4); discriminate).
  - exfalso. destruct (truthy (VBytes [])) eqn:E; [discriminate|]. cbn in HXY. injection HXY as -> ->.
    cbn in ET. discriminate.
  - exfalso. cbn in HXY. injection HXY as -> ->. cbn in ET. discriminate.
  - left. unfold has. rewrite (updates_same _ _ _ _ HU2). discriminate.
  - left. unfold has. rewrite (updates_other _ _ _ _ EC2KpX HU3) by discriminate.
    rewrite (updates_same _ _ _ _ HU2). discriminate.
Qed.

End WithX.

Ltac unless_step :=
  match goal with
  | H : set_unless_empty _ _ _ = Ok _ |- _ =>
    apply set_unless_empty_ok in H as [[? ->]|[? ?]]
  end.

Lemma extra_set_fresh : forall c k n v, k_cls k = c -> k_cls (extra_set n v k) = c.
Proof. intros. assumption. Qed.

Lemma fresh_extra : forall c k n v, fresh c k -> fresh c (extra_set n v k).
Proof. intros c k n v []. constructor; assumption. Qed.

Lemma fresh_extra_unless : forall c k n v, fresh c k -> fresh c (extra_unless_empty n v k).
Proof. intros c k n v H. unfold extra_unless_empty. destruct (veqb v (VBytes [])); [assumption|]. apply fresh_extra. assumption. Qed.

Lemma fresh_unless : forall c p v k k', set_unless_empty p v k = Ok k' -> fresh c k -> p <> KpKty -> fresh c k'.
Proof.
  intros c p v k k' H HF HP. apply set_unless_empty_ok in H as [[_ ->]|[_ HU]]; [assumption|].
  eapply updates_fresh; eauto.
Qed.

Lemma fresh_bytes : forall c p v k k', set_bytes_param p v k = Ok k' -> fresh c k -> p <> KpKty -> fresh c k'.
Proof.
  intros c p v k k' H HF HP. apply set_bytes_param_ok in H as [_ HU]. eapply updates_fresh; eauto.
Qed.

Lemma rsa_init_fresh : forall a opt allow k, rsa_init a opt allow = Ok k -> fresh KRSA k.
Proof.
  intros a opt allow k H. unfold rsa_init in H. cbv zeta in H. inv_bind H ok.
  destruct ok; [|discriminate]. cbn [negb] in H. inv_bind H k0. apply common_init_fresh in H1.
  do 8 (let k1 := fresh "k" in inv_bind H k1; match goal with HF : fresh _ ?k0, HS : _ _ _ ?k0 = Ok _ |- _ =>
    first [apply (fresh_bytes _ _ _ _ _ HS) in HF|apply (fresh_unless _ _ _ _ _ HS) in HF];
    [|discriminate]; clear HS end).
  injection H as <-. apply fresh_extra_unless, fresh_extra_unless, fresh_extra_unless.
  destruct (truthy _); [apply fresh_extra|]; assumption.
Qed.

(** ** Item deletion *)

Lemma attempt_cases : forall k r k' x, attempt k r = (k', x) ->
  (exists e, r = Err e /\ x = Err e /\ k' = k) \/ (r = Ok k' /\ x = Ok tt).
Proof.
  intros k [a|e] k' x H; cbn [attempt] in H; injection H as <- <-; [right|left]; eauto.
Qed.

Lemma base_del_cases : forall k a k' x, base_del k a = (k', x) ->
  (exists e, x = Err e /\ k' = k) \/
  (x = Ok tt /\ exists t, key_transform (k_cls k) true a = Ok t /\ hashable t = true /\
     dmem (k_store k) t = true /\ k' = with_store k (ddel (k_store k) t)).
Proof.
  intros k a k' x H. unfold base_del in H. apply attempt_cases in H as [(e & _ & -> & ->)|[H ->]].
  - left. eauto.
  - right. split; [reflexivity|]. inv_bind H t. exists t.
    destruct (hashable t) eqn:E; [|discriminate]. cbn [negb] in H.
    destruct (dmem (k_store k) t) eqn:E1; [|discriminate]. injection H as <-. auto.
Qed.

Lemma transform_class : forall c allow a t, key_transform c allow a = Ok t ->
  hashable t = true -> allow = false -> exists p n, t = VClass p /\ In (p, n) (registered (param_fam c)).
Proof.
  intros c allow a t H HH ->. unfold key_transform in H. eapply from_id_sound; [eassumption|].
  intros l ->. cbn [from_id] in H. inv_bind H l'. injection H as <-. discriminate.
Qed.

(** What a deletion can do to the store. [steps] lists the removed entries. *)
Definition removed (k k' : key) (l : list pyval) : Prop :=
  k_cls k' = k_cls k /\ k_extra k' = k_extra k /\ k_store k' = fold_left ddel l (k_store k).

Lemma removed_nil : forall k, removed k k [].
Proof. intros k. repeat split. Qed.

Lemma base_del_removed : forall k a k' x, base_del k a = (k', x) ->
  removed k k' [] \/ exists t, key_transform (k_cls k) true a = Ok t /\ hashable t = true /\
    dmem (k_store k) t = true /\ x = Ok tt /\ removed k k' [t].
Proof.
  intros k a k' x H. apply base_del_cases in H as [(e & _ & ->)|(-> & t & H1 & H2 & H3 & ->)].
  - left. apply removed_nil.
  - right. exists t. repeat split; assumption.
Qed.

Lemma is_class : forall t c, veqb t (VClass c) = true <-> t = VClass c.
Proof. intros. apply veqb_eq. Qed.

Lemma transform_allow : forall c a t, key_transform c false a = Ok t -> key_transform c true a = Ok t.
Proof. intros. apply from_id_allow. assumption. Qed.

Lemma veqb_false : forall a b, veqb a b = false <-> a <> b.
Proof.
  intros a b. split; intros H.
  - intros ->. rewrite veqb_refl in H. discriminate.
  - destruct (veqb a b) eqn:E; [|reflexivity]. apply veqb_eq in E. congruence.
Qed.

Lemma sym_del_removed : forall k a k' x, k_cls k = KSym -> item_del k a = (k', x) ->
  removed k k' [] \/ exists t, x = Ok tt /\ key_transform KSym true a = Ok t /\ removed k k' [t] /\
    t <> VClass KpKty /\ t <> VClass SymKpK.
Proof.
  intros k a k' x HC H. unfold item_del in H. rewrite HC in H. cbv zeta in H.
  destruct (key_transform KSym false a) as [t|e] eqn:E; [|injection H as <- <-; left; apply removed_nil].
  destruct (veqb t (VClass KpKty)) eqn:E1; [injection H as <- <-; left; apply removed_nil|].
  destruct (veqb t (VClass SymKpK)) eqn:E2; [injection H as <- <-; left; apply removed_nil|].
  cbn [negb andb] in H. apply base_del_removed in H as [H|(t' & H1 & H2 & H3 & H4 & H5)]; [left; assumption|].
  rewrite HC in H1. pose proof (transform_allow _ _ _ E) as E'. rewrite E' in H1. injection H1 as <-.
  right. exists t. apply veqb_false in E1, E2. auto.
Qed.

Lemma okp_del_removed : forall k a k' x, k_cls k = KOKP -> item_del k a = (k', x) ->
  removed k k' [] \/ exists t, x = Ok tt /\ key_transform KOKP true a = Ok t /\ removed k k' [t] /\
    t <> VClass KpKty /\ t <> VClass OKPKpCurve /\ (t = VClass OKPKpX -> has k OKPKpD).
Proof.
  intros k a k' x HC H. unfold item_del in H. rewrite HC in H. cbv zeta in H.
  destruct (key_transform KOKP false a) as [t|e] eqn:E; [|injection H as <- <-; left; apply removed_nil].
  destruct (veqb t (VClass KpKty)) eqn:E1; [injection H as <- <-; left; apply removed_nil|].
  destruct (veqb t (VClass OKPKpCurve)) eqn:E2; [injection H as <- <-; left; apply removed_nil|].
  cbn [negb andb] in H.
  destruct (veqb t (VClass OKPKpX) && negb (dmem (k_store k) (VClass OKPKpD))) eqn:E3;
    [injection H as <- <-; left; apply removed_nil|].
  apply base_del_removed in H as [H|(t' & H1 & H2 & H3 & H4 & H5)]; [left; assumption|].
  rewrite HC in H1. pose proof (transform_allow _ _ _ E) as E'. rewrite E' in H1. injection H1 as <-.
  right. exists t. apply veqb_false in E1, E2.
  split; [assumption|]. split; [assumption|]. split; [assumption|]. split; [assumption|]. split; [assumption|].
  intros ->. rewrite veqb_refl in E3. cbn [andb] in E3. apply negb_false_iff, dmem_true in E3 as [v Hv].
  unfold has, param. rewrite Hv. discriminate.
Qed.

Lemma registered_class : forall f c n, In (c, n) (registered f) -> from_id f true (VClass c) = Ok (VClass c).
Proof. intros f c n H. apply (from_id_registered f c n H). Qed.

Lemma ec2_x_registered : key_transform KEC2 true (VClass EC2KpX) = Ok (VClass EC2KpX).
Proof. vm_compute. reflexivity. Qed.
Lemma ec2_y_registered : key_transform KEC2 true (VClass EC2KpY) = Ok (VClass EC2KpY).
Proof. vm_compute. reflexivity. Qed.

Lemma dmem_has : forall k p, dmem (k_store k) (VClass p) = true <-> has k p.
Proof.
  intros k p. unfold has, param, dmem. destruct (dget (k_store k) (VClass p)); split; congruence.
Qed.

Lemma dmem_nhas : forall k p, dmem (k_store k) (VClass p) = false <-> ~ has k p.
Proof. intros k p. rewrite <- dmem_has. destruct (dmem _ _); split; congruence. Qed.

Lemma base_del_class : forall k p, key_transform (k_cls k) true (VClass p) = Ok (VClass p) ->
  base_del k (VClass p) = if dmem (k_store k) (VClass p)
    then (with_store k (ddel (k_store k) (VClass p)), Ok tt) else (k, Err KeyError).
Proof.
  intros k p H. unfold base_del. rewrite H. cbn [bind hashable negb].
  destruct (dmem (k_store k) (VClass p)); reflexivity.
Qed.

Lemma dmem_ddel_other : forall d k k', keyeq k' k = false -> dmem (ddel d k) k' = dmem d k'.
Proof. intros d k k' H. unfold dmem. rewrite dget_ddel_other by assumption. reflexivity. Qed.

Lemma ec2_del_removed : forall k a k' x, k_cls k = KEC2 -> item_del k a = (k', x) ->
  removed k k' [] \/
  (exists t, x = Ok tt /\ key_transform KEC2 true a = Ok t /\ removed k k' [t] /\
    t <> VClass KpKty /\ t <> VClass EC2KpCurve /\ t <> VClass EC2KpX /\
    (t = VClass EC2KpD -> has k EC2KpX /\ has k EC2KpY)) \/
  (has k EC2KpD /\ removed k k' [VClass EC2KpX] /\ x = Err KeyError /\ ~ has k EC2KpY) \/
  (has k EC2KpD /\ removed k k' [VClass EC2KpX; VClass EC2KpY] /\ x = Ok tt).
Proof.
  intros k a k' x HC H. unfold item_del in H. rewrite HC in H. cbv zeta in H.
  destruct (key_transform KEC2 false a) as [t|e] eqn:E; [|injection H as <- <-; left; apply removed_nil].
  destruct (veqb t (VClass KpKty)) eqn:E1; [injection H as <- <-; left; apply removed_nil|].
  destruct (veqb t (VClass EC2KpCurve)) eqn:E2; [injection H as <- <-; left; apply removed_nil|].
  cbn [negb andb] in H.
  destruct (veqb t (VClass EC2KpD) && (negb (dmem (k_store k) (VClass EC2KpY)) || negb (dmem (k_store k) (VClass EC2KpX)))) eqn:E3;
    [injection H as <- <-; left; apply removed_nil|].
  destruct (veqb t (VClass EC2KpX) && negb (dmem (k_store k) (VClass EC2KpD))) eqn:E4;
    [injection H as <- <-; left; apply removed_nil|].
  destruct ((veqb t (VClass EC2KpX) || veqb t (VClass EC2KpY)) && dmem (k_store k) (VClass EC2KpD)) eqn:E5.
  - apply andb_true_iff in E5 as [_ E5]. apply dmem_has in E5.
    rewrite base_del_class in H by (rewrite HC; apply ec2_x_registered).
    destruct (dmem (k_store k) (VClass EC2KpX)) eqn:MX; [|injection H as <- <-; left; apply removed_nil].
    rewrite base_del_class in H by (cbn [with_store k_cls]; rewrite HC; apply ec2_y_registered).
    cbn [with_store k_store] in H. rewrite dmem_ddel_other in H by reflexivity.
    destruct (dmem (k_store k) (VClass EC2KpY)) eqn:MY; injection H as <- <-; right; right; [right|left].
    + split; [assumption|]. split; [repeat split|reflexivity].
    + split; [assumption|]. split; [repeat split|]. split; [reflexivity|]. apply dmem_nhas. assumption.
  - apply base_del_removed in H as [H|(t' & H1 & H2 & H3 & H4 & H5)]; [left; assumption|].
    rewrite HC in H1. pose proof (transform_allow _ _ _ E) as E'. rewrite E' in H1. injection H1 as <-.
    right. left. exists t. apply veqb_false in E1, E2.
    split; [assumption|]. split; [assumption|]. split; [assumption|]. split; [assumption|]. split; [assumption|].
    split.
    + intros ->. rewrite veqb_refl in E4, E5. cbn [andb orb] in E4, E5. rewrite E5 in E4. discriminate.
    + intros ->. rewrite veqb_refl in E3. cbn [andb] in E3. apply orb_false_iff in E3 as [EY EX].
      apply negb_false_iff in EY, EX. split; apply dmem_has; assumption.
Qed.

(** ** Histories *)

(** The state kept by every operation on a key that is not RSA. *)
Lemma removed_fresh : forall c k k' l, removed k k' l -> fresh c k ->
  (forall t, In t l -> keyeq t (VClass KpKty) = false) -> fresh c k'.
Proof.
  intros c k k' l [H1 [H2 H3]] [F1 F3 F4 F5] HT.
  assert (HL : forall l d, (forall t, In t l -> keyeq t (VClass KpKty) = false) ->
    dnodup d = true -> hd_kty d -> dget d (VClass KpKty) = Some (kty_of c) ->
    dnodup (fold_left ddel l d) = true /\ hd_kty (fold_left ddel l d) /\
    dget (fold_left ddel l d) (VClass KpKty) = Some (kty_of c)).
  { clear. induction l as [|t l IH]; intros d HT HN HH HK; cbn [fold_left]; [auto|].
    apply IH.
    - intros t' Ht'. apply HT. right. assumption.
    - apply dnodup_ddel. assumption.
    - apply hd_kty_ddel; [assumption|]. apply HT. left. reflexivity.
    - rewrite dget_ddel_other; [assumption|]. rewrite keyeq_sym. apply HT. left. reflexivity. }
  destruct (HL l (k_store k) HT F3 F4 F5) as (G1 & G2 & G3).
  constructor; [congruence|rewrite H3; assumption|rewrite H3; assumption|unfold param; rewrite H3; assumption].
Qed.

Lemma removed_param : forall k k' l p, removed k k' l ->
  (forall t, In t l -> keyeq t (VClass p) = false) -> param k' p = param k p.
Proof.
  intros k k' l p [_ [_ H]] HT. unfold param. rewrite H. clear H. generalize (k_store k).
  induction l as [|t l IH]; intros d; cbn [fold_left]; [reflexivity|].
  rewrite IH by (intros; apply HT; right; assumption). apply dget_ddel_other.
  rewrite keyeq_sym. apply HT. left. reflexivity.
Qed.

Lemma keyeq_ne_class : forall t p, t <> VClass p -> keyeq t (VClass p) = false.
Proof.
  intros t p H. destruct (keyeq t (VClass p)) eqn:E; [|reflexivity].
  rewrite keyeq_sym in E. apply keyeq_class in E. congruence.
Qed.

(** Property assignment changes one parameter. *)
Lemma updates_trans : forall p v k k', updates p v k k' -> updates p v k k'.
Proof. auto. Qed.

Lemma base_set_key_ops_ok : forall v k k', base_set_key_ops v k = Ok k' ->
  exists w, updates KpKeyOps w k k' /\ exists l m, v = VList l /\ mapM (from_id FOps false) l = Ok m /\ w = VList m.
Proof.
  intros v k k' H. destruct v; cbn [base_set_key_ops] in H; try discriminate. inv_bind H m.
  injection H as <-. exists (VList m). split; [apply updates_store_set|]. eauto 6.
Qed.

(** [mods P k k']: same class, and the store differs by assignments to parameters
    (with values) satisfying [P]. *)
Inductive mods (P : cls -> pyval -> Prop) : key -> key -> Prop :=
| mods_refl k : mods P k k
| mods_set k k1 k2 p v : mods P k k1 -> P p v -> updates p v k1 k2 -> mods P k k2
| mods_extra k k1 n v : mods P k k1 -> mods P k (extra_set n v k1)
| mods_other k k1 t v : mods P k k1 -> (forall p, t <> VClass p) ->
    key_transform (k_cls k1) true t = Ok t -> hashable t = true ->
    mods P k (with_store k1 (dset (k_store k1) t v)).

Lemma mods_one : forall (P : cls -> pyval -> Prop) k k' p v, P p v -> updates p v k k' -> mods P k k'.
Proof. intros. eapply mods_set; [apply mods_refl|eassumption|assumption]. Qed.

Lemma mods_weak : forall (P Q : cls -> pyval -> Prop) k k', (forall p v, P p v -> Q p v) -> mods P k k' -> mods Q k k'.
Proof.
  intros P Q k k' HPQ H. induction H;
    [apply mods_refl|eapply mods_set; eauto|apply mods_extra; assumption|apply mods_other; assumption].
Qed.

Lemma mods_trans : forall P k k1 k2, mods P k k1 -> mods P k1 k2 -> mods P k k2.
Proof.
  intros P k k1 k2 H1 H2. induction H2; [assumption| |apply mods_extra; auto|apply mods_other; auto].
  eapply mods_set; [apply IHmods; assumption|eassumption|assumption].
Qed.

Lemma key_ops_loop_mods : forall v l k k' x, key_ops_loop v l k = (k', x) -> mods (fun p w => p = KpKeyOps /\ exists m, w = VList m) k k'.
Proof.
  intros v. induction l as [|o l IH]; intros k k' x H; cbn [key_ops_loop] in H.
  - injection H as <- <-. apply mods_refl.
  - destruct (supported_by (k_cls k) o) as [[|]|e]; try (injection H as <- <-; apply mods_refl).
    destruct (base_set_key_ops v k) as [k1|e] eqn:E; [|injection H as <- <-; apply mods_refl].
    apply base_set_key_ops_ok in E as (w & HU & l0 & m & _ & _ & HM). apply IH in H.
    eapply mods_trans; [|exact H]. eapply mods_one; [|eassumption]. split; [reflexivity|]. eauto.
Qed.

(** What a property assignment may store. *)
Definition prop_target (c : kclass) (p : kprop) (q : cls) (v : pyval) : Prop :=
  match p with
  | PKty => q = KpKty
  | PAlg => q = KpAlg
  | PKeyOps => q = KpKeyOps /\ exists m, v = VList m
  | PCrv => crv_prop c = Some q /\ curve_of c v
  | PK => c = KSym /\ q = SymKpK /\ legal_k v
  | _ => bytes_prop c p = Some q /\ exists b, v = VBytes b
  end.

Lemma prop_set_mods : forall k p v k' x, prop_set k p v = (k', x) -> mods (prop_target (k_cls k) p) k k'.
Proof.
  intros k p v k' x H.
  assert (HB : match bytes_prop (k_cls k) p with
    | Some c => attempt k (set_bytes_param c v k)
    | None => (extra_set (prop_name p) v k, Ok tt) end = (k', x) ->
    mods (fun q v => bytes_prop (k_cls k) p = Some q /\ exists b, v = VBytes b) k k').
  { intros HB. destruct (bytes_prop (k_cls k) p) as [c|].
    - apply attempt_cases in HB as [(e & _ & _ & ->)|[HB _]]; [apply mods_refl|].
      apply set_bytes_param_ok in HB as [HV HU]. eapply mods_one; [|eassumption]. auto.
    - injection HB as <- <-. apply mods_extra, mods_refl. }
  destruct p; cbn [prop_set prop_target] in *; try (apply HB; assumption).
  - apply attempt_cases in H as [(e & _ & _ & ->)|[H _]]; [apply mods_refl|]. inv_bind H t.
    injection H as <-. eapply mods_one; [|apply updates_store_set]. reflexivity.
  - apply attempt_cases in H as [(e & _ & _ & ->)|[H _]]; [apply mods_refl|]. inv_bind H t.
    injection H as <-. eapply mods_one; [|apply updates_store_set]. reflexivity.
  - destruct (py_iter v) as [l|e]; [|injection H as <- <-; apply mods_refl].
    apply key_ops_loop_mods in H. assumption.
  - destruct (crv_prop (k_cls k)) as [c|] eqn:EC; [|injection H as <- <-; apply mods_extra, mods_refl].
    apply attempt_cases in H as [(e & _ & _ & ->)|[H _]]; [apply mods_refl|].
    apply set_crv_ok in H as (w & _ & HW & HU). eapply mods_one; [|eassumption]. cbv beta. split; [assumption|auto].
  - destruct (k_cls k) eqn:EC; try (injection H as <- <-; apply mods_extra, mods_refl).
    apply attempt_cases in H as [(e & _ & _ & ->)|[H _]]; [apply mods_refl|].
    apply set_k_ok in H as [HL HU]. eapply mods_one; [|eassumption]. split; [reflexivity|]. auto.
Qed.

Lemma mods_fresh : forall P c k k', mods P k k' -> fresh c k ->
  (forall p v, P p v -> p <> KpKty \/ v = kty_of c) -> fresh c k'.
Proof.
  intros P c k k' H HF HP. induction H.
  - assumption.
  - eapply updates_fresh; eauto.
  - apply fresh_extra. auto.
  - specialize (IHmods HF). destruct IHmods as [F1 F3 F4 F5].
    constructor; cbn [with_store k_cls k_store].
    + assumption.
    + apply dnodup_dset. assumption.
    + apply hd_kty_dset. assumption.
    + unfold param. cbn [with_store k_store]. rewrite dget_dset_other; [assumption|].
      rewrite keyeq_sym. apply keyeq_ne_class. apply H0.
Qed.

Lemma mods_holds : forall P k k' q good, mods P k k' -> holds k q good ->
  (forall v, P q v -> good v) -> holds k' q good.
Proof.
  intros P k k' q good H HH HP. induction H; try (apply IHmods in HH; clear IHmods).
  - assumption.
  - destruct HH as (w & HW & HG). unfold holds, param. destruct H1 as [_ _ ->]. rewrite dget_dset.
    destruct (keyeq (VClass q) (VClass p)) eqn:E; [|eauto].
    apply keyeq_class in E. injection E as ->. eauto.
  - assumption.
  - destruct HH as (w & HW & HG). exists w. split; [|assumption]. unfold param. cbn [with_store k_store].
    rewrite dget_dset_other; [assumption|]. rewrite keyeq_sym. apply keyeq_ne_class. apply H0.
Qed.

Lemma has_holds : forall k p, has k p <-> holds k p (fun _ => True).
Proof.
  intros k p. unfold has, holds. destruct (param k p) as [v|]; split; intros H; eauto; try congruence.
  destruct H as (v & H & _). discriminate.
Qed.

Lemma mods_has : forall P k k' q, mods P k k' -> has k q -> has k' q.
Proof. intros P k k' q H. rewrite !has_holds. intros HH. eapply mods_holds; eauto. Qed.

Lemma mods_cls : forall P k k', mods P k k' -> k_cls k' = k_cls k.
Proof.
  intros P k k' H. induction H; try assumption; [reflexivity|]. destruct H1 as [-> _ _]. assumption.
Qed.

Lemma item_set_mods : forall k a v k' x, item_set k a v = (k', x) ->
  mods (fun p w => w = v /\ denotes (k_cls k) a p) k k'.
Proof.
  intros k a v k' x H. unfold item_set in H.
  apply attempt_cases in H as [(e & _ & _ & ->)|[H _]]; [apply mods_refl|].
  inv_bind H t. destruct (hashable t) eqn:HT; [|discriminate]. cbn [negb] in H. injection H as <-.
  pose proof (from_id_fixed _ _ _ H0 HT) as HFix.
  destruct t as [| | | | | | | | | | | | | |c|];
    try (apply mods_other; [apply mods_refl|discriminate|assumption|assumption]).
  eapply (mods_set _ _ _ _ c v); [apply mods_refl| |].
  - split; [reflexivity|]. apply denotes_iff. assumption.
  - constructor; reflexivity.
Qed.

Lemma item_update_mods : forall d k k' x, item_update k d = (k', x) ->
  mods (fun p w => exists a, In (a, w) d /\ denotes (k_cls k) a p) k k'.
Proof.
  induction d as [|[a v] d IH]; intros k k' x H; cbn [item_update] in H.
  - injection H as <- <-. apply mods_refl.
  - destruct (item_set k a v) as [k1 [[]|e]] eqn:E.
    + pose proof (mods_cls _ _ _ (item_set_mods _ _ _ _ _ E)) as HC. apply IH in H. apply item_set_mods in E.
      eapply mods_trans.
      * eapply mods_weak; [|exact E]. intros p w [-> HD]. exists a. split; [left; reflexivity|assumption].
      * eapply mods_weak; [|exact H]. intros p w (a' & HI & HD). exists a'. rewrite HC in HD.
        split; [right; assumption|assumption].
    + injection H as <- <-. apply item_set_mods in E. eapply mods_weak; [|exact E].
      intros p w [-> HD]. exists a. split; [left; reflexivity|assumption].
Qed.

Lemma item_setdefault_mods : forall k a v k' x, item_setdefault k a v = (k', x) ->
  mods (fun p w => w = v /\ denotes (k_cls k) a p) k k'.
Proof.
  intros k a v k' x H. unfold item_setdefault in H. destruct (item_get k a) as [v0|e].
  - injection H as <- <-. apply mods_refl.
  - destruct e; try (injection H as <- <-; apply mods_refl).
    destruct (item_set k a v) as [k1 [u|e]] eqn:E; injection H as <- <-; eapply item_set_mods; eassumption.
Qed.

Lemma popitem_fst : forall k,
  fst (item_popitem k) = match k_store k with [] => k | (a, _) :: _ => fst (item_pop k a) end.
Proof.
  intros k. unfold item_popitem. destruct (k_store k) as [|[a v] r]; [reflexivity|].
  destruct (item_pop k a) as [k' [w|e]]; reflexivity.
Qed.

(** Popping the first entry of a key that is not RSA is refused: it is the key type. *)
Lemma popitem_refused : forall c k, fresh c k -> c <> KRSA -> item_popitem k = (k, Err CoseInvalidKey).
Proof.
  intros c k [F1 F3 F4 F5] HC. destruct F4 as (v & r & HR). unfold item_popitem. rewrite HR.
  unfold item_pop, item_get. rewrite F1.
  assert (HT : forall allow, key_transform c allow (VClass KpKty) = Ok (VClass KpKty))
    by (intros allow; destruct c; vm_compute; reflexivity).
  rewrite HT. cbn [bind hashable negb]. rewrite HR. cbn [dget]. rewrite keyeq_refl.
  unfold item_del. rewrite F1. destruct c; try (elim HC; reflexivity); rewrite HT; reflexivity.
Qed.

Lemma clear_refused : forall c k n, fresh c k -> c <> KRSA -> fst (item_clear n k) = k.
Proof.
  intros c k [|n] HF HC; [reflexivity|]. cbn [item_clear].
  rewrite (popitem_refused c) by assumption. reflexivity.
Qed.

(** One operation, for a state predicate [Q] of non-RSA keys. *)
Lemma step_inv : forall (Q : key -> Prop) c o, c <> KRSA ->
  (forall k, Q k -> fresh c k) ->
  (forall k p v, o = KSetProp p v -> Q k -> Q (fst (prop_set k p v))) ->
  (forall k k', Q k -> mods (fun p w => exists a, In (a, w) (op_items o) /\ denotes c a p) k k' -> Q k') ->
  (forall k a, o = KDelItem a \/ o = KPop a -> Q k -> Q (fst (item_del k a))) ->
  forall k, Q k -> Q (key_step k o).
Proof.
  intros Q c o HC HF HS HM HD k HQ. pose proof (HF k HQ) as HFk. pose proof (fr_cls _ _ HFk) as HCk.
  destruct o; cbn [key_step].
  - apply HS; auto.
  - destruct (item_set k a v) as [k' x] eqn:E. cbn [fst]. eapply HM; [eassumption|].
    apply item_set_mods in E. rewrite HCk in E. eapply mods_weak; [|exact E].
    intros p w [-> H]. exists a. split; [left; reflexivity|assumption].
  - apply HD; auto.
  - unfold item_pop. destruct (item_get k a); [|assumption].
    specialize (HD k a (or_intror eq_refl) HQ).
    destruct (item_del k a) as [k' [x|e]]; assumption.
  - rewrite (popitem_refused c) by assumption. assumption.
  - rewrite (clear_refused c) by assumption. assumption.
  - destruct (item_update k d) as [k' x] eqn:E. cbn [fst]. eapply HM; [eassumption|].
    apply item_update_mods in E. rewrite HCk in E. exact E.
  - destruct (item_setdefault k a v) as [k' x] eqn:E. cbn [fst]. eapply HM; [eassumption|].
    apply item_setdefault_mods in E. rewrite HCk in E. eapply mods_weak; [|exact E].
    intros p w [-> H]. exists a. split; [left; reflexivity|assumption].
Qed.

Lemma run_inv : forall (Q : key -> Prop) ops, (forall o k, In o ops -> Q k -> Q (key_step k o)) ->
  forall k, Q k -> Q (key_run k ops).
Proof.
  intros Q. unfold key_run. induction ops as [|o ops IH]; intros H k HQ; cbn [fold_left]; [assumption|].
  apply IH; [intros; apply H; [right; assumption|assumption]|]. apply H; [left; reflexivity|assumption].
Qed.

(** ** Symmetric keys *)

Definition sym_ok (k : key) : Prop := fresh KSym k /\ holds k SymKpK legal_k.

Lemma prop_not_kty : forall c p q v, p <> PKty -> prop_target c p q v -> q <> KpKty.
Proof.
  intros c p q v HP H HQ. subst q. destruct p; cbn [prop_target] in H; try (elim HP; reflexivity);
    try discriminate; destruct c; cbn [crv_prop bytes_prop] in H;
    repeat match goal with H : _ /\ _ |- _ => destruct H end; discriminate.
Qed.

Lemma prop_set_fresh : forall c k p v, fresh c k -> p <> PKty -> fresh c (fst (prop_set k p v)).
Proof.
  intros c k p v HF HP. destruct (prop_set k p v) as [k' x] eqn:E. apply prop_set_mods in E. cbn [fst].
  eapply mods_fresh; [exact E|assumption|]. intros q w HT. left. eapply prop_not_kty; eauto.
Qed.

Lemma mods_fresh_items : forall c o k k', fresh c k -> kty_safe c o ->
  mods (fun p w => exists a, In (a, w) (op_items o) /\ denotes c a p) k k' -> fresh c k'.
Proof.
  intros c o k k' HF [_ HG] HM. eapply mods_fresh; [exact HM|assumption|].
  intros p w (a & HI & HD). destruct (pyval_eq_dec (VClass p) (VClass KpKty)) as [E|E]; [|left; congruence].
  right. injection E as ->. rewrite <- type_of_kty. eapply HG; eassumption.
Qed.

Lemma sym_step_ok : forall o k, kty_safe KSym o -> items_good KSym SymKpK legal_k o ->
  sym_ok k -> sym_ok (key_step k o).
Proof.
  intros o k HK HI. apply (step_inv sym_ok KSym o); [discriminate|intros k0 [H _]; exact H| | | ].
  - intros k0 p v -> [HF HH]. assert (HP : p <> PKty) by (intros ->; apply (proj1 HK); red; eauto).
    split; [apply prop_set_fresh; assumption|].
    destruct (prop_set k0 p v) as [k' x] eqn:E. apply prop_set_mods in E. cbn [fst].
    rewrite (fr_cls _ _ HF) in E. eapply mods_holds; [exact E|assumption|].
    intros w HT. destruct p; cbn [prop_target bytes_prop crv_prop] in HT; try discriminate;
      try (destruct HT as [HT _]; discriminate). destruct HT as (_ & _ & HL). assumption.
  - intros k0 k' [HF HH] HM. split; [eapply mods_fresh_items; eassumption|].
    eapply mods_holds; [exact HM|assumption|]. intros v (a & HIn & HD). eapply HI; eassumption.
  - intros k0 a _ [HF HH]. destruct (item_del k0 a) as [k' x] eqn:E. cbn [fst].
    apply sym_del_removed in E; [|apply HF]. destruct E as [HR|(t & _ & _ & HR & HT1 & HT2)].
    + split; [eapply removed_fresh; [exact HR|assumption|intros t []]|].
      destruct HH as (v & HV & HL). exists v. split; [|assumption].
      rewrite (removed_param _ _ _ _ HR); [assumption|intros t []].
    + split; [eapply removed_fresh; [exact HR|assumption|]|].
      * intros t' [<-|[]]. apply keyeq_ne_class. assumption.
      * destruct HH as (v & HV & HL). exists v. split; [|assumption].
        rewrite (removed_param _ _ _ _ HR); [assumption|]. intros t' [<-|[]].
        apply keyeq_ne_class. assumption.
Qed.

Lemma sym_run : forall kv opt allow k ops, sym_init kv opt allow = Ok k ->
  Forall (kty_safe KSym) ops -> Forall (items_good KSym SymKpK legal_k) ops ->
  sym_ok (key_run k ops).
Proof.
  intros kv opt allow k ops H H1 H2. rewrite Forall_forall in H1, H2. apply run_inv.
  - intros o k0 HI. apply sym_step_ok; auto.
  - apply sym_init_fresh in H as (HF & HL & HP). split; [assumption|]. exists kv. auto.
Qed.
