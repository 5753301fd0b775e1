(** More lemmas about keys: EC2 and OKP histories, authorisation, key_ops, RSA forms,
    properties, the mapping interface, imported integers, EC2 consistency. *)
From Coq Require Import NArith ZArith Bool String Lia ZifyBool ZifyNat ZifyN.
From Coq Require Import Init.Byte List.
From Verif Require Import Bytes BytesProofs Value ValueProofs Registry RegistryProofs Crypto Keys SpecKeys KeyProofs.
Import ListNotations.
Local Open Scope result_scope.

(** ** EC2 keys under histories *)

Definition ec2_ok (k : key) : Prop :=
  fresh KEC2 k /\ holds k EC2KpCurve (curve_of KEC2) /\ (has k EC2KpX \/ has k EC2KpD).

Lemma removed_has : forall k k' l p, removed k k' l -> has k p ->
  (forall t, In t l -> t <> VClass p) -> has k' p.
Proof.
  intros k k' l p HR HH HT. unfold has. rewrite (removed_param _ _ _ _ HR); [assumption|].
  intros t Ht. apply keyeq_ne_class. auto.
Qed.

Lemma removed_holds : forall k k' l p good, removed k k' l -> holds k p good ->
  (forall t, In t l -> t <> VClass p) -> holds k' p good.
Proof.
  intros k k' l p good HR (v & HV & HG) HT. exists v. split; [|assumption].
  rewrite (removed_param _ _ _ _ HR); [assumption|]. intros t Ht. apply keyeq_ne_class. auto.
Qed.

Lemma removed_fresh' : forall c k k' l, removed k k' l -> fresh c k ->
  (forall t, In t l -> t <> VClass KpKty) -> fresh c k'.
Proof.
  intros c k k' l HR HF HT. eapply removed_fresh; [eassumption|assumption|].
  intros t Ht. apply keyeq_ne_class. auto.
Qed.

Lemma ec2_del_ok : forall k a, ec2_ok k -> ec2_ok (fst (item_del k a)).
Proof.
  intros k a (HF & HC & HXD). destruct (item_del k a) as [k' x] eqn:E. cbn [fst].
  apply ec2_del_removed in E; [|apply HF].
  destruct E as [HR|[(t & _ & _ & HR & T1 & T2 & T3 & T4)|[(HD & HR & _ & _)|(HD & HR & _)]]].
  - split; [eapply removed_fresh'; [exact HR|assumption|intros t []]|].
    split; [eapply removed_holds; [exact HR|assumption|intros t []]|].
    destruct HXD; [left|right]; (eapply removed_has; [exact HR|assumption|intros t []]).
  - split; [eapply removed_fresh'; [exact HR|assumption|intros t' [<-|[]]; assumption]|].
    split; [eapply removed_holds; [exact HR|assumption|intros t' [<-|[]]; assumption]|].
    destruct (pyval_eq_dec t (VClass EC2KpD)) as [->|HTD].
    + left. eapply removed_has; [exact HR|apply T4; reflexivity|intros t' [<-|[]]; discriminate].
    + destruct HXD; [left|right]; (eapply removed_has; [exact HR|assumption|intros t' [<-|[]]; assumption]).
  - split; [eapply removed_fresh'; [exact HR|assumption|intros t' [<-|[]]; discriminate]|].
    split; [eapply removed_holds; [exact HR|assumption|intros t' [<-|[]]; discriminate]|].
    right. eapply removed_has; [exact HR|assumption|intros t' [<-|[]]; discriminate].
  - split; [eapply removed_fresh'; [exact HR|assumption|intros t' [<-|[<-|[]]]; discriminate]|].
    split; [eapply removed_holds; [exact HR|assumption|intros t' [<-|[<-|[]]]; discriminate]|].
    right. eapply removed_has; [exact HR|assumption|intros t' [<-|[<-|[]]]; discriminate].
Qed.

Lemma not_kty : forall c o p v, kty_safe c o -> o = KSetProp p v -> p <> PKty.
Proof. intros c o p v [H _] -> ->. apply H. red. eauto. Qed.

Lemma prop_set_holds_crv : forall c q k p v, fresh c k -> crv_prop c = Some q ->
  holds k q (curve_of c) -> holds (fst (prop_set k p v)) q (curve_of c).
Proof.
  intros c q k p v HF HQ HH. destruct (prop_set k p v) as [k' x] eqn:E. apply prop_set_mods in E. cbn [fst].
  rewrite (fr_cls _ _ HF) in E. eapply mods_holds; [exact E|assumption|].
  intros w HT. destruct c; try discriminate; injection HQ as <-;
    destruct p; cbn [prop_target bytes_prop crv_prop] in HT; try discriminate;
    repeat match goal with H : _ /\ _ |- _ => destruct H end; try discriminate; assumption.
Qed.

Lemma prop_set_has : forall k p v q, has k q -> has (fst (prop_set k p v)) q.
Proof.
  intros k p v q H. destruct (prop_set k p v) as [k' x] eqn:E. apply prop_set_mods in E. cbn [fst].
  eapply mods_has; eassumption.
Qed.

Lemma ec2_step_ok : forall o k, kty_safe KEC2 o -> items_good KEC2 EC2KpCurve (curve_of KEC2) o ->
  ec2_ok k -> ec2_ok (key_step k o).
Proof.
  intros o k HK HI. apply (step_inv ec2_ok KEC2 o); [discriminate|intros k0 [H _]; exact H| | | ].
  - intros k0 p v HO (HF & HC & HXD). pose proof (not_kty _ _ _ _ HK HO) as HP.
    split; [apply prop_set_fresh; assumption|].
    split; [apply (prop_set_holds_crv KEC2); [assumption|reflexivity|assumption]|].
    destruct HXD; [left|right]; apply prop_set_has; assumption.
  - intros k0 k' (HF & HC & HXD) HM. split; [eapply mods_fresh_items; eassumption|].
    split; [|destruct HXD; [left|right]; eapply mods_has; eassumption].
    eapply mods_holds; [exact HM|assumption|]. intros v (a & HIn & HD). eapply HI; eassumption.
  - intros k0 a _ HQ. apply ec2_del_ok. assumption.
Qed.

Lemma ec2_run : forall X crv x y d opt allow k ops, ec2_init X crv x y d opt allow = Ok k ->
  Forall (kty_safe KEC2) ops -> Forall (items_good KEC2 EC2KpCurve (curve_of KEC2)) ops ->
  ec2_ok (key_run k ops).
Proof.
  intros X crv x y d opt allow k ops H H1 H2. rewrite Forall_forall in H1, H2. apply run_inv.
  - intros o k0 HI. apply ec2_step_ok; auto.
  - apply ec2_init_fresh in H. exact H.
Qed.

(** ** OKP keys under histories *)

Definition okp_ok (k : key) : Prop := fresh KOKP k /\ holds k OKPKpCurve (curve_of KOKP).
Definition okp_full (k : key) : Prop := okp_ok k /\ (has k OKPKpX \/ has k OKPKpD).

Lemma okp_del_ok : forall k a, okp_ok k -> okp_ok (fst (item_del k a)) /\
  (~ denotes KOKP a OKPKpD -> has k OKPKpX \/ has k OKPKpD ->
   has (fst (item_del k a)) OKPKpX \/ has (fst (item_del k a)) OKPKpD).
Proof.
  intros k a (HF & HC). destruct (item_del k a) as [k' x] eqn:E. cbn [fst].
  apply okp_del_removed in E; [|apply HF].
  destruct E as [HR|(t & _ & HT & HR & T1 & T2 & T3)].
  - split; [split|].
    + eapply removed_fresh'; [exact HR|assumption|intros t []].
    + eapply removed_holds; [exact HR|assumption|intros t []].
    + intros _ [HX|HD]; [left|right]; (eapply removed_has; [exact HR|assumption|intros t []]).
  - split; [split|].
    + eapply removed_fresh'; [exact HR|assumption|intros t' [<-|[]]; assumption].
    + eapply removed_holds; [exact HR|assumption|intros t' [<-|[]]; assumption].
    + intros HN HXD. assert (HTD : t <> VClass OKPKpD) by (intros ->; apply HN; apply denotes_iff; exact HT).
      destruct (pyval_eq_dec t (VClass OKPKpX)) as [->|HTX].
      * right. eapply removed_has; [exact HR|auto|intros t' [<-|[]]; discriminate].
      * destruct HXD; [left|right]; (eapply removed_has; [exact HR|assumption|intros t' [<-|[]]; assumption]).
Qed.

Lemma okp_prop_ok : forall k p v, okp_ok k -> p <> PKty -> okp_ok (fst (prop_set k p v)).
Proof.
  intros k p v (HF & HC) HP. split; [apply prop_set_fresh; assumption|].
  apply (prop_set_holds_crv KOKP); [assumption|reflexivity|assumption].
Qed.

Lemma okp_items_ok : forall o k k', kty_safe KOKP o -> items_good KOKP OKPKpCurve (curve_of KOKP) o -> okp_ok k ->
  mods (fun p w => exists a, In (a, w) (op_items o) /\ denotes KOKP a p) k k' -> okp_ok k'.
Proof.
  intros o k k' HK HI (HF & HC) HM. split; [eapply mods_fresh_items; eassumption|].
  eapply mods_holds; [exact HM|assumption|]. intros v (a & HIn & HD). eapply HI; eassumption.
Qed.

Lemma okp_step_ok : forall o k, kty_safe KOKP o -> items_good KOKP OKPKpCurve (curve_of KOKP) o ->
  okp_ok k -> okp_ok (key_step k o).
Proof.
  intros o k HK HI. apply (step_inv okp_ok KOKP o); [discriminate|intros k0 [H _]; exact H| | | ].
  - intros k0 p v HO HQ. apply okp_prop_ok; [assumption|eapply not_kty; eassumption].
  - intros k0 k' HQ HM. eapply okp_items_ok; eassumption.
  - intros k0 a _ HQ. apply okp_del_ok. assumption.
Qed.

Lemma okp_step_full : forall o k, kty_safe KOKP o -> items_good KOKP OKPKpCurve (curve_of KOKP) o ->
  ~ deletes KOKP OKPKpD o -> okp_full k -> okp_full (key_step k o).
Proof.
  intros o k HK HI HND. apply (step_inv okp_full KOKP o); [discriminate|intros k0 [[H _] _]; exact H| | | ].
  - intros k0 p v HO [HQ HXD]. split; [apply okp_prop_ok; [assumption|eapply not_kty; eassumption]|].
    destruct HXD; [left|right]; apply prop_set_has; assumption.
  - intros k0 k' [HQ HXD] HM. split; [eapply okp_items_ok; eassumption|].
    destruct HXD; [left|right]; eapply mods_has; eassumption.
  - intros k0 a HO [HQ HXD]. destruct (okp_del_ok k0 a HQ) as [H1 H2]. split; [assumption|].
    apply H2; [|assumption]. intros HD. apply HND. destruct HO as [-> | ->]; exact HD.
Qed.

Lemma okp_run : forall crv x d opt allow k ops, okp_init crv x d opt allow = Ok k ->
  Forall (kty_safe KOKP) ops -> Forall (items_good KOKP OKPKpCurve (curve_of KOKP)) ops ->
  okp_ok (key_run k ops).
Proof.
  intros crv x d opt allow k ops H H1 H2. rewrite Forall_forall in H1, H2. apply run_inv.
  - intros o k0 HI. apply okp_step_ok; auto.
  - apply okp_init_fresh in H as (HF & HC & _). split; assumption.
Qed.

Lemma okp_run_full : forall crv x d opt allow k ops, okp_init crv x d opt allow = Ok k ->
  Forall (kty_safe KOKP) ops -> Forall (items_good KOKP OKPKpCurve (curve_of KOKP)) ops ->
  Forall (fun o => ~ deletes KOKP OKPKpD o) ops ->
  okp_full (key_run k ops).
Proof.
  intros crv x d opt allow k ops H H1 H2 H3. rewrite Forall_forall in H1, H2, H3. apply run_inv.
  - intros o k0 HI. apply okp_step_full; auto.
  - apply okp_init_fresh in H as (HF & HC & HXD). split; [split; assumption|assumption].
Qed.

(** ** Authorisation *)

Lemma kclass_eqb_eq : forall a b, kclass_eqb a b = true <-> a = b.
Proof. intros [] []; split; intros H; try reflexivity; discriminate. Qed.

Lemma any_in_list : forall ops l, any_in (map VClass ops) (VList l) =
  Ok (existsb (fun o => existsb (keyeq (VClass o)) l) ops).
Proof.
  induction ops as [|o ops IH]; intros l; [reflexivity|]. cbn [map any_in py_in bind].
  rewrite IH. reflexivity.
Qed.

Lemma any_in_In : forall ops l, existsb (fun o => existsb (keyeq (VClass o)) l) ops = true <->
  exists o, In o ops /\ In (VClass o) l.
Proof.
  intros ops l. rewrite existsb_exists. split.
  - intros (o & HO & HE). apply existsb_exists in HE as (v & HV & HK). apply keyeq_class in HK. subst. eauto.
  - intros (o & HO & HI). exists o. split; [assumption|]. apply existsb_exists. exists (VClass o).
    split; [assumption|apply keyeq_refl].
Qed.

(** The three checks of [verify], with their exceptions, for a key whose stored
    operations are a list. *)
Lemma key_verify_cases : forall k c alg ops,
  (forall v, param k KpKeyOps = Some v -> exists l, v = VList l) ->
  (key_verify k c (VClass alg) (map VClass ops) = Ok tt <-> type_ok k c /\ alg_ok k alg /\ ops_ok k ops) /\
  (~ type_ok k c -> key_verify k c (VClass alg) (map VClass ops) = Err CoseException) /\
  (type_ok k c -> ~ alg_ok k alg -> (exists a, param k KpAlg = Some (VClass a)) ->
     key_verify k c (VClass alg) (map VClass ops) = Err CoseIllegalAlgorithm) /\
  (type_ok k c -> alg_ok k alg -> ~ ops_ok k ops ->
     key_verify k c (VClass alg) (map VClass ops) = Err CoseIllegalKeyOps).
Proof.
  intros k c alg ops HL.
  assert (HT : kclass_eqb (k_cls k) c = true <-> type_ok k c) by apply kclass_eqb_eq.
  assert (HTn : ~ type_ok k c -> kclass_eqb (k_cls k) c = false)
    by (intros H; destruct (kclass_eqb (k_cls k) c); [elim H; apply HT; reflexivity|reflexivity]).
  set (A := let ka := dget_or (k_store k) (VClass KpAlg) VNone in
          if is_none ka then Ok tt
          else
            match identifier_of ka, identifier_of (VClass alg) with
            | Some i, Some j => if Z.eqb i j then Ok tt else Err CoseIllegalAlgorithm
            | _, _ => Err AttributeError
            end).
  assert (HA : A = Ok tt <-> alg_ok k alg).
  { unfold A, alg_ok, param, dget_or. cbv zeta. destruct (dget (k_store k) (VClass KpAlg)) as [v|].
    - destruct v; cbn [is_none identifier_of]; try (split; [discriminate|intros [H|[H|(a & H & _)]]; discriminate]).
      + split; auto.
      + destruct (Z.eqb (c_id c0) (c_id alg)) eqn:E.
        * apply Z.eqb_eq in E. split; [|auto]. intros _. right. right. eauto.
        * apply Z.eqb_neq in E. split; [discriminate|]. intros [H|[H|(a & H & HA)]]; try discriminate. congruence.
    - cbn [is_none]. split; auto. }
  assert (HA2 : ~ alg_ok k alg -> (exists a, param k KpAlg = Some (VClass a)) -> A = Err CoseIllegalAlgorithm).
  { intros HN (a & Ha). unfold A, dget_or. cbv zeta. unfold param in Ha. rewrite Ha. cbn [is_none identifier_of].
    destruct (Z.eqb (c_id a) (c_id alg)) eqn:E; [|reflexivity]. elim HN. right. right. exists a.
    apply Z.eqb_eq in E. auto. }
  set (B := let ko := dget_or (k_store k) (VClass KpKeyOps) (VList []) in
    n <- py_len ko ;;
    if Nat.eqb n 0 then Ok tt
    else m <- any_in (map VClass ops) ko ;; if m : bool then Ok tt else Err CoseIllegalKeyOps).
  assert (HB : (B = Ok tt /\ ops_ok k ops) \/ (B = Err CoseIllegalKeyOps /\ ~ ops_ok k ops)).
  { unfold B, ops_ok, dget_or. unfold param in *. destruct (dget (k_store k) (VClass KpKeyOps)) as [v|].
    - destruct (HL v eq_refl) as [l ->]. cbn [py_len bind]. destruct l as [|x l]; [left; auto|].
      cbn [length Nat.eqb]. rewrite any_in_list. cbn [bind].
      destruct (existsb (fun o => existsb (keyeq (VClass o)) (x :: l)) ops) eqn:E.
      + left. split; [reflexivity|]. right. right. apply any_in_In in E as (o & HO & HI). eauto 6.
      + right. split; [reflexivity|]. intros [H|[H|(l' & o & H & HO & HI)]]; try discriminate.
        injection H as <-. rewrite <- not_true_iff_false in E. apply E. apply any_in_In. eauto.
    - left. cbn. auto. }
  assert (HV : key_verify k c (VClass alg) (map VClass ops) =
    if negb (kclass_eqb (k_cls k) c) then Err CoseException else (_ <- A ;; B)) by reflexivity.
  rewrite HV. split; [|split; [|split]].
  - split.
    + intros H. destruct (kclass_eqb (k_cls k) c) eqn:E; [|discriminate]. cbn [negb] in H.
      split; [apply HT; reflexivity|]. inv_bind H u. destruct u. split; [apply HA; assumption|].
      destruct HB as [[_ HB]|[HB _]]; [assumption|congruence].
    + intros (H1 & H2 & H3). rewrite (proj2 HT H1). cbn [negb]. rewrite (proj2 HA H2). cbn [bind].
      destruct HB as [[HB _]|[_ HB]]; [assumption|contradiction].
  - intros H. rewrite (HTn H). reflexivity.
  - intros H1 H2 H3. rewrite (proj2 HT H1). cbn [negb]. rewrite (HA2 H2 H3). reflexivity.
  - intros H1 H2 H3. rewrite (proj2 HT H1). cbn [negb]. rewrite (proj2 HA H2). cbn [bind].
    destruct HB as [[_ HB]|[HB _]]; [contradiction|assumption].
Qed.
