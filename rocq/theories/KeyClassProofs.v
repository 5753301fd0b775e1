(** Proofs about the class of a new key. *)
From Coq Require Import NArith ZArith Bool String.
From Coq Require Import Init.Byte List.
From Verif Require Import Bytes BytesProofs Value ValueProofs Registry RegistryProofs Crypto Keys Pem KeyProofs KeyProofs4 KeyTrip KeyTrip3 SpecGen
  SpecKeys SpecHdr HdrProofs SpecRegistry SpecTrip SpecData SpecInit InitProofs KeyClass SpecKeyClass.
Import ListNotations.
Local Open Scope result_scope.

Lemma kty_registered : forall c, In (KpKty, bs "KTY") (registered (param_fam c)).
Proof. intros c. apply registered_kp. apply kp_names. Qed.

Lemma fresh_is : forall c k, fresh c k -> key_is c k.
Proof. intros c k HF. split; [apply (fr_cls _ _ HF)|]. rewrite (fr_kty _ _ HF). destruct c; reflexivity. Qed.

(** The type in the options is checked. *)
Definition typed (c : kclass) (d : dict) : Prop :=
  (forall v, last_value kty_label d v -> names_type c v) /\
  (forall a v, In (a, v) d -> kty_label a -> exists w, attribute_value FKty v w).

Lemma transform_parses : forall c allow d acc h a v, transform_params c allow d acc = Ok h -> In (a, v) d -> kty_label a ->
  exists w, attribute_value FKty v w.
Proof.
  intros c allow. induction d as [|[a0 v0] d IH]; intros acc h a v H HI HL; [destruct HI|]. cbn [transform_params] in H.
  inv_bind H q. inv_bind H w. destruct (hashable q); [|discriminate]. destruct HI as [E|HI]; [|eapply IH; eassumption].
  injection E as -> ->. rewrite (from_id_spells _ _ _ _ _ (kty_registered c) HL) in H0. injection H0 as <-.
  exists w. apply from_id_attribute. exact H1.
Qed.

Lemma common_typed : forall c opt d allow k, opt_items opt = Ok d -> common_init c opt allow = Ok k -> typed c d.
Proof.
  intros c opt d allow k HO H. unfold common_init in H. rewrite HO in H. cbn [bind] in H. inv_bind H s.
  destruct (veqb _ _) eqn:EV; [|discriminate]. apply veqb_eq in EV. split.
  - intros v (pre & a & post & -> & HS & HN). rewrite transform_app in H0. apply bind_ok in H0 as (m & HP & H0). cbn [transform_params] in H0.
    rewrite (from_id_spells _ _ _ _ _ (kty_registered c) HS) in H0. cbn [bind] in H0. inv_bind H0 w. cbn [hashable] in H0.
    unfold dget_or in EV. rewrite (transform_absent _ _ _ _ _ _ _ (kty_registered c) H0 HN) in EV. rewrite dget_dset_same in EV by apply keyeq_refl.
    subst w. unfold names_type. apply from_id_attribute. replace (type_of c) with (kty_of c) by (destruct c; reflexivity). exact H1.
  - intros a v HI HL. eapply transform_parses; eassumption.
Qed.

(** Labels of other parameters are no labels of the key type. *)
Lemma own_not_kty : forall c p s a, In p (own_params c) -> s = VClass p \/ s = VInt (c_id p) \/ s = VStr (cls_fullname p) ->
  keyeq a s = true -> ~ kty_label a.
Proof.
  intros c p s a HP HS HK HL. apply keyeq_spec in HK.
  assert (HN : c_id p <> 1%Z /\ upper (cls_fullname p) <> bs "KTY").
  { destruct c; cbn [own_params byte_params curve_param app In] in HP;
      repeat (destruct HP as [<-|HP]; [split; [discriminate|vm_compute; discriminate]|]); destruct HP. }
  destruct HN as [N1 N2]. unfold kty_label in HL. change (c_id KpKty) with 1%Z in *.
  destruct a as [|b|z|x|n| | |b|u|l|l|d|t v|t v|q|kc ks ke]; cbn [spells] in HL; try contradiction; change (c_id KpKty) with 1%Z in HL.
  - destruct HS as [-> | [-> | ->]]; cbn [knorm] in HK; try discriminate. injection HK as HK. destruct b; [|discriminate HL]. congruence.
  - destruct HS as [-> | [-> | ->]]; cbn [knorm] in HK; try discriminate. injection HK as HK. congruence.
  - destruct HS as [-> | [-> | ->]]; cbn [knorm] in HK; try discriminate. injection HK as ->. contradiction.
  - destruct HS as [-> | [-> | ->]]; cbn [knorm] in HK; try discriminate. injection HK as ->. contradiction.
Qed.

Lemma ddel_In : forall d s a v, In (a, v) d -> keyeq a s = false -> In (a, v) (ddel d s).
Proof.
  induction d as [|[k w] d IH]; intros s a v HI HK; [destruct HI|]. cbn [ddel]. destruct HI as [E|HI].
  - injection E as -> ->. rewrite keyeq_sym, HK. left. reflexivity.
  - destruct (keyeq s k); [assumption|]. right. apply IH; assumption.
Qed.

Lemma ddel_sub : forall d s a v, In (a, v) (ddel d s) -> In (a, v) d.
Proof.
  induction d as [|[k w] d IH]; intros s a v HI; [destruct HI|]. cbn [ddel] in HI. destruct (keyeq s k); [right; assumption|].
  destruct HI as [E|HI]; [left; assumption|right; eapply IH; eassumption].
Qed.

Lemma ddel_last : forall P d s v, (forall a, keyeq a s = true -> ~ P a) -> last_value P d v -> last_value P (ddel d s) v.
Proof.
  intros P d s v HP (pre & a & post & -> & HA & HN). induction pre as [|[k w] pre IH]; cbn [app ddel].
  - destruct (keyeq s a) eqn:E; [elim (HP a); [rewrite keyeq_sym; exact E|exact HA]|].
    exists [], a, (ddel post s). split; [reflexivity|]. split; [exact HA|]. intros k' v' HI. apply (HN k' v'). eapply ddel_sub. exact HI.
  - destruct (keyeq s k).
    + exists pre, a, post. auto.
    + destruct IH as (pre' & a' & post' & E & HA' & HN'). rewrite E. exists ((k, w) :: pre'), a', post'. auto.
Qed.

Lemma remove_all_typed : forall c l d, incl l (own_params c) -> typed c (remove_all d l) -> typed c d.
Proof.
  intros c. unfold remove_all. induction l as [|p l IH]; intros d HI H; [exact H|]. cbn [fold_left] in H.
  assert (HP : In p (own_params c)) by (apply HI; left; reflexivity).
  assert (HO : forall s a, s = VClass p \/ s = VInt (c_id p) \/ s = VStr (cls_fullname p) -> keyeq a s = true -> ~ kty_label a)
    by (intros s a HS HK; eapply own_not_kty; eassumption).
  apply IH in H; [|intros q HQ; apply HI; right; assumption]. destruct H as [H1 H2]. unfold remove in *. split.
  - intros v HL. apply H1. repeat apply ddel_last; try assumption; intros a HK; eapply HO; try exact HK; auto.
  - intros a v HA HL. apply (H2 a v); [|exact HL].
    repeat apply ddel_In; try assumption;
      match goal with |- keyeq a ?s = false => destruct (keyeq a s) eqn:E; [|reflexivity]; exfalso; refine (HO s a _ E HL); auto end.
Qed.

Section Class.
Context (X : crypto).

Lemma sym_typed : forall kv opt d allow k, opt_items opt = Ok d -> sym_init kv opt allow = Ok k -> typed KSym d.
Proof. intros kv opt d allow k HO H. unfold sym_init in H. inv_bind H k0. eapply common_typed; eassumption. Qed.

Lemma okp_typed : forall crv x dd opt d allow k, opt_items opt = Ok d -> okp_init crv x dd opt allow = Ok k -> typed KOKP d.
Proof. intros crv x dd opt d allow k HO H. unfold okp_init in H. inv_bind H k0. eapply common_typed; eassumption. Qed.

Lemma ec2_typed : forall crv x y dd opt d allow k, opt_items opt = Ok d -> ec2_init X crv x y dd opt allow = Ok k -> typed KEC2 d.
Proof. intros crv x y dd opt d allow k HO H. unfold ec2_init in H. inv_bind H k0. eapply common_typed; eassumption. Qed.

Lemma rsa_typed : forall a opt d allow k, opt_items opt = Ok d -> rsa_init a opt allow = Ok k -> typed KRSA d.
Proof.
  intros a opt d allow k HO H. unfold rsa_init in H. cbv zeta in H. inv_bind H ok. destruct ok; [|discriminate]. cbn [negb] in H.
  inv_bind H k0. eapply common_typed; eassumption.
Qed.

Lemma class_call : forall c m k, call_from_dict X (Some c) m = Ok k -> key_is c k /\ forall d, m = VDict d -> typed c d.
Proof.
  intros c m k H. destruct c; cbn [call_from_dict] in H.
  - unfold sym_from_dict in H. inv_bind H kv. inv_bind H d. split; [apply fresh_is; eapply sym_init_fresh; exact H|].
    intros d' ->. cbn [items_of] in H1. injection H1 as ->. eapply remove_all_typed; [|eapply sym_typed; [|exact H]; reflexivity].
    intros p HP. cbn [In own_params byte_params curve_param app] in *. tauto.
  - unfold okp_from_dict in H. inv_bind H x. inv_bind H d. inv_bind H crv. inv_bind H o. split; [apply fresh_is; eapply okp_init_fresh; exact H|].
    intros d' ->. cbn [items_of] in H3. injection H3 as ->. eapply remove_all_typed; [|eapply okp_typed; [|exact H]; reflexivity].
    intros p HP. cbn [In own_params byte_params curve_param app] in *. tauto.
  - unfold ec2_from_dict in H. inv_bind H x. inv_bind H y. inv_bind H d. inv_bind H crv. inv_bind H o.
    split; [apply fresh_is; eapply ec2_init_fresh; exact H|].
    intros d' ->. cbn [items_of] in H4. injection H4 as ->. eapply remove_all_typed; [|eapply ec2_typed; [|exact H]; reflexivity].
    intros p HP. cbn [In own_params byte_params curve_param app] in *. tauto.
  - unfold rsa_from_dict in H. do 12 (let v := fresh "v" in inv_bind H v). inv_bind H o.
    split; [apply fresh_is; eapply rsa_init_fresh; exact H|].
    intros d' ->. match goal with HO : items_of _ = Ok o |- _ => cbn [items_of] in HO; injection HO as -> end.
    eapply remove_all_typed; [|eapply rsa_typed; [|exact H]; reflexivity].
    intros p HP. cbn [In own_params byte_params curve_param app] in *. tauto.
Qed.

Lemma lookup_names : forall v c, key_type_lookup key_types v = Some c ->
  exists w, type_of c = VClass w /\ (keyeq v (VInt (c_id w)) = true \/ v = VStr (cls_fullname w) \/ v = VClass w).
Proof.
  intros v c H. unfold key_types in H. cbn [flat_map app key_type_lookup] in H.
  assert (HS : forall n, keyeq v (VStr n) = true -> v = VStr n).
  { intros n HK. apply keyeq_spec in HK. destruct v as [|b|z|x|m| | |b|u|l|l|d|t v|t v|q|kc ks ke]; cbn [knorm] in HK; try discriminate HK; try congruence.
    destruct (float_int x); discriminate HK. }
  assert (HC : forall n, keyeq v (VClass n) = true -> v = VClass n).
  { intros n HK. apply keyeq_spec in HK. destruct v as [|b|z|x|m| | |b|u|l|l|d|t v|t v|q|kc ks ke]; cbn [knorm] in HK; try discriminate HK; try congruence.
    destruct (float_int x); discriminate HK. }
  repeat match type of H with (if ?b then _ else _) = _ => let E := fresh "E" in destruct b eqn:E; [injection H as <-; eexists; (split; [reflexivity|]);
    first [left; exact E|right; left; apply HS in E; exact E|right; right; apply HC in E; exact E]|] end.
  discriminate.
Qed.

Lemma any_call : forall d k, call_from_dict X None (VDict d) = Ok k ->
  exists v, first_type d v /\ key_type_lookup key_types v = Some (k_cls k) /\ call_from_dict X (Some (k_cls k)) (VDict d) = Ok k.
Proof.
  intros d k H. cbn [call_from_dict] in H. unfold from_dict in H. cbn [map_get bind] in H.
  assert (HD : forall v, dispatch_kty X v (VDict d) = Ok k -> key_type_lookup key_types v = Some (k_cls k) /\
    call_from_dict X (Some (k_cls k)) (VDict d) = Ok k).
  { intros v HV. unfold dispatch_kty in HV. destruct (negb (hashable v)); [discriminate|].
    destruct (key_type_lookup key_types v) as [c|]; [|discriminate].
    assert (HC : call_from_dict X (Some c) (VDict d) = Ok k) by (destruct c; exact HV).
    pose proof (class_call _ _ _ HC) as [[-> _] _]. auto. }
  destruct (dget d (VClass KpKty)) as [v|] eqn:E1; [exists v; split; [left; exact E1|apply HD; exact H]|].
  destruct (dget d (VInt 1)) as [v|] eqn:E2; [exists v; split; [right; left; auto|apply HD; exact H]|].
  destruct (dget d (VStr (bs "KTY"))) as [v|] eqn:E3; [exists v; split; [right; right; auto|apply HD; exact H]|discriminate].
Qed.

Lemma from_dict_is : forall m k, from_dict X m = Ok k -> key_is (k_cls k) k.
Proof.
  intros m k H. unfold from_dict in H.
  assert (HD : forall v, dispatch_kty X v m = Ok k -> key_is (k_cls k) k).
  { intros v HV. unfold dispatch_kty in HV. destruct (negb (hashable v)); [discriminate|].
    destruct (key_type_lookup key_types v) as [c|]; [|discriminate].
    assert (HC : call_from_dict X (Some c) m = Ok k) by (destruct c; exact HV).
    pose proof (class_call _ _ _ HC) as [HK _]. pose proof HK as [-> _]. exact HK. }
  destruct m; try discriminate; inv_bind H o1; (destruct o1; [eapply HD; exact H|]); inv_bind H o2; (destruct o2; [eapply HD; exact H|]);
    inv_bind H o3; (destruct o3; [eapply HD; exact H|discriminate]).
Qed.

Lemma import_is : forall e opt k, from_ext X e opt = Ok k -> key_is (class_of e) k.
Proof.
  intros e opt k H. destruct e; cbn [from_ext class_of] in *; [| | |discriminate].
  - unfold okp_from_ext in H. cbv zeta in H. inv_bind H d. apply (class_call KOKP _ _ H).
  - unfold ec2_from_ext in H. destruct curve; [|discriminate]. inv_bind H bx. inv_bind H b_y. cbv zeta in H. inv_bind H d. inv_bind H d'.
    apply (class_call KEC2 _ _ H).
  - unfold rsa_from_ext in H. cbv zeta in H. inv_bind H d. apply (class_call KRSA _ _ H).
Qed.

Lemma generate_is : forall c seed w opt k, call_generate X (Some c) seed w opt = Ok k -> key_is c k.
Proof.
  intros c seed w opt k H. destruct c, w; try discriminate; cbn [call_generate] in H.
  - unfold sym_generate in H. destruct (existsb _ _); [|discriminate]. apply fresh_is. eapply sym_init_fresh. exact H.
  - unfold okp_generate in H. inv_bind H v. destruct v; try discriminate. destruct (veqb _ _); [|discriminate]. cbv zeta in H.
    exact (import_is (ExtOKP _ _ _) _ _ H).
  - unfold ec2_generate in H. inv_bind H v. destruct v; try discriminate. destruct (veqb _ _); [|discriminate]. cbv zeta in H.
    inv_bind H p. destruct p as [px py]. exact (import_is (ExtEC _ _ _ _) _ _ H).
  - unfold rsa_generate in H. inv_bind H q. exact (import_is (ExtRSA _ _) _ _ H).
Qed.

End Class.
