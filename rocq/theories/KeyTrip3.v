(** Spellings of parameters given to [from_dict] (C39). *)
From Coq Require Import NArith ZArith Bool String Lia.
From Coq Require Import Init.Byte List.
From Verif Require Import Bytes BytesProofs Value ValueProofs Cbor CborProofs SpecData DataProofs Registry
  RegistryProofs Crypto Keys SpecRegistry SpecKeys KeyProofs KeyProofs2 KeyProofs3 KeyProofs4
  SpecHdr HdrProofs MiscProofs SpecTrip KeyTrip KeyTrip2.
Import ListNotations.
Local Open Scope result_scope.

Section Respell.
Variable c : kclass.

Lemma upper_name : forall m n, In (m, n) (registered (param_fam c)) -> upper n = n.
Proof. intros m n HI. apply (names_upper _ _ _ HI). Qed.

Lemma spelling_label : forall a a', spelling c a a' -> label_ok c a.
Proof. intros a a' H. destruct H; [left; eauto|left; eauto|left; eauto|right; left; eauto|right; right; eauto]. Qed.

Lemma spelling_from_id : forall a a' allow, spelling c a a' -> from_id (param_fam c) allow a' = from_id (param_fam c) allow a.
Proof.
  intros a a' allow H. destruct H; try reflexivity; change (params_of c) with (param_fam c) in *.
  - rewrite (from_id_spells _ allow p n (VInt (c_id p)) H) by reflexivity. symmetry. eapply from_id_spells; [eassumption|reflexivity].
  - rewrite (from_id_spells _ allow p n (VStr n) H) by (cbn [spells]; apply (upper_name _ _ H)).
    symmetry. eapply from_id_spells; [eassumption|reflexivity].
Qed.

Lemma spelling_canon : forall a a', spelling c a a' -> from_id (param_fam c) true a' = Ok a.
Proof.
  intros a a' H. destruct H.
  - eapply from_id_spells; [eassumption|reflexivity].
  - eapply from_id_spells; [eassumption|reflexivity].
  - eapply from_id_spells; [eassumption|]. cbn [spells]. apply (upper_name _ _ H).
  - apply (from_id_unknown _ _ H).
  - apply (from_id_unknown _ _ H).
Qed.

Lemma spelling_form : forall a a', spelling c a a' -> (exists p, a' = VClass p) \/ (exists z, a' = VInt z) \/ (exists u, a' = VStr u).
Proof. intros a a' H. destruct H; eauto. Qed.

(** A spelling determines the parameter. *)
Lemma spelling_inj : forall a a' b b', spelling c a a' -> spelling c b b' -> keyeq a' b' = true -> a = b.
Proof.
  intros a a' b b' HA HB E.
  assert (EQ : a' = b').
  { destruct (spelling_form _ _ HA) as [[p ->]|[[z ->]|[u ->]]].
    - apply keyeq_class in E. congruence.
    - destruct (spelling_form _ _ HB) as [[p ->]|[[z' ->]|[u' ->]]]; try discriminate. rewrite keyeq_int in E. apply Z.eqb_eq in E. congruence.
    - destruct (spelling_form _ _ HB) as [[p ->]|[[z' ->]|[u' ->]]]; try discriminate. rewrite keyeq_str in E. apply bytes_eqb_eq in E. congruence. }
  apply spelling_canon in HA. apply spelling_canon in HB. rewrite EQ in HA. congruence.
Qed.

Lemma respelled_labels : forall d d', respelled c d d' -> labels_ok c d.
Proof. intros d d' H. induction H as [|e e' d d' [HS _] H IH]; constructor; [eapply spelling_label; eassumption|assumption]. Qed.

Lemma respelled_nodup : forall d d', respelled c d d' -> dnodup d = true -> dnodup d' = true.
Proof.
  intros d d' H. induction H as [|[b v] [b' v'] d d' [HB HV] H IH]; [reflexivity|]. cbn [dnodup fst snd] in *. intros HN.
  apply andb_true_iff in HN as [HN HN']. rewrite (IH HN'), andb_true_r. apply negb_true_iff in HN. apply negb_true_iff.
  destruct (dmem d' b') eqn:E; [|reflexivity]. apply dmem_true in E as [w HW]. apply dget_In in HW as (x & HI & HK).
  assert (HX : exists y, In (y, w) d /\ spelling c y x).
  { clear - H HI. induction H as [|[b v] [b' v'] d d' [HB HV] H IH]; [destruct HI|]. destruct HI as [HI|HI].
    - cbn [fst snd] in *. injection HI as -> ->. subst v. exists b. split; [left; reflexivity|assumption].
    - destruct (IH HI) as (y & HY & HS). exists y. split; [right; assumption|assumption]. }
  destruct HX as (y & HY & HS). rewrite (spelling_inj _ _ _ _ HB HS HK) in HN. rewrite (In_dmem _ _ _ HY) in HN. discriminate.
Qed.

(** Each entry of [d'] comes from one of [d], and conversely. *)
Lemma respelled_back : forall d d' x w, respelled c d d' -> In (x, w) d' -> exists y, In (y, w) d /\ spelling c y x.
Proof.
  intros d d' x w H HI. induction H as [|[b v] [b' v'] d d' [HB HV] H IH]; [destruct HI|]. destruct HI as [HI|HI].
  - cbn [fst snd] in *. injection HI as -> ->. subst v. exists b. split; [left; reflexivity|assumption].
  - destruct (IH HI) as (y & HY & HS). exists y. split; [right; assumption|assumption].
Qed.
Lemma respelled_forth : forall d d' y w, respelled c d d' -> In (y, w) d -> exists x, In (x, w) d' /\ spelling c y x.
Proof.
  intros d d' x w H HI. induction H as [|[b v] [b' v'] d d' [HB HV] H IH]; [destruct HI|]. destruct HI as [HI|HI].
  - cbn [fst snd] in *. injection HI as -> ->. subst v'. exists b'. split; [left; reflexivity|assumption].
  - destruct (IH HI) as (y & HY & HS). exists y. split; [right; assumption|assumption].
Qed.

Lemma respelled_some : forall d d' a s w, respelled c d d' -> dnodup d = true -> spelling c a s -> dget d' s = Some w -> dget d a = Some w.
Proof.
  intros d d' a s w H HN HS HG. apply dget_In in HG as (x & HI & HK). destruct (respelled_back _ _ _ _ H HI) as (y & HY & HS').
  rewrite (spelling_inj _ _ _ _ HS HS' HK). apply In_dget; assumption.
Qed.

Lemma respelled_extract : forall d d' m n dflt, respelled c d d' -> dnodup d = true -> In (m, n) (registered (param_fam c)) ->
  extract (VDict d') m dflt = Ok (match dget d (VClass m) with Some v => v | None => dflt end).
Proof.
  intros d d' m n dflt H HN HI. unfold extract. cbn [map_get bind]. rewrite (cls_fullname_registered _ _ _ HI).
  destruct (dget d' (VClass m)) as [w|] eqn:E1.
  { rewrite (respelled_some _ _ _ _ _ H HN (Sp_class c m n HI) E1). reflexivity. }
  destruct (dget d' (VInt (c_id m))) as [w|] eqn:E2.
  { rewrite (respelled_some _ _ _ _ _ H HN (Sp_id c m n HI) E2). reflexivity. }
  destruct (dget d' (VStr n)) as [w|] eqn:E3.
  { rewrite (respelled_some _ _ _ _ _ H HN (Sp_name c m n HI) E3). reflexivity. }
  destruct (dget d (VClass m)) as [w|] eqn:E4; [|reflexivity]. exfalso.
  apply dget_In in E4 as (y & HY & HK). apply keyeq_class in HK. subst y.
  destruct (respelled_forth _ _ _ _ H HY) as (x & HX & HS).
  pose proof (In_dget _ _ _ (respelled_nodup _ _ H HN) HX) as HG.
  inversion HS as [p q HP EA EB|p q HP EA EB|p q HP EA EB| |]; subst; try congruence.
  destruct (registered_id_unique _ _ _ _ _ HP HI eq_refl) as [_ ->]. congruence.
Qed.

(** Deleting a parameter under all its spellings. *)
Lemma ddel_none_spelled : forall d d' a s, respelled c d d' -> spelling c a s -> dget d a = None -> ddel d' s = d'.
Proof.
  intros d d' a s H HS HG. apply ddel_absent. destruct (dget d' s) as [w|] eqn:E; [|reflexivity].
  apply dget_In in E as (x & HI & HK). destruct (respelled_back _ _ _ _ H HI) as (y & HY & HS').
  rewrite (spelling_inj _ _ _ _ HS HS' HK) in HG. pose proof (In_dmem _ _ _ HY) as HM. apply dmem_false in HG. congruence.
Qed.

Lemma respelled_remove : forall d d' m n, respelled c d d' -> dnodup d = true -> In (m, n) (registered (param_fam c)) ->
  respelled c (ddel d (VClass m)) (remove d' m).
Proof.
  intros d d' m n H HN HI. unfold remove. rewrite (cls_fullname_registered _ _ _ HI).
  induction H as [|[b v] [b' v'] d d' [HB HV] H IH]; [constructor|]. cbn [dnodup fst snd] in *. subst v'.
  apply andb_true_iff in HN as [HN0 HN]. apply negb_true_iff in HN0. specialize (IH HN).
  assert (HD : forall s, spelling c (VClass m) s -> dget d (VClass m) = None -> ddel d' s = d').
  { intros s HS HG. eapply ddel_none_spelled; eassumption. }
  cbn [ddel fst snd]. destruct (keyeq (VClass m) b) eqn:E.
  - apply keyeq_class in E. subst b. apply dmem_false in HN0.
    assert (HA : forall s, spelling c (VClass m) s -> ddel d' s = d') by (intros s HS; apply HD; assumption).
    inversion HB as [p q HP EA EB|p q HP EA EB|p q HP EA EB| |]; subst.
    + rewrite keyeq_refl. rewrite (HA _ (Sp_id c m n HI)), (HA _ (Sp_name c m n HI)). assumption.
    + change (keyeq (VClass m) (VInt (c_id m))) with false. cbn iota. rewrite (HA _ (Sp_class c m n HI)). cbn [ddel].
      rewrite keyeq_refl. rewrite (HA _ (Sp_name c m n HI)). assumption.
    + change (keyeq (VClass m) (VStr q)) with false. cbn iota. rewrite (HA _ (Sp_class c m n HI)). cbn [ddel].
      change (keyeq (VInt (c_id m)) (VStr q)) with false. cbn iota. rewrite (HA _ (Sp_id c m n HI)). cbn [ddel].
      destruct (registered_id_unique _ _ _ _ _ HP HI eq_refl) as [_ ->]. rewrite keyeq_refl. assumption.
  - assert (HK : forall s, spelling c (VClass m) s -> keyeq s b' = false).
    { intros s HS. destruct (keyeq s b') eqn:E'; [|reflexivity]. rewrite (spelling_inj _ _ _ _ HS HB E'), keyeq_refl in E. discriminate. }
    rewrite (HK _ (Sp_class c m n HI)). cbn [ddel]. rewrite (HK _ (Sp_id c m n HI)). cbn [ddel]. rewrite (HK _ (Sp_name c m n HI)).
    constructor; [split; [assumption|reflexivity]|]. exact IH.
Qed.

Lemma respelled_remove_all : forall ms d d', respelled c d d' -> dnodup d = true ->
  Forall (fun m => exists n, In (m, n) (registered (param_fam c))) ms -> respelled c (dels ms d) (remove_all d' ms).
Proof.
  induction ms as [|m ms IH]; intros d d' H HN HM; [assumption|]. inversion HM as [|? ? [n HI] HM']; subst.
  unfold dels, remove_all. cbn [fold_left]. apply IH; [eapply respelled_remove; eassumption|apply dnodup_ddel; assumption|assumption].
Qed.

Lemma respelled_transform : forall d d' acc, respelled c d d' -> transform_params c true d' acc = transform_params c true d acc.
Proof.
  intros d d' acc H. revert acc. induction H as [|[b v] [b' v'] d d' [HB HV] H IH]; intros acc; [reflexivity|].
  cbn [transform_params fst snd] in *. subst v'. rewrite (spelling_from_id _ _ _ HB). destruct (from_id (param_fam c) true b); cbn [bind]; [|reflexivity].
  destruct (parse_kp a v); cbn [bind]; [|reflexivity]. destruct (hashable a); [apply IH|reflexivity].
Qed.

Lemma respelled_common : forall d d', respelled c d d' -> common_init c (VDict d') true = common_init c (VDict d) true.
Proof. intros d d' H. unfold common_init. cbn [opt_items bind]. rewrite (respelled_transform _ _ _ H). reflexivity. Qed.

Lemma respelled_refl : forall d d', respelled c d d' -> respelled c d d.
Proof.
  intros d d' H. induction H as [|[b v] [b' v'] d d' [HB HV] H IH]; constructor; [|assumption]. split; [|reflexivity].
  cbn [fst] in *. destruct HB; econstructor; eassumption.
Qed.
End Respell.

Lemma own_registered : forall c, Forall (fun m => exists n, In (m, n) (registered (param_fam c))) (own_params c).
Proof.
  intros c. apply Forall_forall. intros m HM. apply in_names. revert m HM.
  assert (HI : incl (own_params c) (map fst (registered (param_fam c)))) by (apply incl_check; destruct c; vm_compute; reflexivity).
  exact HI.
Qed.

Section RespellX.
Variable X : crypto.

Lemma respelled_from : forall c d d', respelled c d d' -> dnodup d = true ->
  match c with KSym => sym_from_dict (VDict d') | KOKP => okp_from_dict (VDict d')
             | KEC2 => ec2_from_dict X (VDict d') | KRSA => rsa_from_dict (VDict d') end =
  match c with KSym => sym_from_dict (VDict d) | KOKP => okp_from_dict (VDict d)
             | KEC2 => ec2_from_dict X (VDict d) | KRSA => rsa_from_dict (VDict d) end.
Proof.
  intros c d d' H HN. pose proof (respelled_refl _ _ _ H) as HR. pose proof (own_registered c) as HO. rewrite Forall_forall in HO.
  assert (HE : forall m dflt, In m (own_params c) -> extract (VDict d') m dflt = extract (VDict d) m dflt).
  { intros m dflt HM. destruct (HO _ HM) as [n HI]. rewrite (respelled_extract c _ _ _ _ _ H HN HI), (respelled_extract c _ _ _ _ _ HR HN HI). reflexivity. }
  assert (HC : forall ms, incl ms (own_params c) -> common_init c (VDict (remove_all d' ms)) true = common_init c (VDict (remove_all d ms)) true).
  { intros ms HM. assert (HF : Forall (fun m => exists n, In (m, n) (registered (param_fam c))) ms).
    { apply Forall_forall. intros m Hm. apply HO, HM. assumption. }
    rewrite (respelled_common c _ _ (respelled_remove_all c ms _ _ H HN HF)), (respelled_common c _ _ (respelled_remove_all c ms _ _ HR HN HF)). reflexivity. }
  destruct c.
  - unfold sym_from_dict. rewrite (HE SymKpK) by (cbn; auto 20). cbn [items_of bind]. unfold sym_init. rewrite HC by (apply incl_check; reflexivity). reflexivity.
  - unfold okp_from_dict. rewrite (HE OKPKpX), (HE OKPKpD), (HE OKPKpCurve) by (cbn; auto 20). cbn [items_of bind].
    unfold okp_init. rewrite HC by (apply incl_check; reflexivity). reflexivity.
  - unfold ec2_from_dict. rewrite (HE EC2KpX), (HE EC2KpY), (HE EC2KpD), (HE EC2KpCurve) by (cbn; auto 20). cbn [items_of bind].
    unfold ec2_init. rewrite HC by (apply incl_check; reflexivity). reflexivity.
  - unfold rsa_from_dict. rewrite (HE RSAKpE), (HE RSAKpN), (HE RSAKpD), (HE RSAKpP), (HE RSAKpQ), (HE RSAKpDP), (HE RSAKpDQ), (HE RSAKpQInv),
      (HE RSAKpOther), (HE RSAKpRi), (HE RSAKpDi), (HE RSAKpTi) by (cbn; auto 20). cbn [items_of bind].
    unfold rsa_init. rewrite HC by (apply incl_check; reflexivity). reflexivity.
Qed.

Lemma dispatch_named : forall c v m, names_kty c v -> dispatch_kty X v m =
  match c with KSym => sym_from_dict m | KOKP => okp_from_dict m | KEC2 => ec2_from_dict X m | KRSA => rsa_from_dict m end.
Proof.
  intros c v m (w & HW & HV). unfold dispatch_kty.
  destruct c; injection HW as <-; destruct HV as [->|[->| ->]]; reflexivity.
Qed.

Lemma respelled_kty : forall c d d', respelled c d d' -> dnodup d = true ->
  from_dict X (VDict d') = match dget d (VClass KpKty) with Some v => dispatch_kty X v (VDict d') | None => Err CoseIllegalKeyType end.
Proof.
  intros c d d' H HN.
  assert (HI : In (KpKty, bs "KTY") (registered (param_fam c))) by (apply registered_kp; apply kp_names).
  pose proof (respelled_extract c d d' KpKty (bs "KTY") (VTag 99 VNone) H HN HI) as HE.
  unfold extract in HE. cbn [map_get bind] in HE. unfold from_dict. cbn [map_get bind].
  change (c_id KpKty) with 1%Z in HE. change (cls_fullname KpKty) with (bs "KTY") in HE.
  destruct (dget d' (VClass KpKty)) as [v|] eqn:E1.
  { rewrite (respelled_some c _ _ _ _ _ H HN (Sp_class c KpKty _ HI) E1). reflexivity. }
  destruct (dget d' (VInt 1)) as [v|] eqn:E2.
  { rewrite (respelled_some c _ _ _ _ _ H HN (Sp_id c KpKty _ HI) E2). reflexivity. }
  destruct (dget d' (VStr (bs "KTY"))) as [v|] eqn:E3.
  { rewrite (respelled_some c _ _ _ _ _ H HN (Sp_name c KpKty _ HI) E3). reflexivity. }
  destruct (dget d (VClass KpKty)) as [v|] eqn:E4; [|reflexivity]. exfalso.
  apply dget_In in E4 as (y & HY & HK). apply keyeq_class in HK. subst y.
  destruct (respelled_forth c _ _ _ _ H HY) as (x & HX & HS).
  pose proof (In_dget _ _ _ (respelled_nodup c _ _ H HN) HX) as HG.
  inversion HS as [p q HP EA EB|p q HP EA EB|p q HP EA EB| |]; subst; try congruence.
  - change (c_id KpKty) with 1%Z in HG. congruence.
  - destruct (registered_id_unique _ _ _ _ _ HP HI eq_refl) as [_ ->]. congruence.
Qed.

Theorem respelled_from_dict : forall c d d', respelled c d d' -> distinct_keys d = true ->
  (forall v, dget d (VClass KpKty) = Some v -> names_kty c v) ->
  from_dict X (VDict d') = from_dict X (VDict d).
Proof.
  intros c d d' H HN HV. rewrite distinct_keys_dnodup in HN.
  rewrite (respelled_kty c d d' H HN), (respelled_kty c d d (respelled_refl _ _ _ H) HN).
  destruct (dget d (VClass KpKty)) as [v|]; [|reflexivity].
  rewrite !(dispatch_named c v) by (apply HV; reflexivity). apply respelled_from; assumption.
Qed.

(** ** Precedence *)

Definition without (a : pyval) (d : dict) : dict := filter (fun e => negb (keyeq a (fst e))) d.

Lemma ddel_filter : forall d a, dnodup d = true -> ddel d a = without a d.
Proof.
  induction d as [|[k v] d IH]; intros a H; [reflexivity|]. cbn [dnodup ddel without filter fst] in *.
  apply andb_true_iff in H as [HN H]. destruct (keyeq a k) eqn:E; cbn [negb].
  - apply negb_true_iff in HN. rewrite <- (dmem_cong d a k E) in HN. clear - HN. unfold without.
    induction d as [|[k v] d IH]; [reflexivity|]. cbn [filter fst]. unfold dmem in *. cbn [dget] in HN. destruct (keyeq a k); [discriminate|].
    cbn [negb]. f_equal. apply IH. assumption.
  - f_equal. apply IH. assumption.
Qed.

Lemma filter_idem : forall A (f : A -> bool) l, filter f (filter f l) = filter f l.
Proof. intros A f l. induction l as [|x l IH]; [reflexivity|]. cbn [filter]. destruct (f x) eqn:E; cbn [filter]; rewrite ?E, IH; reflexivity. Qed.
Lemma filter_comm : forall A (f g : A -> bool) l, filter f (filter g l) = filter g (filter f l).
Proof.
  intros A f g l. induction l as [|x l IH]; [reflexivity|]. cbn [filter]. destruct (f x) eqn:E; destruct (g x) eqn:E'; cbn [filter]; rewrite ?E, ?E', IH; reflexivity.
Qed.

Lemma ddel_comm : forall d a b, dnodup d = true -> ddel (ddel d a) b = ddel (ddel d b) a.
Proof.
  intros d a b H. rewrite (ddel_filter (ddel d a)), (ddel_filter (ddel d b)), !ddel_filter by (try apply dnodup_ddel; assumption).
  apply filter_comm.
Qed.
Lemma ddel_idem : forall d a, dnodup d = true -> ddel (ddel d a) a = ddel d a.
Proof. intros d a H. rewrite (ddel_filter (ddel d a)), ddel_filter by (try apply dnodup_ddel; assumption). apply filter_idem. Qed.

Lemma remove_nodup : forall d m, dnodup d = true -> dnodup (remove d m) = true.
Proof. intros d m H. unfold remove. repeat apply dnodup_ddel. assumption. Qed.

Lemma remove_ddel : forall d m s, dnodup d = true -> remove (ddel d s) m = ddel (remove d m) s.
Proof.
  intros d m s H. unfold remove. rewrite (ddel_comm d s) by assumption. rewrite (ddel_comm (ddel d _) s) by (apply dnodup_ddel; assumption).
  rewrite (ddel_comm _ s) by (repeat apply dnodup_ddel; assumption). reflexivity.
Qed.

Lemma remove_absorb : forall d m n s, dnodup d = true -> cls_fullname m = n -> s = VInt (c_id m) \/ s = VStr n -> ddel (remove d m) s = remove d m.
Proof.
  intros d m n s H HN HS. unfold remove. rewrite HN. destruct HS as [->| ->].
  - rewrite ddel_comm by (repeat apply dnodup_ddel; assumption). rewrite ddel_idem by (apply dnodup_ddel; assumption). reflexivity.
  - apply ddel_idem. repeat apply dnodup_ddel. assumption.
Qed.

Lemma remove_all_ddel : forall ms d s, dnodup d = true -> remove_all (ddel d s) ms = ddel (remove_all d ms) s.
Proof.
  induction ms as [|m ms IH]; intros d s H; [reflexivity|]. unfold remove_all in *. cbn [fold_left]. rewrite remove_ddel by assumption.
  apply IH. apply remove_nodup. assumption.
Qed.

Lemma remove_all_nodup : forall ms d, dnodup d = true -> dnodup (remove_all d ms) = true.
Proof. induction ms as [|m ms IH]; intros d H; [assumption|]. apply IH. apply remove_nodup. assumption. Qed.

Lemma remove_all_absorb : forall ms d p n s, dnodup d = true -> cls_fullname p = n -> In p ms -> s = VInt (c_id p) \/ s = VStr n ->
  remove_all (ddel d s) ms = remove_all d ms.
Proof.
  induction ms as [|m ms IH]; intros d p n s H HN HI HS; [destruct HI|]. unfold remove_all in *. cbn [fold_left]. destruct HI as [->|HI].
  - rewrite remove_ddel by assumption. rewrite (remove_absorb d p n s H HN HS). reflexivity.
  - rewrite remove_ddel by assumption. eapply IH; [apply remove_nodup; assumption|exact HN|assumption|assumption].
Qed.

Lemma own_not_kty : forall c p, In p (own_params c) -> c_id p <> 1%Z /\ cls_fullname p <> bs "KTY".
Proof.
  intros c p H. assert (HT : forallb (fun p => negb (Z.eqb (c_id p) 1) && negb (bytes_eqb (cls_fullname p) (bs "KTY"))) (own_params c) = true) by (destruct c; vm_compute; reflexivity).
  rewrite forallb_forall in HT. apply HT in H. apply andb_true_iff in H as [H1 H2]. apply negb_true_iff in H1, H2.
  split; [apply Z.eqb_neq; assumption|]. intros E. rewrite E in H2. discriminate.
Qed.

Lemma overridden_extract : forall c d p n s m dflt, overridden d p n s -> In (p, n) (registered (param_fam c)) ->
  In m (own_params c) -> extract (VDict (ddel d s)) m dflt = extract (VDict d) m dflt.
Proof.
  intros c d p n s m dflt HO HI HM. pose proof (own_registered c) as HR. rewrite Forall_forall in HR. destruct (HR _ HM) as [k HK].
  assert (HS : s = VInt (c_id p) \/ s = VStr n) by (destruct HO as [[_ HS]|[_ HS]]; auto).
  unfold extract. cbn [map_get bind]. rewrite (cls_fullname_registered _ _ _ HK).
  assert (E1 : dget (ddel d s) (VClass m) = dget d (VClass m)) by (apply dget_ddel_other; destruct HS as [->| ->]; reflexivity).
  rewrite E1. destruct (dget d (VClass m)) as [v|] eqn:G1; [reflexivity|].
  destruct (Z.eq_dec (c_id m) (c_id p)) as [EM|NM].
  - destruct (registered_id_unique _ _ _ _ _ HK HI EM) as [-> ->].
    destruct HO as [[HO _]|[HO ->]]; [congruence|]. rewrite dget_ddel_other by reflexivity.
    destruct (dget d (VInt (c_id p))) as [v|]; [reflexivity|]. elim HO; reflexivity.
  - assert (E2 : dget (ddel d s) (VInt (c_id m)) = dget d (VInt (c_id m))).
    { apply dget_ddel_other. destruct HS as [->| ->]; [|reflexivity]. rewrite keyeq_int. apply Z.eqb_neq. assumption. }
    rewrite E2. destruct (dget d (VInt (c_id m))) as [v|]; [reflexivity|].
    assert (E3 : dget (ddel d s) (VStr k) = dget d (VStr k)).
    { apply dget_ddel_other. destruct HS as [->| ->]; [reflexivity|]. rewrite keyeq_str. destruct (bytes_eqb k n) eqn:E; [|reflexivity].
      apply bytes_eqb_eq in E. subst k. rewrite (registered_name_unique _ _ _ _ HK HI) in NM. elim NM; reflexivity. }
    rewrite E3. reflexivity.
Qed.

Theorem precedence_own : forall c d p n s v, distinct_keys d = true -> given d KpKty (bs "KTY") v -> names_kty c v ->
  In p (own_params c) -> In (p, n) (registered (param_fam c)) -> overridden d p n s ->
  from_dict X (VDict (ddel d s)) = from_dict X (VDict d).
Proof.
  intros c d p n s v HN HG HV HP HI HO. rewrite distinct_keys_dnodup in HN.
  assert (HS : s = VInt (c_id p) \/ s = VStr n) by (destruct HO as [[_ HS]|[_ HS]]; auto).
  destruct (own_not_kty c p HP) as [NK1 NK2]. rewrite (cls_fullname_registered _ _ _ HI) in NK2.
  assert (HF : forall d', given d' KpKty (bs "KTY") v -> from_dict X (VDict d') =
    match c with KSym => sym_from_dict (VDict d') | KOKP => okp_from_dict (VDict d') | KEC2 => ec2_from_dict X (VDict d') | KRSA => rsa_from_dict (VDict d') end).
  { intros d' HG'. rewrite <- (dispatch_named c v _ HV). unfold from_dict. cbn [map_get bind].
    destruct HG' as [G|[(G1 & G2)|(G1 & G2 & G3)]]; change (c_id KpKty) with 1%Z in *; rewrite ?G, ?G1, ?G2, ?G3; reflexivity. }
  assert (HG' : given (ddel d s) KpKty (bs "KTY") v).
  { assert (D1 : dget (ddel d s) (VClass KpKty) = dget d (VClass KpKty)) by (apply dget_ddel_other; destruct HS as [->| ->]; reflexivity).
    assert (D2 : dget (ddel d s) (VInt (c_id KpKty)) = dget d (VInt (c_id KpKty))).
    { apply dget_ddel_other; destruct HS as [->| ->]; [|reflexivity]. rewrite keyeq_int. apply Z.eqb_neq. change (c_id KpKty) with 1%Z. congruence. }
    assert (D3 : dget (ddel d s) (VStr (bs "KTY")) = dget d (VStr (bs "KTY"))).
    { apply dget_ddel_other; destruct HS as [->| ->]; [reflexivity|]. rewrite keyeq_str. destruct (bytes_eqb (bs "KTY") n) eqn:E; [|reflexivity].
      apply bytes_eqb_eq in E. congruence. }
    unfold given. rewrite D1, D2, D3. assumption. }
  rewrite (HF _ HG), (HF _ HG'). clear HF HG HG'.
  pose proof (fun m dflt HM => overridden_extract c d p n s m dflt HO HI HM) as HE.
  pose proof (fun ms HM => remove_all_absorb ms d p n s HN (cls_fullname_registered _ _ _ HI) HM HS) as HR.
  destruct c.
  - unfold sym_from_dict. rewrite (HE SymKpK) by (cbn; auto 20). cbn [items_of bind]. rewrite HR by exact HP. reflexivity.
  - unfold okp_from_dict. rewrite (HE OKPKpX), (HE OKPKpD), (HE OKPKpCurve) by (cbn; auto 20). cbn [items_of bind].
    rewrite HR; [reflexivity|]. exact HP.
  - unfold ec2_from_dict. rewrite (HE EC2KpX), (HE EC2KpY), (HE EC2KpD), (HE EC2KpCurve) by (cbn; auto 20). cbn [items_of bind].
    rewrite HR; [reflexivity|]. exact HP.
  - unfold rsa_from_dict. rewrite (HE RSAKpE), (HE RSAKpN), (HE RSAKpD), (HE RSAKpP), (HE RSAKpQ), (HE RSAKpDP), (HE RSAKpDQ), (HE RSAKpQInv),
      (HE RSAKpOther), (HE RSAKpRi), (HE RSAKpDi), (HE RSAKpTi) by (cbn; auto 20). cbn [items_of bind].
    rewrite HR; [reflexivity|].
    assert (HIn : incl (own_params KRSA) [RSAKpE; RSAKpN; RSAKpD; RSAKpP; RSAKpQ; RSAKpDP; RSAKpDQ; RSAKpQInv; RSAKpOther; RSAKpQInv; RSAKpRi; RSAKpDi; RSAKpTi])
      by (apply incl_check; reflexivity). apply HIn. exact HP.
Qed.
End RespellX.
