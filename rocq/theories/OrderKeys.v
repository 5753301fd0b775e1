(** The order of key parameters (C104). *)
From Coq Require Import NArith ZArith Bool String Lia Permutation.
From Coq Require Import Init.Byte List.
From Verif Require Import Bytes Value ValueProofs Cbor SpecData DataProofs Registry RegistryProofs Crypto Keys Algorithms Headers Messages Recipients
  SpecRegistry SpecKeys SpecOrder KeyProofs KeyTrip KeyTrip3 OrderProofs.
Import ListNotations.
Local Open Scope result_scope.

(** Two maps in different orders that can be keys' parameters. *)
Definition maps f (d d' : dict) : Prop := Permutation d d' /\ dnodup d = true /\ Forall (fun e => hashable (fst e) = true) d /\ named_once f d.

Lemma maps_ddel : forall f d d' a, maps f d d' -> maps f (ddel d a) (ddel d' a).
Proof.
  intros f d d' a (HP & HN & HH & HO). split; [apply perm_ddel; assumption|]. split; [apply dnodup_ddel, HN|]. split.
  - rewrite Forall_forall in *. intros e HE. apply HH. eapply ddel_In, HE.
  - clear - HO. induction HO as [|[b v] d HF HO IH]; cbn [ddel]; [constructor|]. destruct (keyeq a b); [exact HO|]. constructor; [|exact IH].
    rewrite Forall_forall in *. intros e HE. apply HF. eapply ddel_In, HE.
Qed.

Lemma maps_remove_all : forall f ms d d', maps f d d' -> maps f (remove_all d ms) (remove_all d' ms).
Proof.
  intros f ms. induction ms as [|m ms IH]; intros d d' H; [exact H|]. unfold remove_all in *. cbn [fold_left]. apply IH. unfold remove. do 3 apply maps_ddel. exact H.
Qed.

Lemma maps_dget : forall f d d' a, maps f d d' -> dget d' a = dget d a.
Proof. intros f d d' a (HP & HN & _). symmetry. apply perm_dget; assumption. Qed.

Lemma maps_extract : forall f d d' p v, maps f d d' -> extract (VDict d') p v = extract (VDict d) p v.
Proof. intros f d d' p v H. unfold extract, map_get. rewrite !(maps_dget f d d' _ H). reflexivity. Qed.

(** Keys that read the same, as an invariant. *)
Definition sk (k k' : key) : Prop := same_key k k' /\ dnodup (k_store k) = true /\ dnodup (k_store k') = true.

Definition setter (f : key -> result key) : Prop := forall k k' k1, sk k k' -> f k = Ok k1 -> exists k1', f k' = Ok k1' /\ sk k1 k1'.

Lemma sk_set : forall k k' p v, sk k k' -> sk (store_set k p v) (store_set k' p v).
Proof.
  intros [c s e] [c' s' e'] p v ((H1 & H2 & H3) & N1 & N2). cbn in *. subst. split; [split; [reflexivity|split; [|reflexivity]]|split; apply dnodup_dset; assumption].
  intros a. unfold store_set. cbn [k_store with_store]. rewrite !dget_dset, (H2 a). reflexivity.
Qed.

Lemma sk_extra : forall k k' n v, sk k k' -> sk (extra_set n v k) (extra_set n v k').
Proof. intros [c s e] [c' s' e'] n v ((H1 & H2 & H3) & N1 & N2). cbn in *. subst. split; [split; [reflexivity|split; [exact H2|reflexivity]]|split; assumption]. Qed.

Lemma set_bytes_setter : forall p v, setter (set_bytes_param p v).
Proof. intros p v k k' k1 H E. unfold set_bytes_param in *. destruct v; try discriminate. injection E as <-. eexists. split; [reflexivity|apply sk_set, H]. Qed.

Lemma set_unless_setter : forall p v, setter (set_unless_empty p v).
Proof.
  intros p v k k' k1 H E. unfold set_unless_empty in *. destruct (veqb v (VBytes [])).
  - injection E as <-. exists k'. auto.
  - eapply set_bytes_setter; eassumption.
Qed.

Lemma set_crv_setter : forall p t v, setter (set_crv p t v).
Proof.
  intros p t v k k' k1 H E. unfold set_crv in *. apply bind_ok in E as (c & EC & E). rewrite EC. cbn [bind]. destruct c; try discriminate.
  destruct (veqb _ _); [|discriminate]. injection E as <-. eexists. split; [reflexivity|apply sk_set, H].
Qed.

Lemma set_k_setter : forall v, setter (set_k v).
Proof.
  intros v k k' k1 H E. unfold set_k in *. destruct v; try discriminate. destruct (existsb _ _); [|discriminate]. injection E as <-.
  eexists. split; [reflexivity|apply sk_set, H].
Qed.

Lemma transform_mapM : forall c allow d acc, transform_params c allow d acc =
  (l <- mapM (fun e => a <- from_id (param_fam c) allow (fst e) ;; v <- (v <- parse_kp a (snd e) ;; if hashable a then Ok v else Err TypeError) ;; Ok (a, v)) d ;;
   Ok (dupdate acc l)).
Proof.
  intros c allow d. induction d as [|[k v] d IH]; intros acc; [reflexivity|]. cbn [transform_params mapM fst snd].
  destruct (from_id (param_fam c) allow k) as [a|e]; [|reflexivity]. cbn [bind]. destruct (parse_kp a v) as [w|e]; [|reflexivity]. cbn [bind].
  destruct (hashable a); [|reflexivity]. cbn [bind]. rewrite IH. destruct (mapM _ d) as [l|e]; reflexivity.
Qed.

Lemma common_order : forall c d d' k, maps (param_fam c) d d' -> common_init c (VDict d) true = Ok k ->
  k_cls k = c /\ exists k', common_init c (VDict d') true = Ok k' /\ sk k k'.
Proof.
  intros c d d' k (HP & HN & HH & HO) E. unfold common_init in *. cbn [opt_items bind] in *. rewrite transform_mapM in *.
  apply bind_ok in E as (r & ER & E). apply bind_ok in ER as (l & EL & ER). injection ER as <-.
  destruct (mapM_perm _ _ _ _ _ _ HP EL) as (l' & EL' & P'). rewrite EL'. cbn [bind].
  pose proof (once_nodup (param_fam c) true (fun a v => w <- parse_kp a v ;; if hashable a then Ok w else Err TypeError) d l HO HH EL) as NL.
  assert (NL' : dnodup l' = true) by (rewrite <- (perm_dnodup _ _ P'); exact NL).
  set (b := [(VClass KpKty, kty_of c)]) in *.
  assert (HG : forall a, dget (dupdate b l') a = dget (dupdate b l) a).
  { intros a. rewrite !dget_dupdate, !dget_rev by assumption. rewrite (perm_dget _ _ P' NL). reflexivity. }
  assert (N1 : dnodup (dupdate b l) = true) by (apply dnodup_dupdate; reflexivity). assert (N2 : dnodup (dupdate b l') = true) by (apply dnodup_dupdate; reflexivity).
  unfold dget_or in *. rewrite HG. destruct (veqb _ _); [|discriminate]. unfold base_init in *. rewrite HG.
  assert (S1 : sk (Key c (dupdate b l) []) (Key c (dupdate b l') [])).
  { split; [split; [reflexivity|split; [|reflexivity]]|split; assumption]. intros a. symmetry. apply HG. }
  destruct (dget (dupdate b l) (VClass KpKeyOps)) as [ops|].
  - apply bind_ok in E as (n & EN & E). rewrite EN. cbn [bind]. destruct (Nat.eqb n 0).
    + injection E as <-. split; [reflexivity|]. eexists. split; [reflexivity|].
      split; [split; [reflexivity|split; [|reflexivity]]|split; apply dnodup_ddel; assumption]. intros a. cbn [k_store]. rewrite !dget_ddel by assumption. rewrite HG. reflexivity.
    + injection E as <-. split; [reflexivity|]. eexists. split; [reflexivity|exact S1].
  - injection E as <-. split; [reflexivity|]. eexists. split; [reflexivity|exact S1].
Qed.

Section Keys.
Variable X : crypto.

Lemma sym_order : forall d d' k, maps FSym d d' -> sym_from_dict (VDict d) = Ok k -> exists k', sym_from_dict (VDict d') = Ok k' /\ sk k k'.
Proof.
  intros d d' k HM E. unfold sym_from_dict in *. rewrite (maps_extract _ _ _ _ _ HM). apply bind_ok in E as (v & EV & E). rewrite EV. cbn [bind items_of] in *.
  unfold sym_init in *. apply bind_ok in E as (k1 & E1 & E). destruct (common_order KSym _ _ _ (maps_remove_all _ [SymKpK] _ _ HM) E1) as (_ & k1' & E1' & H).
  rewrite E1'. cbn [bind]. destruct (veqb _ _); [discriminate|]. eapply set_k_setter; eassumption.
Qed.

Lemma okp_order : forall d d' k, maps FOKP d d' -> okp_from_dict (VDict d) = Ok k -> exists k', okp_from_dict (VDict d') = Ok k' /\ sk k k'.
Proof.
  intros d d' k HM E. unfold okp_from_dict in *. rewrite !(maps_extract _ _ _ _ _ HM). apply bind_ok in E as (x & EX & E). rewrite EX. cbn [bind].
  apply bind_ok in E as (y & EY & E). rewrite EY. cbn [bind]. apply bind_ok in E as (z & EZ & E). rewrite EZ. cbn [bind items_of] in *.
  unfold okp_init in *. apply bind_ok in E as (k1 & E1 & E). destruct (common_order KOKP _ _ _ (maps_remove_all _ [OKPKpX; OKPKpD; OKPKpCurve] _ _ HM) E1) as (_ & k1' & E1' & H).
  rewrite E1'. cbn [bind]. apply bind_ok in E as (n & EN & E). rewrite EN. cbn [bind]. apply bind_ok in E as (nn & ENN & E). rewrite ENN. cbn [bind].
  destruct nn; [discriminate|]. destruct (is_none z); [discriminate|].
  apply bind_ok in E as (k2 & E2 & E). destruct (set_crv_setter _ _ _ _ _ _ H E2) as (k2' & E2' & H2). rewrite E2'. cbn [bind].
  apply bind_ok in E as (k3 & E3 & E). destruct (set_unless_setter _ _ _ _ _ H2 E3) as (k3' & E3' & H3). rewrite E3'. cbn [bind].
  eapply set_unless_setter; eassumption.
Qed.

Lemma ec2_order : forall d d' k, maps FEC2 d d' -> ec2_from_dict X (VDict d) = Ok k -> exists k', ec2_from_dict X (VDict d') = Ok k' /\ sk k k'.
Proof.
  intros d d' k HM E. unfold ec2_from_dict in *. rewrite !(maps_extract _ _ _ _ _ HM). apply bind_ok in E as (x & EX & E). rewrite EX. cbn [bind].
  apply bind_ok in E as (y & EY & E). rewrite EY. cbn [bind]. apply bind_ok in E as (z & EZ & E). rewrite EZ. cbn [bind]. apply bind_ok in E as (w & EW & E). rewrite EW. cbn [bind items_of] in *.
  unfold ec2_init in *. apply bind_ok in E as (k1 & E1 & E). destruct (common_order KEC2 _ _ _ (maps_remove_all _ [EC2KpX; EC2KpY; EC2KpD; EC2KpCurve] _ _ HM) E1) as (_ & k1' & E1' & H).
  rewrite E1'. cbn [bind]. destruct (is_none w); [discriminate|].
  apply bind_ok in E as (k2 & E2 & E). destruct (set_crv_setter _ _ _ _ _ _ H E2) as (k2' & E2' & H2). rewrite E2'. cbn [bind].
  destruct (_ && _ && _); [discriminate|]. destruct (_ && _); [discriminate|].
  replace (crv_id k2') with (crv_id k2) by (unfold crv_id; destruct H2 as ((_ & HG & _) & _); rewrite (HG (VClass EC2KpCurve)); reflexivity).
  apply bind_ok in E as ([x1 y1] & EP & E). rewrite EP. cbn [bind]. apply bind_ok in E as (y2 & EY2 & E). rewrite EY2. cbn [bind].
  apply bind_ok in E as (k3 & E3 & E). destruct (set_unless_setter _ _ _ _ _ H2 E3) as (k3' & E3' & H3). rewrite E3'. cbn [bind].
  apply bind_ok in E as (k4 & E4 & E). destruct (set_unless_setter _ _ _ _ _ H3 E4) as (k4' & E4' & H4). rewrite E4'. cbn [bind].
  eapply set_unless_setter; eassumption.
Qed.

Lemma extra_unless_sk : forall k k' n v, sk k k' -> sk (extra_unless_empty n v k) (extra_unless_empty n v k').
Proof. intros k k' n v H. unfold extra_unless_empty. destruct (veqb _ _); [exact H|apply sk_extra, H]. Qed.

Lemma rsa_order : forall d d' k, maps FRSA d d' -> rsa_from_dict (VDict d) = Ok k -> exists k', rsa_from_dict (VDict d') = Ok k' /\ sk k k'.
Proof.
  intros d d' k HM E. unfold rsa_from_dict in *. rewrite !(maps_extract _ _ _ _ _ HM).
  do 12 (let x := fresh "x" in let EX := fresh "EX" in apply bind_ok in E as (x & EX & E); rewrite EX; cbn [bind]; clear EX). cbn [bind items_of] in *.
  unfold rsa_init in *. cbv zeta in *. apply bind_ok in E as (ok & EO & E). rewrite EO. cbn [bind]. destruct (negb ok); [discriminate|].
  apply bind_ok in E as (k1 & E1 & E). destruct (common_order KRSA _ _ _ (maps_remove_all _ _ _ _ HM) E1) as (_ & k1' & E1' & H).
  rewrite E1'. cbn [bind]. clear E1 E1' EO.
  do 2 (let k := fresh "k" in let k' := fresh "k'" in let EK := fresh in let EK' := fresh in let H' := fresh in
    apply bind_ok in E as (k & EK & E); destruct (set_bytes_setter _ _ _ _ _ H EK) as (k' & EK' & H'); rewrite EK'; cbn [bind]; clear H EK EK'; rename H' into H).
  do 6 (let k := fresh "k" in let k' := fresh "k'" in let EK := fresh in let EK' := fresh in let H' := fresh in
    apply bind_ok in E as (k & EK & E); destruct (set_unless_setter _ _ _ _ _ H EK) as (k' & EK' & H'); rewrite EK'; cbn [bind]; clear H EK EK'; rename H' into H).
  injection E as <-. eexists. split; [reflexivity|]. do 3 apply extra_unless_sk. destruct (truthy _); [apply sk_extra|]; exact H.
Qed.

Lemma dispatch_class : forall v d k, dispatch_kty X v (VDict d) = Ok k -> exists c, key_type_lookup key_types v = Some c /\ k_cls k = c.
Proof.
  intros v d k E. unfold dispatch_kty in E. destruct (negb _); [discriminate|]. destruct (key_type_lookup key_types v) as [[]|]; [| | | |discriminate];
    eexists; (split; [reflexivity|]).
  - unfold sym_from_dict in E. apply bind_ok in E as (? & _ & E). apply bind_ok in E as (? & _ & E). apply sym_init_fresh in E as (H & _). apply H.
  - unfold okp_from_dict in E. do 4 (apply bind_ok in E as (? & _ & E)). apply okp_init_fresh in E as (H & _). apply H.
  - unfold ec2_from_dict in E. do 5 (apply bind_ok in E as (? & _ & E)). apply ec2_init_fresh in E as (H & _). apply H.
  - unfold rsa_from_dict in E. do 13 (apply bind_ok in E as (? & _ & E)). apply rsa_init_fresh in E. apply E.
Qed.

Lemma dispatch_order : forall v d d' k, maps (param_fam (k_cls k)) d d' -> dispatch_kty X v (VDict d) = Ok k ->
  exists k', dispatch_kty X v (VDict d') = Ok k' /\ sk k k'.
Proof.
  intros v d d' k HM E. destruct (dispatch_class _ _ _ E) as (c & HL & HC). unfold dispatch_kty in *. rewrite HC, HL in *. destruct (negb _); [discriminate|].
  destruct c; [eapply sym_order|eapply okp_order|eapply ec2_order|eapply rsa_order]; eassumption.
Qed.

Lemma from_dict_order : forall d d' k, Permutation d d' -> python_dict d -> named_once (param_fam (k_cls k)) d -> from_dict X (VDict d) = Ok k ->
  exists k', from_dict X (VDict d') = Ok k' /\ same_key k k'.
Proof.
  intros d d' k HP (HN & HH) HO E. rewrite distinct_keys_dnodup in HN. assert (HM : maps (param_fam (k_cls k)) d d') by (split; auto).
  cbn [from_dict map_get bind] in *. rewrite !(maps_dget _ _ _ _ HM).
  destruct (dget d (VClass KpKty)) as [v|]; [|destruct (dget d (VInt 1)) as [v|]; [|destruct (dget d (VStr (bs "KTY"))) as [v|]; [|discriminate]]];
    destruct (dispatch_order _ _ _ _ HM E) as (k' & E' & H & _); eauto.
Qed.

Lemma same_prop : forall k k' p, same_key k k' -> prop_get k' p = prop_get k p.
Proof.
  intros [c s e] [c' s' e'] p (H1 & H2 & H3). cbn in *. subst c' e'. unfold prop_get. cbn [k_cls k_store k_extra]. unfold dget_or.
  destruct p; destruct c; cbn; rewrite <- ?(H2 _); reflexivity.
Qed.

Lemma same_verify : forall k k' t a ops, same_key k k' -> key_verify k' t a ops = key_verify k t a ops.
Proof.
  intros k k' t a ops H. destruct H as (HC & HG & _). unfold key_verify, dget_or. rewrite <- HC, <- !(HG _). reflexivity.
Qed.

End Keys.
