(** Keys: EC2 consistency (C43) and imported integers (C42). *)
From Coq Require Import NArith ZArith Bool String Lia.
From Coq Require Import Init.Byte List.
From Verif Require Import Bytes BytesProofs Value ValueProofs Cbor Registry RegistryProofs Crypto Keys SpecKeys
  KeyProofs KeyProofs2 KeyProofs3.
Import ListNotations.

Definition put (p : cls) (v : pyval) (s : dict) : dict :=
  if veqb v (VBytes []) then s else dset s (VClass p) v.

Lemma param_put_same : forall k p v s, k_store k = put p v s -> v <> VBytes [] -> param k p = Some v.
Proof.
  intros k p v s H HV. unfold param. rewrite H. unfold put.
  destruct (veqb v (VBytes [])) eqn:E; [apply veqb_eq in E; contradiction|]. apply dget_dset_same, keyeq_refl.
Qed.

Lemma dget_put_other : forall p q v s, q <> p -> dget (put p v s) (VClass q) = dget s (VClass q).
Proof.
  intros p q v s H. unfold put. destruct (veqb v (VBytes [])); [reflexivity|].
  apply dget_dset_other, keyeq_class_ne. assumption.
Qed.

Lemma dget_put_same : forall p v s, v <> VBytes [] -> dget (put p v s) (VClass p) = Some v.
Proof.
  intros p v s HV. unfold put. destruct (veqb v (VBytes [])) eqn:E; [apply veqb_eq in E; contradiction|].
  apply dget_dset_same, keyeq_refl.
Qed.

Lemma dget_put_empty : forall p s, put p (VBytes []) s = s.
Proof. reflexivity. Qed.

Lemma set_unless_put : forall p v k k', set_unless_empty p v k = Ok k' ->
  (exists b, v = VBytes b) /\ k' = Key (k_cls k) (put p v (k_store k)) (k_extra k).
Proof.
  intros p v k k' H. unfold set_unless_empty, put in *. destruct (veqb v (VBytes [])) eqn:E.
  - injection H as <-. apply veqb_eq in E. split; [eauto|]. destruct k; reflexivity.
  - destruct v; cbn [set_bytes_param] in H; try discriminate. injection H as <-. split; [eauto|]. reflexivity.
Qed.

Lemma set_unless_put_ok : forall p b k,
  set_unless_empty p (VBytes b) k = Ok (Key (k_cls k) (put p (VBytes b) (k_store k)) (k_extra k)).
Proof.
  intros p b k. unfold set_unless_empty, put. destruct (veqb (VBytes b) (VBytes [])); [destruct k|]; reflexivity.
Qed.

Lemma truthy_bytes : forall b, truthy (VBytes b) = negb (veqb (VBytes b) (VBytes [])).
Proof. intros [|x b]; reflexivity. Qed.

Lemma to_bytes_checked_ok : forall n m b, to_bytes_checked n m = Ok b -> length b = n /\ of_be b = m.
Proof.
  intros n m b H. unfold to_bytes_checked in H. destruct (N.ltb_spec m (256 ^ N.of_nat n)); [|discriminate].
  injection H as <-. split; [apply to_be_length|]. apply of_be_to_be_small. assumption.
Qed.

Lemma ec2_curve_size : forall z, curve_key_type z = KtyEC2 -> exists n, curve_size z = S n.
Proof.
  intros z H. unfold curve_key_type in H.
  destruct (existsb (Z.eqb z) [1; 2; 3; 8]%Z) eqn:E.
  - apply existsb_exists in E as (w & HW & E). apply Z.eqb_eq in E. subst w.
    repeat (destruct HW as [<-|HW]; [eexists; vm_compute; reflexivity|]). destruct HW.
  - destruct (existsb (Z.eqb z) [4; 5; 6; 7]%Z); discriminate.
Qed.

Lemma ec2_curve_registered : forall z, curve_key_type z = KtyEC2 ->
  from_id FCrv false (VClass (Cls FCrv z)) = Ok (VClass (Cls FCrv z)).
Proof.
  intros z H. unfold curve_key_type in H.
  destruct (existsb (Z.eqb z) [1; 2; 3; 8]%Z) eqn:E.
  - apply existsb_exists in E as (w & HW & E). apply Z.eqb_eq in E. subst w.
    repeat (destruct HW as [<-|HW]; [vm_compute; reflexivity|]). destruct HW.
  - destruct (existsb (Z.eqb z) [4; 5; 6; 7]%Z); discriminate.
Qed.

Lemma nonempty : forall (b : bytes) n, length b = S n -> b <> [].
Proof. intros b n H ->. discriminate. Qed.

Section WithX.
Variable X : crypto.

(** What [EC2Key.__init__] leaves in the store. *)
Lemma ec2_init_store : forall crv x y d opt allow k, ec2_init X crv x y d opt allow = Ok k ->
  exists k0 cv x1 y1 y2,
    common_init KEC2 opt allow = Ok k0 /\ is_none crv = false /\
    from_id FCrv false crv = Ok (VClass cv) /\ curve_key_type (c_id cv) = KtyEC2 /\
    (truthy d = true \/ truthy x = true) /\
    (if truthy d then ec2_from_private X (c_id cv) d x y else Ok (x, y)) = Ok (x1, y1) /\
    (if truthy x1 && negb (truthy y1) then ec2_decompress X (c_id cv) x1 else Ok y1) = Ok y2 /\
    (exists bx by_ bd, x1 = VBytes bx /\ y2 = VBytes by_ /\ d = VBytes bd) /\
    k = Key KEC2 (put EC2KpD d (put EC2KpY y2 (put EC2KpX x1
          (dset (k_store k0) (VClass EC2KpCurve) (VClass cv))))) [].
Proof.
  intros crv x y d opt allow k H. unfold ec2_init in H. inv_bind H k0.
  pose proof (common_init_fresh _ _ _ _ H0) as HF.
  assert (HX : k_extra k0 = []).
  { unfold common_init in H0. inv_bind H0 o. inv_bind H0 dd. destruct (veqb _ _); [|discriminate].
    unfold base_init in H0. destruct (dget dd (VClass KpKeyOps)).
    - inv_bind H0 n. destruct (Nat.eqb n 0); injection H0 as <-; reflexivity.
    - injection H0 as <-. reflexivity. }
  destruct (is_none crv) eqn:EN; [discriminate|].
  inv_bind H k1. unfold set_crv in H1. inv_bind H1 w. destruct w; try discriminate. rename c into cv.
  destruct (veqb (curve_key_type (c_id cv)) KtyEC2) eqn:EK; [|discriminate]. injection H1 as <-.
  apply veqb_eq in EK.
  destruct (negb (truthy x) && negb (truthy y) && negb (truthy d)); [discriminate|].
  destruct (negb (truthy d) && negb (truthy x)) eqn:ET; [discriminate|].
  assert (HC : crv_id (store_set k0 EC2KpCurve (VClass cv)) = c_id cv).
  { unfold crv_id, store_set, with_store. cbn [k_store]. rewrite dget_dset_same by apply keyeq_refl. reflexivity. }
  rewrite HC in H.
  apply bind_ok in H as ([x1 y1] & HXY & H). inv_bind H y2. inv_bind H k2. inv_bind H k3.
  apply set_unless_put in H3 as [[bx Hbx] ->]. apply set_unless_put in H4 as [[by_ Hby] ->].
  apply set_unless_put in H as [[bd Hbd] ->].
  exists k0, cv, x1, y1, y2.
  split; [assumption|]. split; [reflexivity|]. split; [assumption|]. split; [assumption|].
  split. { destruct (truthy d); [left; reflexivity|right]. destruct (truthy x); [reflexivity|discriminate]. }
  split; [assumption|]. split; [assumption|]. split; [eauto 10|].
  unfold store_set, with_store. cbn [k_cls k_store k_extra]. rewrite (fr_cls _ _ HF), HX. reflexivity.
Qed.

(** C43, with a private key. *)
Lemma ec2_private_consistent : forall crv x y d opt allow k, ec2_init X crv x y (VBytes d) opt allow = Ok k ->
  d <> [] ->
  exists cv px py bx by_, param k EC2KpCurve = Some (VClass cv) /\
    x_ec_pub X (c_id cv) (of_be d) = Ok (px, py) /\
    length bx = curve_size (c_id cv) /\ of_be bx = px /\
    length by_ = curve_size (c_id cv) /\ of_be by_ = py /\
    param k EC2KpX = Some (VBytes bx) /\ param k EC2KpY = Some (VBytes by_) /\
    param k EC2KpD = Some (VBytes d) /\
    (truthy x = true -> x = VBytes bx) /\ (truthy y = true -> y = VBytes by_).
Proof.
  intros crv x y d opt allow k H HD.
  apply ec2_init_store in H as (k0 & cv & x1 & y1 & y2 & H0 & HN & HC & HK & HT & HP & HY & _ & ->).
  destruct d as [|d0 d]; [elim HD; reflexivity|]. cbn [truthy] in HP.
  unfold ec2_from_private in HP. cbn [as_bytes bind] in HP.
  apply bind_ok in HP as ([px py] & HP1 & HP). inv_bind HP bx. inv_bind HP x'. inv_bind HP by_.
  inv_bind HP y'. injection HP as -> ->.
  apply to_bytes_checked_ok in H as [L1 O1]. apply to_bytes_checked_ok in H2 as [L2 O2].
  assert (Ex : x1 = VBytes bx /\ (truthy x = true -> x = VBytes bx)).
  { destruct (truthy x) eqn:E.
    - destruct (veqb x (VBytes bx)) eqn:E2; [|discriminate]. injection H1 as <-. apply veqb_eq in E2. auto.
    - injection H1 as <-. split; [reflexivity|]. discriminate. }
  assert (Ey : y1 = VBytes by_ /\ (truthy y = true -> y = VBytes by_)).
  { destruct (truthy y) eqn:E.
    - destruct (veqb y (VBytes by_)) eqn:E2; [|discriminate]. injection H3 as <-. apply veqb_eq in E2. auto.
    - injection H3 as <-. split; [reflexivity|]. discriminate. }
  destruct Ex as [-> Ex]. destruct Ey as [-> Ey].
  destruct (ec2_curve_size _ HK) as [sz HSZ].
  exists cv, px, py, bx, by_. unfold param. cbn [k_store].
  split.
  { rewrite !dget_put_other by discriminate. apply dget_dset_same, keyeq_refl. }
  do 5 (split; [assumption|]). split.
  { assert (Hb : bx <> []) by (eapply nonempty; rewrite L1; eassumption).
    rewrite !dget_put_other by discriminate. apply dget_put_same. congruence. }
  split.
  { assert (Hb : by_ <> []) by (eapply nonempty; rewrite L2; eassumption). rewrite dget_put_other by discriminate.
    assert (y2 = VBytes by_) as ->.
    { destruct by_; [elim Hb; reflexivity|]. rewrite andb_false_r in HY. injection HY as <-. reflexivity. }
    apply dget_put_same. congruence. }
  split; [apply dget_put_same; discriminate|]. split; assumption.
Qed.

(** C43, without a private key and with no y: y is computed from x. *)
Lemma ec2_public_decompressed : forall crv x opt allow k, ec2_init X crv (VBytes x) (VBytes []) (VBytes []) opt allow = Ok k ->
  exists cv px py by_, param k EC2KpCurve = Some (VClass cv) /\
    x_ec_point X (c_id cv) (x03 :: x) = Ok (px, py) /\
    length x = curve_size (c_id cv) /\ of_be x = px /\
    length by_ = curve_size (c_id cv) /\ of_be by_ = py /\
    param k EC2KpX = Some (VBytes x) /\ param k EC2KpY = Some (VBytes by_).
Proof.
  intros crv x opt allow k H.
  apply ec2_init_store in H as (k0 & cv & x1 & y1 & y2 & H0 & HN & HC & HK & HT & HP & HY & _ & ->).
  cbn [truthy] in HP. injection HP as <- <-.
  destruct HT as [HT|HT]; [discriminate|]. rewrite HT in HY. cbn [truthy andb negb] in HY.
  unfold ec2_decompress in HY. cbn [as_bytes bind] in HY.
  apply bind_ok in HY as ([px py] & HP1 & HY). inv_bind HY bx.
  destruct (veqb (VBytes x) (VBytes bx)) eqn:E; [|discriminate]. apply veqb_eq in E. injection E as <-.
  inv_bind HY by_. injection HY as <-.
  apply to_bytes_checked_ok in H as [L1 O1]. apply to_bytes_checked_ok in H1 as [L2 O2].
  destruct (ec2_curve_size _ HK) as [sz HSZ].
  exists cv, px, py, by_. unfold param. cbn [k_store]. rewrite dget_put_empty.
  split.
  { rewrite !dget_put_other by discriminate. apply dget_dset_same, keyeq_refl. }
  do 5 (split; [assumption|]). split.
  { rewrite dget_put_other by discriminate. apply dget_put_same. intros HE. injection HE as ->. discriminate. }
  assert (Hb : by_ <> []) by (eapply nonempty; rewrite L2; eassumption). apply dget_put_same. congruence.
Qed.

(** C43 fails for a public key given with both coordinates: any are accepted. *)
Lemma ec2_public_unchecked : forall x y, x <> [] -> y <> [] ->
  exists k, ec2_init X (VClass (Cls FCrv 1)) (VBytes x) (VBytes y) (VBytes []) VNone true = Ok k /\
    param k EC2KpX = Some (VBytes x) /\ param k EC2KpY = Some (VBytes y).
Proof.
  intros x y Hx Hy. destruct x as [|x0 x]; [elim Hx; reflexivity|]. destruct y as [|y0 y]; [elim Hy; reflexivity|].
  eexists. split; [vm_compute; reflexivity|]. split; vm_compute; reflexivity.
Qed.

End WithX.

(** ** Imported integers, C42 *)

Lemma min_be_minimal_be : forall n, minimal_be (min_be n) n.
Proof.
  intros n. split; [apply of_be_min_be|]. destruct (N.eq_dec n 0) as [->|HN].
  - vm_compute. discriminate.
  - destruct (min_be_no_leading_zero n HN) as (b & r & -> & HB). assumption.
Qed.

Lemma min_be_nonempty : forall n, n <> 0%N -> exists b r, min_be n = b :: r.
Proof. intros n H. destruct (min_be_no_leading_zero n H) as (b & r & E & _). eauto. Qed.

Ltac gen_min n Hn :=
  let M := fresh "M" in pose proof (min_be_minimal_be n) as M;
  let b := fresh "b" in let r := fresh "r" in let E := fresh "E" in
  destruct (min_be_nonempty n Hn) as (b & r & E); rewrite E in *; clear E.

Lemma rsa_pub_import : forall pub, rsa_n pub <> 0%N -> rsa_e pub <> 0%N ->
  exists k, rsa_from_ext pub None VNone = Ok k /\
  stored_min k RSAKpN (rsa_n pub) /\ stored_min k RSAKpE (rsa_e pub) /\ ~ has k RSAKpD.
Proof.
  intros [e n]. unfold rsa_from_ext, stored_min. cbn [rsa_n rsa_e add_params truthy bind]. intros Hn He.
  gen_min n Hn. gen_min e He.
  eexists. split; [vm_compute; reflexivity|].
  split; [|split]; [eexists; (split; [vm_compute; reflexivity|assumption])..|].
  intros H. apply H. vm_compute. reflexivity.
Qed.

Lemma rsa_priv_import : forall q, rsa_n (rsa_public q) <> 0%N -> rsa_e (rsa_public q) <> 0%N ->
  rsa_d q <> 0%N -> rsa_p q <> 0%N -> rsa_q q <> 0%N -> rsa_dmp1 q <> 0%N -> rsa_dmq1 q <> 0%N -> rsa_iqmp q <> 0%N ->
  exists k, rsa_from_ext (rsa_public q) (Some q) VNone = Ok k /\
  stored_min k RSAKpN (rsa_n (rsa_public q)) /\ stored_min k RSAKpE (rsa_e (rsa_public q)) /\
  stored_min k RSAKpD (rsa_d q) /\ stored_min k RSAKpP (rsa_p q) /\ stored_min k RSAKpQ (rsa_q q) /\
  stored_min k RSAKpDP (rsa_dmp1 q) /\ stored_min k RSAKpDQ (rsa_dmq1 q) /\ stored_min k RSAKpQInv (rsa_iqmp q).
Proof.
  intros [p q d dp dq qi [e n]]. unfold rsa_from_ext, stored_min.
  cbn [rsa_n rsa_e rsa_public rsa_d rsa_p rsa_q rsa_dmp1 rsa_dmq1 rsa_iqmp add_params truthy bind].
  intros Hn He Hd Hp Hq Hdp Hdq Hqi.
  gen_min n Hn. gen_min e He. gen_min d Hd. gen_min p Hp. gen_min q Hq. gen_min dp Hdp. gen_min dq Hdq. gen_min qi Hqi.
  eexists. split; [vm_compute; reflexivity|].
  repeat (split; [eexists; (split; [vm_compute; reflexivity|assumption])|]).
  eexists; (split; [vm_compute; reflexivity|assumption]).
Qed.

Lemma ec2_import : forall X c x y priv k, curve_key_type c = KtyEC2 -> ec2_from_ext X (Some c) x y priv VNone = Ok k ->
  param k EC2KpCurve = Some (VClass (Cls FCrv c)) /\
  stored_sized k EC2KpX (curve_size c) x /\ stored_sized k EC2KpY (curve_size c) y /\
  match priv with Some d => stored_sized k EC2KpD (curve_size c) d | None => ~ has k EC2KpD end.
Proof.
  intros X c x y priv k HK H. unfold ec2_from_ext in H. inv_bind H bx. inv_bind H by_.
  apply to_bytes_checked_ok in H0 as [Lx Ox]. apply to_bytes_checked_ok in H1 as [Ly Oy].
  destruct (ec2_curve_size _ HK) as [sz HSZ].
  assert (Nx : bx <> []) by (eapply nonempty; rewrite Lx; eassumption).
  assert (Ny : by_ <> []) by (eapply nonempty; rewrite Ly; eassumption).
  assert (HT : truthy (VBytes bx) = true /\ truthy (VBytes by_) = true).
  { destruct bx; [elim Nx; reflexivity|]. destruct by_; [elim Ny; reflexivity|]. split; reflexivity. }
  destruct HT as [Tx Ty]. inv_bind H d. destruct priv as [m|].
  - inv_bind H0 bd. injection H0 as <-. apply to_bytes_checked_ok in H1 as [Ld Od].
    assert (Nd : bd <> []) by (eapply nonempty; rewrite Ld; eassumption).
    assert (HI : ec2_init X (VClass (Cls FCrv c)) (VBytes bx) (VBytes by_) (VBytes bd) (VDict []) true = Ok k) by exact H.
    clear H. pose proof HI as HI'.
    apply ec2_private_consistent in HI' as (cv & px & py & bx' & by' & HC & _ & _ & _ & _ & _ & HX & HY & HD & Ex & Ey);
      [|assumption].
    specialize (Ex Tx). injection Ex as <-. specialize (Ey Ty). injection Ey as <-.
    apply ec2_init_store in HI as (k0 & cv' & x1 & y1 & y2 & H0 & HN & HF & _ & _ & _ & _ & _ & HE).
    assert (HCC : cv = Cls FCrv c).
    { assert (cv' = cv) as ->.
      { rewrite HE in HC. unfold param in HC. cbn [k_store] in HC. rewrite !dget_put_other in HC by discriminate.
        rewrite dget_dset_same in HC by apply keyeq_refl. congruence. }
      rewrite (ec2_curve_registered _ HK) in HF. congruence. }
    subst cv. split; [assumption|]. split; [exists bx; auto|]. split; [exists by_; auto|]. exists bd; auto.
  - injection H0 as <-.
    assert (HI : ec2_init X (VClass (Cls FCrv c)) (VBytes bx) (VBytes by_) (VBytes []) (VDict []) true = Ok k) by exact H.
    clear H. 
    apply ec2_init_store in HI as (k0 & cv' & x1 & y1 & y2 & H0 & HN & HF & _ & _ & HXY & HY & _ & ->).
    cbn [truthy] in HXY. injection HXY as <- <-. rewrite Ty in HY. rewrite andb_false_r in HY. injection HY as <-.
    assert (HCC : cv' = Cls FCrv c).
    { rewrite (ec2_curve_registered _ HK) in HF. congruence. }
    subst cv'. unfold stored_sized, param, has. cbn [k_store]. rewrite dget_put_empty.
    split. { rewrite !dget_put_other by discriminate. apply dget_dset_same, keyeq_refl. }
    split. { exists bx. rewrite dget_put_other by discriminate. rewrite dget_put_same by congruence. auto. }
    split. { exists by_. rewrite dget_put_same by congruence. auto. }
    intros HD. apply HD. unfold param. cbn [k_store]. rewrite !dget_put_other by discriminate.
    rewrite dget_dset_other by reflexivity. vm_compute in H0. injection H0 as <-. reflexivity.
Qed.

(** ** The stored key_ops are a list (C31) *)

Definition all_good (good : cls -> pyval -> Prop) (k : key) : Prop :=
  dnodup (k_store k) = true /\ forall p v, param k p = Some v -> good p v.

Lemma all_good_mods : forall (P good : cls -> pyval -> Prop) k k', mods P k k' -> (forall p v, P p v -> good p v) ->
  all_good good k -> all_good good k'.
Proof.
  intros P good k k' H HP [HN HG]. split; [eapply mods_nodup; eassumption|].
  induction H; auto.
  - intros q w HW. unfold param in HW. rewrite (up_store _ _ _ _ H1) in HW. rewrite dget_dset in HW.
    destruct (keyeq (VClass q) (VClass p)) eqn:E.
    + injection HW as <-. apply keyeq_class in E. injection E as <-. apply HP. assumption.
    + apply IHmods; assumption.
  - intros q w HW. unfold param in HW. cbn [with_store k_store] in HW. rewrite dget_dset_other in HW.
    + apply IHmods; assumption.
    + rewrite keyeq_sym. apply keyeq_ne_class. apply H0.
Qed.

Lemma all_good_base_del : forall good k a, all_good good k -> all_good good (fst (base_del k a)).
Proof.
  intros good k a [HN HG]. destruct (base_del k a) as [k' x] eqn:E. cbn [fst].
  apply base_del_cases in E as [(e & _ & ->)|(_ & t & _ & _ & _ & ->)]; [split; assumption|].
  split; cbn [with_store k_store]; [apply dnodup_ddel; assumption|].
  intros p v HV. unfold param in HV. cbn [with_store k_store] in HV. rewrite dget_ddel in HV by assumption.
  destruct (keyeq _ _); [discriminate|]. apply HG. assumption.
Qed.

Lemma all_good_del : forall good k a, all_good good k -> all_good good (fst (item_del k a)).
Proof.
  intros good k a HN. pose proof (all_good_base_del good k a HN) as HB. unfold item_del. cbv zeta. destruct (k_cls k).
  - destruct (key_transform KSym false a); [|assumption]. destruct (_ && _); assumption.
  - destruct (key_transform KOKP false a); [|assumption]. destruct (_ && _); [|assumption].
    destruct (_ && _); assumption.
  - destruct (key_transform KEC2 false a); [|assumption]. destruct (_ && _); [|assumption].
    destruct (_ && _); [assumption|]. destruct (_ && _); [assumption|]. destruct (_ && _); [|assumption].
    pose proof (all_good_base_del good k (VClass EC2KpX) HN) as HX.
    destruct (base_del k (VClass EC2KpX)) as [k1 [x|e]]; [|assumption]. apply all_good_base_del. assumption.
  - assumption.
Qed.

Lemma all_good_pop : forall good k a, all_good good k -> all_good good (fst (item_pop k a)).
Proof.
  intros good k a HN. unfold item_pop. destruct (item_get k a); [|assumption].
  pose proof (all_good_del good k a HN). destruct (item_del k a) as [k' [x|e]]; assumption.
Qed.

Lemma all_good_popitem : forall good k, all_good good k -> all_good good (fst (item_popitem k)).
Proof.
  intros good k HN. rewrite popitem_fst. destruct (k_store k) as [|[a v] r]; [assumption|].
  apply all_good_pop. assumption.
Qed.

Lemma all_good_clear : forall good n k, all_good good k -> all_good good (fst (item_clear n k)).
Proof.
  induction n as [|n IH]; intros k HN; [assumption|]. cbn [item_clear].
  pose proof (all_good_popitem good k HN) as HP. destruct (item_popitem k) as [k' [x|[]]]; cbn [fst] in *; auto.
Qed.

Lemma key_step_cls : forall o k, k_cls (key_step k o) = k_cls k.
Proof.
  assert (HB : forall k a, k_cls (fst (base_del k a)) = k_cls k).
  { intros k a. destruct (base_del k a) as [k' x] eqn:E.
    apply base_del_cases in E as [(e & _ & ->)|(_ & t & _ & _ & _ & ->)]; reflexivity. }
  assert (HD : forall k a, k_cls (fst (item_del k a)) = k_cls k).
  { intros k a. pose proof (HB k a) as Ha. unfold item_del. cbv zeta. destruct (k_cls k) eqn:EC.
    - destruct (key_transform KSym false a); [|assumption]. destruct (_ && _); assumption.
    - destruct (key_transform KOKP false a); [|assumption]. destruct (_ && _); [|assumption].
      destruct (_ && _); assumption.
    - destruct (key_transform KEC2 false a); [|assumption]. destruct (_ && _); [|assumption].
      destruct (_ && _); [assumption|]. destruct (_ && _); [assumption|]. destruct (_ && _); [|assumption].
      pose proof (HB k (VClass EC2KpX)) as HX.
      destruct (base_del k (VClass EC2KpX)) as [k1 [x|e]]; cbn [fst] in *; [|congruence].
      rewrite HB. congruence.
    - assumption. }
  assert (HP : forall k a, k_cls (fst (item_pop k a)) = k_cls k).
  { intros k a. unfold item_pop. destruct (item_get k a); [|reflexivity]. pose proof (HD k a).
    destruct (item_del k a) as [k' [x|e]]; assumption. }
  assert (HI : forall k, k_cls (fst (item_popitem k)) = k_cls k).
  { intros k. rewrite popitem_fst. destruct (k_store k) as [|[a v] r]; [reflexivity|]. apply HP. }
  assert (HC : forall n k, k_cls (fst (item_clear n k)) = k_cls k).
  { induction n as [|n IH]; intros k; [reflexivity|]. cbn [item_clear]. pose proof (HI k) as Hk.
    destruct (item_popitem k) as [k' [x|[]]]; cbn [fst] in *; auto. rewrite IH. assumption. }
  intros [] k; cbn [key_step]; auto.
  - destruct (prop_set k p v) as [k' x] eqn:E. apply prop_set_mods in E. eapply mods_cls; eassumption.
  - destruct (item_set k a v) as [k' x] eqn:E. apply item_set_mods in E. eapply mods_cls; eassumption.
  - destruct (item_update k d) as [k' x] eqn:E. apply item_update_mods in E. eapply mods_cls; eassumption.
  - destruct (item_setdefault k a v) as [k' x] eqn:E. apply item_setdefault_mods in E. eapply mods_cls; eassumption.
Qed.

Definition ops_good (p : cls) (v : pyval) : Prop := p = KpKeyOps -> exists l, v = VList l.

Lemma prop_target_ops : forall c p q v, prop_target c p q v -> ops_good q v.
Proof.
  intros c p q v H ->. destruct p; cbn [prop_target] in H; try discriminate;
    try (destruct H as [_ H]; exact H);
    destruct c; cbn [crv_prop bytes_prop] in H;
    repeat match goal with H : _ /\ _ |- _ => destruct H end; discriminate.
Qed.

Lemma step_ops : forall o k, items_good (k_cls k) KpKeyOps (fun v => exists l, v = VList l) o ->
  all_good ops_good k -> all_good ops_good (key_step k o).
Proof.
  intros o k HI HG. destruct o; cbn [key_step]; unfold items_good in HI; cbn [op_items] in HI.
  - destruct (prop_set k p v) as [k' x] eqn:E. apply prop_set_mods in E. eapply all_good_mods; [exact E| |assumption].
    apply prop_target_ops.
  - destruct (item_set k a v) as [k' x] eqn:E. apply item_set_mods in E. eapply all_good_mods; [exact E| |assumption].
    intros p w [-> HD] ->. eapply HI; [left; reflexivity|assumption].
  - apply all_good_del. assumption.
  - apply all_good_pop. assumption.
  - apply all_good_popitem. assumption.
  - apply all_good_clear. assumption.
  - destruct (item_update k d) as [k' x] eqn:E. apply item_update_mods in E. eapply all_good_mods; [exact E| |assumption].
    intros p w (a & HA & HD) ->. eapply HI; eassumption.
  - destruct (item_setdefault k a v) as [k' x] eqn:E. apply item_setdefault_mods in E.
    eapply all_good_mods; [exact E| |assumption].
    intros p w [-> HD] ->. eapply HI; [left; reflexivity|assumption].
Qed.

Lemma common_init_ops : forall c opt allow k, common_init c opt allow = Ok k -> all_good ops_good k.
Proof.
  intros c opt allow k H. split; [apply (common_init_fresh _ _ _ _ H)|].
  intros p v HV ->. unfold common_init in H. inv_bind H o. inv_bind H d.
  assert (HD : forall v, dget d (VClass KpKeyOps) = Some v -> (exists l, v = VList l) \/ exists c, v = VClass c).
  { refine (transform_params_inv (fun d => forall v, dget d (VClass KpKeyOps) = Some v ->
      (exists l, v = VList l) \/ exists c, v = VClass c) c allow _ _ _ _ H1 _).
    - intros d0 a p v0 w _ _ HP HQ u HU. rewrite dget_dset in HU.
      destruct (keyeq (VClass KpKeyOps) p) eqn:E; [|apply HQ; assumption]. injection HU as <-.
      apply keyeq_class in E. subst p. change (parse_kp (VClass KpKeyOps) v0) with (from_id FOps false v0) in HP.
      assert (HL : (exists l, v0 = VList l) \/ forall l, v0 <> VList l)
        by (destruct v0; try (right; intros; discriminate); left; eauto).
      destruct HL as [[l ->]|HL].
      + left. cbn [from_id] in HP. inv_bind HP m. injection HP as <-. eauto.
      + right. apply from_id_sound in HP as (cc & n & -> & _); [eauto|assumption].
    - intros u HU. discriminate. }
  destruct (veqb _ _); [|discriminate]. unfold base_init in H.
  destruct (dget d (VClass KpKeyOps)) as [w|] eqn:EO.
  - destruct (HD w eq_refl) as [[l ->]|[cc ->]]; [|discriminate].
    cbn [py_len bind] in H. destruct (Nat.eqb (length l) 0); injection H as <-; unfold param in HV; cbn [k_store] in HV.
    + destruct (dget (ddel d (VClass KpKeyOps)) (VClass KpKeyOps)) eqn:E; [|discriminate].
      rewrite dget_ddel in E.
      * rewrite keyeq_refl in E. discriminate.
      * refine (transform_params_inv (fun d => dnodup d = true) c allow _ _ _ _ H1 _); [|reflexivity].
        intros. apply dnodup_dset. assumption.
    + rewrite EO in HV. injection HV as <-. eauto.
  - injection H as <-. unfold param in HV. cbn [k_store] in HV. rewrite EO in HV. discriminate.
Qed.

Lemma all_good_update : forall (good : cls -> pyval -> Prop) p v k k', updates p v k k' -> good p v ->
  all_good good k -> all_good good k'.
Proof.
  intros good p v k k' HU HG H. eapply (all_good_mods (fun q w => q = p /\ w = v)); [|intros q w [-> ->]; exact HG|exact H].
  eapply mods_one; [|exact HU]. auto.
Qed.

Lemma all_good_unless : forall p v k k', set_unless_empty p v k = Ok k' -> p <> KpKeyOps ->
  all_good ops_good k -> all_good ops_good k'.
Proof.
  intros p v k k' H HP HG. apply set_unless_empty_ok in H as [[_ ->]|[_ HU]]; [assumption|].
  eapply all_good_update; [exact HU| |assumption]. intros HE. contradiction.
Qed.

Lemma all_good_bytes : forall p v k k', set_bytes_param p v k = Ok k' -> p <> KpKeyOps ->
  all_good ops_good k -> all_good ops_good k'.
Proof.
  intros p v k k' H HP HG. apply set_bytes_param_ok in H as [_ HU].
  eapply all_good_update; [exact HU| |assumption]. intros HE. contradiction.
Qed.

Lemma all_good_crv : forall p t v k k', set_crv p t v k = Ok k' -> p <> KpKeyOps ->
  all_good ops_good k -> all_good ops_good k'.
Proof.
  intros p t v k k' H HP HG. apply set_crv_ok in H as (w & _ & _ & HU).
  eapply all_good_update; [exact HU| |assumption]. intros HE. contradiction.
Qed.

Lemma all_good_extra : forall good n v k, all_good good k -> all_good good (extra_set n v k).
Proof. intros. assumption. Qed.

Lemma constructed_ops : forall X k, constructed X k -> all_good ops_good k.
Proof.
  intros X k H. destruct H as [kv opt allow k H|crv x d opt allow k H|crv x y d opt allow k H|a opt allow k H].
  - unfold sym_init in H. inv_bind H k0. apply common_init_ops in H0. destruct (veqb _ _); [discriminate|].
    apply set_k_ok in H as [_ HU]. eapply all_good_update; [exact HU| |assumption]. discriminate.
  - unfold okp_init in H. inv_bind H k0. apply common_init_ops in H0. inv_bind H nx. inv_bind H nn.
    destruct nn; [discriminate|]. destruct (is_none crv); [discriminate|]. inv_bind H k1. inv_bind H k2.
    eapply all_good_unless; [exact H|discriminate|]. eapply all_good_unless; [exact H4|discriminate|].
    eapply all_good_crv; [exact H3|discriminate|]. assumption.
  - apply ec2_init_store in H as (k0 & cv & x1 & y1 & y2 & H0 & _ & _ & _ & _ & _ & _ & _ & ->).
    pose proof (common_init_ops _ _ _ _ H0) as [HN HG].
    assert (HP : forall p v s, dnodup s = true -> dnodup (put p v s) = true).
    { intros p v s HS. unfold put. destruct (veqb _ _); [assumption|]. apply dnodup_dset. assumption. }
    split; cbn [k_store].
    + do 3 apply HP. apply dnodup_dset. assumption.
    + intros p v HV ->. unfold param in HV. cbn [k_store] in HV. rewrite !dget_put_other in HV by discriminate.
      rewrite dget_dset_other in HV by reflexivity. eapply HG; [exact HV|reflexivity].
  - unfold rsa_init in H. cbv zeta in H. inv_bind H ok. destruct ok; [|discriminate]. cbn [negb] in H.
    inv_bind H k0. apply common_init_ops in H1.
    repeat match type of H with
    | bind _ _ = Ok _ => let k1 := fresh "k" in let E := fresh "E" in
        apply bind_ok in H as (k1 & E & H);
        first [eapply all_good_bytes in E; [|discriminate|eassumption]
              |eapply all_good_unless in E; [|discriminate|eassumption]]
    end.
    injection H as <-. unfold extra_unless_empty.
    repeat match goal with
    | |- all_good _ (if ?b then _ else _) => destruct b
    | |- all_good _ (extra_set _ _ _) => apply all_good_extra
    end; assumption.
Qed.

Lemma key_run_cls : forall ops k, k_cls (key_run k ops) = k_cls k.
Proof.
  induction ops as [|o ops IH]; intros k; [reflexivity|]. unfold key_run in *. cbn [fold_left].
  rewrite IH. apply key_step_cls.
Qed.

Lemma reachable_ops : forall X k ops, constructed X k ->
  Forall (items_good (k_cls k) KpKeyOps (fun v => exists l, v = VList l)) ops ->
  forall v, param (key_run k ops) KpKeyOps = Some v -> exists l, v = VList l.
Proof.
  intros X k ops HC HF v HV.
  assert (HG : all_good ops_good (key_run k ops)); [|eapply HG; [exact HV|reflexivity]].
  clear HV. apply constructed_ops in HC. revert k HF HC. unfold key_run.
  induction ops as [|o ops IH]; intros k HF HC; [assumption|]. cbn [fold_left].
  inversion HF; subst. apply IH.
  - rewrite key_step_cls. assumption.
  - apply step_ops; assumption.
Qed.
