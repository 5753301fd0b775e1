(** Keys built by the constructors are portable; portable keys round-trip (C37). *)
From Coq Require Import NArith ZArith Bool String Lia.
From Coq Require Import Init.Byte List.
From Verif Require Import Bytes BytesProofs Value ValueProofs Cbor CborProofs SpecData DataProofs Registry
  RegistryProofs Crypto Keys SpecRegistry SpecKeys KeyProofs KeyProofs2 KeyProofs3 KeyProofs4
  SpecHdr HdrProofs MiscProofs SpecTrip KeyTrip.
Import ListNotations.
Local Open Scope result_scope.

(** ** What the constructors store *)

(** Common parameters and unregistered labels. *)
Inductive common_ok (c : kclass) : pyval -> pyval -> Prop :=
| CO_kty : common_ok c (VClass KpKty) (type_of c)
| CO_alg v : known_class FAlg v -> common_ok c (VClass KpAlg) v
| CO_ops l : Forall (known_class FOps) l -> common_ok c (VClass KpKeyOps) (VList l)
| CO_kid v : plain v -> common_ok c (VClass KpKid) v
| CO_base_iv v : plain v -> common_ok c (VClass KpBaseIV) v
| CO_int z v : unknown_attr (param_fam c) (VInt z) -> plain v -> common_ok c (VInt z) v
| CO_text u v : unknown_attr (param_fam c) (VStr u) -> plain v -> common_ok c (VStr u) v.

Lemma common_label : forall c a v, common_ok c a v -> label_ok c a.
Proof.
  intros c a v H. destruct kp_names as (K1 & K2 & K3 & K4 & K5).
  destruct H; try (left; eexists; eexists; split; [reflexivity|]; apply registered_kp; eassumption).
  - right; left. eauto.
  - right; right. eauto.
Qed.

Lemma label_keyeq : forall c a b, label_ok c a -> label_ok c b -> keyeq a b = true -> a = b.
Proof.
  intros c a b HA HB E. destruct HA as [(p & n & -> & _)|[(z & -> & _)|(u & -> & _)]].
  - apply keyeq_class in E. congruence.
  - destruct HB as [(q & n & -> & _)|[(z' & -> & _)|(u & -> & _)]]; try discriminate.
    rewrite keyeq_int in E. apply Z.eqb_eq in E. congruence.
  - destruct HB as [(q & n & -> & _)|[(z' & -> & _)|(u' & -> & _)]]; try discriminate.
    rewrite keyeq_str in E. apply bytes_eqb_eq in E. congruence.
Qed.

Lemma Forall_dset : forall (P : pyval -> pyval -> Prop) c d k v, (forall a w, P a w -> label_ok c a) ->
  label_ok c k -> P k v -> Forall (fun e => P (fst e) (snd e)) d -> Forall (fun e => P (fst e) (snd e)) (dset d k v).
Proof.
  intros P c d k v HP HK HV HF. apply Forall_forall. intros e HE.
  destruct (dset_In d k v e HE) as [HI|[HS HL]].
  - rewrite Forall_forall in HF. apply HF. assumption.
  - rewrite HS. destruct e as [a w]. cbn [fst snd] in *. destruct (In_dset _ _ _ _ _ HE) as [->|[w' HI]]; [assumption|].
    rewrite Forall_forall in HF. apply HF in HI. cbn [fst snd] in HI.
    rewrite (label_keyeq c a k (HP _ _ HI) HK HL). assumption.
Qed.

Lemma option_step : forall c allow a v kp v', option_ok c a v -> from_id (param_fam c) allow a = Ok kp ->
  parse_kp kp v = Ok v' -> common_ok c kp v'.
Proof.
  intros c allow a v kp v' H HA HV. destruct H.
  - rewrite (from_id_spells _ allow _ _ _ (registered_kp c _ _ H) H0) in HA. injection HA as <-.
    assert (HI : In (w, cls_fullname w) (registered FKty)) by (destruct c; injection H1 as <-; cbn; auto 10).
    cbn [parse_kp KpKty] in HV. rewrite (from_id_spells _ false _ _ _ HI H2) in HV. injection HV as <-. rewrite <- H1. constructor.
  - rewrite (from_id_spells _ allow _ _ _ (registered_kp c _ _ H) H0) in HA. injection HA as <-.
    cbn [parse_kp KpAlg] in HV. rewrite (from_id_spells _ false _ _ _ H1 H2) in HV. injection HV as <-. constructor. exists w, m. auto.
  - rewrite (from_id_spells _ allow _ _ _ (registered_kp c _ _ H) H0) in HA. injection HA as <-.
    cbn [parse_kp KpKeyOps from_id] in HV.
    assert (HM : exists l', mapM (from_id FOps false) l = Ok l' /\ Forall (known_class FOps) l').
    { clear HV. induction H1 as [|o l (w & m & HI & HS) H1 (l' & HM & HF)]; [exists []; split; [reflexivity|constructor]|].
      exists (VClass w :: l'). cbn [mapM]. rewrite (from_id_spells _ false _ _ _ HI HS), HM. split; [reflexivity|].
      constructor; [exists w, m; auto|assumption]. }
    destruct HM as (l' & HM & HF). rewrite HM in HV. injection HV as <-. constructor. assumption.
  - rewrite (from_id_spells _ allow _ _ _ (registered_kp c _ _ H) H0) in HA. injection HA as <-.
    cbn [parse_kp KpKid] in HV. injection HV as <-. constructor. assumption.
  - rewrite (from_id_spells _ allow _ _ _ (registered_kp c _ _ H) H0) in HA. injection HA as <-.
    cbn [parse_kp KpBaseIV] in HV. injection HV as <-. constructor. assumption.
  - destruct (from_id_unknown _ _ H) as [H1 H2]. change (params_of c) with (param_fam c) in *. destruct allow; [|congruence]. rewrite H1 in HA. injection HA as <-.
    cbn [parse_kp] in HV. injection HV as <-. constructor; assumption.
  - destruct (from_id_unknown _ _ H) as [H1 H2]. change (params_of c) with (param_fam c) in *. destruct allow; [|congruence]. rewrite H1 in HA. injection HA as <-.
    cbn [parse_kp] in HV. injection HV as <-. constructor; assumption.
Qed.

Definition common_store (c : kclass) (d : dict) : Prop := Forall (fun e => common_ok c (fst e) (snd e)) d /\ dnodup d = true.

Lemma transform_common : forall c allow opts acc d, Forall (fun e => option_ok c (fst e) (snd e)) opts ->
  common_store c acc -> transform_params c allow opts acc = Ok d -> common_store c d.
Proof.
  intros c allow opts acc d H. revert acc. induction H as [|[a v] opts HO H IH]; intros acc HA HT.
  - injection HT as <-. assumption.
  - cbn [transform_params fst snd] in *. inv_bind HT kp. inv_bind HT v'. destruct (hashable kp); [|discriminate]. eapply IH; [|exact HT].
    pose proof (option_step _ _ _ _ _ _ HO H0 H1) as HC. destruct HA as [HA HN]. split.
    + eapply Forall_dset; [apply common_label|eapply common_label; eassumption|assumption|assumption].
    + apply dnodup_dset. assumption.
Qed.

(** The store after [CoseKey.__init__]: only common parameters, the key type among them. *)
Lemma common_init_built : forall c opt allow k, options_ok c opt -> common_init c opt allow = Ok k ->
  k_cls k = c /\ k_extra k = [] /\ store_ok c (k_store k) /\ dnodup (k_store k) = true /\
  dget (k_store k) (VClass KpKty) <> None /\
  (forall p, In p (byte_params c ++ curve_param c) -> dget (k_store k) (VClass p) = None).
Proof.
  intros c opt allow k HO H. unfold common_init in H. inv_bind H opts. inv_bind H d.
  assert (HF : Forall (fun e => option_ok c (fst e) (snd e)) opts).
  { destruct HO as [->|(d' & -> & HF)]; injection H0 as <-; [constructor|assumption]. }
  assert (HC : common_store c d).
  { eapply transform_common; [exact HF| |exact H1]. split; [|reflexivity].
    constructor; [|constructor]. cbn [fst snd]. rewrite <- type_of_kty. constructor. }
  destruct (veqb (dget_or d (VClass KpKty) VNone) (kty_of c)) eqn:E; [|discriminate]. apply veqb_eq in E.
  assert (HK : dget d (VClass KpKty) <> None).
  { unfold dget_or in E. destruct (dget d (VClass KpKty)); [discriminate|]. destruct c; discriminate. }
  destruct HC as [HC HN].
  assert (HP : forall s, Forall (fun e => common_ok c (fst e) (snd e)) s -> forall p, In p (byte_params c ++ curve_param c) -> dget s (VClass p) = None).
  { intros s HS p HP. destruct (dget s (VClass p)) as [v|] eqn:G; [|reflexivity]. exfalso.
    apply dget_In in G as (a & HI & EA). apply keyeq_class in EA. subst a. rewrite Forall_forall in HS. apply HS in HI.
    cbn [fst snd] in HI. inversion HI; subst; destruct c; cbn in HP; repeat (destruct HP as [HP|HP]; [discriminate|]); destruct HP. }
  assert (HW : forall s, Forall (fun e => common_ok c (fst e) (snd e)) s -> ~ In (VClass KpKeyOps, VList []) s -> store_ok c s).
  { intros s HS HE. apply Forall_forall. intros [a v] HI. rewrite Forall_forall in HS. pose proof (HS _ HI) as HA. cbn [fst snd] in *.
    inversion HA; subst; try (constructor; assumption). constructor; [|assumption]. intros ->. contradiction. }
  unfold base_init in H. destruct (dget d (VClass KpKeyOps)) as [ops|] eqn:G.
  - inv_bind H n. destruct (Nat.eqb n 0) eqn:E0; injection H as <-; cbn [k_cls k_extra k_store].
    + assert (HC' : Forall (fun e => common_ok c (fst e) (snd e)) (ddel d (VClass KpKeyOps))) by (apply Forall_ddel; assumption).
      split; [reflexivity|]. split; [reflexivity|]. split.
      { apply HW; [assumption|]. intros HI. apply In_dget in HI; [|apply dnodup_ddel; assumption].
        rewrite dget_ddel_same in HI; [discriminate|assumption|apply keyeq_refl]. }
      split; [apply dnodup_ddel; assumption|]. split; [|apply HP; assumption].
      rewrite dget_ddel_other by reflexivity. assumption.
    + split; [reflexivity|]. split; [reflexivity|]. split.
      { apply HW; [assumption|]. intros HI. apply In_dget in HI; [|assumption]. rewrite HI in G. injection G as <-.
        cbn in H2. injection H2 as <-. discriminate. }
      split; [assumption|]. split; [assumption|apply HP; assumption].
  - injection H as <-. cbn [k_cls k_extra k_store]. split; [reflexivity|]. split; [reflexivity|]. split.
    { apply HW; [assumption|]. intros HI. apply In_dget in HI; [|assumption]. congruence. }
    split; [assumption|]. split; [assumption|apply HP; assumption].
Qed.

Section Built.
Variable X : crypto.

Lemma store_ok_dset : forall c s p v, store_ok c s -> param_ok c (VClass p) v -> store_ok c (dset s (VClass p) v).
Proof.
  intros c s p v HS HP. unfold store_ok. eapply (Forall_dset (param_ok c) c); [intros; eapply param_ok_label; eassumption| |exact HP|exact HS].
  eapply param_ok_label. exact HP.
Qed.

Lemma store_ok_put : forall c s p b, store_ok c s -> In p (byte_params c) -> store_ok c (put p (VBytes b) s).
Proof.
  intros c s p b HS HP. unfold put. destruct (veqb (VBytes b) (VBytes [])) eqn:E; [assumption|].
  apply store_ok_dset; [assumption|]. constructor; [assumption|]. intros ->. discriminate.
Qed.

Lemma dnodup_put : forall s p v, dnodup s = true -> dnodup (put p v s) = true.
Proof. intros s p v H. unfold put. destruct (veqb _ _); [assumption|]. apply dnodup_dset. assumption. Qed.

Lemma dget_put : forall p q b s, dget (put p (VBytes b) s) (VClass q) =
  if keyeq (VClass q) (VClass p) then (match b with [] => dget s (VClass q) | _ => Some (VBytes b) end) else dget s (VClass q).
Proof.
  intros p q b s. unfold put. destruct b as [|b0 b]; [cbn [veqb bytes_eqb]; destruct (keyeq _ _); reflexivity|].
  change (veqb (VBytes (b0 :: b)) (VBytes [])) with false. cbn iota. apply dget_dset.
Qed.

Lemma crv_of : forall v cv, from_id FCrv false v = Ok (VClass cv) -> exists n, In (cv, n) (registered FCrv).
Proof.
  intros v cv H. destruct (from_id_cases _ _ _ _ H) as [(c & n & HI & _ & E)|[(E & _)|(l & l' & _ & E & _)]]; try discriminate.
  injection E as <-. eauto.
Qed.

Lemma sym_built : forall kv opt allow k, options_ok KSym opt -> sym_init kv opt allow = Ok k -> portable X k.
Proof.
  intros kv opt allow k HO H. unfold sym_init in H. inv_bind H k0.
  apply common_init_built in H0 as (HC & HE & HS & HN & HK & HP); [|assumption].
  destruct (veqb kv (VBytes [])) eqn:E; [discriminate|]. destruct kv; cbn [set_k] in H; try discriminate.
  destruct (existsb (Nat.eqb (length b)) [16; 24; 32]) eqn:EL; [|discriminate]. injection H as <-.
  unfold portable, store_set, with_store. cbn [k_extra k_cls k_store]. rewrite HC.
  assert (HB : b <> []) by (intros ->; discriminate).
  split; [assumption|]. split; [rewrite distinct_keys_dnodup; apply dnodup_dset; assumption|].
  split; [unfold has, param; cbn [k_store]; rewrite dget_dset_other by reflexivity; assumption|].
  split; [apply store_ok_dset; [assumption|]; constructor; [cbn; auto|assumption]|].
  unfold components. cbn [k_cls]. exists b. split; [unfold bytes_param, param; cbn [k_store]; apply dget_dset_same, keyeq_refl|].
  apply existsb_exists in EL as (n & HI & EQ). apply Nat.eqb_eq in EQ. congruence.
Qed.

Lemma okp_built : forall crv x d opt allow k, options_ok KOKP opt -> okp_init crv x d opt allow = Ok k -> portable X k.
Proof.
  intros crv x d opt allow k HO H. unfold okp_init in H. inv_bind H k0.
  apply common_init_built in H0 as (HC & HE & HS & HN & HK & HP); [|assumption].
  inv_bind H nx. inv_bind H none. destruct none; [discriminate|]. destruct (is_none crv); [discriminate|].
  inv_bind H k1. inv_bind H k2. apply set_unless_put in H3 as [[bx ->] ->]. apply set_unless_put in H as [[bd ->] ->].
  unfold set_crv in H2. inv_bind H2 w. destruct w; try discriminate. rename c into cv.
  destruct (veqb (curve_key_type (c_id cv)) KtyOKP) eqn:EK; [|discriminate]. apply veqb_eq in EK. injection H2 as <-.
  destruct (crv_of _ _ H) as [n HI]. cbn [py_len] in *. injection H0 as <-.
  unfold portable, store_set, with_store. cbn [k_extra k_cls k_store]. rewrite HC.
  split; [assumption|]. split; [rewrite distinct_keys_dnodup; repeat apply dnodup_put; apply dnodup_dset; assumption|].
  split; [unfold has, param; cbn [k_store]; rewrite !dget_put; cbn [keyeq]; rewrite dget_dset_other by reflexivity; assumption|].
  split.
  { repeat (apply store_ok_put; [|cbn; auto]). apply store_ok_dset; [assumption|]. eapply PO_curve; [cbn; auto|eassumption|apply curve_ids_kty; assumption]. }
  unfold components. cbn [k_cls]. split.
  - unfold has, param; cbn [k_store]. rewrite !dget_put_other by discriminate. rewrite dget_dset_same by apply keyeq_refl. discriminate.
  - assert (HXD : bx <> [] \/ bd <> []).
    { destruct bx as [|b0 bx]; [|left; discriminate]. right. intros ->. discriminate. }
    unfold has, param; cbn [k_store]. destruct HXD as [HX|HX].
    + left. rewrite dget_put_other by discriminate. rewrite dget_put_same; [discriminate|congruence].
    + right. rewrite dget_put_same; [discriminate|congruence].
Qed.

Lemma ec2_built : forall crv x y d opt allow k, options_ok KEC2 opt -> ec2_init X crv x y d opt allow = Ok k -> portable X k.
Proof.
  intros crv x y d opt allow k HO H. pose proof H as HInit.
  apply ec2_init_store in H as (k0 & cv & x1 & y1 & y2 & H0 & HN0 & HCv & HKt & HT & HP1 & HY & (bx & by_ & bd & -> & -> & ->) & ->).
  apply common_init_built in H0 as (HC & HE & HS & HN & HK & HPn); [|assumption].
  destruct (crv_of _ _ HCv) as [n HI]. destruct (ec2_curve_size _ HKt) as [sz HSZ].
  (* both coordinates are there *)
  assert (HXY : bx <> [] /\ by_ <> [] /\ (bd <> [] -> length bx = curve_size (c_id cv) /\ length by_ = curve_size (c_id cv) /\
            x_ec_pub X (c_id cv) (of_be bd) = Ok (of_be bx, of_be by_))).
  { destruct bd as [|d0 bd].
    - cbn [truthy] in HP1. injection HP1 as -> ->. destruct HT as [HT|HT]; [discriminate|].
      destruct bx as [|b0 bx]; [discriminate|]. split; [discriminate|].
      destruct (truthy y1) eqn:ET.
      + rewrite andb_false_r in HY. injection HY as ->. destruct by_; [discriminate|]. split; [discriminate|]. intros Q; elim Q; reflexivity.
      + change (truthy (VBytes (b0 :: bx))) with true in HY. cbn [andb negb] in HY. unfold ec2_decompress in HY.
        cbn [as_bytes bind] in HY. apply bind_ok in HY as ([px py] & _ & HY). inv_bind HY cx. destruct (veqb _ _); [|discriminate].
        inv_bind HY cy. injection HY as <-. apply to_bytes_checked_ok in H0 as [L _]. rewrite HSZ in L.
        split; [eapply nonempty; eassumption|]. intros Q; elim Q; reflexivity.
    - change (truthy (VBytes (d0 :: bd))) with true in HP1. cbn iota in HP1. unfold ec2_from_private in HP1. cbn [as_bytes bind] in HP1.
      apply bind_ok in HP1 as ([px py] & HPub & HP1). inv_bind HP1 cx. inv_bind HP1 x'. inv_bind HP1 cy. inv_bind HP1 y'.
      injection HP1 as -> ->. apply to_bytes_checked_ok in H as [L1 O1]. apply to_bytes_checked_ok in H1 as [L2 O2].
      assert (E1 : bx = cx).
      { destruct (truthy x); [|congruence]. destruct (veqb x (VBytes cx)) eqn:E; [|discriminate]. apply veqb_eq in E. congruence. }
      assert (E2 : y1 = VBytes cy).
      { destruct (truthy y); [|congruence]. destruct (veqb y (VBytes cy)) eqn:E; [|discriminate]. apply veqb_eq in E. congruence. }
      subst y1 cx. assert (NB : bx <> []) by (eapply nonempty; rewrite L1; eassumption).
      assert (NC : cy <> []) by (eapply nonempty; rewrite L2; eassumption).
      assert (HTc : truthy (VBytes cy) = true) by (destruct cy; [elim NC; reflexivity|reflexivity]).
      rewrite HTc, andb_false_r in HY. injection HY as <-.
      split; [assumption|]. split; [assumption|]. intros _. split; [assumption|]. split; [assumption|]. rewrite HPub. congruence. }
  destruct HXY as (NX & NY & HPub).
  unfold portable. cbn [k_extra k_cls k_store].
  split; [reflexivity|]. split; [rewrite distinct_keys_dnodup; repeat apply dnodup_put; apply dnodup_dset; assumption|].
  split; [unfold has, param; cbn [k_store]; rewrite !dget_put_other by discriminate; rewrite dget_dset_other by reflexivity; assumption|].
  split.
  { repeat (apply store_ok_put; [|cbn; auto]). apply store_ok_dset; [assumption|]. eapply PO_curve; [cbn; auto|eassumption|apply curve_ids_kty; assumption]. }
  unfold components. cbn [k_cls]. exists cv, bx, by_. unfold bytes_param, param. cbn [k_store].
  split; [rewrite !dget_put_other by discriminate; apply dget_dset_same, keyeq_refl|].
  split; [rewrite !(dget_put_other EC2KpD), !(dget_put_other EC2KpY) by discriminate; apply dget_put_same; congruence|].
  split; [rewrite !(dget_put_other EC2KpD) by discriminate; apply dget_put_same; congruence|].
  intros d HD. destruct bd as [|d0 bd].
  - rewrite dget_put_empty in HD. rewrite !dget_put_other in HD by discriminate. rewrite dget_dset_other in HD by reflexivity.
    rewrite HPn in HD by (cbn; auto). discriminate.
  - rewrite dget_put_same in HD by discriminate. injection HD as <-. destruct HPub as (L1 & L2 & HPub); [discriminate|]. split; [|exact HPub].
    exists (curve_size (c_id cv)). split; [apply ec2_curve_in; exact HKt|]. split; assumption.
Qed.

Lemma rsa_built : forall n e d p q dp dq qinv other opt allow k, options_ok KRSA opt -> other = VNone \/ other = VList [] ->
  rsa_init (RsaArgs n e d p q dp dq qinv other (VBytes []) (VBytes []) (VBytes [])) opt allow = Ok k -> portable X k.
Proof.
  intros n e d p q dp dq qinv other opt allow k HO HOt H. unfold rsa_init in H.
  cbn [ra_n ra_e ra_d ra_p ra_q ra_dp ra_dq ra_qinv ra_other ra_ri ra_di ra_ti] in H.
  assert (HOt' : (if is_none other then VList [] else other) = VList []) by (destruct HOt as [->| ->]; reflexivity).
  rewrite HOt' in H. clear HOt HOt'. inv_bind H ok. destruct ok; [|discriminate]. cbn [negb] in H. inv_bind H k0.
  apply common_init_built in H1 as (HC & HE & HS & HN & HK & HP); [|assumption].
  inv_bind H k1. inv_bind H k2. inv_bind H k3. inv_bind H k4. inv_bind H k5. inv_bind H k6. inv_bind H k7. inv_bind H k8.
  destruct e; cbn [set_bytes_param] in H1; try discriminate. injection H1 as <-. rename b into be.
  destruct n; cbn [set_bytes_param] in H2; try discriminate. injection H2 as <-. rename b into bn.
  apply set_unless_put in H3 as [[bd ->] ->]. apply set_unless_put in H4 as [[bp ->] ->].
  apply set_unless_put in H5 as [[bq ->] ->]. apply set_unless_put in H6 as [[bdp ->] ->].
  apply set_unless_put in H7 as [[bdq ->] ->]. apply set_unless_put in H8 as [[bqi ->] ->].
  cbn [truthy extra_unless_empty veqb bytes_eqb] in H.
  assert (HR : k = Key KRSA (put RSAKpQInv (VBytes bqi) (put RSAKpDQ (VBytes bdq) (put RSAKpDP (VBytes bdp) (put RSAKpQ (VBytes bq)
    (put RSAKpP (VBytes bp) (put RSAKpD (VBytes bd) (dset (dset (k_store k0) (VClass RSAKpE) (VBytes be)) (VClass RSAKpN) (VBytes bn)))))))) []).
  { change (Ok (Key (k_cls k0) (put RSAKpQInv (VBytes bqi) (put RSAKpDQ (VBytes bdq) (put RSAKpDP (VBytes bdp) (put RSAKpQ (VBytes bq)
    (put RSAKpP (VBytes bp) (put RSAKpD (VBytes bd) (dset (dset (k_store k0) (VClass RSAKpE) (VBytes be)) (VClass RSAKpN) (VBytes bn)))))))) (k_extra k0)) = Ok k) in H.
    rewrite HC, HE in H. congruence. }
  clear H. subst k.
  (* the forms *)
  assert (HF : bn <> [] /\ be <> [] /\ ((bd <> [] /\ bp <> [] /\ bq <> [] /\ bdp <> [] /\ bdq <> [] /\ bqi <> []) \/
    (bd = [] /\ bp = [] /\ bq = [] /\ bdp = [] /\ bdq = [] /\ bqi = []))).
  { clear -H0. unfold rsa_valid in H0. cbn [ra_n ra_e ra_d ra_p ra_q ra_dp ra_dq ra_qinv ra_other ra_ri ra_di ra_ti] in H0.
    destruct bn as [|? bn]; destruct be as [|? be]; destruct bd as [|? bd]; destruct bp as [|? bp]; try discriminate H0;
    destruct bq as [|? bq]; try discriminate H0; destruct bdp as [|? bdp]; try discriminate H0;
    destruct bdq as [|? bdq]; try discriminate H0; destruct bqi as [|? bqi]; try discriminate H0;
    (split; [discriminate|split; [discriminate|]]); try (right; repeat split; reflexivity); left; repeat split; discriminate. }
  destruct HF as (N1 & N2 & HF).
  unfold portable. cbn [k_extra k_cls k_store].
  split; [reflexivity|]. split; [rewrite distinct_keys_dnodup; repeat apply dnodup_put; repeat apply dnodup_dset; assumption|].
  split; [unfold has, param; cbn [k_store]; rewrite !dget_put_other by discriminate; rewrite !dget_dset_other by reflexivity; assumption|].
  split.
  { repeat (apply store_ok_put; [|cbn; auto 10]). apply store_ok_dset; [apply store_ok_dset; [assumption|]|].
    - constructor; [cbn; auto 10|assumption].
    - constructor; [cbn; auto 10|assumption]. }
  unfold components. cbn [k_cls].
  split; [unfold has, param; cbn [k_store]; rewrite !dget_put_other by discriminate; rewrite dget_dset_same by apply keyeq_refl; discriminate|].
  split; [unfold has, param; cbn [k_store]; rewrite !dget_put_other by discriminate; rewrite dget_dset_other by reflexivity;
    rewrite dget_dset_same by apply keyeq_refl; discriminate|].
  assert (HQ : forall r, In r (byte_params KRSA ++ curve_param KRSA) -> r <> RSAKpN -> r <> RSAKpE ->
    dget (dset (dset (k_store k0) (VClass RSAKpE) (VBytes be)) (VClass RSAKpN) (VBytes bn)) (VClass r) = None).
  { intros r HR R1 R2. rewrite !dget_dset_other by (apply keyeq_class_ne; assumption). apply HP. assumption. }
  cbn zeta. destruct HF as [(M1 & M2 & M3 & M4 & M5 & M6)|(-> & -> & -> & -> & -> & ->)].
  - left. unfold has, param. cbn [k_store].
    repeat (apply Forall_cons; [rewrite ?dget_put_other by discriminate; rewrite dget_put_same; [discriminate|congruence]|]). apply Forall_nil.
  - right. rewrite !dget_put_empty. unfold has, param. cbn [k_store].
    repeat (apply Forall_cons; [rewrite HQ; [intros Q; apply Q; reflexivity|cbn; auto 10|discriminate|discriminate]|]). apply Forall_nil.
Qed.

Theorem built_portable : forall k, built X k -> portable X k.
Proof.
  intros k H. destruct H; [eapply sym_built|eapply okp_built|eapply ec2_built|eapply rsa_built]; eassumption.
Qed.

(** ** Encoding *)

Lemma lower_known : forall h f v, h <> HNone -> known_class f v -> exists c, lower cls_fullname h v = Ok c.
Proof.
  intros h f v HH (w & n & -> & _). cbn [lower]. destruct h as [| |t]; [elim HH; reflexivity|eexists; reflexivity|].
  unfold lower_class. match goal with |- context [if ?b then Ok (CText _) else _] => destruct b end; eexists; reflexivity.
Qed.

Lemma lower_plain : forall h v, plain v -> exists c, lower cls_fullname h v = Ok c.
Proof. intros h v H. destruct (lower_data cls_fullname v _ H) as [c HC]. eauto. Qed.

Lemma lower_param : forall h c a v, h <> HNone -> param_ok c a v ->
  exists x y, lower cls_fullname h a = Ok x /\ lower cls_fullname h v = Ok y.
Proof.
  intros h c a v HH H.
  assert (HA : exists x, lower cls_fullname h a = Ok x).
  { apply param_ok_label in H. destruct H as [(p & n & -> & HI)|[(z & -> & _)|(u & -> & _)]]; try (eexists; reflexivity).
    eapply lower_known; [assumption|]. exists p, n. eauto. }
  destruct HA as [x HA]. exists x.
  assert (HV : exists y, lower cls_fullname h v = Ok y).
  { destruct H; try (eapply lower_known; eassumption); try (apply lower_plain; assumption); try (eexists; reflexivity).
    - apply (lower_known h FKty); [assumption|]. destruct c; eexists; eexists; (split; [reflexivity|cbn; auto 10]).
    - assert (HM : exists cs, mapM (lower cls_fullname h) l = Ok cs).
      { clear H. induction H0 as [|o l HO H0 [cs IH]]; [exists []; reflexivity|].
        destruct (lower_known h _ _ HH HO) as [y HY]. exists (y :: cs). cbn [mapM]. rewrite HY, IH. reflexivity. }
      destruct HM as [cs HM]. exists (CArr cs). cbn [lower]. rewrite HM. reflexivity.
    - eapply lower_known; [assumption|]. exists cv, n. eauto. }
  destruct HV as [y HV]. eauto.
Qed.

Lemma lower_store_ok : forall h c s, h <> HNone -> store_ok c s -> exists x, lower cls_fullname h (VDict s) = Ok x.
Proof.
  intros h c s HH H. rewrite lower_dict.
  assert (HM : exists cs, mapM (lower_pair cls_fullname h) s = Ok cs).
  { induction H as [|[a v] s HP H [cs IH]]; [exists []; reflexivity|]. destruct (lower_param h c a v HH HP) as (x & y & HX & HY).
    exists ((x, y) :: cs). cbn [mapM lower_pair]. rewrite HX, HY, IH. reflexivity. }
  destruct HM as [cs HM]. exists (CMap cs). rewrite HM. reflexivity.
Qed.

(** The only way encoding a portable key can fail is a component that CBOR cannot
    express (e.g. text that is not UTF-8 or an integer beyond 64 bits ... see [wfc]). *)
Lemma portable_encode : forall k, portable X k -> (exists b, key_encode k = Ok b) \/ key_encode k = Err OverflowError.
Proof.
  intros k (_ & _ & _ & HS & _). unfold key_encode, dumps.
  destruct (lower_store_ok HIdent (k_cls k) (k_store k)) as [x HX]; [discriminate|exact HS|].
  rewrite HX. cbn [bind]. destruct (wfc x); eauto.
Qed.

Theorem portable_trip : forall k b rest, portable X k -> key_encode k = Ok b ->
  exists k', key_decode X (VBytes (b ++ rest)) = Ok k' /\ same_key k k'.
Proof.
  intros [c s ex] b rest H HE. pose proof H as (HX & HD & HK & HS & HC). cbn [k_extra k_store k_cls] in *. subst ex.
  unfold key_encode in HE. cbn [k_store] in HE.
  assert (HL : loads_bytes (b ++ rest) = Ok (VDict (W HIdent s))).
  { rewrite <- wire_dict. eapply loads_dumps_wire; [|exact HE]. rewrite wire_dict. eapply wire_store_data; eassumption. }
  destruct (from_dict_trip X HIdent c s H) as (s' & HF & HG & _).
  exists (Key c s' []). unfold key_decode. cbn [loads]. rewrite HL. cbn [bind]. rewrite HF. split; [reflexivity|].
  split; [reflexivity|]. split; [reflexivity|]. assumption.
Qed.

(** ** Multi-prime RSA keys (C62) *)

Lemma nonempty_bytes : forall v, (exists b, v = VBytes b) -> ~ absent v -> exists x b, v = VBytes (x :: b).
Proof. intros v [[|x b] ->] H; [elim H; left; reflexivity|eauto]. Qed.

Lemma multi_prime_init : forall n e d p q dp dq qi ot ri di ti opt allow k,
  let a := RsaArgs n e d p q dp dq qi ot ri di ti in
  rsa_typed a -> rsa_multi_prime_form a -> rsa_init a opt allow = Ok k ->
  rsa_init (RsaArgs n e d p q dp dq qi VNone (VBytes []) (VBytes []) (VBytes [])) opt allow = Ok (with_extra k []) /\
  k_extra k = [(VStr (bs "other"), ot); (VStr (bs "r_i"), ri); (VStr (bs "d_i"), di); (VStr (bs "t_i"), ti)].
Proof.
  intros n e d p q dp dq qi ot ri di ti opt allow k a [HB HO] HM H. unfold a in *. clear a. unfold rsa_multi_prime_form in HM.
  cbn [ra_n ra_e ra_d ra_p ra_q ra_dp ra_dq ra_qinv ra_other ra_ri ra_di ra_ti] in *.
  repeat match goal with H : Forall _ (_ :: _) |- _ => apply Forall_cons_iff in H as [? H] end.
  repeat match goal with H1 : exists b, ?v = VBytes b, H2 : ~ absent ?v |- _ =>
    destruct (nonempty_bytes _ H1 H2) as (? & ? & ->); clear H1 H2 end.
  assert (HL : exists o l, ot = VList (o :: l)).
  { destruct HO as [->|[[|o l] ->]].
    - match goal with H : ~ absent VNone |- _ => elim H; right; right; reflexivity end.
    - match goal with H : ~ absent (VList []) |- _ => elim H; right; left; reflexivity end.
    - eauto. }
  destruct HL as (o & l & ->).
  unfold rsa_init in *. cbn [ra_n ra_e ra_d ra_p ra_q ra_dp ra_dq ra_qinv ra_other ra_ri ra_di ra_ti is_none] in *.
  match type of H with bind ?r _ = _ => change r with (@Ok bool true) in H end.
  match goal with |- bind ?r _ = _ /\ _ => change r with (@Ok bool true) end.
  cbn [bind negb] in *. apply bind_ok in H as (k0 & HCI & H).
  assert (HX : k_extra k0 = []).
  { unfold common_init in HCI. inv_bind HCI oo. inv_bind HCI dd. destruct (veqb _ _); [|discriminate].
    unfold base_init in HCI. destruct (dget dd (VClass KpKeyOps)).
    - inv_bind HCI nn. destruct (Nat.eqb nn 0); injection HCI as <-; reflexivity.
    - injection HCI as <-. reflexivity. }
  rewrite HCI. cbn [bind set_bytes_param] in *.
  repeat (rewrite set_unless_put_ok in *; cbn [bind k_cls k_store k_extra store_set with_store] in * ).
  cbn [truthy length Nat.eqb negb] in *. unfold extra_unless_empty, extra_set, with_extra in *. cbn [veqb bytes_eqb k_cls k_store k_extra] in *.
  injection H as <-. cbn [k_cls k_store k_extra]. rewrite HX. split; reflexivity.
Qed.

Theorem multi_prime_lost : forall a opt allow k b,
  rsa_typed a -> rsa_multi_prime_form a -> options_ok KRSA opt -> rsa_init a opt allow = Ok k -> key_encode k = Ok b ->
  exists k', key_decode X (VBytes b) = Ok k' /\ k_cls k' = k_cls k /\ (forall r, dget (k_store k') r = dget (k_store k) r) /\
    k_extra k = [(VStr (bs "other"), ra_other a); (VStr (bs "r_i"), ra_ri a); (VStr (bs "d_i"), ra_di a); (VStr (bs "t_i"), ra_ti a)] /\
    k_extra k' = [] /\ Forall (fun p => param k' p = None) [RSAKpOther; RSAKpRi; RSAKpDi; RSAKpTi].
Proof.
  intros [n e d p q dp dq qi ot ri di ti] opt allow k b HT HM HO H HE.
  destruct (multi_prime_init _ _ _ _ _ _ _ _ _ _ _ _ _ _ _ HT HM H) as [HI HX].
  pose proof (rsa_built _ _ _ _ _ _ _ _ _ _ _ _ HO (or_introl eq_refl) HI) as HP.
  assert (HE' : key_encode (with_extra k []) = Ok b) by exact HE.
  destruct (portable_trip _ _ [] HP HE') as (k' & HD & HC & HXx & HG). rewrite app_nil_r in HD.
  exists k'. split; [assumption|]. split; [rewrite HC; reflexivity|]. split; [assumption|]. split; [assumption|].
  split; [rewrite HXx; reflexivity|].
  destruct HP as (_ & _ & _ & HS & _). unfold param.
  assert (HC' : k_cls (with_extra k []) = KRSA).
  { apply rsa_init_fresh in HI. apply (fr_cls _ _ HI). }
  rewrite HC' in HS.
  repeat (apply Forall_cons; [rewrite HG; apply rsa_absent; [exact HS|cbn; auto]|]). apply Forall_nil.
Qed.
End Built.
