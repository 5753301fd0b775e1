(** Proofs for C106: [from_dict] of a key object. *)
From Coq Require Import NArith ZArith Bool String Lia.
From Coq Require Import Init.Byte List.
From Verif Require Import Bytes Value Cbor SpecData ValueProofs Registry RegistryProofs Crypto Keys SpecRegistry SpecKeys SpecTrip SpecMapping DataProofs
  KeyProofs KeyProofs2 MiscProofs WireProofs KeyTrip KeyTrip2 KeyTrip3 MapProofs.
Import ListNotations.

(** ** A key object and the dict of its items *)

(** Labels as keys keep them, none a float. *)
Definition kept (c : kclass) (s : dict) : Prop := Forall (fun e => label_good c (fst e) /\ forall f, fst e <> VFloat f) s.

Lemma kept_spelling : forall c s a m, kept c s -> key_transform c true a = Ok (VClass m) ->
  (exists z, a = VInt z) \/ (exists u, a = VStr u) -> dget s a = None.
Proof.
  intros c s a m H HT HA. destruct (dget s a) as [v|] eqn:E; [|reflexivity]. exfalso.
  apply MapProofs.dget_In in E as (b & HI & HB). unfold kept in H. rewrite Forall_forall in H. destruct (H _ HI) as [[HG _] HF]. cbn [fst] in *.
  apply keyeq_spec in HB. destruct HA as [[z ->]|[u ->]]; cbn [knorm] in HB.
  - destruct b as [|bb|z'|x|y| | |bb|u|l|l|d|t w|t w|c'|kc ks ke]; cbn [knorm] in HB; try discriminate.
    + injection HB as ->. unfold key_transform in *. cbn [from_id] in HG, HT.
      rewrite (dget_cong _ (VBool bb) (VInt (if bb then 1%Z else 0%Z))) in HG by (destruct bb; reflexivity).
      destruct (dget (registry (param_fam c)) (VInt (if bb then 1%Z else 0%Z))) as [q|]; [injection HG as ->|]; discriminate HT.
    + injection HB as ->. rewrite HT in HG. discriminate.
    + elim (HF x eq_refl).
  - destruct b as [|bb|z'|x|y| | |bb|u'|l|l|d|t w|t w|c'|kc ks ke]; cbn [knorm] in HB; try discriminate.
    + elim (HF x eq_refl).
    + injection HB as ->. rewrite HT in HG. discriminate.
Qed.

Lemma transform_spelled : forall c m n a, In (m, n) (registered (param_fam c)) -> spells m n a -> key_transform c true a = Ok (VClass m).
Proof. intros c m n a HI HS. unfold key_transform. eapply from_id_spells; eassumption. Qed.

Lemma extract_key : forall c s e m n dflt, In (m, n) (registered (param_fam c)) ->
  extract (VKey c s e) m dflt = Ok (match dget s (VClass m) with Some v => v | None => dflt end).
Proof.
  intros c s e m n dflt HI. unfold extract. cbn [map_get].
  rewrite !(transform_spelled c m n) by (try exact HI; cbn [spells]; try reflexivity; rewrite (cls_fullname_registered _ _ _ HI); apply (names_upper _ _ _ HI)).
  cbn [bind]. destruct (dget s (VClass m)); reflexivity.
Qed.

Lemma extract_items : forall c s m n dflt, kept c s -> In (m, n) (registered (param_fam c)) ->
  extract (VDict s) m dflt = Ok (match dget s (VClass m) with Some v => v | None => dflt end).
Proof.
  intros c s m n dflt H HI. unfold extract. cbn [map_get bind]. destruct (dget s (VClass m)); [reflexivity|].
  rewrite (kept_spelling c s (VInt (c_id m)) m H); [|apply (transform_spelled c m n _ HI); reflexivity|eauto].
  rewrite (kept_spelling c s (VStr (cls_fullname m)) m H); [reflexivity| |eauto].
  apply (transform_spelled c m n _ HI). cbn [spells]. rewrite (cls_fullname_registered _ _ _ HI). apply (names_upper _ _ _ HI).
Qed.

Section From.
Variable X : crypto.

Definition class_from (c : kclass) (m : pyval) : result key :=
  match c with KSym => sym_from_dict m | KOKP => okp_from_dict m | KEC2 => ec2_from_dict X m | KRSA => rsa_from_dict m end.

Lemma class_from_key : forall c s e, kept c s -> class_from c (VKey c s e) = class_from c (VDict s).
Proof.
  intros c s e H. pose proof (own_registered c) as HO. rewrite Forall_forall in HO.
  assert (HE : forall m dflt, In m (own_params c) -> extract (VKey c s e) m dflt = extract (VDict s) m dflt).
  { intros m dflt HM. destruct (HO _ HM) as [n HI]. rewrite (extract_key _ _ _ _ _ _ HI), (extract_items _ _ _ _ _ H HI). reflexivity. }
  destruct c; cbn [class_from].
  - unfold sym_from_dict. rewrite (HE SymKpK) by (cbn; auto 20). reflexivity.
  - unfold okp_from_dict. rewrite (HE OKPKpX), (HE OKPKpD), (HE OKPKpCurve) by (cbn; auto 20). reflexivity.
  - unfold ec2_from_dict. rewrite (HE EC2KpX), (HE EC2KpY), (HE EC2KpD), (HE EC2KpCurve) by (cbn; auto 20). reflexivity.
  - unfold rsa_from_dict. rewrite (HE RSAKpE), (HE RSAKpN), (HE RSAKpD), (HE RSAKpP), (HE RSAKpQ), (HE RSAKpDP), (HE RSAKpDQ), (HE RSAKpQInv),
      (HE RSAKpOther), (HE RSAKpRi), (HE RSAKpDi), (HE RSAKpTi) by (cbn; auto 20). reflexivity.
Qed.

Lemma from_dict_typed : forall c s m, m = VDict s \/ (exists e, m = VKey c s e) -> dget s (VClass KpKty) = Some (kty_of c) ->
  from_dict X m = class_from c m.
Proof.
  intros c s m HM HK.
  assert (HG : map_get m (VClass KpKty) = Ok (Some (kty_of c))).
  { destruct HM as [->|[e ->]]; cbn [map_get]; [rewrite HK; reflexivity|].
    rewrite (transform_spelled c KpKty (bs "KTY")); [cbn [bind]; rewrite HK; reflexivity|apply registered_kp; apply kp_names|reflexivity]. }
  replace (from_dict X m) with (dispatch_kty X (kty_of c) m).
  - destruct c; reflexivity.
  - unfold from_dict. rewrite HG. destruct HM as [->|[e ->]]; reflexivity.
Qed.

Theorem from_key : forall k, labels_good k -> Forall (fun e => forall f, fst e <> VFloat f) (k_store k) -> param k KpKty = Some (type_of (k_cls k)) ->
  from_dict X (kval k) = from_dict X (VDict (k_store k)).
Proof.
  intros [c s e] HL HF HK. unfold labels_good, param, kval in *. cbn [k_cls k_store k_extra] in *. rewrite type_of_kty in HK.
  rewrite (from_dict_typed c s (VKey c s e)), (from_dict_typed c s (VDict s)) by (try exact HK; eauto). apply class_from_key.
  unfold kept. apply Forall_forall. intros x HX. rewrite Forall_forall in HL, HF. auto.
Qed.

(** ** A complete key comes back *)

Lemma label_kept : forall c a, label_ok c a -> label_good c a /\ forall f, a <> VFloat f.
Proof.
  intros c a [(p & n & -> & HI)|[(z & -> & HU)|(u & -> & HU)]].
  - split; [eapply registered_good; exact HI|discriminate].
  - split; [|discriminate]. split; [|reflexivity]. destruct (wire_label HIdent c (VInt z)) as (HA & _); [right; left; eauto|]. exact HA.
  - split; [|discriminate]. split; [|reflexivity]. destruct (wire_label HIdent c (VStr u)) as (HA & _); [right; right; eauto|]. exact HA.
Qed.

Lemma store_kept : forall c s, store_ok c s -> kept c s.
Proof. intros c s H. eapply Forall_impl; [|exact (store_labels _ _ H)]. intros [a v] HA. apply label_kept. exact HA. Qed.

Lemma from_id_self : forall f v, known_class f v -> from_id f false v = Ok v.
Proof. intros f v (w & n & -> & HI). eapply from_id_spells; [exact HI|]. reflexivity. Qed.

Lemma from_id_selves : forall f l, Forall (known_class f) l -> from_id f false (VList l) = Ok (VList l).
Proof.
  intros f l H. cbn [from_id]. replace (mapM (from_id f false) l) with (@Ok (list pyval) l); [reflexivity|].
  symmetry. induction H as [|v l HV H IH]; [reflexivity|]. cbn [mapM]. rewrite (from_id_self f v HV), IH. reflexivity.
Qed.

Lemma parse_kp_self : forall c a v, param_ok c a v -> parse_kp a v = Ok v.
Proof.
  intros c a v H. destruct H.
  - cbn [parse_kp]. apply from_id_self. destruct c; eexists; eexists; (split; [reflexivity|]); cbn; auto 10.
  - apply from_id_self. assumption.
  - apply from_id_selves. assumption.
  - reflexivity.
  - reflexivity.
  - assert (HW : from_id FCrv false (VClass cv) = Ok (VClass cv)) by (apply from_id_self; exists cv, n; auto).
    destruct c; cbn in H; try contradiction; destruct H as [<-|[]]; exact HW.
  - destruct c; cbn in H; repeat (destruct H as [<-|H]; [reflexivity|]); destruct H.
  - reflexivity.
  - reflexivity.
Qed.

Lemma transform_self : forall c t acc, store_ok c t -> transform_params c true t acc = Ok (dupdate acc t).
Proof.
  intros c t acc H. revert acc. induction H as [|[a v] t HP H IH]; intros acc; [reflexivity|].
  cbn [transform_params fst snd] in *. destruct (label_kept c a (param_ok_label _ _ _ HP)) as [[HA HH] _].
  unfold key_transform in HA. rewrite HA. cbn [bind]. rewrite (parse_kp_self c a v HP). cbn [bind]. rewrite HH, IH, dupdate_cons. reflexivity.
Qed.

Lemma common_self : forall h c t, store_ok c t -> common_init c (VDict t) true = common_init c (VDict (W h t)) true.
Proof. intros h c t H. unfold common_init. cbn [opt_items bind]. rewrite (transform_self c t _ H), (transform_W c h t _ H). reflexivity. Qed.

Lemma remove_self : forall c s m n, kept c s -> In (m, n) (registered (param_fam c)) -> remove s m = ddel s (VClass m).
Proof.
  intros c s m n H HI. unfold remove. assert (HK : kept c (ddel s (VClass m))) by (apply Forall_ddel; exact H).
  rewrite (ddel_absent (ddel s (VClass m)) (VInt (c_id m))).
  - apply ddel_absent. eapply (kept_spelling c _ _ m HK); [|eauto]. apply (transform_spelled c m n _ HI). cbn [spells].
    rewrite (cls_fullname_registered _ _ _ HI). apply (names_upper _ _ _ HI).
  - eapply (kept_spelling c _ _ m HK); [|eauto]. apply (transform_spelled c m n _ HI). reflexivity.
Qed.

Lemma remove_all_self : forall c ms s, kept c s -> Forall (fun m => exists n, In (m, n) (registered (param_fam c))) ms -> remove_all s ms = dels ms s.
Proof.
  intros c ms. induction ms as [|m ms IH]; intros s H HM; [reflexivity|]. inversion HM as [|? ? [n HN] HM']; subst.
  unfold remove_all, dels. cbn [fold_left]. rewrite (remove_self c s m n H HN). apply IH; [|assumption]. apply Forall_ddel. assumption.
Qed.

Lemma class_from_wire : forall h c s, portable X (Key c s []) -> class_from c (VDict s) = class_from c (VDict (W h s)).
Proof.
  intros h c s (_ & HD & HK & HS & HC). cbn [k_store k_cls k_extra] in *. pose proof (store_kept c s HS) as HL. pose proof (store_labels c s HS) as HLb.
  pose proof (own_registered c) as HO. rewrite Forall_forall in HO.
  assert (HM : forall ms, incl ms (own_params c) -> common_init c (VDict (remove_all s ms)) true = common_init c (VDict (remove_all (W h s) ms)) true).
  { intros ms Hms. assert (HF : Forall (fun m => exists n, In (m, n) (registered (param_fam c))) ms) by (apply Forall_forall; intros m Hm; apply HO, Hms; assumption).
    rewrite (remove_all_self c ms s HL HF), (remove_all_W c h ms s HLb HF). apply common_self. apply Forall_dels. exact HS. }
  assert (HB : forall m, In m (own_params c) -> In m (byte_params c) -> extract (VDict s) m (VBytes []) = extract (VDict (W h s)) m (VBytes [])).
  { intros m Hm Hb. destruct (HO _ Hm) as [n HI]. rewrite (extract_items c s m n _ HL HI), (extract_W c h s m n _ HLb HI).
    destruct (bytes_value c h s m HS Hb) as (b & V & _ & _ & _ & E). unfold val in V. rewrite E, V. reflexivity. }
  assert (HV : forall m, In m (own_params c) -> In m (curve_param c) -> (extract (VDict s) m VNone = Ok VNone /\ extract (VDict (W h s)) m VNone = Ok VNone) \/
    exists cv n, In (cv, n) (registered FCrv) /\ curve_key_type (c_id cv) = kty_of c /\
      extract (VDict s) m VNone = Ok (VClass cv) /\ extract (VDict (W h s)) m VNone = Ok (wire cls_fullname h (VClass cv))).
  { intros m Hm Hc. destruct (HO _ Hm) as [n HI]. rewrite (extract_items c s m n _ HL HI), (extract_W c h s m n _ HLb HI).
    destruct (dget s (VClass m)) as [v|] eqn:E; [|left; auto]. right. destruct (curve_value c m s v HS Hc E) as (cv & n' & -> & HR & HT). eauto 10. }
  assert (HN : forall cv, is_none (wire cls_fullname h (VClass cv)) = false).
  { intros cv. cbn [wire]. destruct h as [| |[|]]; try reflexivity. destruct (fam_eq_dec _ _); reflexivity. }
  assert (HT : forall p t cv n k, In (cv, n) (registered FCrv) -> set_crv p t (VClass cv) k = set_crv p t (wire cls_fullname h (VClass cv)) k).
  { intros p t cv n k HI. unfold set_crv. rewrite (from_id_wire_class h FCrv (VClass cv)) by (exists cv, n; auto). rewrite from_id_self by (exists cv, n; auto). reflexivity. }
  destruct c; cbn [class_from].
  - unfold sym_from_dict. rewrite (HB SymKpK) by (cbn; auto 20). destruct (extract (VDict (W h s)) _ _); [|reflexivity]. cbn [bind items_of].
    unfold sym_init. rewrite HM by (apply incl_check; reflexivity). reflexivity.
  - unfold okp_from_dict. rewrite (HB OKPKpX), (HB OKPKpD) by (cbn; auto 20).
    destruct (HV OKPKpCurve) as [[E1 E2]|(cv & n & HI & HK2 & E1 & E2)]; [cbn; auto 20|cbn; auto|rewrite E1, E2|rewrite E1, E2];
      destruct (extract (VDict (W h s)) OKPKpX _); cbn [bind]; try reflexivity; destruct (extract (VDict (W h s)) OKPKpD _); cbn [bind]; try reflexivity; cbn [items_of bind];
      unfold okp_init; rewrite HM by (apply incl_check; reflexivity); [reflexivity|].
    rewrite HN. cbn [is_none]. destruct (common_init _ _ _); cbn [bind]; [|reflexivity]. rewrite (HT _ _ cv n _ HI). reflexivity.
  - unfold ec2_from_dict. rewrite (HB EC2KpX), (HB EC2KpY), (HB EC2KpD) by (cbn; auto 20).
    destruct (HV EC2KpCurve) as [[E1 E2]|(cv & n & HI & HK2 & E1 & E2)]; [cbn; auto 20|cbn; auto|rewrite E1, E2|rewrite E1, E2];
      destruct (extract (VDict (W h s)) EC2KpX _); cbn [bind]; try reflexivity; destruct (extract (VDict (W h s)) EC2KpY _); cbn [bind]; try reflexivity;
      destruct (extract (VDict (W h s)) EC2KpD _); cbn [bind]; try reflexivity; cbn [items_of bind];
      unfold ec2_init; rewrite HM by (apply incl_check; reflexivity); [reflexivity|].
    rewrite HN. cbn [is_none]. destruct (common_init _ _ _); cbn [bind]; [|reflexivity]. rewrite (HT _ _ cv n _ HI). reflexivity.
  - assert (HA : forall m d, In m [RSAKpOther; RSAKpRi; RSAKpDi; RSAKpTi] -> extract (VDict s) m d = extract (VDict (W h s)) m d).
    { intros m d Hm. destruct (HO m) as [n HI]; [cbn in Hm |- *; repeat (destruct Hm as [<-|Hm]; [auto 20|]); destruct Hm|].
      rewrite (extract_items KRSA s m n _ HL HI), (extract_W KRSA h s m n _ HLb HI), (rsa_absent s m HS Hm). reflexivity. }
    unfold rsa_from_dict. rewrite (HB RSAKpE), (HB RSAKpN), (HB RSAKpD), (HB RSAKpP), (HB RSAKpQ), (HB RSAKpDP), (HB RSAKpDQ), (HB RSAKpQInv) by (cbn; auto 20).
    rewrite (HA RSAKpOther), (HA RSAKpRi), (HA RSAKpDi), (HA RSAKpTi) by (cbn; auto 20).
    repeat (destruct (extract _ _ _); cbn [bind]; [|reflexivity]). cbn [items_of bind]. unfold rsa_init. rewrite HM by (apply incl_check; reflexivity). reflexivity.
Qed.

Theorem copied : forall k m, portable X k -> m = kval k \/ m = VDict (k_store k) -> exists k', from_dict X m = Ok k' /\ same_key k k'.
Proof.
  intros [c s e] m HP HM. pose proof HP as (HE & HD & HK & HS & HC). cbn [k_store k_cls k_extra] in *. subst e.
  assert (HT : dget s (VClass KpKty) = Some (kty_of c)).
  { unfold has, param in HK. cbn [k_store] in HK. destruct (dget s (VClass KpKty)) as [v|] eqn:HG; [|elim HK; reflexivity].
    f_equal. apply (param_ok_kty c). eapply store_param; eassumption. }
  destruct (from_dict_trip X HIdent c s HP) as (s' & HF & HG & _). exists (Key c s' []). split; [|split; [reflexivity|split; [reflexivity|exact HG]]].
  rewrite <- HF. pose proof (store_kept c s HS) as HL.
  assert (HW : from_dict X (VDict (W HIdent s)) = class_from c (VDict s)).
  { rewrite (class_from_wire HIdent c s HP). unfold from_dict. cbn [map_get bind]. rewrite (dget_W_class c HIdent s KpKty (store_labels _ _ HS)).
    change (VInt 1) with (VInt (c_id KpKty)). rewrite (dget_W_id c HIdent s KpKty (bs "KTY") (store_labels _ _ HS)) by (apply registered_kp; apply kp_names).
    rewrite HT. cbn [option_map]. destruct c; reflexivity. }
  rewrite HW. destruct HM as [->| ->]; unfold kval; cbn [k_cls k_store k_extra].
  - rewrite (from_dict_typed c s) by eauto. apply class_from_key. exact HL.
  - apply (from_dict_typed c s); auto.
Qed.
End From.
