(** Round trip of keys through their wire form. *)
From Coq Require Import NArith ZArith Bool String Lia.
From Coq Require Import Init.Byte List.
From Verif Require Import Bytes BytesProofs Value ValueProofs Cbor CborProofs SpecData DataProofs Registry
  RegistryProofs Crypto Keys SpecRegistry SpecKeys KeyProofs KeyProofs2 KeyProofs3 KeyProofs4
  SpecHdr HdrProofs MiscProofs SpecTrip.
Import ListNotations.
Local Open Scope result_scope.

Notation W h := (map (wire_pair cls_fullname h)).

Lemma own_fam : forall c p n, In (p, n) (registered (param_fam c)) -> c_fam p <> FAlg.
Proof.
  intros c p n H E. assert (HT : forallb (fun e => if fam_eq_dec (c_fam (fst e)) FAlg then false else true) (registered (param_fam c)) = true).
  { destruct c; vm_compute; reflexivity. }
  rewrite forallb_forall in HT. apply HT in H. cbn [fst] in H. destruct (fam_eq_dec (c_fam p) FAlg); [discriminate|contradiction].
Qed.

Lemma wire_class : forall h c, c_fam c <> FAlg -> wire cls_fullname h (VClass c) = VInt (c_id c).
Proof.
  intros h c H. cbn [wire]. destruct h as [| |[|]]; try reflexivity.
  destruct (fam_eq_dec (c_fam c) FAlg); [contradiction|reflexivity].
Qed.

Lemma registered_own : forall c p, In p (byte_params c ++ curve_param c) -> exists n, In (p, n) (registered (param_fam c)).
Proof.
  intros c p H.
  assert (HT : forallb (fun p => existsb (fun e => veqb (VClass (fst e)) (VClass p)) (registered (param_fam c))) (byte_params c ++ curve_param c) = true).
  { destruct c; vm_compute; reflexivity. }
  rewrite forallb_forall in HT. apply HT in H. apply existsb_exists in H as ([q n] & HI & E).
  apply veqb_eq in E. injection E as ->. eauto.
Qed.

Lemma registered_kp : forall c p n, In (p, n) (registered FKP) -> In (p, n) (registered (param_fam c)).
Proof. intros c p n H. destruct c; apply in_or_app; left; exact H. Qed.

Lemma kp_names : In (KpKty, bs "KTY") (registered FKP) /\ In (KpKid, bs "KID") (registered FKP) /\
  In (KpAlg, bs "ALG") (registered FKP) /\ In (KpKeyOps, bs "KEY_OPS") (registered FKP) /\
  In (KpBaseIV, bs "BASE_IV") (registered FKP).
Proof. cbn. auto 10. Qed.

(** The label of a well-typed parameter. *)
Definition label_ok (c : kclass) (a : pyval) : Prop :=
  (exists p n, a = VClass p /\ In (p, n) (registered (param_fam c))) \/
  (exists z, a = VInt z /\ unknown_attr (param_fam c) (VInt z)) \/
  (exists u, a = VStr u /\ unknown_attr (param_fam c) (VStr u)).

Lemma param_ok_label : forall c a v, param_ok c a v -> label_ok c a.
Proof.
  intros c a v H. destruct kp_names as (K1 & K2 & K3 & K4 & K5).
  destruct H; try (left; eexists; eexists; split; [reflexivity|]; apply registered_kp; eassumption).
  - destruct (registered_own c p) as [m Hm]; [apply in_or_app; right; assumption|]. left. eauto.
  - destruct (registered_own c p) as [m Hm]; [apply in_or_app; left; assumption|]. left. eauto.
  - right; left. eauto.
  - right; right. eauto.
Qed.

Lemma wire_label : forall h c a, label_ok c a ->
  from_id (param_fam c) true (wire cls_fullname h a) = Ok a /\
  ((exists z, wire cls_fullname h a = VInt z) \/ (exists u, wire cls_fullname h a = VStr u)) /\
  data_value true (wire cls_fullname h a) = true.
Proof.
  intros h c a [(p & n & -> & HI)|[(z & -> & HU)|(u & -> & HU)]].
  - rewrite (wire_class h p) by (eapply own_fam; eassumption). split; [|split; [eauto|reflexivity]].
    eapply from_id_spells; [eassumption|]. reflexivity.
  - split; [|split; [left; exists z; reflexivity|reflexivity]]. apply (from_id_unknown _ _ HU).
  - split; [|split; [right; exists u; reflexivity|reflexivity]]. apply (from_id_unknown _ _ HU).
Qed.

(** Distinct labels stay distinct on the wire. *)
Lemma wire_label_eq : forall h c a b, label_ok c a -> label_ok c b ->
  keyeq (wire cls_fullname h a) (wire cls_fullname h b) = keyeq a b.
Proof.
  intros h c a b HA HB. destruct (wire_label h c a HA) as (FA & LA & _). destruct (wire_label h c b HB) as (FB & LB & _).
  destruct (keyeq a b) eqn:E.
  - assert (a = b).
    { destruct HA as [(p & n & -> & _)|[(z & -> & _)|(u & -> & _)]].
      - apply keyeq_class in E. congruence.
      - destruct HB as [(q & n & -> & _)|[(z' & -> & _)|(u & -> & _)]]; try discriminate.
        rewrite keyeq_int in E. apply Z.eqb_eq in E. congruence.
      - destruct HB as [(q & n & -> & _)|[(z' & -> & _)|(u' & -> & _)]]; try discriminate.
        rewrite keyeq_str in E. apply bytes_eqb_eq in E. congruence. }
    subst b. apply keyeq_refl.
  - destruct (keyeq (wire cls_fullname h a) (wire cls_fullname h b)) eqn:E'; [|reflexivity].
    assert (HE : wire cls_fullname h a = wire cls_fullname h b).
    { destruct LA as [[z HZ]|[u HU]]; destruct LB as [[z' HZ']|[u' HU']]; rewrite ?HZ, ?HZ', ?HU, ?HU' in *; try discriminate.
      - rewrite keyeq_int in E'. apply Z.eqb_eq in E'. congruence.
      - rewrite keyeq_str in E'. apply bytes_eqb_eq in E'. congruence. }
    rewrite HE in FA. rewrite FA in FB. injection FB as ->. rewrite keyeq_refl in E. discriminate.
Qed.

Section Store.
Variables (c : kclass) (h : hook).

Definition store_ok (s : dict) : Prop := Forall (fun e => param_ok c (fst e) (snd e)) s.
Definition labels_ok (s : dict) : Prop := Forall (fun e => label_ok c (fst e)) s.

Lemma store_labels : forall s, store_ok s -> labels_ok s.
Proof. intros s H. eapply Forall_impl; [|exact H]. intros [a v] HP. eapply param_ok_label. exact HP. Qed.

Lemma dget_W_class : forall s m, labels_ok s -> dget (W h s) (VClass m) = None.
Proof.
  intros s m H. induction H as [|[a v] s HA HS IH]; [reflexivity|]. cbn [map dget wire_pair fst snd].
  destruct (wire_label h c a HA) as (_ & HL & _). cbn [fst] in HL.
  replace (keyeq (VClass m) (wire cls_fullname h a)) with false; [assumption|].
  destruct HL as [[z ->]|[u ->]]; reflexivity.
Qed.

Lemma dget_W_id : forall s m n, labels_ok s -> In (m, n) (registered (param_fam c)) ->
  dget (W h s) (VInt (c_id m)) = option_map (wire cls_fullname h) (dget s (VClass m)).
Proof.
  intros s m n H HI. induction H as [|[a v] s HA HS IH]; [reflexivity|]. cbn [map dget wire_pair fst snd].
  assert (HM : label_ok c (VClass m)) by (left; eauto).
  pose proof (wire_label_eq h c (VClass m) a HM HA) as E. rewrite (wire_class h m) in E by (eapply own_fam; eassumption).
  cbn [fst] in *. rewrite E. destruct (keyeq (VClass m) a); [reflexivity|assumption].
Qed.

Lemma dget_W_name : forall s m n, labels_ok s -> In (m, n) (registered (param_fam c)) ->
  dget (W h s) (VStr n) = None.
Proof.
  intros s m n H HI. induction H as [|[a v] s HA HS IH]; [reflexivity|]. cbn [map dget wire_pair fst snd].
  replace (keyeq (VStr n) (wire cls_fullname h a)) with false; [assumption|]. cbn [fst] in HA. symmetry.
  destruct HA as [(p & n' & -> & HI')|[(z & -> & HU)|(u & -> & HU)]].
  - rewrite (wire_class h p) by (eapply own_fam; eassumption). reflexivity.
  - reflexivity.
  - cbn [wire]. destruct (keyeq (VStr n) (VStr u)) eqn:E; [|reflexivity]. rewrite keyeq_str in E.
    apply bytes_eqb_eq in E. subst u. cbn [unknown_attr] in HU. elim (HU m n HI). apply (names_upper _ _ _ HI).
Qed.

Lemma extract_W : forall s m n dflt, labels_ok s -> In (m, n) (registered (param_fam c)) ->
  extract (VDict (W h s)) m dflt =
  Ok (match dget s (VClass m) with Some v => wire cls_fullname h v | None => dflt end).
Proof.
  intros s m n dflt H HI. unfold extract. cbn [map_get bind]. rewrite (dget_W_class s m H), (dget_W_id s m n H HI).
  destruct (dget s (VClass m)); cbn [option_map]; [reflexivity|].
  rewrite (cls_fullname_registered _ _ _ HI), (dget_W_name s m n H HI). reflexivity.
Qed.

Lemma ddel_absent : forall d k, dget d k = None -> ddel d k = d.
Proof.
  induction d as [|[a v] d IH]; intros k H; [reflexivity|]. cbn [dget ddel] in *.
  destruct (keyeq k a); [discriminate|]. rewrite IH by assumption. reflexivity.
Qed.

Lemma ddel_W_id : forall s m n, labels_ok s -> In (m, n) (registered (param_fam c)) ->
  ddel (W h s) (VInt (c_id m)) = W h (ddel s (VClass m)).
Proof.
  intros s m n H HI. induction H as [|[a v] s HA HS IH]; [reflexivity|]. cbn [map ddel wire_pair fst snd].
  assert (HM : label_ok c (VClass m)) by (left; eauto).
  pose proof (wire_label_eq h c (VClass m) a HM HA) as E. rewrite (wire_class h m) in E by (eapply own_fam; eassumption).
  cbn [fst] in *. rewrite E. destruct (keyeq (VClass m) a); [reflexivity|]. cbn [map wire_pair fst snd]. rewrite IH. reflexivity.
Qed.

Lemma Forall_ddel : forall (P : pyval * pyval -> Prop) s k, Forall P s -> Forall P (ddel s k).
Proof.
  intros P s k H. apply Forall_forall. intros e HE. rewrite Forall_forall in H. apply H. eapply ddel_In. exact HE.
Qed.

Lemma remove_W : forall s m n, labels_ok s -> In (m, n) (registered (param_fam c)) ->
  remove (W h s) m = W h (ddel s (VClass m)).
Proof.
  intros s m n H HI. unfold remove. rewrite (ddel_absent (W h s) (VClass m)) by (apply dget_W_class; assumption).
  rewrite (ddel_W_id s m n H HI). rewrite (cls_fullname_registered _ _ _ HI).
  apply ddel_absent. eapply dget_W_name; [|eassumption]. apply Forall_ddel. assumption.
Qed.

Definition dels (ms : list cls) (s : dict) : dict := fold_left (fun d m => ddel d (VClass m)) ms s.

Lemma remove_all_W : forall ms s, labels_ok s -> Forall (fun m => exists n, In (m, n) (registered (param_fam c))) ms ->
  remove_all (W h s) ms = W h (dels ms s).
Proof.
  intros ms. induction ms as [|m ms IH]; intros s H HM; [reflexivity|]. inversion HM as [|? ? [n HN] HM']; subst.
  unfold remove_all, dels. cbn [fold_left]. rewrite (remove_W s m n H HN). apply IH; [|assumption]. apply Forall_ddel. assumption.
Qed.

Lemma Forall_dels : forall (P : pyval * pyval -> Prop) ms s, Forall P s -> Forall P (dels ms s).
Proof. intros P ms. induction ms as [|m ms IH]; intros s H; [assumption|]. apply IH. apply Forall_ddel. assumption. Qed.

Lemma dnodup_dels : forall ms s, dnodup s = true -> dnodup (dels ms s) = true.
Proof. induction ms as [|m ms IH]; intros s H; [assumption|]. apply IH. apply dnodup_ddel. assumption. Qed.

Lemma dget_dels : forall ms s a, dnodup s = true ->
  dget (dels ms s) a = if existsb (fun m => keyeq a (VClass m)) ms then None else dget s a.
Proof.
  induction ms as [|m ms IH]; intros s a H; [reflexivity|]. unfold dels. cbn [fold_left].
  change (fold_left (fun d m => ddel d (VClass m)) ms (ddel s (VClass m))) with (dels ms (ddel s (VClass m))).
  rewrite IH by (apply dnodup_ddel; assumption). cbn [existsb]. rewrite dget_ddel by assumption.
  destruct (keyeq a (VClass m)); cbn [orb]; [|reflexivity]. destruct (existsb _ ms); reflexivity.
Qed.

(** Reading the value back. *)
Lemma from_id_wire_class : forall f v, known_class f v -> from_id f false (wire cls_fullname h v) = Ok v.
Proof.
  intros f v (w & n & -> & HI). cbn [wire].
  assert (HD : from_id f false (VInt (c_id w)) = Ok (VClass w)) by (eapply from_id_spells; [eassumption|reflexivity]).
  destruct h as [| |[|]]; try assumption. destruct (fam_eq_dec (c_fam w) FAlg) as [E|E]; [|assumption].
  rewrite (cls_fullname_registered _ _ _ HI). eapply from_id_spells; [eassumption|]. cbn [spells].
  apply (names_upper _ _ _ HI).
Qed.

Lemma from_id_wire_list : forall f l, Forall (known_class f) l ->
  from_id f false (VList (map (wire cls_fullname h) l)) = Ok (VList l).
Proof.
  intros f l H. cbn [from_id]. replace (mapM (from_id f false) (map (wire cls_fullname h) l)) with (@Ok (list pyval) l); [reflexivity|].
  symmetry. induction H as [|v l HV H IH]; [reflexivity|]. cbn [map mapM]. rewrite (from_id_wire_class f v HV), IH. reflexivity.
Qed.

Lemma wire_plain : forall v b, data_value b v = true -> wire cls_fullname h v = v.
Proof.
  induction v as [|b|z|x|s| | |b|u|l HF|l HF|d HF|t v IH|t v IH|cc|kc s e HS HE] using pyval_ind'; intros k H; try discriminate H; try reflexivity.
  - cbn [data_value wire] in *. apply andb_true_iff in H as [_ H]. f_equal.
    induction HF as [|x l HX HF IHl]; [reflexivity|]. cbn [forallb map] in *. apply andb_true_iff in H as [H1 H2].
    rewrite (HX _ H1), (IHl H2). reflexivity.
  - cbn [data_value wire] in *. apply andb_true_iff in H as [_ H]. f_equal.
    induction HF as [|x l HX HF IHl]; [reflexivity|]. cbn [forallb map] in *. apply andb_true_iff in H as [H1 H2].
    rewrite (HX _ H1), (IHl H2). reflexivity.
  - rewrite wire_dict. cbn [data_value] in H. apply andb_true_iff in H as [_ H]. f_equal.
    induction HF as [|[a x] l [HA HX] HF IHl]; [reflexivity|]. cbn [forallb map fst snd wire_pair] in *. apply andb_true_iff in H as [H1 H2].
    apply andb_true_iff in H1 as [H0 H1]. unfold wire_pair at 1. cbn [fst snd]. rewrite (HA _ H0), (HX _ H1), (IHl H2). reflexivity.
  - cbn [data_value wire] in *. apply andb_true_iff in H as [_ H]. rewrite (IH _ H). reflexivity.
Qed.

Lemma parse_kp_wire : forall a v, param_ok c a v -> parse_kp a (wire cls_fullname h v) = Ok v.
Proof.
  intros a v H. destruct H.
  - cbn [parse_kp]. apply from_id_wire_class. destruct c; eexists; eexists; (split; [reflexivity|]); cbn; auto 10.
  - apply from_id_wire_class. assumption.
  - cbn [wire]. apply from_id_wire_list. assumption.
  - unfold plain in H. rewrite (wire_plain _ _ H). reflexivity.
  - unfold plain in H. rewrite (wire_plain _ _ H). reflexivity.
  - assert (HW : from_id FCrv false (wire cls_fullname h (VClass cv)) = Ok (VClass cv)).
    { apply from_id_wire_class. exists cv, n. auto. }
    destruct c; cbn in H; try contradiction; destruct H as [<-|[]]; exact HW.
  - cbn [wire]. destruct c; cbn in H; repeat (destruct H as [<-|H]; [reflexivity|]); destruct H.
  - unfold plain in H0. rewrite (wire_plain _ _ H0). reflexivity.
  - unfold plain in H0. rewrite (wire_plain _ _ H0). reflexivity.
Qed.

Lemma transform_W : forall t acc, store_ok t -> transform_params c true (W h t) acc = Ok (dupdate acc t).
Proof.
  intros t acc H. revert acc. induction H as [|[a v] t HP H IH]; intros acc; [reflexivity|].
  cbn [map transform_params wire_pair fst snd] in *. destruct (wire_label h c a (param_ok_label _ _ _ HP)) as (HA & _).
  rewrite HA. cbn [bind]. rewrite (parse_kp_wire a v HP). cbn [bind].
  replace (hashable a) with true by (destruct HP; reflexivity). rewrite IH, dupdate_cons. reflexivity.
Qed.

Lemma dget_rev : forall t a, dnodup t = true -> dget (rev t) a = dget t a.
Proof.
  induction t as [|[k v] t IH]; intros a H; [reflexivity|]. cbn [rev]. rewrite dget_app. cbn [dget dnodup] in *.
  apply andb_true_iff in H as [HN H]. apply negb_true_iff in HN. rewrite (IH a H).
  destruct (keyeq a k) eqn:E.
  - apply dmem_false in HN. rewrite (dget_cong t a k E), HN. reflexivity.
  - destruct (dget t a); reflexivity.
Qed.

Definition base (t : dict) : dict := dupdate [(VClass KpKty, kty_of c)] t.

Lemma param_ok_kty : forall v, param_ok c (VClass KpKty) v -> v = kty_of c.
Proof.
  intros v H. inversion H as [| | | | | p cv n HP HC HK EA EV|p b HP HB EA EV| |]; subst; [apply type_of_kty| |].
  - destruct c; cbn in HP; repeat (destruct HP as [HP|HP]; [discriminate|]); destruct HP.
  - destruct c; cbn in HP; repeat (destruct HP as [HP|HP]; [discriminate|]); destruct HP.
Qed.
Lemma param_ok_ops : forall v, param_ok c (VClass KpKeyOps) v -> exists l, v = VList l /\ l <> [].
Proof.
  intros v H. inversion H as [| | | | | p cv n HP HC HK EA EV|p b HP HB EA EV| |]; subst; [eauto| |].
  - destruct c; cbn in HP; repeat (destruct HP as [HP|HP]; [discriminate|]); destruct HP.
  - destruct c; cbn in HP; repeat (destruct HP as [HP|HP]; [discriminate|]); destruct HP.
Qed.

Lemma store_param : forall t p v, store_ok t -> dget t (VClass p) = Some v -> param_ok c (VClass p) v.
Proof.
  intros t p v H HG. apply dget_In in HG as (a & HI & E). apply keyeq_class in E. subst a.
  unfold store_ok in H. rewrite Forall_forall in H. apply (H _ HI).
Qed.

Lemma dget_base : forall t a, dnodup t = true ->
  dget (base t) a = match dget t a with Some v => Some v | None => if keyeq a (VClass KpKty) then Some (kty_of c) else None end.
Proof. intros t a H. unfold base. rewrite dget_dupdate, dget_rev by assumption. destruct (dget t a); reflexivity. Qed.

Lemma common_init_W : forall t, store_ok t -> dnodup t = true ->
  common_init c (VDict (W h t)) true = Ok (Key c (base t) []).
Proof.
  intros t H HN. unfold common_init. cbn [opt_items bind]. rewrite (transform_W t _ H). cbn [bind].
  change (dupdate [(VClass KpKty, kty_of c)] t) with (base t).
  assert (HK : dget (base t) (VClass KpKty) = Some (kty_of c)).
  { rewrite dget_base by assumption. destruct (dget t (VClass KpKty)) as [v|] eqn:E.
    - apply (store_param t _ _ H) in E. apply param_ok_kty in E. congruence.
    - rewrite keyeq_refl. reflexivity. }
  unfold dget_or. rewrite HK, veqb_refl. unfold base_init.
  rewrite dget_base by assumption. destruct (dget t (VClass KpKeyOps)) as [v|] eqn:E.
  - apply (store_param t _ _ H) in E. apply param_ok_ops in E as (l & -> & HL). destruct l; [contradiction|]. reflexivity.
  - reflexivity.
Qed.

(** [s0] has the parameters of [s] except [ms]. *)
Definition agree (s : dict) (ms : list cls) (s0 : dict) : Prop :=
  forall a, dget s0 a = if existsb (fun m => keyeq a (VClass m)) ms then None else dget s a.

Lemma agree_base : forall s ms, store_ok s -> dnodup s = true -> dget s (VClass KpKty) <> None -> ~ In KpKty ms ->
  agree s ms (base (dels ms s)).
Proof.
  intros s ms H HN HK HM a. rewrite dget_base by (apply dnodup_dels; assumption). rewrite dget_dels by assumption.
  destruct (existsb (fun m => keyeq a (VClass m)) ms) eqn:E.
  - destruct (keyeq a (VClass KpKty)) eqn:E'; [|reflexivity]. elim HM.
    rewrite keyeq_sym in E'. apply keyeq_class in E'. subst a.
    apply existsb_exists in E as (m & HI & E). apply keyeq_class in E. injection E as ->. assumption.
  - destruct (dget s a) eqn:G; [reflexivity|]. destruct (keyeq a (VClass KpKty)) eqn:E'; [|reflexivity].
    rewrite (dget_cong s a _ E') in G. contradiction.
Qed.

Lemma agree_incl : forall s ms ms' s0, agree s ms s0 -> incl ms ms' -> incl ms' ms -> agree s ms' s0.
Proof.
  intros s ms ms' s0 H H1 H2 a. rewrite H.
  replace (existsb (fun m => keyeq a (VClass m)) ms') with (existsb (fun m => keyeq a (VClass m)) ms); [reflexivity|].
  destruct (existsb (fun m => keyeq a (VClass m)) ms) eqn:E; destruct (existsb (fun m => keyeq a (VClass m)) ms') eqn:E'; try reflexivity.
  - apply existsb_exists in E as (m & HI & E). assert (HX : existsb (fun m => keyeq a (VClass m)) ms' = true).
    { apply existsb_exists. exists m. split; [apply H1; assumption|assumption]. } congruence.
  - apply existsb_exists in E' as (m & HI & E'). assert (HX : existsb (fun m => keyeq a (VClass m)) ms = true).
    { apply existsb_exists. exists m. split; [apply H2; assumption|assumption]. } congruence.
Qed.

Lemma incl_check : forall a b, forallb (fun m => existsb (fun m' => veqb (VClass m) (VClass m')) b) a = true -> @incl cls a b.
Proof.
  intros a b H m HM. rewrite forallb_forall in H. apply H in HM. apply existsb_exists in HM as (m' & HI & E).
  apply veqb_eq in E. injection E as ->. assumption.
Qed.

Lemma agree_nil : forall s s0, agree s [] s0 -> forall a, dget s0 a = dget s a.
Proof. intros s s0 H. exact H. Qed.

Definition val (s : dict) (m : cls) : pyval := match dget s (VClass m) with Some v => v | None => VBytes [] end.

Lemma not_in_existsb : forall a m ms, keyeq a (VClass m) = true -> ~ In m ms -> existsb (fun m => keyeq a (VClass m)) ms = false.
Proof.
  intros a m ms H HN. destruct (existsb (fun m => keyeq a (VClass m)) ms) eqn:E; [|reflexivity].
  apply existsb_exists in E as (m' & HI & E). rewrite keyeq_sym in H. apply keyeq_class in H. subst a.
  apply keyeq_class in E. injection E as ->. contradiction.
Qed.

Lemma agree_drop : forall s m ms s0, agree s (m :: ms) s0 -> dget s (VClass m) = None -> agree s ms s0.
Proof.
  intros s m ms s0 H HN a. rewrite H. cbn [existsb]. destruct (keyeq a (VClass m)) eqn:E; [|reflexivity]. cbn [orb].
  rewrite (dget_cong s a _ E), HN. destruct (existsb _ ms); reflexivity.
Qed.

Lemma agree_dset : forall s m ms s0 v, agree s (m :: ms) s0 -> ~ In m ms -> dget s (VClass m) = Some v ->
  agree s ms (dset s0 (VClass m) v).
Proof.
  intros s m ms s0 v H HN HV a. rewrite dget_dset. destruct (keyeq a (VClass m)) eqn:E.
  - rewrite (not_in_existsb a m ms E HN), (dget_cong s a _ E), HV. reflexivity.
  - rewrite H. cbn [existsb]. rewrite E. reflexivity.
Qed.

Lemma agree_put : forall s m ms s0, agree s (m :: ms) s0 -> ~ In m ms -> dget s (VClass m) <> Some (VBytes []) ->
  agree s ms (put m (val s m) s0).
Proof.
  intros s m ms s0 H HN HV. unfold put, val. destruct (dget s (VClass m)) as [v|] eqn:E.
  - destruct (veqb v (VBytes [])) eqn:E'; [apply veqb_eq in E'; subst v; congruence|]. eapply agree_dset; eassumption.
  - cbn [veqb]. eapply agree_drop; eassumption.
Qed.

Lemma bytes_value : forall s m, store_ok s -> In m (byte_params c) -> exists b, val s m = VBytes b /\
  (has (Key c s []) m -> b <> []) /\ (~ has (Key c s []) m -> b = []) /\ dget s (VClass m) <> Some (VBytes []) /\
  (match dget s (VClass m) with Some v => wire cls_fullname h v | None => VBytes [] end) = VBytes b.
Proof.
  intros s m H HM. unfold val, has, param. cbn [k_store]. destruct (dget s (VClass m)) as [v|] eqn:E.
  - apply (store_param s _ _ H) in E.
    assert (HB : exists b, v = VBytes b /\ b <> []).
    { inversion E as [EA EV|? ? EA EV|? ? ? EA EV|? ? EA EV|? ? EA EV| p cv n HP HC HK EA EV|p b HP HB EA EV| |]; subst;
        try (destruct c; cbn in HM; repeat (destruct HM as [HM|HM]; [discriminate|]); contradiction).
      - destruct c; cbn in HP; try contradiction; destruct HP as [<-|[]]; cbn in HM;
          repeat (destruct HM as [HM|HM]; [discriminate|]); destruct HM.
      - eauto. }
    destruct HB as (b & -> & HB). exists b. split; [reflexivity|]. split; [auto|].
    split; [intros Q; elim Q; discriminate|]. split; [congruence|reflexivity].
  - exists []. split; [reflexivity|]. split; [intros Q; elim Q; reflexivity|]. split; [reflexivity|]. split; [discriminate|reflexivity].
Qed.
End Store.

Lemma own_names :
  In (SymKpK, bs "K") (registered FSym) /\
  (In (OKPKpX, bs "X") (registered FOKP) /\ In (OKPKpD, bs "D") (registered FOKP) /\ In (OKPKpCurve, bs "CURVE") (registered FOKP)) /\
  (In (EC2KpX, bs "X") (registered FEC2) /\ In (EC2KpY, bs "Y") (registered FEC2) /\ In (EC2KpD, bs "D") (registered FEC2) /\
   In (EC2KpCurve, bs "CURVE") (registered FEC2)).
Proof. cbn. auto 20. Qed.

Lemma wire_kty : forall h c, dispatch_kty = dispatch_kty -> exists z, wire cls_fullname h (kty_of c) = VInt z /\
  key_type_lookup key_types (VInt z) = Some c.
Proof.
  intros h c _. destruct c; (eexists; split; [apply wire_class; discriminate|vm_compute; reflexivity]).
Qed.

Lemma in_names : forall c m, In m (map fst (registered (param_fam c))) -> exists n, In (m, n) (registered (param_fam c)).
Proof. intros c m H. apply in_map_iff in H as ([m' n] & <- & HI). eauto. Qed.

Lemma to_be_of_be_size : forall b n, length b = n -> to_bytes_checked n (of_be b) = Ok b.
Proof.
  intros b n <-. unfold to_bytes_checked. pose proof (of_be_bound b) as H.
  destruct (N.ltb_spec (of_be b) (256 ^ N.of_nat (length b))); [|lia]. f_equal. apply to_be_of_be.
Qed.

Section Trip.
Variables (X : crypto) (h : hook).

Lemma curve_value : forall c p s v, store_ok c s -> In p (curve_param c) -> dget s (VClass p) = Some v ->
  exists cv n, v = VClass cv /\ In (cv, n) (registered FCrv) /\ curve_key_type (c_id cv) = kty_of c.
Proof.
  intros c p s v H HP HG. apply (store_param c s _ _ H) in HG.
  inversion HG as [EA EV|? ? EA EV|? ? ? EA EV|? ? EA EV|? ? EA EV| q cv n HQ HC HK EA EV|q b HQ HB EA EV| |]; subst;
    try (destruct c; cbn in HP; repeat (destruct HP as [HP|HP]; [discriminate|]); contradiction).
  - exists cv, n. split; [reflexivity|]. split; [assumption|]. apply curve_ids_kty. assumption.
  - destruct c; cbn in HP; try contradiction; destruct HP as [<-|[]]; cbn in HQ;
      repeat (destruct HQ as [HQ|HQ]; [discriminate|]); contradiction.
Qed.

Lemma set_crv_trip : forall c p s cv n k, In (cv, n) (registered FCrv) -> curve_key_type (c_id cv) = kty_of c -> s = kty_of c ->
  set_crv p s (wire cls_fullname h (VClass cv)) k = Ok (store_set k p (VClass cv)).
Proof.
  intros c p s cv n k HC HK ->. unfold set_crv. rewrite (from_id_wire_class h FCrv (VClass cv)) by (exists cv, n; auto).
  cbn [bind]. rewrite HK, veqb_refl. reflexivity.
Qed.

Lemma sym_trip : forall s, portable X (Key KSym s []) ->
  exists s', sym_from_dict (VDict (W h s)) = Ok (Key KSym s' []) /\ (forall a, dget s' a = dget s a) /\ dnodup s' = true.
Proof.
  intros s (_ & HD & HK & HS & HC). cbn [k_store k_cls k_extra components] in *. rewrite distinct_keys_dnodup in HD.
  destruct HC as (b & HB & HL). unfold bytes_param, param in HB. cbn [k_store] in HB.
  pose proof (store_labels _ _ HS) as HLb. destruct own_names as (HN & _).
  unfold sym_from_dict. rewrite (extract_W KSym h s SymKpK (bs "K") _ HLb HN). rewrite HB. cbn [bind items_of wire].
  rewrite (remove_all_W KSym h [SymKpK] s HLb) by (constructor; [eauto|constructor]).
  unfold sym_init. rewrite (common_init_W KSym h) by (try apply Forall_dels; try apply dnodup_dels; assumption). cbn [bind].
  assert (HV : veqb (VBytes b) (VBytes []) = false).
  { destruct b; [|reflexivity]. cbn in HL. repeat (destruct HL as [HL|HL]; [discriminate|]). destruct HL. }
  rewrite HV. cbn [set_k].
  assert (HE : existsb (Nat.eqb (length b)) [16; 24; 32] = true).
  { apply existsb_exists. exists (length b). split; [assumption|apply Nat.eqb_refl]. }
  rewrite HE. eexists. split; [reflexivity|]. cbn [k_store]. split.
  - apply (agree_dset s SymKpK [] _ (VBytes b)); [|intros []|assumption].
    apply agree_base; try assumption. intros [Q|[]]; discriminate.
  - apply dnodup_dset, dnodup_dupdate. reflexivity.
Qed.

Lemma okp_trip : forall s, portable X (Key KOKP s []) ->
  exists s', okp_from_dict (VDict (W h s)) = Ok (Key KOKP s' []) /\ (forall a, dget s' a = dget s a) /\ dnodup s' = true.
Proof.
  intros s (_ & HD & HK & HS & HC). cbn [k_store k_cls k_extra components] in *. rewrite distinct_keys_dnodup in HD.
  destruct HC as (HCv & HXD).
  pose proof (store_labels _ _ HS) as HLb. destruct own_names as (_ & (N1 & N2 & N3) & _).
  destruct (bytes_value KOKP h s OKPKpX HS) as (bx & VX & X1 & X2 & X3 & X4); [cbn; auto|].
  destruct (bytes_value KOKP h s OKPKpD HS) as (bd & VD & D1 & D2 & D3 & D4); [cbn; auto|].
  unfold has, param in HCv. cbn [k_store] in HCv. destruct (dget s (VClass OKPKpCurve)) as [v|] eqn:HG; [|elim HCv; reflexivity].
  destruct (curve_value KOKP OKPKpCurve s v HS) as (cv & n & -> & HI & HT); [cbn; auto|assumption|].
  unfold okp_from_dict.
  rewrite (extract_W KOKP h s OKPKpX _ _ HLb N1), X4. cbn [bind].
  rewrite (extract_W KOKP h s OKPKpD _ _ HLb N2), D4. cbn [bind].
  rewrite (extract_W KOKP h s OKPKpCurve _ _ HLb N3), HG. cbn [bind items_of].
  rewrite (remove_all_W KOKP h _ s HLb) by (repeat (apply Forall_cons; [eauto|]); apply Forall_nil).
  unfold okp_init. rewrite (common_init_W KOKP h) by (try apply Forall_dels; try apply dnodup_dels; assumption). cbn [bind py_len].
  assert (HNE : (if Nat.eqb (length bx) 0 then Ok (Nat.eqb (length bd) 0) else Ok false) = Ok false).
  { destruct HXD as [HX|HX].
    - apply X1 in HX. destruct bx; [contradiction|reflexivity].
    - apply D1 in HX. destruct bx; [|reflexivity]. destruct bd; [contradiction|reflexivity]. }
  rewrite HNE. cbn [bind].
  replace (is_none (wire cls_fullname h (VClass cv))) with false
    by (cbn [wire]; destruct h as [| |[|]]; try reflexivity; destruct (fam_eq_dec _ _); reflexivity).
  rewrite (set_crv_trip KOKP OKPKpCurve KtyOKP cv n _ HI HT eq_refl). cbn [bind].
  rewrite set_unless_put_ok. cbn [bind k_cls k_store k_extra]. rewrite set_unless_put_ok. cbn [k_cls k_store k_extra store_set with_store].
  eexists. split; [reflexivity|]. split.
  - rewrite <- VX, <- VD. apply agree_nil. apply agree_put; [|intros []|assumption]. apply agree_put; [|intros [Q|[]]; discriminate|assumption].
    apply (agree_dset s OKPKpCurve [OKPKpX; OKPKpD]); [|intros [Q|[Q|[]]]; discriminate|assumption].
    eapply (agree_incl s [OKPKpX; OKPKpD; OKPKpCurve]).
    + apply agree_base; try assumption. intros [Q|[Q|[Q|[]]]]; discriminate.
    + apply incl_check; reflexivity.
    + apply incl_check; reflexivity.
  - unfold put. repeat match goal with |- context [if ?b then _ else _] => destruct b end; repeat apply dnodup_dset; apply dnodup_dupdate; reflexivity.
Qed.

Lemma ec2_trip : forall s, portable X (Key KEC2 s []) ->
  exists s', ec2_from_dict X (VDict (W h s)) = Ok (Key KEC2 s' []) /\ (forall a, dget s' a = dget s a) /\ dnodup s' = true.
Proof.
  intros s (_ & HD & HK & HS & HC). cbn [k_store k_cls k_extra components] in *. rewrite distinct_keys_dnodup in HD.
  destruct HC as (cv & x & y & HG & HX & HY & HDc). unfold bytes_param, param in HG, HX, HY. cbn [k_store] in HG, HX, HY.
  pose proof (store_labels _ _ HS) as HLb. destruct own_names as (_ & _ & (N1 & N2 & N3 & N4)).
  destruct (bytes_value KEC2 h s EC2KpX HS) as (bx & VX & X1 & X2 & X3 & X4); [cbn; auto|].
  destruct (bytes_value KEC2 h s EC2KpY HS) as (by_ & VY & Y1 & Y2 & Y3 & Y4); [cbn; auto|].
  destruct (bytes_value KEC2 h s EC2KpD HS) as (bd & VD & D1 & D2 & D3 & D4); [cbn; auto|].
  destruct (curve_value KEC2 EC2KpCurve s _ HS (or_introl eq_refl) HG) as (cv' & n & E & HI & HT). injection E as <-.
  assert (E : bx = x) by (unfold val in VX; rewrite HX in VX; congruence). subst bx.
  assert (E : by_ = y) by (unfold val in VY; rewrite HY in VY; congruence). subst by_.
  assert (NX : x <> []) by (apply X1; unfold has, param; cbn [k_store]; congruence).
  assert (NY : y <> []) by (apply Y1; unfold has, param; cbn [k_store]; congruence).
  unfold ec2_from_dict.
  rewrite (extract_W KEC2 h s EC2KpX _ _ HLb N1), X4. cbn [bind].
  rewrite (extract_W KEC2 h s EC2KpY _ _ HLb N2), Y4. cbn [bind].
  rewrite (extract_W KEC2 h s EC2KpD _ _ HLb N3), D4. cbn [bind].
  rewrite (extract_W KEC2 h s EC2KpCurve _ _ HLb N4), HG. cbn [bind items_of].
  rewrite (remove_all_W KEC2 h _ s HLb) by (repeat (apply Forall_cons; [eauto|]); apply Forall_nil).
  unfold ec2_init. rewrite (common_init_W KEC2 h) by (try apply Forall_dels; try apply dnodup_dels; assumption). cbn [bind].
  replace (is_none (wire cls_fullname h (VClass cv))) with false
    by (cbn [wire]; destruct h as [| |[|]]; try reflexivity; destruct (fam_eq_dec _ _); reflexivity).
  rewrite (set_crv_trip KEC2 EC2KpCurve KtyEC2 cv n _ HI HT eq_refl). cbn [bind].
  destruct x as [|x0 x]; [contradiction|]. destruct y as [|y0 y]; [contradiction|].
  change (truthy (VBytes (x0 :: x))) with true. change (truthy (VBytes (y0 :: y))) with true.
  cbn [andb negb].
  set (k1 := store_set _ EC2KpCurve (VClass cv)).
  assert (HK1 : crv_id k1 = c_id cv).
  { unfold crv_id, k1, store_set. cbn [with_store k_store]. rewrite dget_dset_same by apply keyeq_refl. reflexivity. }
  rewrite HK1.
  assert (HP : (if truthy (VBytes bd) then ec2_from_private X (c_id cv) (VBytes bd) (VBytes (x0 :: x)) (VBytes (y0 :: y))
                else Ok (VBytes (x0 :: x), VBytes (y0 :: y))) = Ok (VBytes (x0 :: x), VBytes (y0 :: y))).
  { destruct bd as [|d0 bd]; [reflexivity|].
    assert (HB : bytes_param (Key KEC2 s []) EC2KpD (d0 :: bd)).
    { unfold bytes_param, param. cbn [k_store]. unfold val in VD. destruct (dget s (VClass EC2KpD)); [congruence|discriminate]. }
    destruct (HDc _ HB) as ((size & HSz & L1 & L2) & HPub). destruct (curve_size_spec _ _ HSz) as [<- _]. change (truthy (VBytes (d0 :: bd))) with true. cbn iota. unfold ec2_from_private. cbn [as_bytes bind]. rewrite HPub. cbn [bind].
    rewrite (to_be_of_be_size (x0 :: x) _ L1). cbn [bind truthy]. rewrite veqb_refl. cbn [bind].
    rewrite (to_be_of_be_size (y0 :: y) _ L2). cbn [bind truthy]. rewrite veqb_refl. reflexivity. }
  rewrite HP. rewrite andb_false_r. cbn [bind].
  change (truthy (VBytes (x0 :: x)) && negb (truthy (VBytes (y0 :: y)))) with false. cbn [bind].
  rewrite set_unless_put_ok. cbn [bind k_cls k_store k_extra]. rewrite set_unless_put_ok. cbn [bind k_cls k_store k_extra].
  rewrite set_unless_put_ok. unfold k1. cbn [k_cls k_store k_extra store_set with_store].
  eexists. split; [reflexivity|]. split.
  - rewrite <- VX, <- VD, <- VY. apply agree_nil. apply agree_put; [|intros []|assumption]. apply agree_put; [|intros [Q|[]]; discriminate|assumption].
    apply agree_put; [|intros [Q|[Q|[]]]; discriminate|assumption].
    apply (agree_dset s EC2KpCurve [EC2KpX; EC2KpY; EC2KpD]); [|intros [Q|[Q|[Q|[]]]]; discriminate|assumption].
    eapply (agree_incl s [EC2KpX; EC2KpY; EC2KpD; EC2KpCurve]).
    + apply agree_base; try assumption. intros [Q|[Q|[Q|[Q|[]]]]]; discriminate.
    + apply incl_check; reflexivity.
    + apply incl_check; reflexivity.
  - unfold put. repeat match goal with |- context [if ?b then _ else _] => destruct b end; repeat apply dnodup_dset; apply dnodup_dupdate; reflexivity.
Qed.

Lemma rsa_names : Forall (fun p => exists n, In (p, n) (registered FRSA))
  [RSAKpE; RSAKpN; RSAKpD; RSAKpP; RSAKpQ; RSAKpDP; RSAKpDQ; RSAKpQInv; RSAKpOther; RSAKpQInv; RSAKpRi; RSAKpDi; RSAKpTi].
Proof.
  apply Forall_forall. intros p HP. apply in_names with (c := KRSA). revert p HP.
  apply incl_Forall_in_iff.
  repeat (apply Forall_cons; [cbn; auto 30|]); apply Forall_nil.
Qed.

Lemma rsa_absent : forall s p, store_ok KRSA s -> In p [RSAKpOther; RSAKpRi; RSAKpDi; RSAKpTi] -> dget s (VClass p) = None.
Proof.
  intros s p H HP. destruct (dget s (VClass p)) as [v|] eqn:E; [|reflexivity]. apply (store_param KRSA s _ _ H) in E. exfalso.
  inversion E as [EA EV|? ? EA EV|? ? ? EA EV|? ? EA EV|? ? EA EV| q cv n HQ HC HK EA EV|q b HQ HB EA EV| |]; subst;
    try (cbn in HP; repeat (destruct HP as [HP|HP]; [discriminate|]); contradiction).
  - cbn in HP. repeat (destruct HP as [<-|HP]; [cbn in HQ; repeat (destruct HQ as [HQ|HQ]; [discriminate|]); contradiction|]). contradiction.
Qed.

Lemma all_len_bytes : forall e l, Forall (fun b => Nat.eqb (length b) 0 = e) l -> all_len e (map VBytes l) = Ok true.
Proof.
  intros e l H. induction H as [|b l HB H IH]; [reflexivity|]. cbn [map all_len py_len bind]. rewrite HB, eqb_reflx. assumption.
Qed.

Lemma rsa_trip : forall s, portable X (Key KRSA s []) ->
  exists s', rsa_from_dict (VDict (W h s)) = Ok (Key KRSA s' []) /\ (forall a, dget s' a = dget s a) /\ dnodup s' = true.
Proof.
  intros s (_ & HD & HK & HS & HC). cbn [k_store k_cls k_extra components] in *. rewrite distinct_keys_dnodup in HD.
  destruct HC as (HHn & HHe & HP). pose proof (store_labels _ _ HS) as HLb.
  destruct (bytes_value KRSA h s RSAKpN HS) as (bn & V1 & A1 & B1 & C1 & D1); [cbn; auto 10|].
  destruct (bytes_value KRSA h s RSAKpE HS) as (be & V2 & A2 & B2 & C2 & D2); [cbn; auto 10|].
  destruct (bytes_value KRSA h s RSAKpD HS) as (bd & V3 & A3 & B3 & C3 & D3); [cbn; auto 10|].
  destruct (bytes_value KRSA h s RSAKpP HS) as (bp & V4 & A4 & B4 & C4 & D4); [cbn; auto 10|].
  destruct (bytes_value KRSA h s RSAKpQ HS) as (bq & V5 & A5 & B5 & C5 & D5); [cbn; auto 10|].
  destruct (bytes_value KRSA h s RSAKpDP HS) as (bdp & V6 & A6 & B6 & C6 & D6); [cbn; auto 10|].
  destruct (bytes_value KRSA h s RSAKpDQ HS) as (bdq & V7 & A7 & B7 & C7 & D7); [cbn; auto 10|].
  destruct (bytes_value KRSA h s RSAKpQInv HS) as (bqi & V8 & A8 & B8 & C8 & D8); [cbn; auto 10|].
  pose proof rsa_names as HN. rewrite Forall_forall in HN.
  assert (HEx : forall m dflt, In m [RSAKpE; RSAKpN; RSAKpD; RSAKpP; RSAKpQ; RSAKpDP; RSAKpDQ; RSAKpQInv; RSAKpOther; RSAKpQInv; RSAKpRi; RSAKpDi; RSAKpTi] ->
    extract (VDict (W h s)) m dflt = Ok (match dget s (VClass m) with Some v => wire cls_fullname h v | None => dflt end)).
  { intros m dflt HM. destruct (HN m HM) as [nm Hnm]. apply (extract_W KRSA h s m nm dflt HLb Hnm). }
  unfold rsa_from_dict.
  rewrite (HEx RSAKpE) by (cbn; auto 20). rewrite D2. cbn [bind].
  rewrite (HEx RSAKpN) by (cbn; auto 20). rewrite D1. cbn [bind].
  rewrite (HEx RSAKpD) by (cbn; auto 20). rewrite D3. cbn [bind].
  rewrite (HEx RSAKpP) by (cbn; auto 20). rewrite D4. cbn [bind].
  rewrite (HEx RSAKpQ) by (cbn; auto 20). rewrite D5. cbn [bind].
  rewrite (HEx RSAKpDP) by (cbn; auto 20). rewrite D6. cbn [bind].
  rewrite (HEx RSAKpDQ) by (cbn; auto 20). rewrite D7. cbn [bind].
  rewrite (HEx RSAKpQInv) by (cbn; auto 20). rewrite D8. cbn [bind].
  rewrite (HEx RSAKpOther) by (cbn; auto 20). rewrite (rsa_absent s RSAKpOther HS) by (cbn; auto). cbn [bind].
  rewrite (HEx RSAKpRi) by (cbn; auto 20). rewrite (rsa_absent s RSAKpRi HS) by (cbn; auto). cbn [bind].
  rewrite (HEx RSAKpDi) by (cbn; auto 20). rewrite (rsa_absent s RSAKpDi HS) by (cbn; auto). cbn [bind].
  rewrite (HEx RSAKpTi) by (cbn; auto 20). rewrite (rsa_absent s RSAKpTi HS) by (cbn; auto). cbn [bind items_of].
  rewrite (remove_all_W KRSA h _ s HLb rsa_names).
  unfold rsa_init. cbn [ra_n ra_e ra_d ra_p ra_q ra_dp ra_dq ra_qinv ra_other ra_ri ra_di ra_ti is_none].
  assert (Hne : forall b : bytes, b <> [] -> Nat.eqb (length b) 0 = false) by (intros [|b0 b] Hb; [elim Hb; reflexivity|reflexivity]).
  assert (Hem : forall b : bytes, b = [] -> Nat.eqb (length b) 0 = true) by (intros b ->; reflexivity).
  assert (HV : rsa_valid (RsaArgs (VBytes bn) (VBytes be) (VBytes bd) (VBytes bp) (VBytes bq) (VBytes bdp) (VBytes bdq) (VBytes bqi)
    (VList []) (VBytes []) (VBytes []) (VBytes [])) = Ok true).
  { unfold rsa_valid. cbn [ra_n ra_e ra_d ra_p ra_q ra_dp ra_dq ra_qinv ra_other ra_ri ra_di ra_ti].
    assert (E1 : all_len false [VBytes bn; VBytes be] = Ok true).
    { apply (all_len_bytes false [bn; be]). repeat constructor; auto. }
    rewrite E1. cbn [bind].
    destruct HP as [HP|HP].
    - apply Forall_cons_iff in HP as [P1 HP]. apply Forall_cons_iff in HP as [P2 HP]. apply Forall_cons_iff in HP as [P3 HP].
      apply Forall_cons_iff in HP as [P4 HP]. apply Forall_cons_iff in HP as [P5 HP]. apply Forall_cons_iff in HP as [P6 _].
      assert (E2 : all_len true [VBytes bd; VBytes bp; VBytes bq; VBytes bdp; VBytes bdq; VBytes bqi; VList []; VBytes []; VBytes []; VBytes []] = Ok false).
      { cbn [all_len py_len bind]. rewrite (Hne bd) by auto. reflexivity. }
      rewrite E2. cbn [bind].
      change (all_len true [VList []; VBytes []; VBytes []; VBytes []]) with (@Ok bool true). cbn [bind].
      assert (E3 : all_len false [VBytes bn; VBytes be; VBytes bd; VBytes bp; VBytes bq; VBytes bdp; VBytes bdq; VBytes bqi] = Ok true).
      { apply (all_len_bytes false [bn; be; bd; bp; bq; bdp; bdq; bqi]). repeat constructor; auto. }
      rewrite E3. reflexivity.
    - apply Forall_cons_iff in HP as [P1 HP]. apply Forall_cons_iff in HP as [P2 HP]. apply Forall_cons_iff in HP as [P3 HP].
      apply Forall_cons_iff in HP as [P4 HP]. apply Forall_cons_iff in HP as [P5 HP]. apply Forall_cons_iff in HP as [P6 _].
      rewrite (B3 P1), (B4 P2), (B5 P3), (B6 P4), (B7 P5), (B8 P6). reflexivity. }
  rewrite HV. cbn [bind negb].
  rewrite (common_init_W KRSA h) by (try apply Forall_dels; try apply dnodup_dels; assumption). cbn [bind set_bytes_param].
  cbn [truthy]. change (extra_unless_empty "r_i" (VBytes []) ) with (fun k : key => k).
  repeat (rewrite set_unless_put_ok; cbn [bind k_cls k_store k_extra store_set with_store]).
  eexists. split; [reflexivity|]. split.
  - rewrite <- V8, <- V7, <- V6, <- V5, <- V4, <- V3.
    set (t := base KRSA _).
    assert (HA : agree s [RSAKpE; RSAKpN; RSAKpD; RSAKpP; RSAKpQ; RSAKpDP; RSAKpDQ; RSAKpQInv] t).
    { apply (agree_drop s RSAKpTi); [|apply rsa_absent; [assumption|cbn; auto]].
      apply (agree_drop s RSAKpDi); [|apply rsa_absent; [assumption|cbn; auto]].
      apply (agree_drop s RSAKpRi); [|apply rsa_absent; [assumption|cbn; auto]].
      apply (agree_drop s RSAKpOther); [|apply rsa_absent; [assumption|cbn; auto]].
      eapply agree_incl.
      - apply agree_base; try assumption. cbn. intros Q. repeat (destruct Q as [Q|Q]; [discriminate|]). destruct Q.
      - apply incl_check; reflexivity.
      - apply incl_check; reflexivity. }
    assert (HNE : forall m b, val s m = VBytes b -> b <> [] -> dget s (VClass m) = Some (VBytes b)).
    { intros m b. unfold val. destruct (dget s (VClass m)); [congruence|]. intros Q. injection Q as <-. intros []. reflexivity. }
    apply agree_nil.
    repeat (apply agree_put; [|cbn; intros Q; repeat (destruct Q as [Q|Q]; [discriminate|]); destruct Q|assumption]).
    apply agree_dset with (v := VBytes bn); [|cbn; intros Q; repeat (destruct Q as [Q|Q]; [discriminate|]); destruct Q|apply HNE; [assumption|apply A1; assumption]].
    apply agree_dset with (v := VBytes be); [assumption|cbn; intros Q; repeat (destruct Q as [Q|Q]; [discriminate|]); destruct Q|apply HNE; [assumption|apply A2; assumption]].
  - unfold put. repeat match goal with |- context [if ?b then _ else _] => destruct b end; repeat apply dnodup_dset; apply dnodup_dupdate; reflexivity.
Qed.

Theorem from_dict_trip : forall c s, portable X (Key c s []) ->
  exists s', from_dict X (VDict (W h s)) = Ok (Key c s' []) /\ (forall a, dget s' a = dget s a) /\ dnodup s' = true.
Proof.
  intros c s H. pose proof H as (_ & HD & HK & HS & HC). cbn [k_store k_cls k_extra] in *.
  pose proof (store_labels _ _ HS) as HLb.
  unfold has, param in HK. cbn [k_store] in HK. destruct (dget s (VClass KpKty)) as [v|] eqn:HG; [|elim HK; reflexivity].
  pose proof HG as HV. apply (store_param c s _ _ HS) in HV. apply param_ok_kty in HV. subst v.
  destruct (wire_kty h c eq_refl) as (z & HZ & HL).
  unfold from_dict. cbn [map_get bind]. rewrite (dget_W_class c h s KpKty HLb).
  change (VInt 1) with (VInt (c_id KpKty)).
  rewrite (dget_W_id c h s KpKty (bs "KTY") HLb) by (apply registered_kp; apply kp_names). rewrite HG. cbn [option_map]. rewrite HZ.
  unfold dispatch_kty. cbn [hashable negb]. rewrite HL.
  destruct c; [apply sym_trip|apply okp_trip|apply ec2_trip|apply rsa_trip]; assumption.
Qed.

(** The wire form of a portable key is plain data. *)
Lemma wire_known : forall b f v, known_class f v -> data_value b (wire cls_fullname h v) = true.
Proof. intros b f v (w & n & -> & HI). cbn [wire]. destruct h as [| |[|]]; try reflexivity. destruct (fam_eq_dec _ _); reflexivity. Qed.

Lemma wire_param_data : forall c a v, param_ok c a v -> data_value false (wire cls_fullname h v) = true.
Proof.
  intros c a v H. destruct H; try (eapply wire_known; eassumption); try reflexivity.
  - destruct c; cbn [wire kty_of]; destruct h as [| |[|]]; reflexivity.
  - cbn [wire data_value negb andb]. apply forallb_forall. intros x HX. apply in_map_iff in HX as (y & <- & HY).
    rewrite Forall_forall in H0. eapply wire_known. apply H0. assumption.
  - rewrite (wire_plain h _ _ H). assumption.
  - rewrite (wire_plain h _ _ H). assumption.
  - eapply wire_known. exists cv, n. eauto.
  - rewrite (wire_plain h _ _ H0). assumption.
  - rewrite (wire_plain h _ _ H0). assumption.
Qed.

Lemma distinct_W : forall c s, labels_ok c s -> distinct_keys s = true -> distinct_keys (W h s) = true.
Proof.
  intros c s H. induction H as [|[a v] s HA H IH]; [reflexivity|]. cbn [map distinct_keys wire_pair fst snd] in *.
  intros HD. apply andb_true_iff in HD as [HN HD]. rewrite (IH HD), andb_true_r.
  apply negb_true_iff. apply negb_true_iff in HN. rewrite <- HN. clear HN HD IH.
  induction H as [|[b w] s HB H IH]; [reflexivity|]. cbn [map existsb fst snd] in *.
  rewrite IH. f_equal. apply (wire_label_eq h c); assumption.
Qed.

Lemma wire_store_data : forall c s, store_ok c s -> distinct_keys s = true -> data_value false (VDict (W h s)) = true.
Proof.
  intros c s H HD. cbn [data_value]. rewrite (distinct_W c s (store_labels _ _ H) HD). cbn [andb].
  apply forallb_forall. intros e HE. apply in_map_iff in HE as ([a v] & <- & HI). unfold wire_pair. cbn [fst snd].
  unfold store_ok in H. rewrite Forall_forall in H. specialize (H _ HI). cbn [fst snd] in H.
  destruct (wire_label h c a (param_ok_label _ _ _ H)) as (_ & _ & HL). rewrite HL. eapply wire_param_data. eassumption.
Qed.

Lemma sent_portable : forall c s, store_ok c s -> sent_entries s = s.
Proof.
  intros c s H. induction H as [|[a v] s HP H IH]; [reflexivity|]. cbn [sent_entries fst snd] in *. rewrite IH.
  destruct (keyeq kp_key_ops a) eqn:E; [|reflexivity]. apply keyeq_class in E. subst a.
  apply param_ok_ops in HP as (l & -> & HL). destruct l; [elim HL; reflexivity|]. reflexivity.
Qed.
End Trip.
