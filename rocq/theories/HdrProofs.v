(** Lemmas about header maps, decoding and key checks. *)
From Coq Require Import NArith ZArith Bool String Lia.
From Coq Require Import Init.Byte List.
From Verif Require Import Bytes BytesProofs Value ValueProofs Cbor CborProofs SpecData DataProofs Registry
  Crypto Keys Algorithms Headers Messages Recipients SpecRegistry RegistryProofs SpecHdr.
Import ListNotations.
Local Open Scope result_scope.

Lemma In_dset : forall d k v k' v', In (k', v') (dset d k v) -> k' = k \/ exists v0, In (k', v0) d.
Proof.
  induction d as [|[k0 v0] d IH]; intros k v k' v' H; cbn [dset] in H.
  - destruct H as [H|[]]. injection H as -> ->. left. reflexivity.
  - destruct (keyeq k k0).
    + destruct H as [H|H]; [injection H as -> ->; right; exists v0; left; reflexivity|].
      right. exists v'. right. assumption.
    + destruct H as [H|H]; [injection H as -> ->; right; exists v'; left; reflexivity|].
      apply IH in H as [H|[w H]]; [left; assumption|right; exists w; right; assumption].
Qed.

Lemma keyeq_class_neq : forall c a, a <> VClass c -> keyeq (VClass c) a = false.
Proof.
  intros c a H. destruct (keyeq (VClass c) a) eqn:E; [|reflexivity].
  apply keyeq_class in E. contradiction.
Qed.

Section WithCrypto.
Variable X : crypto.

Lemma parse_items_app : forall allow d1 d2 acc,
  parse_items X allow (d1 ++ d2) acc = (m <- parse_items X allow d1 acc ;; parse_items X allow d2 m).
Proof.
  induction d1 as [|[k v] d1 IH]; intros d2 acc; [reflexivity|]. cbn [app parse_items].
  destruct (from_id FHdr allow k) as [a|e]; [|reflexivity]. cbn [bind].
  destruct (parse_value X a v) as [w|e]; [|reflexivity]. cbn [bind]. apply IH.
Qed.

Lemma parse_items_absent : forall allow c n d acc h, In (c, n) (registered FHdr) ->
  parse_items X allow d acc = Ok h -> no_value (spells c n) d -> dget h (VClass c) = dget acc (VClass c).
Proof.
  intros allow c n. induction d as [|[k v] d IH]; intros acc h HI H HN; cbn [parse_items] in H.
  - injection H as <-. reflexivity.
  - apply bind_ok in H as (a & HA & H). apply bind_ok in H as (w & HW & H).
    rewrite (IH _ _ HI H). 2:{ intros k' v' HIn. apply (HN k' v'). right. assumption. }
    apply dget_dset_other. apply keyeq_class_neq.
    eapply not_spelled_other; [exact HI|exact HA|]. apply (HN k v). left. reflexivity.
Qed.

Lemma parse_items_keys : forall allow c n d acc h, In (c, n) (registered FHdr) ->
  parse_items X allow d acc = Ok h ->
  (forall k w, In (k, w) acc -> spells c n k -> k = VClass c) ->
  forall k w, In (k, w) h -> spells c n k -> k = VClass c.
Proof.
  intros allow c n. induction d as [|[k v] d IH]; intros acc h HI H HK; cbn [parse_items] in H.
  - injection H as <-. exact HK.
  - apply bind_ok in H as (a & HA & H). apply bind_ok in H as (w & HW & H).
    eapply IH; [exact HI|exact H|]. intros k' w' HIn HS. apply In_dset in HIn as [->|[v0 HIn]].
    + destruct (from_id_cases _ _ _ _ HA) as [(c' & n' & HI' & HS' & ->)|[(_ & HU & ->)|(l & l' & -> & -> & _)]].
      * cbn [spells] in HS. destruct (registered_id_unique _ _ _ _ _ HI' HI HS) as [-> ->]. reflexivity.
      * elim (unknown_not_spelled _ _ _ _ HU HI HS).
      * destruct HS.
    + eapply HK; eassumption.
Qed.

Lemma from_id_algorithm_list : forall l,
  Forall (fun v => forall w, from_id FAlg false v = Ok w -> algorithm_value v w) l ->
  forall l', mapM (from_id FAlg false) l = Ok l' -> Forall2 algorithm_value l l'.
Proof.
  induction l as [|x l IH]; intros HF l' H; cbn [mapM] in H.
  - injection H as <-. constructor.
  - inversion HF; subst. apply bind_ok in H as (y & HY & H). apply bind_ok in H as (ys & HYS & H).
    injection H as <-. constructor; auto.
Qed.

Lemma from_id_algorithm : forall v w, from_id FAlg false v = Ok w -> algorithm_value v w.
Proof.
  induction v as [|b|z|f|n| | |b|b|l HF|l HF|d HF|t v IH|t v IH|c|k s e HS HE] using pyval_ind';
    intros w H; destruct (from_id_cases _ _ _ _ H) as [(c' & n' & HI' & HS' & ->)|[(E & _)|(l0 & l' & E & -> & HM)]];
    try discriminate; try (econstructor; eassumption).
  injection E as ->. constructor. apply from_id_algorithm_list; assumption.
Qed.

Lemma registered_fam : forall f c n, In (c, n) (registered f) -> f = FHdr \/ f = FAlg -> c_fam c = f.
Proof.
  intros f c n HI HF. assert (HT : forallb (fun e => match fam_eq_dec (c_fam (fst e)) f with left _ => true | right _ => false end) (registered f) = true).
  { destruct HF; subst f; vm_compute; reflexivity. }
  rewrite forallb_forall in HT. specialize (HT _ HI). cbn [fst] in HT. destruct (fam_eq_dec (c_fam c) f); [assumption|discriminate].
Qed.

Lemma parse_value_hdr : forall c n v w, In (c, n) (registered FHdr) ->
  parse_value X (VClass c) v = Ok w -> header_value X c v w.
Proof.
  intros c n v w HI H. pose proof (registered_fam _ _ _ HI (or_introl eq_refl)) as HF.
  destruct c as [f z]. cbn [c_fam] in HF. subst f. unfold header_value. cbn [c_id].
  destruct (Z.eqb z 1) eqn:E1; [apply Z.eqb_eq in E1; subst z; cbn [parse_value] in H; apply from_id_algorithm; assumption|].
  destruct (Z.eqb z (-1)) eqn:E2.
  { apply Z.eqb_eq in E2; subst z; cbn [parse_value] in H. apply bind_ok in H as (k & HK & H). injection H as <-.
    exists k. split; [assumption|reflexivity]. }
  destruct (Z.eqb z (-2)) eqn:E3.
  { apply Z.eqb_eq in E3; subst z; cbn [parse_value] in H. apply bind_ok in H as (k & HK & H). injection H as <-.
    exists k. split; [assumption|reflexivity]. }
  cbn [orb]. apply Z.eqb_neq in E1, E2, E3.
  assert (HB : forall u, is_bstr v = Ok u -> u = v).
  { intros u HU. unfold is_bstr in HU. destruct (is_bytes v); congruence. }
  assert (HC : forall u, crit_is_array v = Ok u -> u = v).
  { intros u HU. unfold crit_is_array in HU. destruct v; try discriminate.
    destruct (_ || _); congruence. }
  assert (HT : forall u, content_type_is_uint_or_tstr v = Ok u -> u = v).
  { intros u HU. unfold content_type_is_uint_or_tstr in HU. destruct v; try congruence;
      destruct (as_int _); try discriminate; destruct (Z.ltb _ _); congruence. }
  unfold parse_value in H.
  repeat match type of H with
  | match ?x with _ => _ end = _ => destruct x
  end; try congruence; auto.
Qed.

Lemma parse_items_normal : forall allow d h, parse_items X allow d [] = Ok h -> normal_form X d h.
Proof.
  intros allow d h H c n HI. split; [|split].
  - intros v (pre & k & post & -> & HS & HN). rewrite parse_items_app in H.
    apply bind_ok in H as (acc & HP & H). cbn [parse_items] in H.
    apply bind_ok in H as (a & HA & H). apply bind_ok in H as (w & HW & H).
    rewrite (from_id_spells _ _ _ _ _ HI HS) in HA. injection HA as <-.
    exists w. split; [|eapply parse_value_hdr; eassumption].
    rewrite (parse_items_absent _ _ _ _ _ _ HI H HN). apply dget_dset_same. apply keyeq_refl.
  - intros HN. rewrite (parse_items_absent _ _ _ _ _ _ HI H HN). reflexivity.
  - eapply parse_items_keys; [exact HI|exact H|]. intros k w [].
Qed.

(** ** Constructors *)

Lemma core_init_inv : forall a c, core_init X a = Ok c ->
  exists pd ud, protected_map (a_phdr a) (a_phdr_encoded a) pd /\ unprotected_map (a_uhdr a) ud /\
    parse_items X (a_allow a) pd [] = Ok (phdr c) /\ parse_items X (a_allow a) ud [] = Ok (uhdr c) /\
    (phdr_raw c = match a_phdr_encoded a with VBytes b => Some b | _ => None end) /\
    check_payload (a_payload a) = Ok (payload c) /\ a_aad a = VBytes (aad c) /\
    check_key (a_key a) = Ok (ckey c) /\ local c = [] /\ tstr c = a_tstr a.
Proof.
  intros [ph uh pl ad ky en ts al] c H. unfold core_init in H. cbn [a_phdr a_uhdr a_payload a_aad a_key a_phdr_encoded a_tstr a_allow] in *.
  apply bind_ok in H as (p & HP & H).
  assert (HPM : forall pd, p = VDict pd -> protected_map ph en pd).
  { intros pd ->. unfold protected_map. destruct ph; destruct en; try discriminate; try (injection HP as <-; auto; fail);
      try (injection HP as ->; auto; fail).
    - injection HP as <-. right; right. split; [reflexivity|]. split; [left; reflexivity|reflexivity].
    - right. destruct (veqb (VBytes b) (VBytes [])) eqn:E.
      + apply veqb_eq in E. injection E as ->. injection HP as <-. right.
        split; [reflexivity|]. split; [right; reflexivity|reflexivity].
      + left. split; [reflexivity|]. exists b. split; [reflexivity|exact HP]. }
  cbv zeta in H. destruct p as [|b|z|x|s| | |b|u|l|l|pd|t v|t v|c0|kc ks ke]; try discriminate.
  assert (HUM : exists ud, unprotected_map uh ud).
  { unfold unprotected_map. destruct uh; try discriminate; eexists; [right; split; reflexivity|left; reflexivity]. }
  destruct HUM as (ud & HUM). exists pd, ud. split; [apply HPM; reflexivity|]. split; [assumption|].
  destruct HUM as [->|[-> ->]].
  all: apply bind_ok in H as (p1 & HP1 & H); apply bind_ok in H as (u1 & HU1 & H);
    apply bind_ok in H as (raw & HR & H); apply bind_ok in H as (pl1 & HPL & H);
    apply bind_ok in H as (ad1 & HAD & H); apply bind_ok in H as (k1 & HK & H); injection H as <-;
    cbn [phdr uhdr phdr_raw payload aad ckey local tstr];
    split; [assumption|]; split; [assumption|];
    split; [destruct en; try discriminate; injection HR as <-; reflexivity|]; split; [assumption|];
    split; [destruct ad; try discriminate; injection HAD as ->; reflexivity|];
    split; [assumption|]; split; reflexivity.
Qed.

(** ** Decoding *)

Lemma core_from_obj_inv : forall allow obj c rest, core_from_obj X allow obj = Ok (c, rest) ->
  exists p u pl c0, obj = p :: u :: pl :: rest /\
    core_init X (Args VNone u VNone (VBytes []) VNone p false allow) = Ok c0 /\
    check_payload pl = Ok (payload c) /\ c = with_payload c0 (payload c).
Proof.
  intros allow obj c rest H. unfold core_from_obj in H. destruct obj as [|p [|u rest0]]; try discriminate.
  apply bind_ok in H as (c0 & HC & H). destruct rest0 as [|pl rest']; [discriminate|].
  apply bind_ok in H as (pl' & HPL & H). injection H as <- <-.
  exists p, u, pl, c0. cbn [payload with_payload]. auto.
Qed.

Lemma from_cose_obj_core : forall allow t obj m, from_cose_obj X allow t obj = Ok m ->
  t = message_tag m /\ exists rest, core_from_obj X allow obj = Ok (message_core m, rest).
Proof.
  intros allow t obj m H. unfold from_cose_obj in H.
  destruct (N.eqb t 16) eqn:E16.
  { apply bind_ok in H as (x & HX & H). injection H as <-. apply N.eqb_eq in E16. split; [assumption|].
    unfold enc0_from_obj in HX. apply bind_ok in HX as ([c r] & HC & HX). injection HX as <-. exists r. exact HC. }
  destruct (N.eqb t 17) eqn:E17.
  { apply bind_ok in H as (x & HX & H). injection H as <-. apply N.eqb_eq in E17. split; [assumption|].
    unfold mac0_from_obj in HX. apply bind_ok in HX as ([c r] & HC & HX). destruct r; [discriminate|]. injection HX as <-.
    eexists. exact HC. }
  destruct (N.eqb t 18) eqn:E18.
  { apply bind_ok in H as (x & HX & H). injection H as <-. apply N.eqb_eq in E18. split; [assumption|].
    unfold sign1_from_obj in HX. apply bind_ok in HX as ([c r] & HC & HX). destruct r; [discriminate|]. injection HX as <-.
    eexists. exact HC. }
  destruct (N.eqb t 96) eqn:E96.
  { apply bind_ok in H as (x & HX & H). injection H as <-. apply N.eqb_eq in E96. split; [assumption|].
    unfold enc_from_obj in HX. apply bind_ok in HX as ([c r] & HC & HX). apply bind_ok in HX as (o & HO & HX). injection HX as <-.
    eexists. exact HC. }
  destruct (N.eqb t 97) eqn:E97.
  { apply bind_ok in H as (x & HX & H). injection H as <-. apply N.eqb_eq in E97. split; [assumption|].
    unfold mac_from_obj in HX. apply bind_ok in HX as ([c r] & HC & HX). destruct r; [discriminate|].
    apply bind_ok in HX as (o & HO & HX). injection HX as <-. eexists. exact HC. }
  destruct (N.eqb t 98) eqn:E98; [|discriminate].
  apply bind_ok in H as (x & HX & H). injection H as <-. apply N.eqb_eq in E98. split; [assumption|].
  unfold sign_from_obj in HX. apply bind_ok in HX as ([c r] & HC & HX). destruct r; [discriminate|].
  apply bind_ok in HX as (l & HL & HX). apply bind_ok in HX as (ss & HSS & HX). injection HX as <-. eexists. exact HC.
Qed.

Lemma decode_inv : forall e allow v m, decode X e allow v = Ok m ->
  exists b obj, v = VBytes b /\ loads_bytes b = Ok (VTag (message_tag m) (VList obj)) /\
    (forall t, e = Some t -> t = message_tag m) /\
    from_cose_obj X allow (message_tag m) obj = Ok m /\
    exists rest, core_from_obj X allow obj = Ok (message_core m, rest).
Proof.
  intros e allow v m H. unfold decode in H. destruct (loads v) as [w|x] eqn:EL; [|discriminate].
  destruct w as [|b|z|x|s| | |b|u|l|l|d|t w|t w|c0|kc ks ke]; try discriminate. destruct w as [|b|z|x|s| | |b|u|obj|l|d|t' w|t' w|c0|kc ks ke]; try discriminate.
  apply bind_ok in H as (m' & HM & H).
  assert (HE : m' = m /\ forall t', e = Some t' -> t' = message_tag m).
  { destruct e as [t'|]; [destruct (N.eqb (message_tag m') t') eqn:E; [|discriminate]|].
    - injection H as <-. split; [reflexivity|]. intros ? Q. injection Q as <-. apply N.eqb_eq in E. congruence.
    - injection H as <-. split; [reflexivity|]. discriminate. }
  destruct HE as [-> HE]. destruct (from_cose_obj_core _ _ _ _ HM) as [-> HC].
  destruct v; try discriminate. exists b, obj. split; [reflexivity|]. split; [exact EL|].
  split; [assumption|]. split; assumption.
Qed.

End WithCrypto.
