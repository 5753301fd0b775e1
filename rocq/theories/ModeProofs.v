(** Proofs for C132. *)
From Coq Require Import NArith ZArith Bool String Lia.
From Coq Require Import Init.Byte List.
From Verif Require Import Bytes Value ValueProofs Registry Crypto Cbor Keys Headers Messages Recipients SpecRegistry RegistryProofs KeyProofs SpecKeys SpecMode.
Import ListNotations.
Local Open Scope result_scope.

Lemma sr_refl : forall {A} (r : result A), same_or_refused r r.
Proof. left. reflexivity. Qed.

Lemma sr_bind : forall {A B} (r r' : result A) (k k' : A -> result B), same_or_refused r r' ->
  (forall a, same_or_refused (k a) (k' a)) -> same_or_refused (bind r k) (bind r' k').
Proof.
  intros A B r r' k k' [->| ->] H; [|right; reflexivity].
  destruct r' as [a|e]; cbn [bind]; [apply H|left; reflexivity].
Qed.

Lemma sr_ok : forall {A} (r r' : result A) a, same_or_refused r r' -> r = Ok a -> r' = Ok a.
Proof. intros A r r' a [->| ->] H; [assumption|discriminate]. Qed.

Lemma from_id_sr : forall f v, same_or_refused (from_id f false v) (from_id f true v).
Proof.
  intros f v. destruct v; cbn [from_id]; try (left; reflexivity); try (right; reflexivity);
    match goal with |- context [dget ?r ?k] => destruct (dget r k) end; (left; reflexivity) || (right; reflexivity).
Qed.

Lemma from_id_known : forall f v a, from_id f true v = Ok a -> ~ unknown_attr f v -> from_id f false v = Ok a.
Proof.
  intros f v a H HN. destruct (from_id_cases _ _ _ _ H) as [(c & n & HI & HS & ->)|[(_ & HU & _)|(l & l' & -> & -> & HM)]].
  - eapply from_id_spells; eassumption.
  - contradiction.
  - exact H.
Qed.

(** ** Header maps *)

Section WithCrypto.
Variable X : crypto.

Lemma parse_items_sr : forall h acc, same_or_refused (parse_items X false h acc) (parse_items X true h acc).
Proof.
  induction h as [|[k v] h IH]; intros acc; cbn [parse_items]; [apply sr_refl|].
  apply sr_bind; [apply from_id_sr|]. intros a. apply sr_bind; [apply sr_refl|]. intros v'. apply IH.
Qed.

Lemma parse_header_sr : forall h, same_or_refused (parse_header X false h) (parse_header X true h).
Proof. intros h. destruct h; try apply sr_refl; apply parse_items_sr. Qed.

(** The name of a parameter as it is stored. *)
Definition settled (k : pyval) : Prop :=
  unknown_attr FHdr k \/ (exists c n, k = VClass c /\ In (c, n) (registered FHdr)) \/ exists l, k = VList l.

Lemma from_id_settled : forall allow k a, from_id FHdr allow k = Ok a -> settled a.
Proof.
  intros allow k a H. destruct (from_id_cases _ _ _ _ H) as [(c & n & HI & HS & ->)|[(_ & HU & ->)|(l & l' & -> & -> & HM)]].
  - right; left. eauto.
  - left. assumption.
  - right; right. eauto.
Qed.

Lemma class_known : forall f c n, In (c, n) (registered f) -> ~ unknown_attr f (VClass c).
Proof. intros f c n HI HU. exact (HU _ eq_refl c n HI eq_refl). Qed.

Lemma keyeq_list : forall v l, keyeq v (VList l) = true -> exists l', v = VList l'.
Proof.
  intros v l H. apply keyeq_spec in H. destruct v; cbn [knorm] in H; try discriminate; eauto.
  destruct (float_int bits); discriminate.
Qed.

Lemma settled_keyeq : forall a k, settled k -> keyeq a k = true -> unknown_attr FHdr a -> unknown_attr FHdr k.
Proof.
  intros a k [HK|[(c & n & -> & HI)|(l & ->)]] HE HU; [assumption| |].
  - rewrite keyeq_sym in HE. apply keyeq_class in HE as ->. elim (class_known _ _ _ HI HU).
  - apply keyeq_list in HE as (l' & ->). elim HU.
Qed.

(** A parameter that was set stays, under the name it was first given. *)
Lemma dset_stays : forall d k v e, In e d -> exists w, In (fst e, w) (dset d k v).
Proof.
  induction d as [|[k0 v0] d IH]; intros k v e HE; [destruct HE|].
  destruct HE as [HE|HE]; cbn [dset]; destruct (keyeq k k0).
  - subst e. eexists. left. reflexivity.
  - subst e. eexists. left. reflexivity.
  - destruct e as [x y]. exists y. right. assumption.
  - destruct (IH k v e HE) as [w HW]. exists w. right. assumption.
Qed.

Lemma dset_there : forall d k v, exists k', In (k', v) (dset d k v) /\ keyeq k k' = true.
Proof.
  induction d as [|[k0 v0] d IH]; intros k v; cbn [dset].
  - exists k. split; [left; reflexivity|apply keyeq_refl].
  - destruct (keyeq k k0) eqn:E.
    + exists k0. split; [left; reflexivity|assumption].
    + destruct (IH k v) as (k' & HI & HE). exists k'. split; [right|]; assumption.
Qed.

Lemma dset_settled : forall d k v, (forall e, In e d -> settled (fst e)) -> settled k ->
  forall e, In e (dset d k v) -> settled (fst e).
Proof.
  induction d as [|[k0 v0] d IH]; intros k v H HK e HE; cbn [dset] in HE.
  - destruct HE as [<-|[]]. assumption.
  - destruct (keyeq k k0); destruct HE as [<-|HE].
    + apply (H (k0, v0)). left. reflexivity.
    + apply H. right. assumption.
    + apply (H (k0, v0)). left. reflexivity.
    + eapply IH; [|exact HK|exact HE]. intros e' HI. apply H. right. assumption.
Qed.

Lemma parse_items_stays : forall allow h acc d, parse_items X allow h acc = Ok d ->
  forall e, In e acc -> exists w, In (fst e, w) d.
Proof.
  induction h as [|[k v] h IH]; intros acc d H e HE; cbn [parse_items] in H.
  - injection H as <-. destruct e as [a b]. exists b. assumption.
  - apply bind_ok in H as (a & HA & H). apply bind_ok in H as (v' & HV & H).
    destruct (dset_stays acc a v' e HE) as [w HW]. apply (IH _ _ H (fst e, w) HW).
Qed.

Definition known (d : dict) : Prop := forall k v, In (k, v) d -> ~ unknown_attr FHdr k.

Lemma parse_items_known : forall h acc d, (forall e, In e acc -> settled (fst e)) ->
  parse_items X true h acc = Ok d -> known d -> parse_items X false h acc = Ok d.
Proof.
  induction h as [|[k v] h IH]; intros acc d HS H HK; cbn [parse_items] in *; [assumption|].
  apply bind_ok in H as (a & HA & H). apply bind_ok in H as (v' & HV & H).
  assert (HF : from_id FHdr false k = Ok a).
  { destruct (from_id_cases _ _ _ _ HA) as [(c & n & HI & HSP & ->)|[(_ & HU & ->)|(l & l' & -> & -> & HM)]];
      [eapply from_id_spells; eassumption| |exact HA].
    exfalso. destruct (dset_there acc k v') as (k' & HI & HE).
    pose proof (dset_settled acc k v' HS (or_introl HU) _ HI) as HS'.
    destruct (parse_items_stays _ _ _ _ H _ HI) as [w HW].
    exact (HK _ _ HW (settled_keyeq _ _ HS' HE HU)). }
  rewrite HF. cbn [bind]. rewrite HV. cbn [bind]. apply IH; try assumption.
  apply dset_settled; [assumption|]. eapply from_id_settled. exact HA.
Qed.

Lemma from_id_strict_known : forall k a, from_id FHdr false k = Ok a -> ~ unknown_attr FHdr a.
Proof.
  intros k a H. destruct (from_id_cases _ _ _ _ H) as [(c & n & HI & HS & ->)|[(E & _)|(l & l' & -> & -> & HM)]].
  - eapply class_known. exact HI.
  - discriminate.
  - intros [].
Qed.

Lemma dset_known : forall d k v, known d -> ~ unknown_attr FHdr k -> known (dset d k v).
Proof.
  induction d as [|[k0 v0] d IH]; intros k v H HK k' v' HE; cbn [dset] in HE.
  - destruct HE as [E|[]]. injection E as <- _. assumption.
  - destruct (keyeq k k0); destruct HE as [E|HE].
    + injection E as <- _. eapply H. left. reflexivity.
    + eapply H. right. exact HE.
    + injection E as <- _. eapply H. left. reflexivity.
    + eapply (IH k v); [|exact HK|exact HE]. intros a b HI. eapply H. right. exact HI.
Qed.

Lemma parse_items_strict_known : forall h acc d, known acc -> parse_items X false h acc = Ok d -> known d.
Proof.
  induction h as [|[k v] h IH]; intros acc d HA H; cbn [parse_items] in H.
  - injection H as <-. assumption.
  - apply bind_ok in H as (a & HF & H). apply bind_ok in H as (v' & HV & H).
    eapply IH; [|exact H]. apply dset_known; [assumption|]. eapply from_id_strict_known. exact HF.
Qed.

Lemma known_nil : known [].
Proof. intros k v []. Qed.

Lemma parse_header_known : forall h d, parse_header X true h = Ok d -> known d -> parse_header X false h = Ok d.
Proof.
  intros h d H HK. destruct h; try discriminate; cbn [parse_header] in *; apply parse_items_known; try assumption; intros e [].
Qed.

Definition with_allow (a : args) (b : bool) : args :=
  Args (a_phdr a) (a_uhdr a) (a_payload a) (a_aad a) (a_key a) (a_phdr_encoded a) (a_tstr a) b.

Lemma core_init_sr : forall p u pl ad k pe t,
  same_or_refused (core_init X (Args p u pl ad k pe t false)) (core_init X (Args p u pl ad k pe t true)).
Proof.
  intros p u pl ad k pe t. unfold core_init. cbn [a_phdr a_uhdr a_payload a_aad a_key a_phdr_encoded a_tstr a_allow].
  apply sr_bind; [apply sr_refl|]. intros ph.
  destruct ph; try apply sr_refl. destruct u; cbv zeta; try apply sr_refl;
  (apply sr_bind; [apply parse_items_sr|]); intros p'; (apply sr_bind; [apply parse_items_sr|]); intros u'; apply sr_refl.
Qed.

Lemma core_init_maps : forall p u pl ad k pe t allow c, core_init X (Args p u pl ad k pe t allow) = Ok c ->
  exists pd ud, parse_items X allow pd [] = Ok (phdr c) /\ parse_items X allow ud [] = Ok (uhdr c) /\
  forall allow', parse_items X allow' pd [] = Ok (phdr c) -> parse_items X allow' ud [] = Ok (uhdr c) ->
    core_init X (Args p u pl ad k pe t allow') = Ok c.
Proof.
  intros p u pl ad k pe t allow c H. unfold core_init in *.
  cbn [a_phdr a_uhdr a_payload a_aad a_key a_phdr_encoded a_tstr a_allow] in *.
  apply bind_ok in H as (ph & HP & H). rewrite HP. cbn [bind].
  destruct ph as [|b|z|x|s| | |b|x|l|l|pd|tg v|tg v|cl|kc ks ke]; try discriminate.
  assert (HU : exists ud, (u = VNone /\ ud = []) \/ u = VDict ud) by (destruct u; try discriminate; eauto).
  destruct HU as [ud HU]. cbv zeta in *.
  exists pd, ud. destruct HU as [(-> & ->)| ->];
  (apply bind_ok in H as (p' & H1 & H); apply bind_ok in H as (u' & H2 & H);
   pose proof H as H0;
   apply bind_ok in H as (raw & HR & H); apply bind_ok in H as (pl' & HL & H); apply bind_ok in H as (ad' & HD & H);
   apply bind_ok in H as (k' & HK & H); injection H as <-; cbn [phdr uhdr]; split; [assumption|]; split; [assumption|];
   intros allow' E1 E2; rewrite E1; cbn [bind]; rewrite E2; cbn [bind]; exact H0).
Qed.

Lemma core_init_iff : forall p u pl ad k pe t c, core_init X (Args p u pl ad k pe t true) = Ok c ->
  (core_init X (Args p u pl ad k pe t false) = Ok c <-> no_unknown c).
Proof.
  intros p u pl ad k pe t c H. split.
  - intros HS. apply core_init_maps in HS as (pd & ud & H1 & H2 & _).
    pose proof (parse_items_strict_known _ _ _ known_nil H1) as K1.
    pose proof (parse_items_strict_known _ _ _ known_nil H2) as K2.
    intros k0 v0 [HI|HI]; [eapply K1|eapply K2]; exact HI.
  - intros HN. apply core_init_maps in H as (pd & ud & H1 & H2 & H). apply H.
    + apply parse_items_known; [intros e []|assumption|]. intros k0 v0 HI. eapply HN. left. exact HI.
    + apply parse_items_known; [intros e []|assumption|]. intros k0 v0 HI. eapply HN. right. exact HI.
Qed.

Lemma core_from_obj_sr : forall l, same_or_refused (core_from_obj X false l) (core_from_obj X true l).
Proof.
  intros l. destruct l as [|p [|u rest]]; try apply sr_refl. cbn [core_from_obj].
  apply sr_bind; [apply core_init_sr|]. intros c. apply sr_refl.
Qed.

Lemma core_from_obj_iff : forall l c rest, core_from_obj X true l = Ok (c, rest) ->
  (core_from_obj X false l = Ok (c, rest) <-> no_unknown c).
Proof.
  intros l c rest H. destruct l as [|p [|u rst]]; try discriminate. cbn [core_from_obj] in *.
  apply bind_ok in H as (c0 & HI & H). destruct rst as [|pl rst]; [discriminate|].
  apply bind_ok in H as (pl' & HP & H). injection H as <- <-.
  pose proof (core_init_iff _ _ _ _ _ _ _ _ HI) as HF.
  assert (HQ : no_unknown (with_payload c0 pl') <-> no_unknown c0) by (split; intros Q; exact Q).
  rewrite HQ, <- HF. rewrite HP. cbn [bind]. split.
  - intros HS. apply bind_ok in HS as (c1 & H1 & HS). injection HS as E.
    pose proof (sr_ok _ _ _ (core_init_sr _ _ _ _ _ _ _) H1) as E1. rewrite HI in E1. injection E1 as ->. exact H1.
  - intros HS. rewrite HS. reflexivity.
Qed.

(** ** Messages without recipients *)

Lemma mapM_sr : forall {A B} (f g : A -> result B) l, (forall a, same_or_refused (f a) (g a)) ->
  same_or_refused (mapM f l) (mapM g l).
Proof.
  intros A B f g l H. induction l as [|a l IH]; cbn [mapM]; [apply sr_refl|].
  apply sr_bind; [apply H|]. intros b. apply sr_bind; [apply IH|]. intros bs. apply sr_refl.
Qed.

Lemma signer_sr : forall r, same_or_refused (signer_from_obj X false r) (signer_from_obj X true r).
Proof.
  intros r. destruct r; try apply sr_refl. cbn [signer_from_obj]. apply sr_bind; [apply core_from_obj_sr|].
  intros [c rest]. apply sr_refl.
Qed.

Lemma signer_iff : forall r c, signer_from_obj X true r = Ok c -> (signer_from_obj X false r = Ok c <-> no_unknown c).
Proof.
  intros r c H. destruct r; try discriminate. cbn [signer_from_obj] in *.
  apply bind_ok in H as ([c0 rest] & HC & H). injection H as ->.
  rewrite <- (core_from_obj_iff _ _ _ HC). split.
  - intros HS. apply bind_ok in HS as ([c1 rest1] & H1 & HS). injection HS as ->.
    pose proof (sr_ok _ _ _ (core_from_obj_sr _) H1) as E. rewrite HC in E. injection E as ->. exact H1.
  - intros HS. rewrite HS. reflexivity.
Qed.

Lemma mapM_iff : forall {A B} (f g : A -> result B) (P : B -> Prop) l bs,
  (forall a, same_or_refused (f a) (g a)) -> (forall a b, g a = Ok b -> (f a = Ok b <-> P b)) ->
  mapM g l = Ok bs -> (mapM f l = Ok bs <-> Forall P bs).
Proof.
  intros A B f g P l bs HS HF. revert bs. induction l as [|a l IH]; intros bs H; cbn [mapM] in *.
  - injection H as <-. split; [constructor|reflexivity].
  - apply bind_ok in H as (b & HB & H). apply bind_ok in H as (bs' & HBS & H). injection H as <-. split.
    + intros H. apply bind_ok in H as (b1 & HB1 & H). apply bind_ok in H as (bs1 & HBS1 & H). injection H as -> ->.
      constructor; [apply (HF _ _ HB); assumption|apply (IH _ HBS); assumption].
    + intros H. inversion H; subst. apply (HF _ _ HB) in H2. apply (IH _ HBS) in H3. rewrite H2. cbn [bind]. rewrite H3. reflexivity.
Qed.

(** ** Recipients *)

Lemma rcpt_from_obj_sr : forall ctx id rc r, same_or_refused (rcpt_from_obj X false ctx id rc r) (rcpt_from_obj X true ctx id rc r).
Proof.
  intros ctx id rc r. destruct r; try apply sr_refl. cbn [rcpt_from_obj].
  apply sr_bind; [apply core_from_obj_sr|]. intros [c rest]. apply sr_refl.
Qed.

Lemma create_recipient_sr : forall ctx id r, same_or_refused (create_recipient X false ctx id r) (create_recipient X true ctx id r).
Proof.
  intros ctx id r. unfold create_recipient. apply sr_bind; [apply sr_refl|]. intros r0.
  apply sr_bind.
  { destruct (veqb r0 (VBytes [])); [apply sr_refl|]. apply sr_bind; [apply sr_refl|]. intros h.
    apply sr_bind; [apply parse_header_sr|]. intros d. apply sr_refl. }
  intros pa. apply sr_bind; [apply sr_refl|]. intros r1. apply sr_bind; [apply parse_header_sr|]. intros d.
  cbv zeta. destruct (is_none (if is_none pa then dget_or d Algorithm VNone else pa)); [apply sr_refl|].
  apply sr_bind; [apply sr_refl|]. intros rc. apply rcpt_from_obj_sr.
Qed.

Lemma create_all_sr : forall ctx l id, same_or_refused (create_all X false ctx id l) (create_all X true ctx id l).
Proof.
  intros ctx l. induction l as [|v l IH]; intros id; cbn [create_all]; [apply sr_refl|].
  apply sr_bind; [apply create_recipient_sr|]. intros r. apply sr_bind; [apply IH|]. intros rs. apply sr_refl.
Qed.

Lemma recipients_sr : forall ctx rest, same_or_refused (recipients_from X false ctx rest) (recipients_from X true ctx rest).
Proof.
  intros ctx rest. unfold recipients_from. destruct rest as [|v rest]; [apply sr_refl|].
  destruct (py_iter v) as [l|e]; cbn [bind]; [|apply sr_refl].
  destruct (create_all_sr (VStr (bs ctx)) l 0) as [E|E]; rewrite E; [apply sr_refl|right; reflexivity].
Qed.

Lemma rcpt_from_obj_core : forall allow ctx id rc r x, rcpt_from_obj X allow ctx id rc r = Ok x ->
  exists l rest, r = VList l /\ core_from_obj X allow l = Ok (r_core x, rest) /\
  forall allow', core_from_obj X allow' l = Ok (r_core x, rest) -> rcpt_from_obj X allow' ctx id rc r = Ok x.
Proof.
  intros allow ctx id rc r x H. destruct r as [|b|z|fl|s| | |b|u|l|l|d|t v|t v|cl|kc ks ke]; try discriminate.
  cbn [rcpt_from_obj] in *. apply bind_ok in H as ([c rest] & HC & H).
  assert (E : r_core x = c).
  { destruct rc.
    - destruct (negb _); [discriminate|]. apply bind_ok in H as (alg & _ & H). destruct (_ && _); [discriminate|].
      injection H as <-. reflexivity.
    - apply bind_ok in H as (alg & _ & H). apply bind_ok in H as (kw & _ & H). destruct (_ && _); [discriminate|].
      destruct (match payload c with Some [] => true | _ => false end); [discriminate|]. injection H as <-. reflexivity.
    - apply bind_ok in H as (alg & _ & H). apply bind_ok in H as (es & _ & H). apply bind_ok in H as (ms & _ & H).
      destruct ms; [discriminate|]. injection H as <-. reflexivity.
    - destruct (match payload c with Some [] => true | _ => false end); [discriminate|]. injection H as <-. reflexivity. }
  exists l, rest. rewrite E. split; [reflexivity|]. split; [assumption|]. intros allow' HC'. rewrite HC'. exact H.
Qed.

Lemma core_from_obj_maps : forall l c rest, core_from_obj X true l = Ok (c, rest) ->
  exists p u rs, l = p :: u :: rs /\
  (forall d h, p <> VNone -> p <> VBytes [] -> loads p = Ok h -> parse_header X true h = Ok d -> d = phdr c) /\
  (forall d, u <> VNone -> parse_header X true u = Ok d -> d = uhdr c).
Proof.
  intros l c rest H. destruct l as [|p [|u rs]]; try discriminate. exists p, u, rs. split; [reflexivity|].
  cbn [core_from_obj] in H. apply bind_ok in H as (c0 & HI & H).
  destruct rs as [|pl rs]; [discriminate|]. apply bind_ok in H as (pl' & _ & H). injection H as <- _.
  change (phdr (with_payload c0 pl')) with (phdr c0). change (uhdr (with_payload c0 pl')) with (uhdr c0).
  unfold core_init in HI. cbn [a_phdr a_uhdr a_payload a_aad a_key a_phdr_encoded a_tstr a_allow] in HI.
  apply bind_ok in HI as (ph & HP & HI).
  destruct ph as [|b|z|x|s| | |b|x|l|l|pd|tg v|tg v|cl|kc ks ke]; try discriminate.
  assert (HU : exists ud, (u = VNone /\ ud = []) \/ u = VDict ud) by (destruct u; try discriminate; eauto).
  destruct HU as [ud HU]. cbv zeta in *.
  assert (HI' : parse_items X true pd [] = Ok (phdr c0) /\ parse_items X true ud [] = Ok (uhdr c0)).
  { destruct HU as [(-> & ->)| ->];
    (apply bind_ok in HI as (p' & H1 & HI); apply bind_ok in HI as (u' & H2 & HI);
     apply bind_ok in HI as (raw & _ & HI); apply bind_ok in HI as (pl1 & _ & HI); apply bind_ok in HI as (ad & _ & HI);
     apply bind_ok in HI as (k & _ & HI); injection HI as <-; cbn [phdr uhdr]; split; assumption). }
  destruct HI' as [H1 H2]. split.
  - intros d h HN HE HL HD.
    assert (EH : h = VDict pd).
    { destruct (veqb p (VBytes [])) eqn:EV; [apply veqb_eq in EV; contradiction|].
      destruct p; try contradiction; try discriminate HL; rewrite EV in HP; congruence. }
    subst h. cbn [parse_header] in HD. congruence.
  - intros d HN HD. destruct HU as [(-> & ->)| ->]; [contradiction|]. cbn [parse_header] in HD. congruence.
Qed.

Lemma create_recipient_iff : forall ctx id r x, create_recipient X true ctx id r = Ok x ->
  (create_recipient X false ctx id r = Ok x <-> no_unknown (r_core x)).
Proof.
  intros ctx id r x H. split.
  - intros HS. unfold create_recipient in HS.
    apply bind_ok in HS as (r0 & _ & HS). apply bind_ok in HS as (pa & _ & HS). apply bind_ok in HS as (r1 & _ & HS).
    apply bind_ok in HS as (d & _ & HS). cbv zeta in HS. destruct (is_none _); [discriminate|].
    apply bind_ok in HS as (rc & _ & HS). apply rcpt_from_obj_core in HS as (l & rest & _ & HC & _).
    pose proof (sr_ok _ _ _ (core_from_obj_sr _) HC) as HC'. apply (core_from_obj_iff _ _ _ HC'). exact HC.
  - intros HN. unfold create_recipient in *.
    apply bind_ok in H as (r0 & H0 & H). apply bind_ok in H as (pa & HP & H). apply bind_ok in H as (r1 & H1 & H).
    apply bind_ok in H as (d & HD & H). cbv zeta in *. rewrite H0. cbn [bind].
    destruct (is_none (if is_none pa then dget_or d Algorithm VNone else pa)) eqn:EN; [discriminate|].
    apply bind_ok in H as (rc & HR & H). pose proof (rcpt_from_obj_core _ _ _ _ _ _ H) as (l & rest & -> & HC & HX).
    destruct (core_from_obj_maps _ _ _ HC) as (p & u & rs & -> & M1 & M2).
    assert (E0 : r0 = p) by (vm_compute in H0; congruence). assert (E1 : r1 = u) by (vm_compute in H1; congruence).
    subst r0 r1.
    assert (HPF : (if veqb p (VBytes []) then Ok VNone
            else h <- loads p ;; d <- parse_header X false h ;; Ok (dget_or d Algorithm VNone)) = Ok pa).
    { destruct (veqb p (VBytes [])) eqn:EV; [exact HP|].
      apply bind_ok in HP as (h & HL & HP). apply bind_ok in HP as (dp & HDP & HP). rewrite HL. cbn [bind].
      assert (N1 : p <> VNone) by (intros ->; discriminate).
      assert (N2 : p <> VBytes []) by (intros ->; discriminate).
      rewrite (parse_header_known _ _ HDP); [exact HP|]. rewrite (M1 _ _ N1 N2 HL HDP). intros k v HI. eapply HN. left. exact HI. }
    rewrite HPF. cbn [bind]. rewrite H1. cbn [bind].
    rewrite (parse_header_known _ _ HD).
    + cbn [bind]. rewrite EN, HR. cbn [bind]. apply HX. apply (core_from_obj_iff _ _ _ HC). exact HN.
    + rewrite (M2 d); [|intros ->; discriminate|exact HD]. intros k v HI. eapply HN. right. exact HI.
Qed.

Lemma create_all_iff : forall ctx l id rs, create_all X true ctx id l = Ok rs ->
  (create_all X false ctx id l = Ok rs <-> Forall no_unknown (map r_core rs)).
Proof.
  intros ctx l. induction l as [|v l IH]; intros id rs H; cbn [create_all] in *.
  - injection H as <-. split; [constructor|reflexivity].
  - apply bind_ok in H as (r & HR & H). apply bind_ok in H as (rs' & HRS & H). injection H as <-. cbn [map]. split.
    + intros H. apply bind_ok in H as (r1 & HR1 & H). apply bind_ok in H as (rs1 & HRS1 & H). injection H as -> ->.
      constructor; [apply (create_recipient_iff _ _ _ _ HR); assumption|apply (IH _ _ HRS); assumption].
    + intros H. inversion H; subst. apply (create_recipient_iff _ _ _ _ HR) in H2. apply (IH _ _ HRS) in H3.
      rewrite H2. cbn [bind]. rewrite H3. reflexivity.
Qed.

Lemma recipients_iff : forall ctx rest rs, recipients_from X true ctx rest = Ok (Some rs) ->
  (recipients_from X false ctx rest = Ok (Some rs) <-> Forall no_unknown (map r_core rs)).
Proof.
  intros ctx rest rs H. unfold recipients_from in *. destruct rest as [|v rest]; [discriminate|].
  destruct (py_iter v) as [l|e]; cbn [bind] in *.
  2:{ destruct (_ || _); discriminate. }
  destruct (create_all X true (VStr (bs ctx)) 0 l) as [rs'|e] eqn:E.
  2:{ destruct (_ || _); discriminate. }
  injection H as ->. rewrite <- (create_all_iff _ _ _ _ E).
  destruct (create_all X false (VStr (bs ctx)) 0 l) as [rs'|e]; [|destruct (_ || _)]; split; intros H; congruence.
Qed.

(** ** Messages *)

Lemma sr_map : forall {A B} (f : A -> B) (r r' : result A), same_or_refused r r' ->
  same_or_refused (m <- r ;; Ok (f m)) (m <- r' ;; Ok (f m)).
Proof. intros A B f r r' H. apply sr_bind; [assumption|]. intros a. apply sr_refl. Qed.

Lemma from_cose_obj_sr : forall t obj, same_or_refused (from_cose_obj X false t obj) (from_cose_obj X true t obj).
Proof.
  intros t obj. unfold from_cose_obj.
  repeat match goal with |- same_or_refused (if ?b then _ else _) _ => destruct b end; try apply sr_refl; apply sr_map.
  - unfold enc0_from_obj. apply sr_bind; [apply core_from_obj_sr|]. intros [c rest]. apply sr_refl.
  - unfold mac0_from_obj. apply sr_bind; [apply core_from_obj_sr|]. intros [c rest]. apply sr_refl.
  - unfold sign1_from_obj. apply sr_bind; [apply core_from_obj_sr|]. intros [c rest]. apply sr_refl.
  - unfold enc_from_obj. apply sr_bind; [apply core_from_obj_sr|]. intros [c rest]. apply sr_bind; [apply recipients_sr|].
    intros o. apply sr_refl.
  - unfold mac_from_obj. apply sr_bind; [apply core_from_obj_sr|]. intros [c rest]. destruct rest; [apply sr_refl|].
    apply sr_bind; [apply recipients_sr|]. intros o. apply sr_refl.
  - unfold sign_from_obj. apply sr_bind; [apply core_from_obj_sr|]. intros [c rest]. destruct rest; [apply sr_refl|].
    apply sr_bind; [apply sr_refl|]. intros l. apply sr_bind; [apply mapM_sr, signer_sr|]. intros ss. apply sr_refl.
Qed.

Lemma decode_sr : forall e v, same_or_refused (decode X e false v) (decode X e true v).
Proof.
  intros e v. unfold decode. destruct (loads v) as [w|x]; [|apply sr_refl].
  destruct w; match goal with |- same_or_refused (Err _) _ => apply sr_refl | _ => idtac end.
  destruct w; match goal with |- same_or_refused (Err _) _ => apply sr_refl | _ => idtac end.
  apply sr_bind; [apply from_cose_obj_sr|]. intros m. apply sr_refl.
Qed.

Lemma forall_one : forall (P : core -> Prop) c, P c <-> Forall P [c].
Proof. intros P c. split; [constructor; [assumption|constructor]|intros H; inversion H; assumption]. Qed.

Lemma bind_core : forall {A} l c rest (k : core * list pyval -> result A) x,
  core_from_obj X true l = Ok (c, rest) -> bind (core_from_obj X false l) k = Ok x ->
  no_unknown c /\ k (c, rest) = Ok x.
Proof.
  intros A l c rest k x HC H. apply bind_ok in H as ([c1 rest1] & H1 & H).
  pose proof (sr_ok _ _ _ (core_from_obj_sr _) H1) as E. rewrite HC in E. injection E as -> ->.
  split; [apply (core_from_obj_iff _ _ _ HC); exact H1|exact H].
Qed.

Lemma from_cose_obj_iff : forall t obj m, from_cose_obj X true t obj = Ok m -> recipients_read m ->
  (from_cose_obj X false t obj = Ok m <-> Forall no_unknown (parts m)).
Proof.
  intros t obj m H HR. unfold from_cose_obj in *.
  destruct (N.eqb t 16).
  { apply bind_ok in H as (c & H & E). injection E as <-. unfold enc0_from_obj in *.
    apply bind_ok in H as ([c0 rest] & HC & H). injection H as ->. cbn [parts]. rewrite <- forall_one. split.
    - intros HS. apply bind_ok in HS as (c1 & HS & E). injection E as ->. apply (bind_core _ _ _ _ _ HC) in HS. tauto.
    - intros HS. apply (core_from_obj_iff _ _ _ HC) in HS. rewrite HS. reflexivity. }
  destruct (N.eqb t 17).
  { apply bind_ok in H as (s & H & E). injection E as <-. unfold mac0_from_obj in *.
    apply bind_ok in H as ([c0 rest] & HC & H). destruct rest as [|tg rest]; [discriminate|]. injection H as <-.
    cbn [parts m0_core]. rewrite <- forall_one. split.
    - intros HS. apply bind_ok in HS as (c1 & HS & E). injection E as ->. apply (bind_core _ _ _ _ _ HC) in HS. tauto.
    - intros HS. apply (core_from_obj_iff _ _ _ HC) in HS. rewrite HS. reflexivity. }
  destruct (N.eqb t 18).
  { apply bind_ok in H as (s & H & E). injection E as <-. unfold sign1_from_obj in *.
    apply bind_ok in H as ([c0 rest] & HC & H). destruct rest as [|tg rest]; [discriminate|]. injection H as <-.
    cbn [parts s1_core]. rewrite <- forall_one. split.
    - intros HS. apply bind_ok in HS as (c1 & HS & E). injection E as ->. apply (bind_core _ _ _ _ _ HC) in HS. tauto.
    - intros HS. apply (core_from_obj_iff _ _ _ HC) in HS. rewrite HS. reflexivity. }
  destruct (N.eqb t 96).
  { apply bind_ok in H as (s & H & E). injection E as <-. unfold enc_from_obj in *.
    apply bind_ok in H as ([c0 rest] & HC & H). apply bind_ok in H as (o & HO & H). injection H as <-.
    cbn [recipients_read e_rcpts] in HR. destruct o as [rs|]; [|elim HR; reflexivity].
    cbn [parts e_core e_rcpts]. split.
    - intros HS. apply bind_ok in HS as (c1 & HS & E). injection E as ->. apply (bind_core _ _ _ _ _ HC) in HS as [HN HS].
      apply bind_ok in HS as (o & HO' & HS). pose proof (sr_ok _ _ _ (recipients_sr _ _) HO') as E. rewrite HO in E.
      injection E as <-. apply (recipients_iff _ _ _ HO) in HO'. constructor; assumption.
    - intros HS. inversion HS; subst. apply (core_from_obj_iff _ _ _ HC) in H1. apply (recipients_iff _ _ _ HO) in H2.
      rewrite H1. cbn [bind]. rewrite H2. reflexivity. }
  destruct (N.eqb t 97).
  { apply bind_ok in H as (s & H & E). injection E as <-. unfold mac_from_obj in *.
    apply bind_ok in H as ([c0 rest] & HC & H). destruct rest as [|tg rest]; [discriminate|].
    apply bind_ok in H as (o & HO & H). injection H as <-.
    cbn [recipients_read mm_rcpts] in HR. destruct o as [rs|]; [|elim HR; reflexivity].
    cbn [parts mm_core mm_rcpts]. split.
    - intros HS. apply bind_ok in HS as (c1 & HS & E). injection E as ->. apply (bind_core _ _ _ _ _ HC) in HS as [HN HS].
      apply bind_ok in HS as (o & HO' & HS). pose proof (sr_ok _ _ _ (recipients_sr _ _) HO') as E. rewrite HO in E.
      injection E as <-. apply (recipients_iff _ _ _ HO) in HO'. constructor; assumption.
    - intros HS. inversion HS; subst. apply (core_from_obj_iff _ _ _ HC) in H1. apply (recipients_iff _ _ _ HO) in H2.
      rewrite H1. cbn [bind]. rewrite H2. reflexivity. }
  destruct (N.eqb t 98); [|discriminate].
  apply bind_ok in H as (s & H & E). injection E as <-. unfold sign_from_obj in *.
  apply bind_ok in H as ([c0 rest] & HC & H). destruct rest as [|sg rest]; [discriminate|].
  apply bind_ok in H as (l & HI & H). apply bind_ok in H as (ss & HM & H). injection H as <-.
  pose proof (mapM_iff (signer_from_obj X false) (signer_from_obj X true) no_unknown l ss signer_sr signer_iff HM) as HF.
  cbn [parts sm_core sm_signers]. split.
  - intros HS. apply bind_ok in HS as (c1 & HS & E). injection E as ->. apply (bind_core _ _ _ _ _ HC) in HS as [HN HS].
    rewrite HI in HS. cbn [bind] in HS. apply bind_ok in HS as (ss' & HM' & HS). injection HS as ->.
    apply HF in HM'. constructor; assumption.
  - intros HS. inversion HS; subst. apply (core_from_obj_iff _ _ _ HC) in H1. apply HF in H2.
    rewrite H1. cbn [bind]. rewrite HI. cbn [bind]. rewrite H2. reflexivity.
Qed.

Lemma decode_iff : forall e v m, decode X e true v = Ok m -> recipients_read m ->
  (decode X e false v = Ok m <-> Forall no_unknown (parts m)).
Proof.
  intros e v m H HR. unfold decode in *. destruct (loads v) as [w|x]; [|discriminate].
  destruct w as [|b|z|fl|s| | |b|u|l|l|d|t w|t w|cl|kc ks ke]; try discriminate.
  destruct w as [|b|z|fl|s| | |b|u|l|l|d|t' w|t' w|cl|kc ks ke]; try discriminate.
  apply bind_ok in H as (m0 & HM & H).
  assert (E : m0 = m) by (destruct e as [t'|]; [destruct (N.eqb (message_tag m0) t'); [|discriminate]|]; congruence).
  subst m0. rewrite <- (from_cose_obj_iff _ _ _ HM HR). split.
  - intros HS. apply bind_ok in HS as (m1 & H1 & HS). pose proof (sr_ok _ _ _ (from_cose_obj_sr _ _) H1) as E.
    rewrite HM in E. injection E as <-. exact H1.
  - intros HS. rewrite HS. cbn [bind]. exact H.
Qed.

(** ** Keys *)

Lemma transform_sr : forall c opts acc, same_or_refused (transform_params c false opts acc) (transform_params c true opts acc).
Proof.
  intros c opts. induction opts as [|[a v] opts IH]; intros acc; cbn [transform_params]; [apply sr_refl|].
  apply sr_bind; [apply from_id_sr|]. intros kp. apply sr_bind; [apply sr_refl|]. intros v'.
  destruct (hashable kp); [apply IH|apply sr_refl].
Qed.

Lemma transform_iff : forall c opts acc d, transform_params c true opts acc = Ok d ->
  (transform_params c false opts acc = Ok d <-> forall k v, In (k, v) opts -> ~ unknown_attr (params_of c) k).
Proof.
  assert (EP : forall c, param_fam c = params_of c) by (intros []; reflexivity).
  intros c opts. induction opts as [|[a v] opts IH]; intros acc d H; cbn [transform_params] in *.
  - injection H as <-. split; [intros _ k v []|reflexivity].
  - rewrite EP in *. apply bind_ok in H as (kp & HK & H). apply bind_ok in H as (v' & HV & H).
    destruct (hashable kp) eqn:EH; [|discriminate]. split.
    + intros HS. apply bind_ok in HS as (kp1 & HK1 & HS). pose proof (from_id_allow _ _ _ HK1) as E. rewrite HK in E.
      injection E as <-. rewrite HV in HS. cbn [bind] in HS. rewrite EH in HS. pose proof (proj1 (IH _ _ H) HS) as HQ.
      intros k w [E|HI]; [|eapply HQ; exact HI]. injection E as <- _. intros HU.
      destruct (from_id_unknown _ _ HU) as [_ E]. congruence.
    + intros HN. rewrite (from_id_known _ _ _ HK); [|eapply HN; left; reflexivity]. cbn [bind]. rewrite HV. cbn [bind].
      rewrite EH. apply (IH _ _ H). intros k w HI. eapply HN. right. exact HI.
Qed.

Lemma common_sr : forall c opt, same_or_refused (common_init c opt false) (common_init c opt true).
Proof.
  intros c opt. unfold common_init. apply sr_bind; [apply sr_refl|]. intros opts.
  apply sr_bind; [apply transform_sr|]. intros d. apply sr_refl.
Qed.

Lemma common_iff : forall c opt k, common_init c opt true = Ok k ->
  ((exists k', common_init c opt false = Ok k') <-> options_known (params_of c) opt).
Proof.
  intros c opt k H. unfold common_init in *. apply bind_ok in H as (opts & HO & H). apply bind_ok in H as (d & HT & H).
  assert (EO : options_known (params_of c) opt <-> forall k v, In (k, v) opts -> ~ unknown_attr (params_of c) k).
  { destruct opt; try discriminate; injection HO as <-; cbn [options_known]; try tauto. }
  rewrite EO, <- (transform_iff _ _ _ _ HT), HO. cbn [bind]. split.
  - intros [k' HS]. apply bind_ok in HS as (d' & HD & HS). pose proof (sr_ok _ _ _ (transform_sr _ _ _) HD) as E. congruence.
  - intros HS. rewrite HS. exists k. exact H.
Qed.

(** A constructor that uses the mode only to read the optional parameters. *)
Lemma init_iff : forall {A} c opt (k : key -> result A) x, bind (common_init c opt true) k = Ok x ->
  (bind (common_init c opt false) k = Ok x <-> options_known (params_of c) opt).
Proof.
  intros A c opt k x H. apply bind_ok in H as (k0 & HC & H). rewrite <- (common_iff _ _ _ HC). split.
  - intros HS. apply bind_ok in HS as (k1 & H1 & _). eauto.
  - intros [k1 H1]. pose proof (sr_ok _ _ _ (common_sr _ _) H1) as E. rewrite HC in E. injection E as ->.
    rewrite H1. exact H.
Qed.

Lemma sym_sr : forall kv opt, same_or_refused (sym_init kv opt false) (sym_init kv opt true).
Proof. intros. unfold sym_init. apply sr_bind; [apply common_sr|]. intros k. apply sr_refl. Qed.
Lemma okp_sr : forall crv x d opt, same_or_refused (okp_init crv x d opt false) (okp_init crv x d opt true).
Proof. intros. unfold okp_init. apply sr_bind; [apply common_sr|]. intros k. apply sr_refl. Qed.
Lemma ec2_sr : forall crv x y d opt, same_or_refused (ec2_init X crv x y d opt false) (ec2_init X crv x y d opt true).
Proof. intros. unfold ec2_init. apply sr_bind; [apply common_sr|]. intros k. apply sr_refl. Qed.
Lemma rsa_sr : forall a opt, same_or_refused (rsa_init a opt false) (rsa_init a opt true).
Proof.
  intros. unfold rsa_init. cbv zeta. apply sr_bind; [apply sr_refl|]. intros ok. destruct (negb ok); [apply sr_refl|].
  apply sr_bind; [apply common_sr|]. intros k. apply sr_refl.
Qed.

Lemma sym_iff : forall kv opt k, sym_init kv opt true = Ok k -> (sym_init kv opt false = Ok k <-> options_known FSym opt).
Proof. intros kv opt k H. exact (init_iff KSym opt _ k H). Qed.
Lemma okp_iff : forall crv x d opt k, okp_init crv x d opt true = Ok k -> (okp_init crv x d opt false = Ok k <-> options_known FOKP opt).
Proof. intros crv x d opt k H. exact (init_iff KOKP opt _ k H). Qed.
Lemma ec2_iff : forall crv x y d opt k, ec2_init X crv x y d opt true = Ok k -> (ec2_init X crv x y d opt false = Ok k <-> options_known FEC2 opt).
Proof. intros crv x y d opt k H. exact (init_iff KEC2 opt _ k H). Qed.
Lemma rsa_iff : forall a opt k, rsa_init a opt true = Ok k -> (rsa_init a opt false = Ok k <-> options_known FRSA opt).
Proof.
  intros a opt k H. unfold rsa_init in *. cbv zeta in *. apply bind_ok in H as (ok & HO & H). rewrite HO. cbn [bind].
  destruct (negb ok); [discriminate|]. exact (init_iff KRSA opt _ k H).
Qed.

End WithCrypto.
