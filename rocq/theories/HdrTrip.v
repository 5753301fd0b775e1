(** Round trip of headers and message fields. *)
From Coq Require Import NArith ZArith Bool String Lia.
From Coq Require Import Init.Byte List.
From Verif Require Import Bytes BytesProofs Value ValueProofs Cbor CborProofs SpecData DataProofs Registry
  RegistryProofs Crypto Keys Algorithms Headers Messages Recipients SpecRegistry SpecKeys SpecHdr HdrProofs HdrProofs2 MiscProofs
  SpecTrip KeyTrip KeyTrip2 SpecMsg.
Import ListNotations.
Local Open Scope result_scope.

Definition hlabel (a : pyval) : Prop :=
  (exists p n, a = VClass p /\ In (p, n) (registered FHdr)) \/
  (exists z, a = VInt z /\ unknown_attr FHdr (VInt z)) \/
  (exists u, a = VStr u /\ unknown_attr FHdr (VStr u)).

Lemma hdr_fam : forall p n, In (p, n) (registered FHdr) -> c_fam p = FHdr.
Proof. intros p n H. eapply registered_fam; [eassumption|auto]. Qed.

Lemma hdr_not_alg : forall p n, In (p, n) (registered FHdr) -> c_fam p <> FAlg.
Proof. intros p n H E. rewrite (hdr_fam _ _ H) in E. discriminate. Qed.

Lemma wire_hlabel : forall h a, hlabel a ->
  from_id FHdr true (wire cls_fullname h a) = Ok a /\
  ((exists z, wire cls_fullname h a = VInt z) \/ (exists u, wire cls_fullname h a = VStr u)) /\
  data_value true (wire cls_fullname h a) = true.
Proof.
  intros h a [(p & n & -> & HI)|[(z & -> & HU)|(u & -> & HU)]].
  - rewrite (wire_class h p) by (eapply hdr_not_alg; eassumption). split; [|split; [eauto|reflexivity]].
    eapply from_id_spells; [eassumption|]. reflexivity.
  - split; [|split; [left; exists z; reflexivity|reflexivity]]. apply (from_id_unknown _ _ HU).
  - split; [|split; [right; exists u; reflexivity|reflexivity]]. apply (from_id_unknown _ _ HU).
Qed.

Lemma hlabel_keyeq : forall a b, hlabel a -> hlabel b -> keyeq a b = true -> a = b.
Proof.
  intros a b HA HB E. destruct HA as [(p & n & -> & _)|[(z & -> & _)|(u & -> & _)]].
  - apply keyeq_class in E. congruence.
  - destruct HB as [(q & n & -> & _)|[(z' & -> & _)|(u & -> & _)]]; try discriminate.
    rewrite keyeq_int in E. apply Z.eqb_eq in E. congruence.
  - destruct HB as [(q & n & -> & _)|[(z' & -> & _)|(u' & -> & _)]]; try discriminate.
    rewrite keyeq_str in E. apply bytes_eqb_eq in E. congruence.
Qed.

Lemma wire_hlabel_eq : forall h a b, hlabel a -> hlabel b ->
  keyeq (wire cls_fullname h a) (wire cls_fullname h b) = keyeq a b.
Proof.
  intros h a b HA HB. destruct (wire_hlabel h a HA) as (FA & LA & _). destruct (wire_hlabel h b HB) as (FB & LB & _).
  destruct (keyeq a b) eqn:E.
  - assert (a = b) by (apply hlabel_keyeq; assumption). subst b. apply keyeq_refl.
  - destruct (keyeq (wire cls_fullname h a) (wire cls_fullname h b)) eqn:E'; [|reflexivity].
    assert (HE : wire cls_fullname h a = wire cls_fullname h b).
    { destruct LA as [[z HZ]|[u HU]]; destruct LB as [[z' HZ']|[u' HU']]; rewrite ?HZ, ?HZ', ?HU, ?HU' in *; try discriminate.
      - rewrite keyeq_int in E'. apply Z.eqb_eq in E'. congruence.
      - rewrite keyeq_str in E'. apply bytes_eqb_eq in E'. congruence. }
    rewrite HE in FA. rewrite FA in FB. injection FB as ->. rewrite keyeq_refl in E. discriminate.
Qed.

Lemma hdr_registered : forall z, In z (map (fun e => c_id (fst e)) (registered FHdr)) -> exists n, In (Cls FHdr z, n) (registered FHdr).
Proof.
  intros z H. apply in_map_iff in H as ([p n] & E & HI). cbn [fst] in E. subst z. exists n.
  pose proof (hdr_fam _ _ HI) as HF. destruct p as [f z]. cbn [c_fam c_id] in *. subst f. exact HI.
Qed.


Lemma hdr_known : forall z, existsb (Z.eqb z) [1; 2; 3; -1; -2; 4; 5; 6; 9; 10]%Z = true ->
  exists n, In (Cls FHdr z, n) (registered FHdr).
Proof.
  intros z H. apply hdr_registered. apply existsb_exists in H as (w & HI & E). apply Z.eqb_eq in E. subst w.
  cbn [In] in HI. repeat (destruct HI as [<-|HI]; [vm_compute; tauto|]). contradiction.
Qed.

Lemma hlabel_hdr : forall z, existsb (Z.eqb z) [1; 2; 3; -1; -2; 4; 5; 6; 9; 10]%Z = true -> hlabel (hdr z).
Proof. intros z H. destruct (hdr_known z H) as [n Hn]. left. exists (Cls FHdr z), n. auto. Qed.

Lemma header_label : forall X a v, header_ok X a v -> hlabel a.
Proof.
  intros X a v H. destruct H.
  - apply (hlabel_hdr 1). reflexivity.
  - apply (hlabel_hdr 2). reflexivity.
  - apply (hlabel_hdr 3). reflexivity.
  - apply hlabel_hdr. cbn [In bstr_headers] in H. intuition subst; reflexivity.
  - apply hlabel_hdr. cbn [In] in H. intuition subst; reflexivity.
  - apply hlabel_hdr. cbn [In] in H. intuition subst; reflexivity.
  - left. eauto.
  - right; left. eauto.
  - right; right. eauto.
Qed.

Section Trip.
Variable X : crypto.
Variable h : hook.

Definition hdrs_ok (s : dict) : Prop := Forall (fun e => header_ok X (fst e) (snd e)) s.

Lemma key_trip : forall k, portable X k -> exists k', from_dict X (VDict (W h (k_store k))) = Ok k' /\ same_key k k'.
Proof.
  intros [c s e] HP. assert (e = []) by apply HP. subst e.
  destruct (from_dict_trip X h c s HP) as (s' & HF & HD & _). exists (Key c s' []). split; [exact HF|].
  split; [reflexivity|split; [reflexivity|exact HD]].
Qed.

Lemma wire_kval : forall k, portable X k -> wire cls_fullname h (kval k) = VDict (W h (k_store k)).
Proof.
  intros [c s e] HP. unfold kval. cbn [k_cls k_store k_extra]. rewrite wire_key. rewrite (sent_portable c); [reflexivity|]. apply HP.
Qed.

Lemma label_array_plain : forall v, is_label_array v -> plain v.
Proof.
  intros v (l & -> & _ & HF). unfold plain. cbn [data_value negb andb]. apply forallb_forall. intros x HI.
  rewrite Forall_forall in HF. destruct (HF x HI) as [[z ->]|[[b ->]|[u ->]]]; reflexivity.
Qed.

Lemma header_wire : forall a v, header_ok X a v ->
  data_value false (wire cls_fullname h v) = true /\
  exists w, parse_value X a (wire cls_fullname h v) = Ok w /\ same_value a v w.
Proof.
  intros a v H. destruct H.
  - split; [eapply wire_known; eassumption|]. exists v. split; [|left; reflexivity].
    apply (from_id_wire_class h FAlg v). exact H.
  - pose proof (label_array_plain _ H) as HP. rewrite (wire_plain h _ _ HP). split; [exact HP|].
    exists v. split; [|left; reflexivity]. destruct H as (l & -> & HN & HF).
    change (crit_is_array (VList l) = Ok (VList l)). unfold crit_is_array.
    replace (Nat.ltb (length l) 1) with false by (destruct l; [elim HN; reflexivity|reflexivity]).
    replace (forallb int_or_str l) with true; [reflexivity|]. symmetry. apply forallb_forall. intros x HI.
    rewrite Forall_forall in HF. destruct (HF x HI) as [[z ->]|[[b ->]|[u ->]]]; reflexivity.
  - assert (HW : wire cls_fullname h v = v) by (destruct H as [(z & -> & _)|(u & ->)]; reflexivity). rewrite HW.
    split; [destruct H as [(z & -> & _)|(u & ->)]; reflexivity|]. exists v. split; [|left; reflexivity].
    change (content_type_is_uint_or_tstr v = Ok v).
    destruct H as [(z & -> & HZ)|(u & ->)]; [|reflexivity]. cbn [content_type_is_uint_or_tstr as_int].
    destruct (Z.ltb_spec z 0); [lia|reflexivity].
  - split; [reflexivity|]. exists (VBytes b). split; [|left; reflexivity].
    cbn [In bstr_headers] in H. intuition subst; reflexivity.
  - rewrite (wire_kval _ H0). split; [apply (wire_store_data h (k_cls k)); apply H0|].
    destruct (key_trip _ H0) as (k' & HF & HS). exists (kval k'). split; [|right; split; [cbn [In] in H; destruct H as [<-|[<-|[]]]; auto|]; exists k, k'; auto].
    cbn [In] in H. destruct H as [<-|[<-|[]]]; cbn [parse_value hdr]; rewrite HF; reflexivity.
  - rewrite wire_dict. split; [apply (wire_store_data h (k_cls k)); apply H0|].
    destruct (key_trip _ H0) as (k' & HF & HS). exists (kval k'). split; [|right; split; [cbn [In] in H; destruct H as [<-|[<-|[]]]; auto|]; exists k, k'; auto].
    cbn [In] in H. destruct H as [<-|[<-|[]]]; cbn [parse_value hdr]; rewrite HF; reflexivity.
  - rewrite (wire_plain h _ _ H1). split; [exact H1|]. exists v. split; [|left; reflexivity].
    pose proof (hdr_fam _ _ H) as HF. destruct c as [f z]. cbn [c_fam c_id] in *. subst f.
    unfold parse_value. cbn [In parsed_headers app bstr_headers] in H0.
    repeat match goal with |- context [match ?x with _ => _ end] => destruct x; try reflexivity end;
      elim H0; tauto.
  - rewrite (wire_plain h _ _ H0). split; [exact H0|]. exists v. split; [reflexivity|left; reflexivity].
  - rewrite (wire_plain h _ _ H0). split; [exact H0|]. exists v. split; [reflexivity|left; reflexivity].
Qed.

Lemma distinct_WH : forall s, Forall (fun e => hlabel (fst e)) s -> distinct_keys s = true -> distinct_keys (W h s) = true.
Proof.
  intros s H. induction H as [|[a v] s HA H IH]; [reflexivity|]. cbn [map distinct_keys wire_pair fst snd] in *.
  intros HD. apply andb_true_iff in HD as [HN HD]. rewrite (IH HD), andb_true_r.
  apply negb_true_iff. apply negb_true_iff in HN. rewrite <- HN. clear HN HD IH.
  induction H as [|[b w] s HB H IH]; [reflexivity|]. cbn [map existsb fst snd] in *.
  rewrite IH. f_equal. apply (wire_hlabel_eq h); assumption.
Qed.

Lemma hdrs_labels : forall s, hdrs_ok s -> Forall (fun e => hlabel (fst e)) s.
Proof. intros s H. eapply Forall_impl; [|exact H]. intros [a v] HP. eapply header_label. exact HP. Qed.

Lemma sendable_data : forall s, sendable X s -> data_value false (VDict (W h s)) = true.
Proof.
  intros s [HD HF]. cbn [data_value]. rewrite (distinct_WH s (hdrs_labels _ HF) HD). cbn [andb].
  apply forallb_forall. intros e HE. apply in_map_iff in HE as ([a v] & <- & HI). unfold wire_pair. cbn [fst snd].
  rewrite Forall_forall in HF. specialize (HF _ HI). cbn [fst snd] in HF.
  destruct (wire_hlabel h a (header_label _ _ _ HF)) as (_ & _ & HL). rewrite HL.
  apply (header_wire a v HF).
Qed.

Lemma parse_W : forall s acc, Forall (fun e => header_ok X (fst e) (snd e)) s -> distinct_keys s = true ->
  (forall a, In a (map fst s) -> dget acc a = None) ->
  exists s', parse_items X true (W h s) acc = Ok (acc ++ s') /\ same_headers s s'.
Proof.
  intros s. induction s as [|[a v] s IH]; intros acc HF HD HA.
  - exists []. cbn [map parse_items]. rewrite app_nil_r. split; [reflexivity|constructor].
  - inversion HF as [|? ? H1 H2]; subst. cbn [fst snd] in H1.
    cbn [distinct_keys] in HD. apply andb_true_iff in HD as [HN HD]. apply negb_true_iff in HN.
    destruct (header_wire a v H1) as (_ & w & HP & HS).
    pose proof (header_label _ _ _ H1) as HL. destruct (wire_hlabel h a HL) as (HI & _ & _).
    cbn [map parse_items]. unfold wire_pair at 1. cbn [fst snd]. rewrite HI. cbn [bind]. rewrite HP. cbn [bind].
    assert (HDS : dset acc a w = acc ++ [(a, w)]).
    { assert (HG : dget acc a = None) by (apply HA; left; reflexivity). clear - HG.
      induction acc as [|[b x] acc IH]; [reflexivity|]. cbn [dget dset app] in *.
      destruct (keyeq a b) eqn:E; [discriminate|]. rewrite IH by assumption. reflexivity. }
    rewrite HDS. destruct (IH (acc ++ [(a, w)]) H2 HD) as (s' & HS' & HSame).
    + intros b HB. assert (HG : dget acc b = None) by (apply HA; right; assumption).
      apply in_map_iff in HB as ([b' x] & E & HIb). cbn [fst] in E. subst b'.
      assert (HK : keyeq b a = false).
      { destruct (keyeq b a) eqn:E; [|reflexivity]. rewrite <- HN. symmetry. apply existsb_exists. exists (b, x). split; [assumption|].
        cbn [fst]. assert (HLb : hlabel b). { pose proof (hdrs_labels _ H2) as HLs. rewrite Forall_forall in HLs. apply (HLs _ HIb). }
        rewrite (hlabel_keyeq _ _ HLb HL E). apply keyeq_refl. }
      clear - HG HK. induction acc as [|[d x] acc IH]; cbn [dget app] in *; [rewrite HK; reflexivity|].
      destruct (keyeq b d); [discriminate|auto].
    + exists ((a, w) :: s'). rewrite HS', <- app_assoc. split; [reflexivity|]. constructor; [|assumption]. auto.
Qed.

Lemma sendable_trip : forall s, sendable X s ->
  exists s', parse_items X true (W h s) [] = Ok s' /\ same_headers s s'.
Proof. intros s [HD HF]. apply (parse_W s []); auto. Qed.
End Trip.
