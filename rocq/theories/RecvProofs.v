(** Repeated labels and array lengths of received messages. *)
From Coq Require Import NArith ZArith Bool String Lia.
From Coq Require Import Init.Byte List.
From Verif Require Import Bytes BytesProofs Value ValueProofs Cbor CborProofs SpecData DataProofs Registry
  RegistryProofs Crypto Keys Algorithms Headers Messages Recipients SpecRegistry SpecHdr HdrProofs HdrProofs2 KeyProofs ReprProofs SpecRecv.
Import ListNotations.
Local Open Scope result_scope.

Lemma sent_item : forall t items, sendable t items -> loads (sent t items) = lift false (CTag t (CArr items)).
Proof.
  intros t items H. unfold sent, loads, loads_bytes. rewrite <- (app_nil_r (enc _)). rewrite (decode_item_enc _ [] H). reflexivity.
Qed.

Lemma wfc_items : forall t items, sendable t items <-> N.ltb t two64 = true /\ N.ltb (N.of_nat (length items)) max_len = true /\ forallb wfc items = true.
Proof. intros t items. unfold sendable. cbn [wfc]. rewrite !andb_true_iff. tauto. Qed.

Lemma lift_map : forall imm es, lift imm (CMap es) =
  (kvs <- mapM (fun kv => k' <- lift true (fst kv) ;; v' <- lift imm (snd kv) ;; Ok (k', v')) es ;; Ok (VDict (dict_of_pairs kvs))).
Proof.
  intros imm es. cbn [lift]. f_equal. apply mapM_ext. intros [k v] _. reflexivity.
Qed.

(** ** Repeated labels *)

Definition plain_key (v : pyval) : Prop := match v with VInt _ | VStr _ => True | _ => False end.

Lemma label_plain : forall k v, label k -> lift true k = Ok v -> plain_key v.
Proof. intros k v H E. destruct k; try contradiction; injection E as <-; exact I. Qed.

Lemma plain_keyeq : forall a b, plain_key a -> plain_key b -> keyeq a b = true -> a = b.
Proof. intros a b HA HB H. destruct a; try contradiction; destruct b; try contradiction; unfold keyeq in H; cbn [knorm] in H; apply veqb_eq in H; exact H. Qed.

Lemma pairs_keys : forall l d k v, In (k, v) (dupdate d l) -> In k (map fst d) \/ In k (map fst l).
Proof.
  induction l as [|[a x] l IH]; intros d k v H; [left; apply (in_map fst) in H; exact H|].
  rewrite dupdate_cons in H. apply IH in H as [H|H]; [|right; right; exact H].
  assert (HS : forall d, In k (map fst (dset d a x)) -> In k (map fst d) \/ k = a).
  { clear. induction d as [|[b y] d IH]; cbn [dset map fst In]; intros H; [destruct H as [H|[]]; auto|].
    destruct (keyeq a b); cbn [map fst In] in *; [tauto|]. destruct H as [H|H]; [auto|]. apply IH in H. tauto. }
  apply HS in H as [H| ->]; [left; exact H|right; left; reflexivity].
Qed.

Lemma pairs_entry : forall l k v, Forall plain_key (map fst l) -> In (k, v) (dict_of_pairs l) -> In (k, v) l.
Proof.
  intros l k v HF H. pose proof (In_dget _ _ _ (dnodup_of_pairs l) H) as HG. apply of_pairs_get in HG as (k' & HI & HE).
  destruct (pairs_keys _ _ _ _ H) as [[]|HK]. rewrite Forall_forall in HF.
  apply (plain_keyeq k k') in HE; [subst; exact HI|apply HF; exact HK|apply HF; apply (in_map fst) in HI; exact HI].
Qed.

Lemma dset_twice : forall k v w, dset (dset [] k w) k v = dset [] k v.
Proof. intros k v w. cbn [dset]. rewrite keyeq_refl. reflexivity. Qed.

Lemma dup_lift : forall imm k w x v es, lift imm w = Ok x ->
  lift imm (CMap ((k, w) :: (k, v) :: es)) = lift imm (CMap ((k, v) :: es)).
Proof.
  intros imm k w x v es HW. rewrite !lift_map. cbn [mapM fst snd]. destruct (lift true k) as [k'|]; cbn [bind]; [|reflexivity].
  rewrite HW. cbn [bind]. destruct (lift imm v) as [v'|]; cbn [bind]; [|reflexivity].
  destruct (mapM _ es) as [kvs|]; cbn [bind]; [|reflexivity]. do 2 f_equal. unfold dict_of_pairs. rewrite !dupdate_cons, dset_twice. reflexivity.
Qed.

Definition wfe (kv : cbor * cbor) : bool := let (k, v) := kv in wfc k && wfc v.
Lemma wfc_map : forall es, wfc (CMap es) = N.ltb (N.of_nat (length es)) max_len && forallb wfe es.
Proof. reflexivity. Qed.

Lemma wfc_map_tail : forall e es, wfc (CMap (e :: es)) = true -> wfc (CMap es) = true.
Proof.
  intros e es H. rewrite wfc_map in *. apply andb_true_iff in H as [H1 H2]. apply andb_true_iff. split.
  - apply N.ltb_lt. apply N.ltb_lt in H1. eapply N.lt_trans; [|exact H1]. change (length (e :: es)) with (S (length es)). lia.
  - exact (proj2 (proj1 (andb_true_iff _ _) H2)).
Qed.

Lemma dup_sendable : forall t p k w v es rest, sendable t (p :: CMap ((k, w) :: (k, v) :: es) :: rest) ->
  sendable t (p :: CMap ((k, v) :: es) :: rest).
Proof.
  intros t p k w v es rest H. apply wfc_items in H as (H1 & H2 & H3). apply wfc_items. split; [exact H1|]. split; [exact H2|].
  cbn [forallb] in *. rewrite !andb_true_iff in *. destruct H3 as (A & B & D). apply wfc_map_tail in B. auto.
Qed.

Lemma arr_lift : forall t l l', mapM (lift false) l = mapM (lift false) l' -> lift false (CTag t (CArr l)) = lift false (CTag t (CArr l')).
Proof. intros t l l' H. cbn [lift]. rewrite H. reflexivity. Qed.

Section Recv.
Variable X : crypto.

Theorem duplicate_unprotected : forall e allow t p k w x v es rest m,
  sendable t (p :: CMap ((k, w) :: (k, v) :: es) :: rest) -> lift false w = Ok x ->
  decode X e allow (sent t (p :: CMap ((k, v) :: es) :: rest)) = Ok m ->
  decode X e allow (sent t (p :: CMap ((k, w) :: (k, v) :: es) :: rest)) = Ok m.
Proof.
  intros e allow t p k w x v es rest m HS HW H. unfold decode in *. rewrite sent_item in H by eauto using dup_sendable. rewrite sent_item by assumption.
  rewrite (arr_lift t _ (p :: CMap ((k, v) :: es) :: rest)); [exact H|]. cbn [mapM]. rewrite (dup_lift _ _ _ _ _ _ HW). reflexivity.
Qed.

(** The same message, with another protected field that decodes to the same map. *)
Lemma from_obj_other : forall allow t p p' u rest m,
  (forall pl c, core_init X (Args VNone pl VNone (VBytes []) VNone p false allow) = Ok c ->
     exists raw, core_init X (Args VNone pl VNone (VBytes []) VNone p' false allow) = Ok (with_phdr c (phdr c) raw)) ->
  from_cose_obj X allow t (p :: u :: rest) = Ok m ->
  exists m' raw, from_cose_obj X allow t (p' :: u :: rest) = Ok m' /\ message_tag m' = message_tag m /\
    message_core m' = with_phdr (message_core m) (phdr (message_core m)) raw.
Proof.
  intros allow t p p' u rest m HP H.
  assert (HC : forall c r, core_from_obj X allow (p :: u :: rest) = Ok (c, r) -> exists raw, core_from_obj X allow (p' :: u :: rest) = Ok (with_phdr c (phdr c) raw, r)).
  { intros c r HC. unfold core_from_obj in *. apply bind_ok in HC as (c0 & HI & HC). destruct (HP _ _ HI) as [raw ->]. cbn [bind].
    destruct rest as [|pl rest']; [discriminate|]. apply bind_ok in HC as (pl' & -> & HC). injection HC as <- <-. exists raw. reflexivity. }
  unfold from_cose_obj in *.
  repeat match type of H with (if ?b then _ else _) = _ => destruct b end; [| | | | | |discriminate];
    apply bind_ok in H as (m0 & HM & H); injection H as <-.
  - unfold enc0_from_obj in *. apply bind_ok in HM as ([c r] & HM & H). injection H as <-. destruct (HC _ _ HM) as [raw ->].
    do 2 eexists. split; [reflexivity|]. split; reflexivity.
  - unfold mac0_from_obj in *. apply bind_ok in HM as ([c r] & HM & H). destruct (HC _ _ HM) as [raw ->]. cbn [bind].
    destruct r; [discriminate|]. injection H as <-. do 2 eexists. split; [reflexivity|]. split; reflexivity.
  - unfold sign1_from_obj in *. apply bind_ok in HM as ([c r] & HM & H). destruct (HC _ _ HM) as [raw ->]. cbn [bind].
    destruct r; [discriminate|]. injection H as <-. do 2 eexists. split; [reflexivity|]. split; reflexivity.
  - unfold enc_from_obj in *. apply bind_ok in HM as ([c r] & HM & H). destruct (HC _ _ HM) as [raw ->]. cbn [bind].
    apply bind_ok in H as (o & -> & H). cbn [bind]. injection H as <-. do 2 eexists. split; [reflexivity|]. split; reflexivity.
  - unfold mac_from_obj in *. apply bind_ok in HM as ([c r] & HM & H). destruct (HC _ _ HM) as [raw ->]. cbn [bind].
    destruct r; [discriminate|]. apply bind_ok in H as (o & -> & H). cbn [bind]. injection H as <-. do 2 eexists. split; [reflexivity|]. split; reflexivity.
  - unfold sign_from_obj in *. apply bind_ok in HM as ([c r] & HM & H). destruct (HC _ _ HM) as [raw ->]. cbn [bind].
    destruct r; [discriminate|]. apply bind_ok in H as (l & -> & H). cbn [bind]. apply bind_ok in H as (s & -> & H). cbn [bind]. injection H as <-.
    do 2 eexists. split; [reflexivity|]. split; reflexivity.
Qed.

Lemma enc_map_nonempty : forall es, enc (CMap es) <> [].
Proof. intros es H. pose proof (enc_nonempty (CMap es)) as HN. rewrite H in HN. cbn in HN. lia. Qed.

Lemma raw_init : forall allow u b b' c, b <> [] -> b' <> [] -> loads_bytes b' = loads_bytes b ->
  core_init X (Args VNone u VNone (VBytes []) VNone (VBytes b) false allow) = Ok c ->
  core_init X (Args VNone u VNone (VBytes []) VNone (VBytes b') false allow) = Ok (with_phdr c (phdr c) (Some b')).
Proof.
  intros allow u b b' c HB HB' HL H. unfold core_init in *. cbn [a_phdr a_uhdr a_payload a_aad a_key a_phdr_encoded a_tstr a_allow] in *.
  assert (E : forall q, q <> [] -> veqb (VBytes q) (VBytes []) = false).
  { intros q HQ. destruct (veqb (VBytes q) (VBytes [])) eqn:E; [|reflexivity]. apply veqb_eq in E. congruence. }
  rewrite (E _ HB) in H. rewrite (E _ HB'). cbn [loads] in *. rewrite HL. destruct (loads_bytes b) as [ph|]; [|discriminate]. cbn [bind] in *.
  destruct ph; try discriminate.
  match type of H with match ?g with _ => _ end = _ => destruct g; try discriminate end.
  apply bind_ok in H as (p0 & HP & H). rewrite HP. cbn [bind]. apply bind_ok in H as (u0 & HU & H). rewrite HU.
  cbn [bind check_payload check_aad as_bytes check_key] in *. injection H as <-. reflexivity.
Qed.

Theorem duplicate_protected : forall e allow t k w x v es u rest m,
  let pm es := CBytes (enc (CMap es)) in
  sendable t (pm ((k, w) :: (k, v) :: es) :: u :: rest) -> wfc (CMap ((k, w) :: (k, v) :: es)) = true -> lift false w = Ok x ->
  decode X e allow (sent t (pm ((k, v) :: es) :: u :: rest)) = Ok m -> sendable t (pm ((k, v) :: es) :: u :: rest) ->
  exists m' raw, decode X e allow (sent t (pm ((k, w) :: (k, v) :: es) :: u :: rest)) = Ok m' /\ message_tag m' = message_tag m /\
    message_core m' = with_phdr (message_core m) (phdr (message_core m)) raw.
Proof.
  intros e allow t k w x v es u rest m pm HS HWf HW H HS1. unfold decode in *. rewrite sent_item in H by assumption. rewrite sent_item by assumption.
  cbn [lift mapM] in *. unfold pm in *. destruct (lift false u) as [u'|]; cbn [bind] in *; [|discriminate].
  destruct (mapM (lift false) rest) as [rest'|]; cbn [bind] in *; [|discriminate].
  assert (HWf1 : wfc (CMap ((k, v) :: es)) = true) by (eapply wfc_map_tail; exact HWf).
  assert (HLo : forall es0, wfc (CMap es0) = true -> loads_bytes (enc (CMap es0)) = lift false (CMap es0)).
  { intros es0 H0. unfold loads_bytes. rewrite <- (app_nil_r (enc _)), (decode_item_enc _ [] H0). reflexivity. }
  destruct (t =? 2)%N; [discriminate|]. destruct (t =? 3)%N; [discriminate|]. destruct (t =? 55799)%N; [discriminate|].
  destruct (is_special_tag t); [discriminate|].
  apply bind_ok in H as (m0 & HM & H).
  destruct (from_obj_other allow t (VBytes (enc (CMap ((k, v) :: es)))) (VBytes (enc (CMap ((k, w) :: (k, v) :: es)))) u' rest' m0) as (m' & raw & HM' & HT & HC);
    [|exact HM|].
  { intros pl c HI. eexists. eapply raw_init; [apply (enc_map_nonempty ((k, v) :: es))|apply enc_map_nonempty| |exact HI].
    rewrite !HLo by assumption. apply (dup_lift _ _ _ _ _ _ HW). }
  cbn [lift bind]. rewrite HM'. cbn [bind]. destruct e as [t'|]; [|injection H as <-; eauto 6].
  rewrite HT. destruct (message_tag m0 =? t')%N; [|discriminate]. injection H as <-. eauto 6.
Qed.

(** ** Where the value of a header comes from *)

Lemma parse_origin : forall allow d acc h a w, parse_items X allow d acc = Ok h -> dget h a = Some w ->
  dget acc a = Some w \/ exists k v a', In (k, v) d /\ from_id FHdr allow k = Ok a' /\ keyeq a a' = true /\ parse_value X a' v = Ok w.
Proof.
  intros allow d. induction d as [|[k v] d IH]; intros acc h a w H HG; [injection H as <-; auto|].
  cbn [parse_items] in H. apply bind_ok in H as (a' & HA & H). apply bind_ok in H as (v' & HV & H).
  destruct (IH _ _ _ _ H HG) as [HD|(k0 & v0 & a0 & HI & R)].
  - destruct (keyeq a a') eqn:E.
    + rewrite dget_dset_same in HD by exact E. injection HD as <-. right. exists k, v, a'. split; [left; reflexivity|auto].
    + rewrite dget_dset_other in HD by exact E. auto.
  - right. exists k0, v0, a0. split; [right; exact HI|exact R].
Qed.

Definition lift_entry (kv : cbor * cbor) : result (pyval * pyval) :=
  k' <- lift true (fst kv) ;; v' <- lift false (snd kv) ;; Ok (k', v').

Lemma lifted : forall es kvs, mapM lift_entry es = Ok kvs ->
  Forall2 (fun e f => lift true (fst e) = Ok (fst f) /\ lift false (snd e) = Ok (snd f)) es kvs.
Proof.
  induction es as [|e es IH]; intros kvs H; [injection H as <-; constructor|].
  apply mapM_cons_ok in H as (f & kvs' & HF & HM & ->). constructor; [|apply IH; exact HM].
  unfold lift_entry in HF. apply bind_ok in HF as (k & HK & HF). apply bind_ok in HF as (v & HV & HF). injection HF as <-. auto.
Qed.

Lemma lifted_plain : forall es kvs, Forall label (map fst es) ->
  Forall2 (fun e f => lift true (fst e) = Ok (fst f) /\ lift false (snd e) = Ok (snd f)) es kvs -> Forall plain_key (map fst kvs).
Proof.
  intros es kvs HL H. induction H as [|e f es kvs [HK _] H IH]; [constructor|]. cbn [map] in *. inversion_clear HL as [|? ? H0 H1].
  constructor; [eapply label_plain; eassumption|auto].
Qed.

Lemma Forall2_In_r : forall A B (P : A -> B -> Prop) l m y, Forall2 P l m -> In y m -> exists x, In x l /\ P x y.
Proof. intros A B P l m y H. induction H as [|a b l m HP H IH]; intros []; [subst; exists a; split; [left; reflexivity|exact HP]|]. destruct IH as (x & ? & ?); [assumption|]. exists x. split; [right; assumption|assumption]. Qed.

Lemma value_from_entry : forall allow es d h c n w, Forall label (map fst es) -> lift false (CMap es) = Ok (VDict d) -> parse_items X allow d [] = Ok h ->
  In (c, n) (registered FHdr) -> dget h (VClass c) = Some w ->
  exists k v y, In (k, v) es /\ labels c n k /\ lift false v = Ok y /\ header_value X c y w.
Proof.
  intros allow es d h c n w HL HD HP HI HG. rewrite lift_map in HD. apply bind_ok in HD as (kvs & HM & HD). injection HD as <-.
  pose proof (lifted _ _ HM) as H2. destruct (parse_origin _ _ _ _ _ _ HP HG) as [H|(k & v & a' & HIn & HF & HE & HV)]; [discriminate|].
  apply pairs_entry in HIn; [|eapply lifted_plain; eassumption].
  apply keyeq_class in HE. subst a'. destruct (Forall2_In_r _ _ _ _ _ _ H2 HIn) as ([k0 v0] & HI0 & HK & HY). cbn [fst snd] in *.
  exists k0, v0, v. split; [exact HI0|]. split; [|split; [exact HY|eapply parse_value_hdr; eassumption]].
  exists k. split; [exact HK|]. destruct (from_id_cases _ _ _ _ HF) as [(c' & n' & HI' & HS & E)|[(_ & HU & E)|(l & l' & _ & E & _)]]; [| |discriminate].
  - injection E as ->. destruct (registered_id_unique _ _ _ _ _ HI' HI) as [_ <-]; [reflexivity|exact HS].
  - subst k. assert (HPK : plain_key (VClass c)); [|destruct HPK].
    pose proof (lifted_plain _ _ HL H2) as HPl. rewrite Forall_forall in HPl. apply HPl. apply (in_map fst) in HIn. exact HIn.
Qed.
Lemma unique_entry : forall allow pre k v post d h c n, Forall label (map fst (pre ++ (k, v) :: post)) ->
  lift false (CMap (pre ++ (k, v) :: post)) = Ok (VDict d) -> parse_items X allow d [] = Ok h ->
  In (c, n) (registered FHdr) -> labels c n k -> (forall k' v', In (k', v') (pre ++ post) -> ~ labels c n k') ->
  exists y w, lift false v = Ok y /\ dget h (VClass c) = Some w /\ header_value X c y w.
Proof.
  intros allow pre k v post d h c n HL HD HP HI HK HO. rewrite lift_map in HD. apply bind_ok in HD as (kvs & HM & HD). injection HD as <-.
  pose proof (lifted _ _ HM) as H2. pose proof (lifted_plain _ _ HL H2) as HPl. pose proof (parse_items_normal X _ _ _ HP c n HI) as (HN & _ & _).
  destruct HK as (kv & HK & HS).
  assert (HU : forall k' y, In (k', y) kvs -> spells c n k' -> k' = kv /\ lift false v = Ok y).
  { intros k' y HIn HS'. destruct (Forall2_In_r _ _ _ _ _ _ H2 HIn) as ([k0 v0] & HI0 & E1 & E2). cbn [fst snd] in *.
    apply in_app_or in HI0 as [HI0|[HI0|HI0]].
    - exfalso. apply (HO k0 v0); [apply in_or_app; auto|exists k'; auto].
    - injection HI0 as <- <-. split; [congruence|exact E2].
    - exfalso. apply (HO k0 v0); [apply in_or_app; auto|exists k'; auto]. }
  assert (HE : exists y, In (kv, y) kvs /\ lift false v = Ok y).
  { apply Forall2_app_inv_l in H2 as (l1 & l2 & _ & H2 & ->). inversion_clear H2 as [|? f ? l3 [E1 E2] _]. destruct f as [a y]. cbn [fst snd] in *.
    exists y. split; [|exact E2]. apply in_or_app. right. left. congruence. }
  destruct HE as (y & HIn & HY).
  assert (HD : In (kv, y) (dict_of_pairs kvs)).
  { pose proof (of_pairs_mem _ _ _ HIn) as HMem. unfold dmem in HMem. destruct (dget (dict_of_pairs kvs) kv) as [y'|] eqn:EG; [|discriminate].
    apply dget_In in EG as (k' & HI' & HE'). pose proof (pairs_entry _ _ _ HPl HI') as HI2. rewrite Forall_forall in HPl.
    apply plain_keyeq in HE'; [subst k'|apply HPl; apply (in_map fst) in HIn; exact HIn|apply HPl; apply (in_map fst) in HI2; exact HI2].
    destruct (HU _ _ HI2 HS) as [_ HY']. assert (y' = y) by congruence. subst y'. exact HI'. }
  apply in_split in HD as (d1 & d2 & HD).
  destruct (HN y) as (w & HG & HV).
  - exists d1, kv, d2. split; [exact HD|]. split; [exact HS|]. intros k' v' HI2 HS'.
    assert (HIn' : In (k', v') (dict_of_pairs kvs)) by (rewrite HD; apply in_or_app; right; right; exact HI2).
    destruct (HU _ _ (pairs_entry _ _ _ HPl HIn') HS') as [-> _].
    pose proof (dnodup_of_pairs kvs) as HND. rewrite HD in HND. clear -HND HI2. induction d1 as [|[a b] d1 IH]; cbn [app dnodup] in HND.
    + apply andb_true_iff in HND as [HND _]. apply negb_true_iff in HND. unfold dmem in HND. destruct (dget d2 kv) eqn:E; [discriminate|].
      revert E HI2. clear. induction d2 as [|[a b] d2 IH]; intros E HI2; [exact HI2|]. cbn [dget] in E. destruct (keyeq kv a) eqn:EK; [discriminate|].
      destruct HI2 as [HI2|HI2]; [injection HI2 as -> ->; rewrite keyeq_refl in EK; discriminate|auto].
    + apply andb_true_iff in HND as [_ HND]. auto.
  - exists y, w. auto.
Qed.

Lemma decode_maps : forall e allow b r t items m, decode_item b = Ok (CTag t (CArr items), r) -> decode X e allow (VBytes b) = Ok m ->
  exists p u pl rest, items = p :: u :: pl :: rest /\ exists p' u' rest', lift false p = Ok p' /\ lift false u = Ok u' /\
    mapM (lift false) (pl :: rest) = Ok rest' /\ t = message_tag m /\ from_cose_obj X allow t (p' :: u' :: rest') = Ok m.
Proof.
  intros e allow b r t items m HB H. apply decode_inv in H as (b' & obj & E & HL & _ & HF & rest & HC). injection E as <-.
  unfold loads_bytes in HL. rewrite HB in HL. cbn [bind lift] in HL. apply bind_ok in HL as (v & HM & HL).
  apply bind_ok in HM as (l & HM & E). injection E as <-.
  assert (HT : t = message_tag m /\ l = obj).
  { destruct (t =? 2)%N; [discriminate|]. destruct (t =? 3)%N; [discriminate|]. destruct (t =? 55799)%N; [discriminate|].
    destruct (is_special_tag t); [discriminate|]. injection HL as <- <-. auto. }
  destruct HT as [-> ->]. pose proof HC as HC'. apply core_from_obj_inv in HC' as (p' & u' & pl' & c0 & -> & _).
  destruct items as [|p items]; [discriminate|]. apply mapM_cons_ok in HM as (q & qs & HP & HM & E). injection E as <- <-.
  destruct items as [|u items]; [discriminate|]. apply mapM_cons_ok in HM as (q & qs & HU & HM & E). injection E as <- <-.
  destruct items as [|pl items]; [discriminate|]. exists p, u, pl, items. split; [reflexivity|]. exists p', u', (pl' :: rest). auto 6.
Qed.

Lemma map_dict : forall es v, lift false (CMap es) = Ok v -> exists d, v = VDict d.
Proof. intros es v H. rewrite lift_map in H. apply bind_ok in H as (kvs & _ & H). injection H as <-. eauto. Qed.

Lemma unprotected_parsed : forall e allow b r t p es rest m, decode_item b = Ok (CTag t (CArr (p :: CMap es :: rest)), r) ->
  decode X e allow (VBytes b) = Ok m ->
  exists d, lift false (CMap es) = Ok (VDict d) /\ parse_items X allow d [] = Ok (uhdr (message_core m)).
Proof.
  intros e allow b r t p es rest m HB H. destruct (decode_maps _ _ _ _ _ _ _ HB H) as (p0 & u & pl & rs & E & p' & u' & rest' & HP & HU & _ & _ & HF).
  injection E as <- <- _. apply from_cose_obj_core in HF as (_ & rr & HC). apply core_from_obj_inv in HC as (x1 & x2 & x3 & c0 & E & HI & _ & HE).
  injection E as <- <- _. apply core_init_inv in HI as (pd & ud & _ & HUM & _ & HPU & _). cbn [a_uhdr a_allow] in *.
  destruct (map_dict _ _ HU) as [d ->]. exists d. split; [exact HU|]. destruct HUM as [HUM|[HUM _]]; [injection HUM as <-|discriminate].
  rewrite HE. exact HPU.
Qed.

Lemma protected_parsed : forall e allow b r t es q u rest m, decode_item b = Ok (CTag t (CArr (CBytes q :: u :: rest)), r) -> q <> [] ->
  decode_item q = Ok (CMap es, []) -> decode X e allow (VBytes b) = Ok m ->
  exists d, lift false (CMap es) = Ok (VDict d) /\ parse_items X allow d [] = Ok (phdr (message_core m)).
Proof.
  intros e allow b r t es q u rest m HB HQ HD H. destruct (decode_maps _ _ _ _ _ _ _ HB H) as (p0 & u0 & pl & rs & E & p' & u' & rest' & HP & HU & _ & _ & HF).
  injection E as <- <- _. apply from_cose_obj_core in HF as (_ & rr & HC). apply core_from_obj_inv in HC as (x1 & x2 & x3 & c0 & E & HI & _ & HE).
  injection E as <- <- _. apply core_init_inv in HI as (pd & ud & HPM & _ & HPP & _). cbn [a_phdr a_phdr_encoded a_allow] in *.
  injection HP as <-. exists pd. rewrite HE. split; [|exact HPP].
  destruct HPM as [[A _]|[(_ & q' & E & HL)|(_ & [E|E] & _)]]; [discriminate| |discriminate|congruence].
  injection E as <-. unfold loads_bytes in HL. rewrite HD in HL. exact HL.
Qed.

(** ** Lengths *)

Lemma decode_sent : forall e allow t items m, sendable t items -> decode X e allow (sent t items) = Ok m ->
  exists l, mapM (lift false) items = Ok l /\ from_cose_obj X allow t l = Ok m /\ (forall t', e = Some t' -> t' = message_tag m) /\
    forall items' l', sendable t items' -> mapM (lift false) items' = Ok l' -> forall m', from_cose_obj X allow t l' = Ok m' -> message_tag m' = message_tag m ->
      decode X e allow (sent t items') = Ok m'.
Proof.
  intros e allow t items m HS H. unfold decode in H. rewrite (sent_item _ _ HS) in H. cbn [lift] in H.
  destruct (mapM (lift false) items) as [l|]; cbn [bind] in H; [|discriminate]. exists l. split; [reflexivity|].
  assert (HT : (t =? 2)%N = false /\ (t =? 3)%N = false /\ (t =? 55799)%N = false /\ is_special_tag t = false).
  { destruct (t =? 2)%N; [discriminate|]. destruct (t =? 3)%N; [discriminate|]. destruct (t =? 55799)%N; [discriminate|].
    destruct (is_special_tag t); [discriminate|auto]. }
  destruct HT as (T1 & T2 & T3 & T4). rewrite T1, T2, T3, T4 in H. apply bind_ok in H as (m0 & HM & H).
  assert (HE : m0 = m /\ forall t', e = Some t' -> t' = message_tag m).
  { destruct e as [t'|]; [destruct (N.eqb (message_tag m0) t') eqn:E; [|discriminate]|].
    - injection H as <-. split; [reflexivity|]. intros ? Q. injection Q as <-. apply N.eqb_eq in E. congruence.
    - injection H as <-. split; [reflexivity|]. discriminate. }
  destruct HE as [-> HE]. split; [exact HM|]. split; [exact HE|].
  intros items' l' HS' HL' m' HM' HTg. unfold decode. rewrite (sent_item _ _ HS'). cbn [lift]. rewrite HL'. cbn [bind]. rewrite T1, T2, T3, T4, HM'.
  cbn [bind]. destruct e as [t'|]; [|reflexivity]. rewrite HTg, (HE t' eq_refl), N.eqb_refl. reflexivity.
Qed.

Lemma core_from_obj_app : forall allow obj c rest x, core_from_obj X allow obj = Ok (c, rest) -> core_from_obj X allow (obj ++ x) = Ok (c, rest ++ x).
Proof.
  intros allow obj c rest x H. unfold core_from_obj in *. destruct obj as [|p [|u obj]]; try discriminate. cbn [app].
  apply bind_ok in H as (c0 & -> & H). cbn [bind]. destruct obj as [|pl obj]; [discriminate|]. cbn [app]. apply bind_ok in H as (pl' & -> & H).
  cbn [bind]. injection H as <- <-. reflexivity.
Qed.

Lemma core_from_obj_len : forall allow obj c rest, core_from_obj X allow obj = Ok (c, rest) -> length obj = (3 + length rest)%nat.
Proof. intros allow obj c rest H. apply core_from_obj_inv in H as (p & u & pl & c0 & -> & _). reflexivity. Qed.

Lemma recipients_from_app : forall allow ctx v rest x, recipients_from X allow ctx ((v :: rest) ++ x) = recipients_from X allow ctx (v :: rest).
Proof. reflexivity. Qed.

Lemma from_obj_app : forall allow t l m x, from_cose_obj X allow t l = Ok m -> (full_length t <= length l)%nat -> from_cose_obj X allow t (l ++ x) = Ok m.
Proof.
  intros allow t l m x H HL. unfold from_cose_obj, full_length in *.
  destruct (N.eqb t 16) eqn:E1; [|destruct (N.eqb t 17) eqn:E2; [|destruct (N.eqb t 18) eqn:E3; [|destruct (N.eqb t 96) eqn:E4; [|destruct (N.eqb t 97) eqn:E5;
    [|destruct (N.eqb t 98) eqn:E6; [|discriminate]]]]]]; apply bind_ok in H as (m0 & HM & H); injection H as <-.
  - unfold enc0_from_obj in *. apply bind_ok in HM as ([c r] & HC & H). injection H as <-. rewrite (core_from_obj_app _ _ _ _ x HC). reflexivity.
  - unfold mac0_from_obj in *. apply bind_ok in HM as ([c r] & HC & H). rewrite (core_from_obj_app _ _ _ _ x HC). cbn [bind].
    destruct r; [discriminate|]. injection H as <-. reflexivity.
  - unfold sign1_from_obj in *. apply bind_ok in HM as ([c r] & HC & H). rewrite (core_from_obj_app _ _ _ _ x HC). cbn [bind].
    destruct r; [discriminate|]. injection H as <-. reflexivity.
  - unfold enc_from_obj in *. apply bind_ok in HM as ([c r] & HC & H). rewrite (core_from_obj_app _ _ _ _ x HC). cbn [bind].
    apply core_from_obj_len in HC. rewrite HC in HL. destruct r as [|v r]; [apply N.eqb_eq in E4; subst t; cbn in HL; lia|].
    rewrite recipients_from_app. apply bind_ok in H as (o & -> & H). cbn [bind]. injection H as <-. reflexivity.
  - unfold mac_from_obj in *. apply bind_ok in HM as ([c r] & HC & H). rewrite (core_from_obj_app _ _ _ _ x HC). cbn [bind].
    apply core_from_obj_len in HC. rewrite HC in HL. destruct r as [|tg r]; [discriminate|]. cbn [app]. destruct r as [|v r]; [cbn in HL; lia|].
    rewrite recipients_from_app. apply bind_ok in H as (o & -> & H). cbn [bind]. injection H as <-. reflexivity.
  - unfold sign_from_obj in *. apply bind_ok in HM as ([c r] & HC & H). rewrite (core_from_obj_app _ _ _ _ x HC). cbn [bind].
    destruct r as [|v r]; [discriminate|]. cbn [app]. apply bind_ok in H as (l0 & -> & H). cbn [bind]. apply bind_ok in H as (s & -> & H). injection H as <-. reflexivity.
Qed.

Lemma mapM_app_ok : forall A B (f : A -> result B) l m l' m', mapM f l = Ok l' -> mapM f m = Ok m' -> mapM f (l ++ m) = Ok (l' ++ m').
Proof.
  intros A B f l. induction l as [|a l IH]; intros m l' m' H1 H2; [injection H1 as <-; exact H2|].
  apply mapM_cons_ok in H1 as (b & l0 & HB & HL & ->). cbn [app mapM]. rewrite HB. cbn [bind]. rewrite (IH _ _ _ HL H2). reflexivity.
Qed.

Theorem extra_elements : forall e allow t items more xs m, sendable t (items ++ more) -> mapM (lift false) more = Ok xs -> (full_length t <= length items)%nat ->
  sendable t items -> decode X e allow (sent t items) = Ok m -> decode X e allow (sent t (items ++ more)) = Ok m.
Proof.
  intros e allow t items more xs m HS HM HL HS0 H. destruct (decode_sent _ _ _ _ _ HS0 H) as (l & HL0 & HF & _ & HK).
  eapply HK; [exact HS|eapply mapM_app_ok; eassumption| |reflexivity]. apply from_obj_app; [exact HF|].
  rewrite (mapM_ok_length _ _ _ _ _ HL0). exact HL.
Qed.

Theorem missing_recipients : forall e allow p u pl rs m, sendable 96 [p; u; pl; rs] -> decode X e allow (sent 96 [p; u; pl; rs]) = Ok m ->
  exists em, m = MEnc em /\ decode X e allow (sent 96 [p; u; pl]) = Ok (MEnc (EncMsg (e_core em) [])).
Proof.
  intros e allow p u pl rs m HS H. destruct (decode_sent _ _ _ _ _ HS H) as (l & HL0 & HF & _ & HK).
  apply mapM_cons_ok in HL0 as (p' & l1 & HP & HL0 & ->). apply mapM_cons_ok in HL0 as (u' & l2 & HU & HL0 & ->).
  apply mapM_cons_ok in HL0 as (pl' & l3 & HPl & HL0 & ->).
  unfold from_cose_obj in HF. cbn [N.eqb Pos.eqb] in HF. apply bind_ok in HF as (em & HM & HF). injection HF as <-. exists em. split; [reflexivity|].
  apply (HK [p; u; pl] [p'; u'; pl']).
  - apply wfc_items in HS as (A & B & C). apply wfc_items. split; [exact A|]. split; [reflexivity|]. cbn [forallb] in *. rewrite !andb_true_iff in *. tauto.
  - cbn [mapM]. rewrite HP, HU, HPl. reflexivity.
  - unfold enc_from_obj in HM. apply bind_ok in HM as ([c r] & HC & HM). apply bind_ok in HM as (o & _ & HM). injection HM as <-. cbn [e_core].
    unfold from_cose_obj. cbn [N.eqb Pos.eqb]. unfold enc_from_obj. unfold core_from_obj in *. apply bind_ok in HC as (c0 & -> & HC). cbn [bind].
    apply bind_ok in HC as (q & -> & HC). injection HC as <- <-. reflexivity.
  - reflexivity.
Qed.

Definition least_length (t : N) : nat := (if N.eqb t 16 || N.eqb t 96 then 3 else 4)%nat.

Theorem too_few : forall e allow b r t items m, decode_item b = Ok (CTag t (CArr items), r) -> decode X e allow (VBytes b) = Ok m ->
  (least_length t <= length items)%nat.
Proof.
  intros e allow b r t items m HB H. destruct (decode_maps _ _ _ _ _ _ _ HB H) as (p & u & pl & rest & -> & p' & u' & rest' & _ & _ & HM & HT & HF).
  pose proof (mapM_ok_length _ _ _ _ _ HM) as HLn. cbn [length] in *. destruct rest' as [|pl' rest']; [discriminate|]. cbn [length] in HLn. injection HLn as HLn.
  rewrite <- HLn. unfold from_cose_obj, least_length in *. clear HM HB H.
  destruct (N.eqb t 16) eqn:E1; [cbn; lia|]. destruct (N.eqb t 96) eqn:E4; [cbn; lia|]. cbn [orb].
  assert (HR : rest' <> []); [|destruct rest'; [congruence|cbn [length]; lia]]. intros ->.
  assert (HC : forall c r, core_from_obj X allow [p'; u'; pl'] = Ok (c, r) -> r = []).
  { intros c r0 HC. unfold core_from_obj in HC. apply bind_ok in HC as (? & _ & HC). apply bind_ok in HC as (? & _ & HC). injection HC as _ <-. reflexivity. }
  repeat match type of HF with (if ?b then _ else _) = _ => destruct b end; [| | | |discriminate]; apply bind_ok in HF as (m0 & HM & _).
  - unfold mac0_from_obj in HM. apply bind_ok in HM as ([c r0] & HC0 & HM). rewrite (HC _ _ HC0) in HM. discriminate.
  - unfold sign1_from_obj in HM. apply bind_ok in HM as ([c r0] & HC0 & HM). rewrite (HC _ _ HC0) in HM. discriminate.
  - unfold mac_from_obj in HM. apply bind_ok in HM as ([c r0] & HC0 & HM). rewrite (HC _ _ HC0) in HM. discriminate.
  - unfold sign_from_obj in HM. apply bind_ok in HM as ([c r0] & HC0 & HM). rewrite (HC _ _ HC0) in HM. discriminate.
Qed.

Theorem too_few_full : forall e allow b r t items m, decode_item b = Ok (CTag t (CArr items), r) -> decode X e allow (VBytes b) = Ok m ->
  (length items < full_length t)%nat -> (t = 96%N /\ length items = 3%nat) \/ (t = 97%N /\ length items = 4%nat).
Proof.
  intros e allow b r t items m HB H HL. pose proof (too_few _ _ _ _ _ _ _ HB H) as HM. unfold full_length, least_length in *.
  destruct (N.eqb t 16) eqn:E1; [cbn [orb] in HM; lia|]. destruct (N.eqb t 96) eqn:E2; cbn [orb] in HM.
  - apply N.eqb_eq in E2. subst t. cbn [N.eqb Pos.eqb] in HL. left. lia.
  - destruct (N.eqb t 97) eqn:E3; [|lia]. apply N.eqb_eq in E3. right. lia.
Qed.

End Recv.
