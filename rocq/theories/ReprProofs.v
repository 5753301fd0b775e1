(** Lemmas about textual representations (C74, C75). *)
From Coq Require Import NArith ZArith Bool String Lia.
From Coq Require Import Init.Byte List.
From Verif Require Import Bytes Value Cbor Registry Crypto Keys Algorithms Headers Messages Recipients Repr
  SpecHdr SpecRepr BytesProofs ValueProofs CborProofs RegistryProofs HdrProofs KeyProofs.
Import ListNotations.
Local Open Scope result_scope.

(** ** Secrets *)

Definition SE (n : bytes) (e e' : pyval * pyval) : Prop :=
  fst e = fst e' /\ (snd e = snd e' \/
    (fst e = VStr n /\ exists b b', snd e = VBytes b /\ snd e' = VBytes b' /\ same_start b b')).

Lemma SE_refl : forall n e, SE n e e.
Proof. intros. split; [reflexivity|left; reflexivity]. Qed.

Lemma insert_rel : forall (R : pyval * pyval -> pyval * pyval -> Prop), (forall e e', R e e' -> fst e = fst e') ->
  forall l l' e e', R e e' -> Forall2 R l l' -> Forall2 R (insert_entry e l) (insert_entry e' l').
Proof.
  intros R HF l l' e e' HE HL. induction HL as [|x y l l' HXY HL IH]; cbn [insert_entry].
  - constructor; [assumption|constructor].
  - rewrite <- (HF _ _ HE), <- (HF _ _ HXY). destruct (Z.leb _ _).
    + constructor; [assumption|]. constructor; assumption.
    + constructor; assumption.
Qed.

Lemma sort_rel : forall (R : pyval * pyval -> pyval * pyval -> Prop), (forall e e', R e e' -> fst e = fst e') ->
  forall l l', Forall2 R l l' -> Forall2 R (sort_entries l) (sort_entries l').
Proof.
  intros R HF l l' HL. induction HL; cbn [sort_entries fold_right]; [constructor|].
  apply insert_rel; assumption.
Qed.

Lemma keyeq_str_l : forall u v, keyeq (VStr u) v = true -> v = VStr u.
Proof.
  intros u v H. apply keyeq_spec in H. destruct v; cbn [knorm] in H; try discriminate.
  - destruct (float_int bits); discriminate.
  - symmetry. exact H.
Qed.

Lemma dset_rel : forall n d d' e e', SE n e e' -> Forall2 (SE n) d d' ->
  Forall2 (SE n) (dset d (fst e) (snd e)) (dset d' (fst e') (snd e')).
Proof.
  intros n d d' [k v] [k' v'] [HK HV] HL. cbn [fst snd] in *. subst k'.
  induction HL as [|[a x] [a' y] d d' [HA HX] HL IH]; cbn [dset].
  - constructor; [split; [reflexivity|assumption]|constructor].
  - cbn [fst snd] in *. subst a'. destruct (keyeq k a) eqn:E.
    + constructor; [|assumption]. split; [reflexivity|]. cbn [fst snd].
      destruct HV as [HV|[HV HB]]; [left; assumption|]. right. subst k. apply keyeq_str_l in E. subst a. split; [reflexivity|assumption].
    + constructor; [split; [reflexivity|assumption]|assumption].
Qed.

Lemma dupdate_rel : forall n l l' d d', Forall2 (SE n) l l' -> Forall2 (SE n) d d' ->
  Forall2 (SE n) (dupdate d l) (dupdate d' l').
Proof.
  intros n l l' d d' HL. revert d d'. induction HL; intros d d' HD; unfold dupdate; cbn [fold_left]; [assumption|].
  apply IHHL. apply dset_rel; assumption.
Qed.

Lemma dget_rel : forall n k d d', Forall2 (SE n) d d' ->
  match dget d k, dget d' k with
  | None, None => True
  | Some v, Some v' => v = v' \/ (keyeq k (VStr n) = true /\ exists b b', v = VBytes b /\ v' = VBytes b' /\ same_start b b')
  | _, _ => False
  end.
Proof.
  intros n k d d' HL. induction HL as [|[a x] [a' y] d d' [HA HX] HL IH]; cbn [dget]; [exact I|].
  cbn [fst snd] in *. subst a'. destruct (keyeq k a) eqn:E; [|exact IH].
  destruct HX as [HX|[HN HB]]; [left; assumption|]. right. subst a. split; assumption.
Qed.

(** Both fail alike, or give related dictionaries without repeated keys. *)
Definition RR (n : bytes) (r r' : result dict) : Prop :=
  match r, r' with
  | Ok d, Ok d' => Forall2 (SE n) d d' /\ dnodup d = true /\ dnodup d' = true
  | Err e, Err e' => e = e'
  | _, _ => False
  end.

Lemma shorten_other : forall n m d d', bs m <> n -> RR n (Ok d) (Ok d') -> RR n (shorten d m) (shorten d' m).
Proof.
  intros n m d d' HN (HL & H1 & H2). unfold shorten. pose proof (dget_rel n (VStr (bs m)) d d' HL) as HG.
  destruct (dget d (VStr (bs m))) as [v|], (dget d' (VStr (bs m))) as [v'|]; try contradiction; [|repeat split; assumption].
  destruct HG as [<-|[HK _]].
  - destruct (py_len v) as [k|e]; cbn [bind]; [|reflexivity]. destruct (Nat.eqb k 0); [repeat split; assumption|].
    destruct (truncate v) as [t|e]; cbn [bind]; [|reflexivity].
    split; [apply (dset_rel n d d' (VStr (bs m), t) (VStr (bs m), t)); [apply SE_refl|assumption]|]. split; apply dnodup_dset; assumption.
  - apply keyeq_str_l in HK. injection HK as HK. symmetry in HK. contradiction.
Qed.

Lemma SE_eq : forall n d d', Forall2 (SE n) d d' -> dmem d (VStr n) = false -> d = d'.
Proof.
  intros n d d' HL. induction HL as [|[a x] [a' y] d d' [HA HX] HL IH]; intros HM; [reflexivity|].
  cbn [fst snd] in *. subst a'. unfold dmem in *. cbn [dget] in HM. destruct (keyeq (VStr n) a) eqn:E; [discriminate|].
  destruct HX as [->|[-> _]]; [|rewrite keyeq_refl in E; discriminate]. f_equal. apply IH. assumption.
Qed.

Lemma dset_same_value : forall d k v, dget d k = Some v -> dset d k v = d.
Proof.
  intros d k v. induction d as [|[a x] d IH]; cbn [dget dset]; intros H; [discriminate|].
  destruct (keyeq k a); [injection H as ->; reflexivity|]. rewrite IH; [reflexivity|assumption].
Qed.

Lemma dset_secret : forall n d d' t, Forall2 (SE n) d d' -> dnodup d = true -> dmem d (VStr n) = true ->
  dset d (VStr n) t = dset d' (VStr n) t.
Proof.
  intros n d d' t HL. induction HL as [|[a x] [a' y] d d' [HA HX] HL IH]; intros HD HM; [discriminate|].
  cbn [fst snd] in *. subst a'. cbn [dnodup] in HD. apply andb_prop in HD. destruct HD as [HN HD].
  cbn [dset]. unfold dmem in HM. cbn [dget] in HM. destruct (keyeq (VStr n) a) eqn:E.
  - apply keyeq_str_l in E. subst a. f_equal. apply SE_eq with n; [assumption|].
    apply negb_true_iff in HN. assumption.
  - destruct HX as [->|[-> _]]; [|rewrite keyeq_refl in E; discriminate]. f_equal. apply IH; assumption.
Qed.

Lemma shorten_secret : forall m d d', RR (bs m) (Ok d) (Ok d') -> shorten d m = shorten d' m.
Proof.
  intros m d d' (HL & H1 & H2). unfold shorten. pose proof (dget_rel (bs m) (VStr (bs m)) d d' HL) as HG.
  destruct (dget d (VStr (bs m))) as [v|] eqn:E, (dget d' (VStr (bs m))) as [v'|] eqn:E'; try contradiction.
  - assert (HM : dmem d (VStr (bs m)) = true) by (unfold dmem; rewrite E; reflexivity).
    destruct HG as [<-|[_ (b & b' & -> & -> & HS & HF)]].
    + destruct (py_len v) as [k|e] eqn:EV; cbn [bind]; [|reflexivity]. destruct (Nat.eqb k 0) eqn:EK.
      * f_equal. pose proof (dset_secret (bs m) d d' v HL H1 HM) as HX.
        rewrite (dset_same_value d (VStr (bs m)) v E), (dset_same_value d' (VStr (bs m)) v E') in HX. assumption.
      * destruct (truncate v) as [t|e]; cbn [bind]; [|reflexivity]. f_equal. apply dset_secret; assumption.
    + cbn [py_len bind]. rewrite HS. destruct (Nat.eqb (length b') 0) eqn:EK.
      * apply Nat.eqb_eq in EK. rewrite EK in HS. destruct b; [|discriminate]. destruct b'; [|discriminate].
        f_equal. pose proof (dset_secret (bs m) d d' (VBytes []) HL H1 HM) as HX.
        rewrite (dset_same_value d (VStr (bs m)) _ E), (dset_same_value d' (VStr (bs m)) _ E') in HX. assumption.
      * unfold truncate. cbn [first5 py_len bind]. rewrite HS, HF. f_equal. apply dset_secret; assumption.
  - f_equal. apply SE_eq with (bs m); [assumption|]. unfold dmem. rewrite E. reflexivity.
Qed.

Lemma key_names_rel : forall n p s s', py_name p = n -> n <> bs "KpKeyOps" -> n <> bs "BASE_IV" ->
  Forall2 (fun e e' => fst e = fst e' /\ (snd e = snd e' \/
     exists b b', fst e = VClass p /\ snd e = VBytes b /\ snd e' = VBytes b' /\ same_start b b')) s s' ->
  RR n (key_names s) (key_names s').
Proof.
  intros n p s s' HN HO HB HL. unfold key_names.
  assert (HR : RR n (Ok (named_dict (sort_entries s))) (Ok (named_dict (sort_entries s')))).
  { split; [|split; apply dnodup_of_pairs]. unfold named_dict, dict_of_pairs. apply dupdate_rel; [|constructor].
    apply sort_rel in HL; [|intros e e' [HF _]; exact HF].
    induction HL as [|[a x] [a' y] l l' [HA HX] HL IH]; cbn [map]; [constructor|]. constructor; [|assumption].
    cbn [fst snd] in *. subst a'. split; [reflexivity|]. cbn [fst snd].
    destruct HX as [->|(b & b' & -> & -> & -> & HS)]; [left; reflexivity|]. right. cbn [named]. rewrite HN.
    split; [reflexivity|]. exists b, b'. repeat split; try reflexivity; apply HS. }
  set (d := named_dict (sort_entries s)) in *. set (d' := named_dict (sort_entries s')) in *. clearbody d d'.
  assert (HX : RR n (match dget d (VStr (bs "KpKeyOps")) with
            | None => Ok d
            | Some v => l <- py_iter v ;; Ok (dset d (VStr (bs "KpKeyOps")) (VList (map named l)))
            end)
            (match dget d' (VStr (bs "KpKeyOps")) with
            | None => Ok d'
            | Some v => l <- py_iter v ;; Ok (dset d' (VStr (bs "KpKeyOps")) (VList (map named l)))
            end)).
  { destruct HR as (HR & H1 & H2). pose proof (dget_rel n (VStr (bs "KpKeyOps")) d d' HR) as HG.
    destruct (dget d (VStr (bs "KpKeyOps"))) as [v|], (dget d' (VStr (bs "KpKeyOps"))) as [v'|]; try contradiction; [|repeat split; assumption].
    destruct HG as [<-|[HK _]].
    - destruct (py_iter v) as [l|e]; cbn [bind]; [|reflexivity].
      split; [apply (dset_rel n d d' (VStr (bs "KpKeyOps"), _) (VStr (bs "KpKeyOps"), _)); [apply SE_refl|assumption]|].
      split; apply dnodup_dset; assumption.
    - apply keyeq_str_l in HK. injection HK as HK. contradiction. }
  destruct (match dget d (VStr (bs "KpKeyOps")) with None => _ | Some v => _ end) as [r|e],
    (match dget d' (VStr (bs "KpKeyOps")) with None => _ | Some v => _ end) as [r'|e']; try contradiction; cbn [bind].
  - apply shorten_other; [congruence|exact HX].
  - exact HX.
Qed.

Lemma secret_hidden : forall c s s', c <> KRSA -> same_but_secrets c s s' -> key_repr c s = key_repr c s'.
Proof.
  intros c s s' HC HS. unfold key_repr.
  assert (HX : exists m r p, shortened c = m :: r /\ secret_params c = [p] /\ py_name p = bs m /\
    bs m <> bs "KpKeyOps" /\ bs m <> bs "BASE_IV").
  { destruct c; [| | |contradiction]; do 3 eexists; (split; [reflexivity|]); (split; [reflexivity|]);
      (split; [reflexivity|]); split; discriminate. }
  destruct HX as (m & r & p & HM & HP & HN & HO & HB). rewrite HM.
  assert (HR : RR (bs m) (key_names s) (key_names s')).
  { apply (key_names_rel (bs m) p); try assumption. unfold same_but_secrets in HS. rewrite HP in HS.
    clear - HS. induction HS as [|e e' s s' [HF HV] HS IH]; constructor; [|assumption].
    split; [assumption|]. destruct HV as [HV|(q & b & b' & [<-|[]] & HV)]; [left; assumption|].
    right. exists b, b'. assumption. }
  destruct (key_names s) as [d|e], (key_names s') as [d'|e']; try contradiction; cbn [bind shorten_all].
  - rewrite (shorten_secret m d d' HR). reflexivity.
  - f_equal. exact HR.
Qed.

(** The secret parameters of an RSA key are printed. *)
Lemma insert_In : forall e x l, In e (insert_entry x l) <-> e = x \/ In e l.
Proof.
  intros e x l. induction l as [|y l IH]; cbn [insert_entry].
  - cbn [In]. intuition congruence.
  - destruct (Z.leb _ _); cbn [In]; [intuition congruence|]. rewrite IH. intuition congruence.
Qed.

Lemma sort_In : forall e l, In e (sort_entries l) <-> In e l.
Proof.
  intros e l. induction l as [|x l IH]; cbn [sort_entries fold_right]; [tauto|].
  rewrite insert_In. change (fold_right insert_entry [] l) with (sort_entries l). rewrite IH. cbn [In]. intuition congruence.
Qed.

(** ** Values that can be printed *)

Definition shown (v : pyval) : Prop := shows v = Ok tt.
Definition shown_entry (e : pyval * pyval) : Prop := shown (fst e) /\ shown (snd e).

Lemma unit_ok : forall r : result unit, (exists u, r = Ok u) -> r = Ok tt.
Proof. intros r [[] H]. exact H. Qed.

Lemma shown_all : forall l,
  (fix all (l : list pyval) : result unit :=
    match l with [] => Ok tt | x :: r => _ <- shows x ;; all r end) l = Ok tt <-> Forall shown l.
Proof.
  induction l as [|x l IH]; [split; [constructor|reflexivity]|].
  split.
  - intros H. destruct (shows x) as [[]|e] eqn:E; cbn [bind] in H; [|discriminate]. constructor; [exact E|]. apply IH. exact H.
  - intros H. inversion H as [|? ? H1 H2]; subst. rewrite H1. cbn [bind]. apply IH. exact H2.
Qed.

Lemma shown_list : forall l, shown (VList l) <-> Forall shown l.
Proof. intros l. apply shown_all. Qed.
Lemma shown_tuple : forall l, shown (VTuple l) <-> Forall shown l.
Proof. intros l. apply shown_all. Qed.

Lemma shown_dict : forall d, shown (VDict d) <-> Forall shown_entry d.
Proof.
  unfold shown. cbn [shows]. induction d as [|[a b] d IH]; [split; [constructor|reflexivity]|].
  split.
  - intros H. destruct (shows a) as [[]|e] eqn:E; cbn [bind] in H; [|discriminate].
    destruct (shows b) as [[]|e] eqn:E'; cbn [bind] in H; [|discriminate].
    constructor; [split; assumption|]. apply IH. exact H.
  - intros H. inversion H as [|? ? [H1 H2] H3]; subst. cbn [fst snd] in *. rewrite H1. cbn [bind]. rewrite H2. cbn [bind].
    apply IH. exact H3.
Qed.

Lemma shown_dset : forall d k v, Forall shown_entry d -> shown k -> shown v -> Forall shown_entry (dset d k v).
Proof.
  intros d k v HD HK HV. induction HD as [|[a b] d [HA HB] HD IH]; cbn [dset].
  - constructor; [split; assumption|constructor].
  - destruct (keyeq k a).
    + constructor; [split; assumption|assumption].
    + constructor; [split; assumption|assumption].
Qed.

Lemma shown_of_pairs : forall l, Forall shown_entry l -> Forall shown_entry (dict_of_pairs l).
Proof.
  intros l HL. unfold dict_of_pairs, dupdate. assert (HA : Forall shown_entry []) by constructor. revert HA.
  generalize (@nil (pyval * pyval)). induction HL as [|[a b] l [HA HB] HL IH]; intros d HD; [exact HD|].
  cbn [fold_left]. apply IH. apply shown_dset; assumption.
Qed.

Lemma mapM_Forall : forall A B (f : A -> result B) (P : B -> Prop) l l',
  Forall (fun a => forall b, f a = Ok b -> P b) l -> mapM f l = Ok l' -> Forall P l'.
Proof.
  intros A B f P l l' HF. revert l'. induction HF as [|a l HA HF IH]; intros l' H; cbn [mapM] in H.
  - injection H as <-. constructor.
  - apply bind_ok in H as (b & HB & H). apply bind_ok in H as (r & HR & H). injection H as <-.
    constructor; [apply HA; exact HB|apply IH; exact HR].
Qed.

Lemma lift_shown : forall c imm v, lift imm c = Ok v -> shown v.
Proof.
  induction c as [n|n|b|b|l HF|l HF|t c IH|n|n|w b|] using cbor_ind'; intros imm v H; cbn [lift] in H;
    try (injection H as <-; reflexivity).
  - apply bind_ok in H as (vs & HV & H). injection H as <-.
    assert (HS : Forall shown vs).
    { eapply mapM_Forall; [|exact HV]. eapply Forall_impl; [|exact HF]. intros a HA b HB. eapply HA. exact HB. }
    destruct imm; [apply shown_tuple|apply shown_list]; exact HS.
  - apply bind_ok in H as (vs & HV & H). injection H as <-. apply shown_dict. apply shown_of_pairs.
    eapply mapM_Forall; [|exact HV]. eapply Forall_impl; [|exact HF]. intros [k x] [HK HX] [k' x'] HB.
    apply bind_ok in HB as (k1 & HK1 & HB). apply bind_ok in HB as (x1 & HX1 & HB). injection HB as <- <-.
    split; [eapply HK; exact HK1|eapply HX; exact HX1].
  - apply bind_ok in H as (x & HX & H). pose proof (IH _ _ HX) as HS.
    destruct (N.eqb t 2); [destruct x; try discriminate; injection H as <-; reflexivity|].
    destruct (N.eqb t 3); [destruct x; try discriminate; injection H as <-; reflexivity|].
    destruct (N.eqb t 55799); [injection H as <-; assumption|].
    destruct (is_special_tag t); injection H as <-; [reflexivity|exact HS].
  - injection H as <-. destruct (N.eqb n 20), (N.eqb n 21), (N.eqb n 22); reflexivity.
Qed.

Lemma loads_bytes_shown : forall b v, loads_bytes b = Ok v -> shown v.
Proof.
  intros b v H. unfold loads_bytes in H. apply bind_ok in H as ([c r] & HC & H). eapply lift_shown. exact H.
Qed.

Section WithCrypto.
Variable X : crypto.

(** ** Header maps *)

Lemma alg_list_shown : forall l l', Forall (fun v => forall w, from_id FAlg false v = Ok w -> shown w) l ->
  mapM (from_id FAlg false) l = Ok l' -> Forall shown l'.
Proof. intros l l' HF H. eapply mapM_Forall; eassumption. Qed.

Lemma from_id_shown : forall f v, forall allow w, from_id f allow v = Ok w -> shown v -> shown w.
Proof.
  intros f.
  induction v as [|b|z|x|n| | |b|b|l HF|l HF|d HF|t v IH|t v IH|c|k s e HS HE] using pyval_ind'; intros allow w H HV;
    destruct (from_id_cases _ _ _ _ H) as [(c' & n' & _ & _ & ->)|[(_ & _ & ->)|(l1 & l2 & HE1 & -> & HM)]];
    try reflexivity; try assumption; try discriminate HE1.
  injection HE1 as <-. apply shown_list. apply shown_list in HV. clear H.
  revert l2 HM. induction HF as [|a l HA HF IH]; intros l2 HM; cbn [mapM] in HM; [injection HM as <-; constructor|].
  apply bind_ok in HM as (y & HY & HM). apply bind_ok in HM as (r & HR & HM). injection HM as <-.
  inversion HV as [|? ? HV1 HV2]; subst. constructor; [eapply HA; eassumption|apply IH; assumption].
Qed.

(** ** Received keys *)

(** The entries of the store of a parsed key. *)
Definition kparsed (e : pyval * pyval) : Prop :=
  shown_entry e /\ fst e <> VStr (bs "BASE_IV") /\
  (fst e = VClass KpKeyOps -> (exists c, snd e = VClass c) \/ exists l, snd e = VList l).

Lemma kparsed_dset : forall d a w, Forall kparsed d -> kparsed (a, w) -> Forall kparsed (dset d a w).
Proof.
  intros d a w HD HE. induction HD as [|[k v] d HK HD IH]; cbn [dset]; [constructor; [assumption|constructor]|].
  destruct (keyeq a k) eqn:E; [|constructor; assumption]. constructor; [|assumption].
  destruct HK as ([HK1 _] & HK2 & _), HE as ([_ HE1] & _ & HE3). cbn [fst snd] in *.
  split; [split; assumption|]. split; [assumption|]. cbn [fst snd]. intros ->.
  apply HE3. rewrite keyeq_sym in E. symmetry. apply keyeq_class in E. congruence.
Qed.

Lemma base_iv_registered : forall c, In (KpBaseIV, bs "BASE_IV") (registered (param_fam c)).
Proof. intros []; vm_compute; tauto. Qed.

Lemma transform_kparsed : forall c opts acc d, transform_params c true opts acc = Ok d ->
  Forall shown_entry opts -> Forall kparsed acc -> Forall kparsed d.
Proof.
  intros c. induction opts as [|[a v] opts IH]; intros acc d H HO HA; cbn [transform_params] in H; [injection H as <-; assumption|].
  inv_bind H kp. inv_bind H w. destruct (hashable kp); [|discriminate].
  inversion HO as [|? ? [HS1 HS2] HO']; subst. cbn [fst snd] in *. eapply IH; [exact H|assumption|].
  apply kparsed_dset; [assumption|]. split; [split|split]; cbn [fst snd].
  - eapply from_id_shown; eassumption.
  - unfold parse_kp in H1.
    repeat match type of H1 with match ?x with _ => _ end = _ => destruct x end;
      try (injection H1 as <-; assumption); eapply from_id_shown; eassumption.
  - intros ->. destruct (from_id_cases _ _ _ _ H0) as [(c' & n & _ & _ & HX)|[(_ & HU & <-)|(l1 & l2 & _ & HX & _)]]; try discriminate HX.
    apply (unknown_not_spelled _ _ KpBaseIV (bs "BASE_IV") HU); [apply base_iv_registered|reflexivity].
  - intros ->. cbn [parse_kp KpKeyOps] in H1.
    destruct (from_id_cases _ _ _ _ H1) as [(c' & n & _ & _ & HX)|[(HX & _)|(l1 & l2 & _ & HX & _)]]; try discriminate HX; eauto.
Qed.

(** A parsed key whose operations are a list. *)
Definition kgood (s : dict) : Prop :=
  Forall kparsed s /\ forall v, In (VClass KpKeyOps, v) s -> exists l, v = VList l.

Lemma common_init_good : forall c d k, common_init c (VDict d) true = Ok k -> Forall shown_entry d -> kgood (k_store k).
Proof.
  intros c d k H HD. unfold common_init in H. cbn [opt_items bind] in H. inv_bind H t. destruct (veqb _ _); [|discriminate].
  assert (HN : dnodup t = true).
  { refine (transform_params_inv (fun d => dnodup d = true) c true _ _ _ _ H0 eq_refl).
    intros d0 a p v w _ _ _ Ha. apply dnodup_dset. assumption. }
  apply transform_kparsed in H0; [|assumption|].
  2:{ constructor; [|constructor]. split; [split; [reflexivity|destruct c; reflexivity]|]. split; [discriminate|].
      cbn [fst]. discriminate. }
  unfold base_init in H. destruct (dget t (VClass KpKeyOps)) as [ops|] eqn:E.
  - apply bind_ok in H as (n & HL & H).
    assert (HO : exists l, ops = VList l).
    { apply dget_In in E as (k' & HI & HK). apply keyeq_class in HK. subst k'.
      rewrite Forall_forall in H0. apply H0 in HI as (_ & _ & HI). destruct (HI eq_refl) as [[c' HX]|HX]; [|exact HX].
      cbn [snd] in HX. subst ops. discriminate. }
    assert (HT : forall v, In (VClass KpKeyOps, v) t -> exists l, v = VList l).
    { intros v HI. apply (In_dget _ _ _ HN) in HI. rewrite E in HI. injection HI as <-. exact HO. }
    destruct (Nat.eqb n 0); injection H as <-; cbn [k_store]; [|split; assumption].
    split; [apply Forall_forall; intros e HI; apply ddel_In in HI; rewrite Forall_forall in H0; apply H0; assumption|].
    intros v HI. apply HT. eapply ddel_In. exact HI.
  - injection H as <-. split; [assumption|]. intros v HI. apply (In_dget _ _ _ HN) in HI. congruence.
Qed.

Lemma updates_good : forall p v k k', updates p v k k' -> p <> KpKeyOps -> shown v -> kgood (k_store k) -> kgood (k_store k').
Proof.
  intros p v k k' [_ _ HU] HP HV [HG HO]. rewrite HU. split.
  - apply kparsed_dset; [assumption|]. split; [split; [reflexivity|assumption]|]. split; [discriminate|]. cbn [fst]. congruence.
  - intros w HI. assert (HD : forall d, In (VClass KpKeyOps, w) (dset d (VClass p) v) -> In (VClass KpKeyOps, w) d).
    { induction d as [|[a b] d IH]; cbn [dset]; intros HD.
      - destruct HD as [HD|[]]. congruence.
      - destruct (keyeq (VClass p) a) eqn:E.
        + apply keyeq_class in E. destruct HD as [HD|HD]; [congruence|right; assumption].
        + destruct HD as [HD|HD]; [left; assumption|right; apply IH; assumption]. }
    apply HO. apply HD. assumption.
Qed.

Lemma unless_good : forall p v k k', set_unless_empty p v k = Ok k' -> p <> KpKeyOps -> kgood (k_store k) -> kgood (k_store k').
Proof.
  intros p v k k' H HP HG. apply set_unless_empty_ok in H as [[_ ->]|[(b & -> & _) HU]]; [assumption|].
  eapply updates_good; [exact HU|assumption|reflexivity|assumption].
Qed.

Lemma bytes_good : forall p v k k', set_bytes_param p v k = Ok k' -> p <> KpKeyOps -> kgood (k_store k) -> kgood (k_store k').
Proof.
  intros p v k k' H HP HG. apply set_bytes_param_ok in H as [[b ->] HU].
  eapply updates_good; [exact HU|assumption|reflexivity|assumption].
Qed.

Lemma crv_good : forall p kty v k k', set_crv p kty v k = Ok k' -> p <> KpKeyOps -> kgood (k_store k) -> kgood (k_store k').
Proof.
  intros p kty v k k' H HP HG. unfold set_crv in H. inv_bind H w. destruct w; try discriminate.
  destruct (veqb _ _); [|discriminate]. injection H as <-.
  eapply updates_good; [apply updates_store_set|assumption|reflexivity|assumption].
Qed.

Lemma removed_shown : forall l d, Forall shown_entry d -> Forall shown_entry (remove_all d l).
Proof.
  unfold remove_all. induction l as [|c l IH]; intros d HD; [exact HD|]. cbn [fold_left]. apply IH.
  apply Forall_forall. intros e HI. unfold remove in HI. do 3 apply ddel_In in HI. rewrite Forall_forall in HD. apply HD. assumption.
Qed.

Lemma items_shown : forall m d, items_of m = Ok d -> shown m -> Forall shown_entry d.
Proof.
  intros m d H HM. destruct m; try discriminate; cbn [items_of] in H; injection H as <-.
  - apply shown_dict. assumption.
  - unfold shown in HM. cbn [shows] in HM. apply bind_ok in HM as (x & _ & HM). apply shown_dict in HM. assumption.
Qed.

Lemma from_dict_good : forall m k, from_dict X m = Ok k -> shown m -> kgood (k_store k).
Proof.
  intros m k H HM.
  assert (HD : forall v, dispatch_kty X v m = Ok k -> kgood (k_store k)).
  { clear H. intros v H. unfold dispatch_kty in H. destruct (negb (hashable v)); [discriminate|].
    destruct (key_type_lookup key_types v) as [[]|]; [| | | |discriminate].
    - unfold sym_from_dict in H. inv_bind H kv. inv_bind H d. unfold sym_init in H. inv_bind H k0.
      destruct (veqb kv (VBytes [])); [discriminate|]. apply common_init_good in H2; [|apply removed_shown; eapply items_shown; eassumption].
      unfold set_k in H. destruct kv; try discriminate. destruct (existsb _ _); [|discriminate]. injection H as <-.
      eapply updates_good; [apply updates_store_set|discriminate|reflexivity|assumption].
    - unfold okp_from_dict in H. do 3 (apply bind_ok in H as (? & _ & H)). inv_bind H d. unfold okp_init in H. inv_bind H k0.
      apply common_init_good in H1; [|apply removed_shown; eapply items_shown; eassumption].
      apply bind_ok in H as (? & _ & H). apply bind_ok in H as (none & _ & H). destruct none; [discriminate|].
      destruct (is_none _); [discriminate|]. inv_bind H k1. inv_bind H k2.
      eapply unless_good; [exact H|discriminate|]. eapply unless_good; [eassumption|discriminate|].
      eapply crv_good; [eassumption|discriminate|assumption].
    - unfold ec2_from_dict in H. do 4 (apply bind_ok in H as (? & _ & H)). inv_bind H d. unfold ec2_init in H. inv_bind H k0.
      apply common_init_good in H1; [|apply removed_shown; eapply items_shown; eassumption].
      destruct (is_none _); [discriminate|]. inv_bind H k1. destruct (_ && _ && _); [discriminate|]. destruct (_ && _); [discriminate|].
      apply bind_ok in H as ([xx yy] & _ & H). apply bind_ok in H as (yz & _ & H). inv_bind H k2. inv_bind H k3.
      eapply unless_good; [exact H|discriminate|]. eapply unless_good; [eassumption|discriminate|].
      eapply unless_good; [eassumption|discriminate|]. eapply crv_good; [eassumption|discriminate|assumption].
    - unfold rsa_from_dict in H. do 12 (apply bind_ok in H as (? & _ & H)). inv_bind H d. unfold rsa_init in H. cbv zeta in H.
      apply bind_ok in H as (ok & _ & H). destruct (negb ok); [discriminate|]. inv_bind H k0.
      apply common_init_good in H1; [|apply removed_shown; eapply items_shown; eassumption].
      inv_bind H k1. inv_bind H k2. inv_bind H k3. inv_bind H k4. inv_bind H k5. inv_bind H k6. inv_bind H k7. inv_bind H k8.
      assert (HS : k_store k = k_store k8).
      { injection H as <-. unfold extra_unless_empty, extra_set.
        repeat match goal with |- context [if ?x then _ else _] => destruct x end; reflexivity. }
      rewrite HS.
      do 6 (eapply unless_good; [eassumption|discriminate|]).
      do 2 (eapply bytes_good; [eassumption|discriminate|]). assumption. }
  unfold from_dict in H. destruct m; try discriminate;
    (apply bind_ok in H as (o1 & _ & H); destruct o1; [eapply HD; exact H|]);
    (apply bind_ok in H as (o2 & _ & H); destruct o2; [eapply HD; exact H|]);
    (apply bind_ok in H as (o3 & _ & H); destruct o3; [eapply HD; exact H|discriminate]).
Qed.

(** The entries of a parsed header map. *)
Definition parsed (e : pyval * pyval) : Prop :=
  shown (fst e) /\
  ((fst e = EphemeralKey \/ fst e = StaticKey) /\ (exists kc s x, snd e = VKey kc s x /\ kgood s) \/ shown (snd e)) /\
  (named (fst e) = VStr (bs "IV") -> exists b, snd e = VBytes b) /\
  named (fst e) <> VStr (bs "PARTIAL_IV").

Lemma parse_value_shown : forall k v w, parse_value X k v = Ok w -> shown v ->
  (k = EphemeralKey \/ k = StaticKey) /\ (exists kc s x, w = VKey kc s x /\ kgood s) \/ shown w.
Proof.
  intros k v w H HV. destruct k as [|b|z|x|n| | |b|b|l|l|d|t k|t k|[f z]|kc s e];
    try (cbn [parse_value] in H; injection H as <-; right; assumption).
  assert (HB : is_bstr v = Ok w -> shown w).
  { intros HU. unfold is_bstr in HU. destruct (is_bytes v); [|discriminate]. injection HU as <-. assumption. }
  destruct f; try (cbn [parse_value] in H; injection H as <-; right; assumption).
  assert (HK : (k <- from_dict X v ;; Ok (kval k)) = Ok w -> exists kc s x, w = VKey kc s x /\ kgood s).
  { intros HU. apply bind_ok in HU as (k & HF & HU). injection HU as <-. unfold kval. do 3 eexists. split; [reflexivity|].
    eapply from_dict_good; eassumption. }
  destruct (Z.eq_dec z (-1)) as [->|H1]; [left; split; [left; reflexivity|apply HK; exact H]|].
  destruct (Z.eq_dec z (-2)) as [->|H2]; [left; split; [right; reflexivity|apply HK; exact H]|]. right. clear HK.
  destruct (Z.eq_dec z 1) as [->|H3]; [eapply from_id_shown; eassumption|].
  destruct (Z.eq_dec z 2) as [->|H4].
  { cbn [parse_value] in H. unfold crit_is_array in H. destruct v; try discriminate.
    destruct (_ || _); [discriminate|]. injection H as <-. assumption. }
  destruct (Z.eq_dec z 3) as [->|H5].
  { cbn [parse_value] in H. unfold content_type_is_uint_or_tstr in H. destruct v; try congruence;
      destruct (as_int _); try discriminate; destruct (Z.ltb _ _); try discriminate; injection H as <-; assumption. }
  unfold parse_value in H.
  repeat match type of H with
  | match ?x with _ => _ end = _ => destruct x
  end; try congruence; auto.
Qed.

Lemma named_class : forall c m, In m [bs "IV"; bs "PARTIAL_IV"] -> py_name c = m -> c = Cls FHdr 5 /\ m = bs "IV".
Proof.
  intros [f z] m HM HN. unfold py_name in HN. cbn [c_id c_fam] in HN.
  destruct (find _ (name_table f)) as [e|] eqn:E; [|subst m; destruct HM as [HM|[HM|[]]]; discriminate].
  apply find_some in E as [HI HZ]. apply Z.eqb_eq in HZ. subst z m.
  assert (HT : forallb (fun e => forallb (fun m => negb (bytes_eqb (bs (snd e)) m) || (Z.eqb (fst e) 5 && (match f with FHdr => true | _ => false end) && bytes_eqb m (bs "IV")))
     [bs "IV"; bs "PARTIAL_IV"]) (name_table f) = true) by (destruct f; vm_compute; reflexivity).
  rewrite forallb_forall in HT. specialize (HT _ HI). rewrite forallb_forall in HT. specialize (HT _ HM).
  assert (HR : bytes_eqb (bs (snd e)) (bs (snd e)) = true) by (apply bytes_eqb_eq; reflexivity). rewrite HR in HT. cbn [negb orb] in HT.
  apply andb_prop in HT as [HT HE]. apply andb_prop in HT as [HT HF]. apply Z.eqb_eq in HT. apply bytes_eqb_eq in HE.
  destruct f; try discriminate. rewrite HT. split; [reflexivity|assumption].
Qed.

Lemma hdr_iv_registered : In (Cls FHdr 5, bs "IV") (registered FHdr).
Proof. vm_compute. tauto. Qed.
Lemma hdr_partial_iv_registered : In (Cls FHdr 6, bs "PARTIAL_IV") (registered FHdr).
Proof. vm_compute. tauto. Qed.

Lemma entry_parsed : forall allow k v a w, from_id FHdr allow k = Ok a -> parse_value X a v = Ok w ->
  shown k -> shown v -> parsed (a, w).
Proof.
  intros allow k v a w HA HW HK HV. split; [|split; [|split]]; cbn [fst snd].
  - eapply from_id_shown; eassumption.
  - eapply parse_value_shown; eassumption.
  - intros HN. assert (HC : a = VClass (Cls FHdr 5)).
    { destruct a as [|b|z|x|n| | |b|b|l|l|d|t a|t a|c|kc s e]; try discriminate HN.
      - cbn [named] in HN. injection HN as ->.
        destruct (from_id_cases _ _ _ _ HA) as [(c & n & HI & HS & HX)|[(_ & HU & <-)|(l1 & l2 & _ & HX & _)]]; try discriminate HX.
        exfalso. apply (unknown_not_spelled FHdr (VStr (bs "IV")) (Cls FHdr 5) (bs "IV") HU); [apply hdr_iv_registered|reflexivity].
      - assert (HN' : py_name c = bs "IV") by (cbn [named] in HN; congruence).
        destruct (named_class c (bs "IV") (or_introl eq_refl) HN') as [-> _]. reflexivity. }
    subst a. cbn [parse_value] in HW. unfold is_bstr in HW. destruct v; try discriminate. injection HW as <-. eexists. reflexivity.
  - intros HN. destruct a as [|b|z|x|n| | |b|b|l|l|d|t a|t a|c|kc s e]; try discriminate HN.
    + cbn [named] in HN. injection HN as ->.
      destruct (from_id_cases _ _ _ _ HA) as [(c & n & HI & HS & HX)|[(_ & HU & <-)|(l1 & l2 & _ & HX & _)]]; try discriminate HX.
      apply (unknown_not_spelled FHdr (VStr (bs "PARTIAL_IV")) (Cls FHdr 6) (bs "PARTIAL_IV") HU); [apply hdr_partial_iv_registered|reflexivity].
    + assert (HN' : py_name c = bs "PARTIAL_IV") by (cbn [named] in HN; congruence).
      destruct (named_class c (bs "PARTIAL_IV") (or_intror (or_introl eq_refl)) HN') as [_ HX]. discriminate HX.
Qed.

Lemma dset_parsed : forall d a w, Forall parsed d -> parsed (a, w) -> Forall parsed (dset d a w).
Proof.
  intros d a w HD HE. induction HD as [|[k v] d HK HD IH]; cbn [dset]; [constructor; [assumption|constructor]|].
  destruct (keyeq a k) eqn:E; [|constructor; assumption]. constructor; [|assumption].
  assert (HX : a = k \/ (forall u, named k <> VStr u) /\ shown w).
  { destruct HE as (_ & HE & _ & _). cbn [fst snd] in HE.
    destruct k as [|b|z|x|n| | |b|b|l|l|d'|t k|t k|c|kc s e]; try (left; rewrite keyeq_sym in E;
      (apply keyeq_str_l in E || apply keyeq_class in E); assumption);
    (right; split; [intros u; discriminate|]);
    (destruct HE as [[[-> | ->] _]|HE]; [apply keyeq_class in E; discriminate|apply keyeq_class in E; discriminate|assumption]). }
  destruct HX as [<-|[HN HW]]; [assumption|]. destruct HK as (HK1 & _). cbn [fst snd] in HK1. unfold parsed. cbn [fst snd].
  split; [assumption|]. split; [right; assumption|]. split; [intros HC; destruct (HN _ HC)|apply HN].
Qed.

Lemma parse_items_parsed : forall allow d acc h, parse_items X allow d acc = Ok h ->
  Forall shown_entry d -> Forall parsed acc -> Forall parsed h.
Proof.
  intros allow d. induction d as [|[k v] d IH]; intros acc h H HD HA; cbn [parse_items] in H; [injection H as <-; assumption|].
  apply bind_ok in H as (a & HA1 & H). apply bind_ok in H as (w & HW & H). inversion HD as [|? ? [HK HV] HD']; subst.
  cbn [fst snd] in *. eapply IH; [exact H|assumption|]. apply dset_parsed; [assumption|]. eapply entry_parsed; eassumption.
Qed.

(** ** Messages *)

Definition good_core (c : core) : Prop :=
  Forall parsed (phdr c) /\ Forall parsed (uhdr c).

Lemma core_from_obj_good : forall allow obj c rest, core_from_obj X allow obj = Ok (c, rest) -> Forall shown obj ->
  good_core c /\ Forall shown rest.
Proof.
  intros allow obj c rest H HO. apply core_from_obj_inv in H as (p & u & pl & c0 & -> & HI & _ & ->).
  inversion HO as [|? ? HP HO1]; subst. inversion HO1 as [|? ? HU HO2]; subst. inversion HO2 as [|? ? _ HO3]; subst.
  split; [|assumption]. apply core_init_inv in HI as (pd & ud & HPM & HUM & H1 & H2 & _).
  cbn [a_phdr a_phdr_encoded a_uhdr a_allow] in *. unfold good_core. cbn [phdr uhdr with_payload].
  split; eapply parse_items_parsed; try eassumption; try constructor.
  - unfold protected_map in HPM. destruct HPM as [[HX _]|[(_ & b & -> & HB)|(_ & _ & ->)]]; try discriminate; [|constructor].
    apply loads_bytes_shown in HB. apply shown_dict in HB. assumption.
  - unfold unprotected_map in HUM. destruct HUM as [->|[_ ->]]; [|constructor]. apply shown_dict in HU. assumption.
Qed.

Lemma py_iter_shown : forall v l, py_iter v = Ok l -> shown v -> Forall shown l.
Proof.
  intros v l H HV. destruct v; try discriminate; cbn [py_iter] in H; injection H as <-.
  - apply Forall_forall. intros x HX. apply in_map_iff in HX as (y & <- & _). reflexivity.
  - apply Forall_forall. intros x HX. apply in_map_iff in HX as (y & <- & _). reflexivity.
  - apply shown_list. assumption.
  - apply shown_tuple. assumption.
  - apply shown_dict in HV. apply Forall_forall. intros x HX. apply in_map_iff in HX as (y & <- & HY).
    rewrite Forall_forall in HV. apply HV in HY. apply HY.
  - unfold shown in HV. cbn [shows] in HV. apply bind_ok in HV as (d & _ & HV). apply shown_dict in HV.
    apply Forall_forall. intros x HX. apply in_map_iff in HX as (y & <- & HY).
    rewrite Forall_forall in HV. apply HV in HY. apply HY.
Qed.

Lemma rcpt_from_obj_good : forall allow ctx id rc v r, rcpt_from_obj X allow ctx id rc v = Ok r -> shown v ->
  Forall good_core (rcpt_cores r).
Proof.
  intros allow ctx id rc v r H HV. unfold rcpt_from_obj in H. destruct v; try discriminate.
  apply bind_ok in H as ([c rest] & HC & H). apply shown_list in HV.
  destruct (core_from_obj_good _ _ _ _ HC HV) as [HG _].
  assert (HR : r = Rcpt id rc c ctx []).
  { cbv zeta in H. destruct rc.
    - destruct (negb _); [discriminate|]. apply bind_ok in H as (alg & _ & H). destruct (_ && _); [discriminate|]. congruence.
    - apply bind_ok in H as (alg & _ & H). apply bind_ok in H as (kw & _ & H). destruct (_ && _); [discriminate|].
      destruct (match payload c with Some [] => true | _ => false end); [discriminate|]. congruence.
    - apply bind_ok in H as (alg & _ & H). apply bind_ok in H as (es & _ & H). apply bind_ok in H as (ms & _ & H).
      destruct ms; [discriminate|]. congruence.
    - destruct (match payload c with Some [] => true | _ => false end); [discriminate|]. congruence. }
  subst r. cbn [rcpt_cores flat_map]. constructor; [assumption|constructor].
Qed.

Lemma create_all_good : forall allow ctx l id rs, create_all X allow ctx id l = Ok rs -> Forall shown l ->
  Forall good_core (flat_map rcpt_cores rs).
Proof.
  intros allow ctx. induction l as [|v l IH]; intros id rs H HL; cbn [create_all] in H; [injection H as <-; constructor|].
  apply bind_ok in H as (r & HR & H). apply bind_ok in H as (rs' & HRS & H). injection H as <-.
  inversion HL as [|? ? HV HL']; subst. cbn [flat_map]. apply Forall_app. split; [|eapply IH; eassumption].
  unfold create_recipient in HR. apply bind_ok in HR as (r0 & _ & HR). apply bind_ok in HR as (pa & _ & HR).
  apply bind_ok in HR as (r1 & _ & HR). apply bind_ok in HR as (d & _ & HR). cbv zeta in HR.
  destruct (is_none (if is_none pa then _ else _)); [discriminate|]. apply bind_ok in HR as (rc & _ & HR).
  eapply rcpt_from_obj_good; eassumption.
Qed.

Lemma recipients_from_good : forall allow ctx rest o, recipients_from X allow ctx rest = Ok o -> Forall shown rest ->
  Forall good_core (match o with Some rs => flat_map rcpt_cores rs | None => [] end).
Proof.
  intros allow ctx rest o H HR. unfold recipients_from in H.
  destruct rest as [|v rest]; [injection H as <-; constructor|]. inversion HR as [|? ? HV HR']; subst.
  destruct (py_iter v) as [l|e] eqn:E; cbn [bind] in H.
  - destruct (create_all X allow (VStr (bs ctx)) 0 l) as [rs|e] eqn:EC.
    + injection H as <-. eapply create_all_good; [exact EC|]. eapply py_iter_shown; eassumption.
    + destruct (is_value_error e || _); [injection H as <-; constructor|discriminate].
  - destruct (is_value_error e || _); [injection H as <-; constructor|discriminate].
Qed.

Lemma decode_good : forall e allow v m, decode X e allow v = Ok m -> Forall good_core (message_cores m).
Proof.
  intros e allow v m H. apply decode_inv in H as (b & obj & -> & HL & _ & HM & _).
  apply loads_bytes_shown in HL. change (shown (VList obj)) in HL. apply shown_list in HL.
  unfold from_cose_obj in HM. unfold message_cores.
  repeat match type of HM with (if ?x then _ else _) = _ => destruct x end; try discriminate;
    apply bind_ok in HM as (x & HX & HM); injection HM as <-; cbn [message_core].
  - unfold enc0_from_obj in HX. apply bind_ok in HX as ([c r] & HC & HX). injection HX as <-.
    constructor; [|constructor]. eapply core_from_obj_good; eassumption.
  - unfold mac0_from_obj in HX. apply bind_ok in HX as ([c r] & HC & HX). destruct r; [discriminate|]. injection HX as <-.
    constructor; [|constructor]. eapply core_from_obj_good; eassumption.
  - unfold sign1_from_obj in HX. apply bind_ok in HX as ([c r] & HC & HX). destruct r; [discriminate|]. injection HX as <-.
    constructor; [|constructor]. eapply core_from_obj_good; eassumption.
  - unfold enc_from_obj in HX. apply bind_ok in HX as ([c r] & HC & HX). apply bind_ok in HX as (o & HO & HX). injection HX as <-.
    destruct (core_from_obj_good _ _ _ _ HC HL) as [HG HR]. constructor; [assumption|]. cbn [e_rcpts].
    pose proof (recipients_from_good _ _ _ _ HO HR) as HQ. destruct o; [assumption|constructor].
  - unfold mac_from_obj in HX. apply bind_ok in HX as ([c r] & HC & HX).
    destruct (core_from_obj_good _ _ _ _ HC HL) as [HG HR]. destruct r as [|t r]; [discriminate|].
    apply bind_ok in HX as (o & HO & HX). injection HX as <-. constructor; [assumption|]. cbn [mm_rcpts].
    inversion HR as [|? ? _ HR']; subst. exact (recipients_from_good _ _ _ _ HO HR').
  - unfold sign_from_obj in HX. apply bind_ok in HX as ([c r] & HC & HX).
    destruct (core_from_obj_good _ _ _ _ HC HL) as [HG HR]. destruct r as [|t r]; [discriminate|].
    apply bind_ok in HX as (l & HI & HX). apply bind_ok in HX as (ss & HSS & HX). injection HX as <-.
    constructor; [assumption|]. cbn [sm_signers]. inversion HR as [|? ? HT _]; subst.
    apply (py_iter_shown _ _ HI) in HT. eapply mapM_Forall; [|exact HSS]. eapply Forall_impl; [|exact HT].
    intros a HA s HS. unfold signer_from_obj in HS. destruct a; try discriminate. apply bind_ok in HS as ([c1 r1] & HC1 & HS).
    injection HS as <-. apply shown_list in HA. eapply core_from_obj_good; eassumption.
Qed.

(** ** Printing *)

Lemma shown_named : forall v, shown v -> shown (named v).
Proof. intros v H. destruct v; try assumption. Qed.

Lemma of_pairs_get : forall k l w, dget (dict_of_pairs l) k = Some w -> exists k', In (k', w) l /\ keyeq k k' = true.
Proof.
  intros k l w. unfold dict_of_pairs, dupdate.
  assert (HG : forall l d, dget (fold_left (fun acc e => dset acc (fst e) (snd e)) l d) k = Some w ->
     dget d k = Some w \/ exists k', In (k', w) l /\ keyeq k k' = true).
  { induction l0 as [|[a b] l0 IH]; intros d H; [left; exact H|]. cbn [fold_left] in H. apply IH in H.
    destruct H as [H|(k' & HI & HK)]; [|right; exists k'; split; [right; assumption|assumption]].
    cbn [fst snd] in H. destruct (keyeq k a) eqn:E.
    - rewrite (dget_dset_same _ _ _ _ E) in H. injection H as <-. right. exists a. split; [left; reflexivity|assumption].
    - rewrite (dget_dset_other _ _ _ _ E) in H. left. assumption. }
  intros H. apply HG in H. destruct H as [H|H]; [discriminate|assumption].
Qed.

Lemma named_get : forall s n w, dget (named_dict (sort_entries s)) (VStr n) = Some w ->
  exists k v, In (k, v) s /\ named k = VStr n /\ w = named v.
Proof.
  intros s n w H. apply of_pairs_get in H as (k' & HI & HK). apply keyeq_str_l in HK. subst k'.
  apply in_map_iff in HI as ([k v] & HX & HI). apply (proj1 (sort_In _ _)) in HI. cbn [fst snd] in HX.
  apply pair_equal_spec in HX as [HX HW]. exists k, v. auto.
Qed.

Definition known_names : list (bytes * list cls) :=
  map (fun e => (bs (fst e), snd e))
    [("KpKeyOps", [KpKeyOps]); ("BASE_IV", []); ("SymKpK", [SymKpK]); ("OKPKpX", [OKPKpX]); ("OKPKpY", []);
     ("OKPKpD", [OKPKpD]); ("EC2KpX", [EC2KpX]); ("EC2KpY", [EC2KpY]); ("EC2KpD", [EC2KpD])]%string.

Lemma known_class : forall c n l, In (n, l) known_names -> py_name c = n -> In c l.
Proof.
  intros [f z] n l HM HN. unfold py_name in HN. cbn [c_id c_fam] in HN.
  assert (HT : forallb (fun f => forallb (fun e => forallb (fun m => negb (bytes_eqb (bs (snd e)) (fst m)) ||
      existsb (fun c => veqb (VClass c) (VClass (Cls f (fst e)))) (snd m)) known_names) (name_table f))
      [FHdr; FAlg; FKP; FEC2; FOKP; FRSA; FSym; FKty; FOps; FCrv] = true) by (vm_compute; reflexivity).
  rewrite forallb_forall in HT. specialize (HT f). assert (HF : In f [FHdr; FAlg; FKP; FEC2; FOKP; FRSA; FSym; FKty; FOps; FCrv]) by (destruct f; cbn; tauto).
  specialize (HT HF). destruct (find _ (name_table f)) as [e|] eqn:E.
  - apply find_some in E as [HI HZ]. apply Z.eqb_eq in HZ. subst z n.
    rewrite forallb_forall in HT. specialize (HT _ HI). rewrite forallb_forall in HT. specialize (HT _ HM). cbn [fst snd] in HT.
    assert (HR : bytes_eqb (bs (snd e)) (bs (snd e)) = true) by (apply bytes_eqb_eq; reflexivity). rewrite HR in HT. cbn [negb orb] in HT.
    apply existsb_exists in HT as (c & HC & HE). apply veqb_eq in HE. injection HE as HE. rewrite <- HE. assumption.
  - subst n. cbn in HM. repeat (destruct HM as [HM|HM]; [discriminate|]). destruct HM.
Qed.

Lemma shorten_ok : forall d n, (forall w, dget d (VStr (bs n)) = Some w -> exists b, w = VBytes b) ->
  exists d', shorten d n = Ok d' /\ forall m, m <> bs n -> dget d' (VStr m) = dget d (VStr m).
Proof.
  intros d n H. unfold shorten. destruct (dget d (VStr (bs n))) as [w|] eqn:E; [|eexists; split; [reflexivity|reflexivity]].
  destruct (H _ eq_refl) as [b ->]. cbn [py_len bind]. destruct (Nat.eqb (length b) 0); [eexists; split; [reflexivity|reflexivity]|].
  eexists. split; [reflexivity|]. intros m HM. apply dget_dset_other.
  destruct (keyeq (VStr m) (VStr (bs n))) eqn:EK; [|reflexivity]. apply keyeq_str_l in EK. congruence.
Qed.

Lemma shorten_all_ok : forall l d, NoDup (map bs l) ->
  (forall n w, In n l -> dget d (VStr (bs n)) = Some w -> exists b, w = VBytes b) -> exists d', shorten_all d l = Ok d'.
Proof.
  induction l as [|n l IH]; intros d HN HL; [eexists; reflexivity|]. cbn [shorten_all].
  cbn [map] in HN. inversion HN as [|? ? HN1 HN2]; subst.
  destruct (shorten_ok d n) as (d' & HD & HO); [intros w HW; eapply HL; [left; reflexivity|exact HW]|]. rewrite HD. cbn [bind].
  apply IH; [assumption|]. intros m w HM HW. eapply HL; [right; exact HM|]. rewrite <- HO; [exact HW|].
  intros HX. apply HN1. rewrite <- HX. apply in_map. assumption.
Qed.

Lemma key_shown : forall kc s x, kgood s -> plain_key s -> shown (VKey kc s x).
Proof.
  intros kc s x [HG HO] [HT HB]. unfold shown. cbn [shows].
  set (D := named_dict (sort_entries s)).
  assert (HOPS : forall w, dget D (VStr (bs "KpKeyOps")) = Some w -> exists l, w = VList l).
  { intros w HW. apply named_get in HW as (k & v & HI & HK & ->).
    destruct k; try discriminate HK; cbn [named] in HK; injection HK as HK.
    - exfalso. apply (HT _ _ HI). rewrite HK. left. reflexivity.
    - apply known_class with (l := [KpKeyOps]) in HK; [|left; reflexivity]. destruct HK as [<-|[]].
      destruct (HO _ HI) as [l ->]. exists l. reflexivity. }
  assert (HIV : dget D (VStr (bs "BASE_IV")) = None).
  { destruct (dget D (VStr (bs "BASE_IV"))) as [w|] eqn:E; [|reflexivity]. exfalso. apply named_get in E as (k & v & HI & HK & _).
    destruct k; try discriminate HK; cbn [named] in HK.
    - rewrite Forall_forall in HG. apply HG in HI as (_ & HI & _). apply HI. exact HK.
    - injection HK as HK. apply known_class with (l := []) in HK; [destruct HK|]. right. left. reflexivity. }
  assert (HN : forall n w, In n (shortened kc) -> dget D (VStr (bs n)) = Some w -> exists b, w = VBytes b).
  { intros n w HS HW. apply named_get in HW as (k & v & HI & HK & ->).
    assert (HM : exists l, In (bs n, l) known_names /\ incl l byte_params /\ In (bs n) printed_names).
    { destruct kc; cbn [shortened In] in HS;
        repeat (destruct HS as [<-|HS]; [eexists; split; [cbn; tauto|split; [intros q HQ; cbn in HQ; cbn; tauto|cbn; tauto]]|]); destruct HS. }
    destruct HM as (l & HM & HL & HP). destruct k; try discriminate HK; cbn [named] in HK; injection HK as HK.
    - exfalso. apply (HT _ _ HI). rewrite HK. exact HP.
    - apply (known_class _ _ _ HM) in HK. apply HL in HK. destruct (HB _ _ HK HI) as [b ->]. exists b. reflexivity. }
  assert (HR : exists d, key_repr kc s = Ok d).
  { unfold key_repr, key_names. fold D.
    assert (HD : exists D', (match dget D (VStr (bs "KpKeyOps")) with
            | None => Ok D
            | Some v => l <- py_iter v ;; Ok (dset D (VStr (bs "KpKeyOps")) (VList (map named l)))
            end) = Ok D' /\ forall m, m <> bs "KpKeyOps" -> dget D' (VStr m) = dget D (VStr m)).
    { destruct (dget D (VStr (bs "KpKeyOps"))) as [w|]; [|eexists; split; [reflexivity|reflexivity]].
      destruct (HOPS _ eq_refl) as [l ->]. cbn [py_iter bind]. eexists. split; [reflexivity|]. intros m HM.
      apply dget_dset_other. destruct (keyeq (VStr m) (VStr (bs "KpKeyOps"))) eqn:EK; [|reflexivity]. apply keyeq_str_l in EK. congruence. }
    destruct HD as (D' & -> & HD'). cbn [bind].
    assert (HS : shorten D' "BASE_IV" = Ok D').
    { unfold shorten. rewrite HD' by discriminate. rewrite HIV. reflexivity. }
    rewrite HS. cbn [bind]. apply shorten_all_ok.
    - destruct kc; repeat (constructor; [cbn; intuition discriminate|]); constructor.
    - intros n w HI HW. rewrite HD' in HW; [eapply HN; eassumption|]. intros HX.
      destruct kc; cbn [shortened In] in HI; repeat (destruct HI as [<-|HI]; [discriminate HX|]); destruct HI. }
  destruct HR as [d ->]. cbn [bind]. apply shown_dict. apply Forall_forall. intros e HI. rewrite Forall_forall in HG.
  apply HG in HI as [HI _]. exact HI.
Qed.

Definition plain_dict (d : dict) : Prop := forall h kc s e, In (h, VKey kc s e) d -> plain_key s.

Lemma plain_shown : forall d, Forall parsed d -> plain_dict d -> Forall shown_entry d.
Proof.
  intros d HD HP. rewrite Forall_forall in *. intros [k v] HI. destruct (HD _ HI) as (HK & HV & _). cbn [fst snd] in *.
  split; [assumption|]. cbn [snd]. destruct HV as [[_ (kc & s & x & -> & HG)]|HV]; [|assumption].
  apply key_shown; [assumption|]. eapply HP. exact HI.
Qed.

Lemma hdr_repr_ok : forall d, Forall parsed d -> plain_dict d ->
  exists p, hdr_repr d = Ok p /\ shown (VDict p).
Proof.
  intros d HD HE. pose proof (plain_shown d HD HE) as HSH. unfold hdr_repr.
  assert (HN : Forall shown_entry (named_dict d)).
  { unfold named_dict. apply shown_of_pairs. apply Forall_forall. intros x HX. apply in_map_iff in HX as ([k v] & <- & HI).
    rewrite Forall_forall in HSH. apply HSH in HI as [HK HV]. split; apply shown_named; assumption. }
  assert (HP : dget (named_dict d) (VStr (bs "PARTIAL_IV")) = None).
  { destruct (dget (named_dict d) (VStr (bs "PARTIAL_IV"))) as [w|] eqn:E; [|reflexivity]. exfalso.
    apply of_pairs_get in E as (k' & HI & HK). apply keyeq_str_l in HK. subst k'. apply in_map_iff in HI as ([k v] & HX & HI).
    injection HX as HX _. rewrite Forall_forall in HD. apply HD in HI as (_ & _ & _ & HI). cbn [fst] in *. contradiction. }
  assert (HQ : forall d', dget d' (VStr (bs "PARTIAL_IV")) = None -> shorten d' "PARTIAL_IV" = Ok d').
  { intros d' HQ. unfold shorten. rewrite HQ. reflexivity. }
  destruct (dget (named_dict d) (VStr (bs "IV"))) as [w|] eqn:E.
  - pose proof E as E'. apply of_pairs_get in E' as (k' & HI & HK). apply keyeq_str_l in HK. subst k'.
    apply in_map_iff in HI as ([k v] & HX & HI). injection HX as HX HW. rewrite Forall_forall in HD.
    apply HD in HI as (_ & _ & HI & _). cbn [fst snd] in *. destruct (HI HX) as [b ->]. cbn [named] in HW. subst w.
    assert (HIV : shorten (named_dict d) "IV" = Ok (if Nat.eqb (length b) 0 then named_dict d else
       dset (named_dict d) (VStr (bs "IV")) (VTuple [VBytes (firstn 5 b); VInt (Z.of_nat (length b))]))).
    { unfold shorten. rewrite E. cbn [py_len bind]. destruct (Nat.eqb (length b) 0); reflexivity. }
    rewrite HIV. cbn [bind]. destruct (Nat.eqb (length b) 0).
    + rewrite HQ by assumption. eexists. split; [reflexivity|]. apply shown_dict. assumption.
    + rewrite HQ.
      * eexists. split; [reflexivity|]. apply shown_dict. apply shown_dset; [assumption|reflexivity|reflexivity].
      * rewrite dget_dset_other; [assumption|reflexivity].
  - assert (HIV : shorten (named_dict d) "IV" = Ok (named_dict d)) by (unfold shorten; rewrite E; reflexivity).
    rewrite HIV. cbn [bind]. rewrite HQ by assumption. eexists. split; [reflexivity|]. apply shown_dict. assumption.
Qed.

Lemma body_repr_ok : forall c, good_core c -> payload c <> None -> plain_key_headers c -> body_repr c = Ok tt.
Proof.
  intros c [HP HU] HL HK. unfold body_repr, headers_repr.
  assert (H1 : plain_dict (phdr c)) by (intros h kc s e HI; eapply HK; left; exact HI).
  assert (H2 : plain_dict (uhdr c)) by (intros h kc s e HI; eapply HK; right; exact HI).
  destruct (hdr_repr_ok _ HP H1) as (p & -> & SP). destruct (hdr_repr_ok _ HU H2) as (u & -> & SU). cbn [bind].
  rewrite SP. cbn [bind]. rewrite SU. cbn [bind]. destruct (payload c) as [b|]; [|contradiction]. reflexivity.
Qed.

Lemma signer_repr_ok : forall c, good_core c -> payload c <> None -> plain_key_headers c -> signer_repr c = Ok tt.
Proof.
  intros c [HP HU] HL HK. unfold signer_repr.
  assert (H1 : plain_dict (phdr c)) by (intros h kc s e HI; eapply HK; left; exact HI).
  assert (H2 : plain_dict (uhdr c)) by (intros h kc s e HI; eapply HK; right; exact HI).
  assert (S1 : shown (VDict (phdr c))) by (apply shown_dict; apply plain_shown; assumption).
  assert (S2 : shown (VDict (uhdr c))) by (apply shown_dict; apply plain_shown; assumption).
  rewrite S1. cbn [bind]. rewrite S2. cbn [bind]. destruct (payload c) as [b|]; [|contradiction]. reflexivity.
Qed.

Definition printable (c : core) : Prop := good_core c /\ payload c <> None /\ plain_key_headers c.

Lemma rcpt_repr_ok : forall r, Forall printable (rcpt_cores r) -> rcpt_repr r = Ok tt.
Proof.
  fix IH 1. intros [id rc c ctx subs] H. cbn [rcpt_cores] in H. inversion H as [|? ? (HG & HL & HK) HS]; subst.
  cbn [rcpt_repr]. rewrite body_repr_ok by assumption. cbn [bind]. clear H. revert HS.
  induction subs as [|x subs IHs]; intros HS; [reflexivity|]. cbn [flat_map] in HS. apply Forall_app in HS as [HX HS].
  cbn [each]. rewrite (IH x HX). cbn [bind]. apply IHs. exact HS.
Qed.

Lemma rcpts_repr_ok : forall l, Forall printable (flat_map rcpt_cores l) -> each rcpt_repr l = Ok tt.
Proof.
  induction l as [|x l IH]; intros H; [reflexivity|]. cbn [flat_map] in H. apply Forall_app in H as [HX HL].
  cbn [each]. rewrite rcpt_repr_ok by assumption. cbn [bind]. apply IH. assumption.
Qed.

Lemma decoded_repr : forall e allow v m, decode X e allow v = Ok m ->
  (forall c, In c (message_cores m) -> payload c <> None /\ plain_key_headers c) ->
  (forall s, message_seal m = Some s -> exists b, s = VBytes b) -> message_repr m = Ok tt.
Proof.
  intros e allow v m H HC HS. apply decode_good in H.
  assert (HP : Forall printable (message_cores m)).
  { rewrite Forall_forall in *. intros c HI. split; [apply H; assumption|apply HC; assumption]. }
  clear H HC. unfold message_cores in HP. inversion HP as [|? ? (HG & HL & HK) HR]; subst.
  destruct m as [m|m|m|m|m|m]; cbn [message_repr message_core message_seal] in *; rewrite body_repr_ok by assumption; cbn [bind];
    try (destruct (HS _ eq_refl) as [b ->]; cbn [shows_truncated truncate first5 py_len bind shows]); try reflexivity.
  - assert (HX : forall l, Forall printable l -> each signer_repr l = Ok tt).
    { intros l HF. induction HF as [|c l (HG1 & HL1 & HK1) HF IH]; [reflexivity|]. cbn [each].
      rewrite signer_repr_ok by assumption. exact IH. }
    apply HX. assumption.
  - apply rcpts_repr_ok. assumption.
  - destruct (mm_rcpts m); [|reflexivity]. apply rcpts_repr_ok. assumption.
Qed.

End WithCrypto.

(** ** RSA keys *)

Lemma of_pairs_mem : forall l k v, In (k, v) l -> dmem (dict_of_pairs l) k = true.
Proof.
  intros l k v. unfold dict_of_pairs, dupdate.
  assert (HG : forall l d, dmem d k = true \/ In (k, v) l -> dmem (fold_left (fun acc e => dset acc (fst e) (snd e)) l d) k = true).
  { induction l0 as [|[a b] l0 IH]; intros d [H|H]; [exact H|destruct H| |]; cbn [fold_left fst snd]; apply IH.
    - left. rewrite dmem_dset, H. apply orb_true_r.
    - destruct H as [H|H]; [|right; assumption]. injection H as -> ->. left. rewrite dmem_dset, keyeq_refl. reflexivity. }
  intros H. apply HG. right. assumption.
Qed.

Lemma rsa_named : forall c, py_name c = bs "RSAKpD" -> c = RSAKpD.
Proof.
  intros [f z] HN. unfold py_name in HN. cbn [c_id c_fam] in HN.
  destruct (find _ (name_table f)) as [e|] eqn:E; [|discriminate HN].
  apply find_some in E as [HI HZ]. apply Z.eqb_eq in HZ. subst z.
  assert (HT : forallb (fun e => negb (bytes_eqb (bs (snd e)) (bs "RSAKpD")) || (Z.eqb (fst e) (-3) && (match f with FRSA => true | _ => false end)))
     (name_table f) = true) by (destruct f; vm_compute; reflexivity).
  rewrite forallb_forall in HT. specialize (HT _ HI). rewrite HN in HT.
  change (bytes_eqb (bs "RSAKpD") (bs "RSAKpD")) with true in HT. cbn [negb orb] in HT.
  apply andb_prop in HT as [HZ HF]. apply Z.eqb_eq in HZ. destruct f; try discriminate. rewrite HZ. reflexivity.
Qed.

Lemma rsa_printed : forall s d p, dnodup s = true -> dget s (VClass RSAKpD) = Some (VBytes d) ->
  dget s (VStr (bs "RSAKpD")) = None -> key_repr KRSA s = Ok p -> dget p (VStr (bs "RSAKpD")) = Some (VBytes d).
Proof.
  intros s d p HN HD HT H. unfold key_repr, key_names in H. cbn [shortened shorten_all] in H.
  apply bind_ok in H as (q & HQ & H). injection H as <-. apply bind_ok in HQ as (n & HO & HQ).
  set (D := named_dict (sort_entries s)) in *.
  assert (HG : dget D (VStr (bs "RSAKpD")) = Some (VBytes d)).
  { assert (HI : In (VClass RSAKpD, VBytes d) s).
    { apply dget_In in HD as (k' & HI & HK). apply keyeq_class in HK. subst k'. assumption. }
    assert (HM : dmem D (VStr (bs "RSAKpD")) = true).
    { apply of_pairs_mem with (VBytes d). apply in_map_iff. exists (VClass RSAKpD, VBytes d).
      split; [reflexivity|]. apply sort_In. assumption. }
    unfold dmem in HM. destruct (dget D (VStr (bs "RSAKpD"))) as [w|] eqn:E; [|discriminate].
    apply of_pairs_get in E as (k' & HJ & HK). apply keyeq_str_l in HK. subst k'.
    apply in_map_iff in HJ as ([k v] & HE & HJ). apply (proj1 (sort_In _ _)) in HJ. cbn [fst snd] in HE.
    apply pair_equal_spec in HE as [HE HW]. destruct k as [|b|z|x|n0| | |b|b|l|l|d0|t k|t k|c|kc s0 e]; try discriminate HE.
    - cbn [named] in HE. assert (HX : b = bs "RSAKpD") by congruence. subst b. apply (In_dget _ _ _ HN) in HJ. congruence.
    - cbn [named] in HE. assert (HX : py_name c = bs "RSAKpD") by congruence. apply rsa_named in HX. subst c.
      apply (In_dget _ _ _ HN) in HJ. rewrite HD in HJ. injection HJ as <-. cbn [named] in HW. congruence. }
  clearbody D. assert (HG2 : dget n (VStr (bs "RSAKpD")) = Some (VBytes d)).
  { destruct (dget D (VStr (bs "KpKeyOps"))) as [v|]; [|injection HO as <-; assumption].
    apply bind_ok in HO as (l & _ & HO). injection HO as <-. rewrite dget_dset_other; [assumption|reflexivity]. }
  unfold shorten in HQ. destruct (dget n (VStr (bs "BASE_IV"))) as [v|]; [|injection HQ as <-; assumption].
  apply bind_ok in HQ as (k & _ & HQ). destruct (Nat.eqb k 0); [injection HQ as <-; assumption|].
  apply bind_ok in HQ as (t & _ & HQ). injection HQ as <-. rewrite dget_dset_other; [assumption|reflexivity].
Qed.
