(** Proofs for C117. *)
From Coq Require Import NArith ZArith Bool String Lia Permutation.
From Coq Require Import Init.Byte List.
From Verif Require Import Bytes Value Cbor Registry Crypto Keys Headers Recipients Construct SpecConstruct ValueProofs.
Import ListNotations.
Local Open Scope result_scope.
Local Open Scope string_scope.
Local Open Scope list_scope.

(** ** Keyword arguments as a finite map *)

Definition given (n : string) (d : arg) (l : list (string * arg)) : arg :=
  match get_kw n l with Some a => a | None => d end.
Definition drop_all (ns : list string) (l : list (string * arg)) : list (string * arg) :=
  fold_left (fun l n => drop_kw n l) ns l.

Lemma get_none : forall n l, get_kw n l = None <-> ~ In n (map fst l).
Proof.
  intros n l. induction l as [|[m v] l IH]; cbn [get_kw map fst In]; [tauto|].
  destruct (String.eqb_spec n m) as [->|D]; split; intros H.
  - discriminate.
  - exfalso. apply H. left. reflexivity.
  - intros [E|E]; [congruence|apply IH in H; tauto].
  - apply IH. tauto.
Qed.
Lemma get_some : forall n a l, NoDup (map fst l) -> (get_kw n l = Some a <-> In (n, a) l).
Proof.
  intros n a l. induction l as [|[m v] l IH]; cbn [get_kw map fst In]; intros HN; [split; [discriminate|tauto]|].
  inversion HN as [|? ? HM HL]; subst. destruct (String.eqb_spec n m) as [->|D]; split; intros H.
  - injection H as ->. left. reflexivity.
  - destruct H as [E|E]; [congruence|]. exfalso. apply HM. apply in_map_iff. exists (m, a). split; [reflexivity|exact E].
  - right. apply IH; assumption.
  - destruct H as [E|E]; [congruence|]. apply IH; assumption.
Qed.
Lemma get_drop : forall n m l, get_kw m (drop_kw n l) = if String.eqb m n then None else get_kw m l.
Proof.
  intros n m l. induction l as [|[k v] l IH]; cbn [drop_kw filter get_kw fst]; [destruct (String.eqb m n); reflexivity|].
  fold (drop_kw n l). destruct (String.eqb_spec n k) as [->|D]; cbn [negb].
  - rewrite IH. destruct (String.eqb m k); reflexivity.
  - cbn [get_kw]. rewrite IH. destruct (String.eqb_spec m k) as [->|E]; [|reflexivity].
    destruct (String.eqb_spec k n); [congruence|reflexivity].
Qed.
Lemma get_drop_all : forall ns m l, get_kw m (drop_all ns l) = if existsb (String.eqb m) ns then None else get_kw m l.
Proof.
  induction ns as [|n ns IH]; intros m l; cbn [drop_all fold_left existsb]; [reflexivity|].
  fold (drop_all ns (drop_kw n l)). rewrite IH, get_drop. destruct (String.eqb m n), (existsb (String.eqb m) ns); reflexivity.
Qed.
Lemma drop_names : forall n m l, In m (map fst (drop_kw n l)) -> In m (map fst l).
Proof.
  intros n m l H. apply in_map_iff in H as ([k v] & <- & H). apply filter_In in H as [H _]. apply in_map_iff. exists (k, v). auto.
Qed.
Lemma drop_nodup : forall n l, NoDup (map fst l) -> NoDup (map fst (drop_kw n l)).
Proof.
  intros n l. induction l as [|[k v] l IH]; cbn [drop_kw filter map fst]; intros H; [exact H|].
  inversion H as [|? ? HK HL]; subst. fold (drop_kw n l). destruct (negb (String.eqb n k)); cbn [map fst]; [|apply IH; exact HL].
  constructor; [|apply IH; exact HL]. intros HI. apply HK. exact (drop_names _ _ _ HI).
Qed.
Lemma drop_all_names : forall ns m l, In m (map fst (drop_all ns l)) -> In m (map fst l).
Proof.
  induction ns as [|n ns IH]; intros m l H; [exact H|]. cbn [drop_all fold_left] in H. apply IH in H. exact (drop_names _ _ _ H).
Qed.
Lemma drop_all_nodup : forall ns l, NoDup (map fst l) -> NoDup (map fst (drop_all ns l)).
Proof. induction ns as [|n ns IH]; intros l H; [exact H|]. cbn [drop_all fold_left]. apply IH. apply drop_nodup. exact H. Qed.

Lemma existsb_name : forall n l, existsb (String.eqb n) l = true <-> In n l.
Proof.
  intros n l. rewrite existsb_exists. split.
  - intros (m & H & E). apply String.eqb_eq in E. subst. exact H.
  - intros H. exists n. split; [exact H|apply String.eqb_refl].
Qed.
Lemma repeated_spec : forall l, repeated l = false <-> NoDup l.
Proof.
  induction l as [|n l IH]; cbn [repeated]; [split; [constructor|reflexivity]|]. rewrite orb_false_iff, IH.
  assert (E : existsb (String.eqb n) l = false <-> ~ In n l).
  { rewrite <- existsb_name. destruct (existsb (String.eqb n) l); split; congruence. }
  rewrite E. split; [intros [A B]; constructor; assumption|intros H; inversion H; subst; auto].
Qed.
Definition fine (l : list (string * arg)) : Prop := NoDup (map fst l) /\ ~ In "self" (map fst l).
Lemma enter_fine : forall ps c, fine (kw c) -> enter ps c = bind_params ps (pos c) (kw c).
Proof.
  intros ps c [HN HS]. unfold enter. apply repeated_spec in HN. rewrite HN. cbn [orb].
  destruct (existsb (String.eqb "self") (map fst (kw c))) eqn:E; [|reflexivity]. apply existsb_name in E. contradiction.
Qed.
Lemma enter_rough : forall ps c, ~ fine (kw c) -> enter ps c = Err TypeError.
Proof.
  intros ps c H. unfold enter. destruct (repeated (map fst (kw c))) eqn:E; [reflexivity|]. cbn [orb].
  destruct (existsb (String.eqb "self") (map fst (kw c))) eqn:E'; [reflexivity|]. exfalso. apply H. split; [apply repeated_spec; exact E|].
  intros HS. apply existsb_name in HS. congruence.
Qed.
Lemma fine_drop : forall ns l, fine l -> fine (drop_all ns l).
Proof. intros ns l [A B]. split; [apply drop_all_nodup; exact A|]. intros H. apply B. exact (drop_all_names _ _ _ H). Qed.

(** ** Binding *)

Lemma bind_keywords : forall ps l, NoDup (map fst ps) ->
  bind_params ps [] l = Ok (map (fun p => given (fst p) (snd p) l) ps, Call [] (drop_all (filter (fun n => match get_kw n l with Some _ => true | None => false end) (map fst ps)) l)).
Proof.
  induction ps as [|[n d] ps IH]; intros l HN; [reflexivity|]. inversion HN as [|? ? HM HP]; subst.
  cbn [bind_params map fst snd filter]. unfold given at 1. destruct (get_kw n l) as [v|] eqn:E; cbn [drop_all fold_left].
  - rewrite (IH (drop_kw n l) HP). cbn [bind].
    assert (A : forall m, In m (map fst ps) -> get_kw m (drop_kw n l) = get_kw m l).
    { intros m HI. rewrite get_drop. destruct (String.eqb_spec m n) as [->|]; [contradiction|reflexivity]. }
    do 3 f_equal.
    + apply map_ext_in. intros [m dm] HI. unfold given. cbn [fst snd]. rewrite A; [reflexivity|]. apply in_map_iff. exists (m, dm). auto.
    + f_equal. fold (drop_all (filter (fun k => match get_kw k l with Some _ => true | None => false end) (map fst ps)) (drop_kw n l)).
      f_equal. apply filter_ext_in. intros m HI. rewrite (A m HI). reflexivity.
  - rewrite (IH l HP). reflexivity.
Qed.
Lemma get_dropped : forall (f : string -> bool) ns m l, f = (fun n => match get_kw n l with Some _ => true | None => false end) ->
  get_kw m (drop_all (filter f ns) l) = if existsb (String.eqb m) ns then None else get_kw m l.
Proof.
  intros f ns m l ->. rewrite get_drop_all. destruct (existsb (String.eqb m) ns) eqn:E.
  - apply existsb_name in E. destruct (existsb (String.eqb m) (filter _ ns)) eqn:E'; [reflexivity|].
    destruct (get_kw m l) eqn:G; [|reflexivity]. exfalso. apply (Bool.diff_false_true). rewrite <- E'. apply existsb_name. apply filter_In. split; [exact E|]. rewrite G. reflexivity.
  - destruct (existsb (String.eqb m) (filter _ ns)) eqn:E'; [|reflexivity]. apply existsb_name in E'. apply filter_In in E' as [E' _].
    apply existsb_name in E'. congruence.
Qed.

Lemma bind_full : forall ps vs s l, length vs = length ps -> (forall n, In n (map fst ps) -> get_kw n l = None) ->
  bind_params ps (vs ++ s) l = Ok (vs, Call s l).
Proof.
  induction ps as [|[n d] ps IH]; intros vs s l HL HN; destruct vs as [|v vs]; try discriminate HL; [reflexivity|].
  cbn [bind_params app]. rewrite (HN n (or_introl eq_refl)). rewrite IH; [reflexivity|cbn [length] in HL; lia|]. intros m HM. apply HN. right. exact HM.
Qed.

(** Arguments given by position may be given by name. *)
Lemma bind_by_name : forall ps vs l, NoDup (map fst ps) -> (length vs <= length ps)%nat ->
  (forall n, In n (firstn (length vs) (map fst ps)) -> get_kw n l = None) ->
  bind_params ps vs l = bind_params ps [] (combine (map fst ps) vs ++ l).
Proof.
  induction ps as [|[n d] ps IH]; intros vs l HN HL HK.
  - destruct vs; [reflexivity|cbn in HL; lia].
  - destruct vs as [|v vs]; [reflexivity|]. inversion HN as [|? ? HM HP]; subst. cbn [length map fst firstn combine] in *.
    cbn [bind_params]. rewrite (HK n (or_introl eq_refl)). cbn [app get_kw]. rewrite String.eqb_refl.
    assert (E : drop_kw n ((n, v) :: combine (map fst ps) vs ++ l) = combine (map fst ps) vs ++ l).
    { unfold drop_kw. cbn [filter fst]. rewrite String.eqb_refl. cbn [negb].
      assert (F : forall q : list (string * arg), ~ In n (map fst q) -> filter (fun p => negb (String.eqb n (fst p))) q = q).
      { induction q as [|[m w] q IHq]; intros HI; cbn [filter fst]; [reflexivity|]. cbn [map fst In] in HI.
        destruct (String.eqb_spec n m) as [->|]; [exfalso; apply HI; left; reflexivity|]. cbn [negb]. rewrite IHq; [reflexivity|tauto]. }
      apply F. rewrite map_app, in_app_iff. intros [H|H].
      - apply in_map_iff in H as ([m w] & EM & H). cbn [fst] in EM. subst m. apply in_combine_l in H. contradiction.
      - pose proof (HK n (or_introl eq_refl)) as G. apply get_none in G. contradiction. }
    rewrite E, (IH vs l HP); [reflexivity|lia|]. intros m HI. apply HK. right. exact HI.
Qed.

(** An argument given twice. *)
Lemma bind_twice : forall ps vs l n, NoDup (map fst ps) -> In n (firstn (length vs) (map fst ps)) -> get_kw n l <> None ->
  bind_params ps vs l = Err TypeError.
Proof.
  induction ps as [|[m d] ps IH]; intros vs l n HN HI HK; destruct vs as [|v vs]; cbn [length map fst firstn In] in HI; try contradiction.
  inversion HN as [|? ? HM HP]; subst. cbn [bind_params]. destruct (get_kw m l) as [w|] eqn:E; [reflexivity|].
  destruct HI as [->|HI]; [contradiction|]. rewrite (IH vs l n HP HI HK). reflexivity.
Qed.

(** ** Two calls that say the same *)

Definition same_call (known : list string) (c c' : call) : Prop :=
  pos c = pos c' /\ fine (kw c) /\ fine (kw c') /\ forall n, In n known -> get_kw n (kw c) = get_kw n (kw c').

Lemma same_drop : forall known n l l', fine l -> fine l' -> (forall m, In m known -> get_kw m l = get_kw m l') ->
  fine (drop_kw n l) /\ fine (drop_kw n l') /\ forall m, In m known -> get_kw m (drop_kw n l) = get_kw m (drop_kw n l').
Proof.
  intros known n l l' H H' HG. split; [exact (fine_drop [n] l H)|split; [exact (fine_drop [n] l' H')|]].
  intros m HM. rewrite !get_drop, (HG m HM). reflexivity.
Qed.
Lemma bind_same : forall known ps vs l l', fine l -> fine l' -> (forall m, In m known -> get_kw m l = get_kw m l') ->
  incl (map fst ps) known ->
  match bind_params ps vs l, bind_params ps vs l' with
  | Ok (r, c), Ok (r', c') => r = r' /\ same_call known c c'
  | Err e, Err e' => e = e'
  | _, _ => False
  end.
Proof.
  intros known. induction ps as [|[n d] ps IH]; intros vs l l' HF HF' HG HI; cbn [bind_params].
  - split; [reflexivity|]. split; [reflexivity|auto].
  - cbn [map fst] in HI. apply incl_cons_inv in HI as [HN HI]. rewrite <- (HG n HN).
    destruct vs as [|v vs].
    + destruct (get_kw n l) as [w|].
      * destruct (same_drop known n l l' HF HF' HG) as (A & B & C). pose proof (IH [] _ _ A B C HI) as H.
        destruct (bind_params ps [] (drop_kw n l)) as [[r c]|e], (bind_params ps [] (drop_kw n l')) as [[r' c']|e']; cbn [bind]; try contradiction; [|exact H].
        destruct H as [-> H]. split; [reflexivity|exact H].
      * pose proof (IH [] _ _ HF HF' HG HI) as H.
        destruct (bind_params ps [] l) as [[r c]|e], (bind_params ps [] l') as [[r' c']|e']; cbn [bind]; try contradiction; [|exact H].
        destruct H as [-> H]. split; [reflexivity|exact H].
    + destruct (get_kw n l) as [w|]; [reflexivity|]. pose proof (IH vs _ _ HF HF' HG HI) as H.
      destruct (bind_params ps vs l) as [[r c]|e], (bind_params ps vs l') as [[r' c']|e']; cbn [bind]; try contradiction; [|exact H].
      destruct H as [-> H]. split; [reflexivity|exact H].
Qed.
Lemma enter_same : forall known ps c c', same_call known c c' -> incl (map fst ps) known ->
  match enter ps c, enter ps c' with
  | Ok (r, d), Ok (r', d') => r = r' /\ same_call known d d'
  | Err e, Err e' => e = e'
  | _, _ => False
  end.
Proof.
  intros known ps c c' (HP & HF & HF' & HG) HI. rewrite !enter_fine by assumption. rewrite <- HP. apply bind_same; assumption.
Qed.

Section WithCrypto.
Context (X : crypto).

Definition basics : list string := ["phdr"; "uhdr"; "payload"; "external_aad"; "key"; "phdr_encoded"; "alg_tstr_encoding"; "allow_unknown_attributes"].
Ltac sub := intros ? ?; repeat match goal with H : In _ _ |- _ => revert H end; cbn [In map fst base_params message_params app params basics documented meaningful options taken]; intuition.

Lemma base_same : forall known c c', same_call known c c' -> incl basics known -> base_init X c = base_init X c'.
Proof.
  intros known c c' H HI. unfold base_init.
  assert (HB : incl (map fst base_params) known) by (intros n HN; apply HI; revert HN; cbn; intuition).
  pose proof (enter_same known base_params c c' H HB) as E.
  destruct (enter base_params c) as [[r d]|e], (enter base_params c') as [[r' d']|e']; cbn [bind]; try contradiction; [|congruence].
  destruct E as (<- & _ & _ & _ & G). rewrite (G "alg_tstr_encoding"), (G "allow_unknown_attributes"); [reflexivity| |]; apply HI; cbn; intuition.
Qed.
Lemma message_same : forall known c c', same_call known c c' -> incl basics known -> message_init X c = message_init X c'.
Proof.
  intros known c c' H HI. unfold message_init.
  assert (HB : incl (map fst (message_params none)) known) by (intros n HN; apply HI; revert HN; cbn; intuition).
  pose proof (enter_same known _ c c' H HB) as E.
  destruct (enter (message_params none) c) as [[r d]|e], (enter (message_params none) c') as [[r' d']|e']; cbn [bind]; try contradiction; [|congruence].
  destruct E as (<- & P & F & F' & G). destruct r as [|p [|u [|pl [|ad [|ky [|]]]]]]; try reflexivity.
  rewrite (base_same known (Call (p :: u :: pos d) (kw d)) (Call (p :: u :: pos d') (kw d'))); [reflexivity| |exact HI].
  split; [cbn [pos]; congruence|]. cbn [kw]. auto.
Qed.
Lemma forward_same : forall known ps c c', same_call known c c' -> incl (map fst ps) known ->
  match forward ps c, forward ps c' with
  | Ok d, Ok d' => same_call known d d'
  | Err e, Err e' => e = e'
  | _, _ => False
  end.
Proof.
  intros known ps c c' H HI. unfold forward. pose proof (enter_same known ps c c' H HI) as E.
  destruct (enter ps c) as [[r d]|e], (enter ps c') as [[r' d']|e']; cbn [bind]; try contradiction; [|exact E].
  destruct E as (<- & P & F & F' & G). split; [cbn [pos]; congruence|]. cbn [kw]. auto.
Qed.
Lemma with_recipients_same : forall known k c c', same_call known c c' -> incl (map fst (params k)) known ->
  match with_recipients k c, with_recipients k c' with
  | Ok (d, a), Ok (d', a') => a = a' /\ same_call known d d'
  | Err e, Err e' => e = e'
  | _, _ => False
  end.
Proof.
  intros known k c c' H HI. unfold with_recipients. pose proof (enter_same known _ c c' H HI) as E.
  destruct (enter (params k) c) as [[r d]|e], (enter (params k) c') as [[r' d']|e']; cbn [bind]; try contradiction; [|exact E].
  destruct E as (<- & P & F & F' & G). destruct r as [|p [|u [|pl [|ad [|ky [|rs [|]]]]]]]; try reflexivity.
  split; [reflexivity|]. split; [cbn [pos]; congruence|]. cbn [kw]. auto.
Qed.

(** Adding keywords in front of [**kwargs]. *)
Lemma repeated_same : forall known ns (l l' : list (string * arg)), incl ns known -> (forall n, In n known -> get_kw n l = get_kw n l') ->
  (exists n, In n ns /\ In n (map fst l)) <-> (exists n, In n ns /\ In n (map fst l')).
Proof.
  intros known ns l l' HI HG.
  assert (A : forall n, In n ns -> (In n (map fst l) <-> In n (map fst l'))).
  { intros n HN. specialize (HG n (HI n HN)). pose proof (get_none n l) as P. pose proof (get_none n l') as Q. rewrite HG in P.
    destruct (in_dec string_dec n (map fst l)), (in_dec string_dec n (map fst l')); tauto. }
  split; intros (n & HN & H); exists n; (split; [exact HN|]); apply (A n HN); exact H.
Qed.
Lemma message_add : forall known ks v c c', same_call known c c' -> incl basics known -> incl (map fst ks) known -> ~ In "self" (map fst ks) -> NoDup (map fst ks) ->
  message_init X (Call (v ++ pos c) (ks ++ kw c)) = message_init X (Call (v ++ pos c') (ks ++ kw c')).
Proof.
  intros known ks v c c' (P & F & F' & G) HB HK HS HN.
  assert (NA : forall l, fine l -> fine (ks ++ l) <-> ~ exists n, In n (map fst ks) /\ In n (map fst l)).
  { intros l [A B]. unfold fine. rewrite map_app. split.
    - intros [N _] (n & H1 & H2).
      revert N H1. clear -H2. generalize (map fst ks) as q. induction q as [|m q IH]; cbn [app In]; intros N H1; [contradiction|].
      inversion N as [|? ? HM HQ]; subst. destruct H1 as [->|H1]; [apply HM; apply in_app_iff; right; exact H2|exact (IH HQ H1)].
    - intros HD. split.
      + revert HD HN. generalize (map fst ks) as q. induction q as [|m q IH]; cbn [app In]; intros HD HN'; [exact A|].
        inversion HN' as [|? ? HM HQ]; subst. constructor; [|apply IH; [|exact HQ]; intros (n & H1 & H2); apply HD; exists n; auto].
        rewrite in_app_iff. intros [H|H]; [contradiction|]. apply HD. exists m. auto.
      + rewrite in_app_iff. intros [H|H]; contradiction. }
  pose proof (repeated_same known (map fst ks) (kw c) (kw c') HK G) as HR.
  destruct (in_dec (fun a b => Bool.bool_dec a b) true [existsb (fun n => existsb (String.eqb n) (map fst (kw c))) (map fst ks)]) as [D|D].
  - destruct D as [D|[]]. symmetry in D. assert (HE : exists n, In n (map fst ks) /\ In n (map fst (kw c))).
    { symmetry in D. apply existsb_exists in D as (n & H1 & H2). apply existsb_name in H2. eauto. }
    unfold message_init. rewrite !enter_rough; [reflexivity| |]; cbn [kw]; rewrite NA by assumption; intros Q; apply Q; [apply HR; exact HE|exact HE].
  - assert (HE : ~ exists n, In n (map fst ks) /\ In n (map fst (kw c))).
    { intros (n & H1 & H2). apply D. left. apply existsb_exists. exists n. split; [exact H1|]. apply existsb_name. exact H2. }
    apply (message_same known); [|exact HB]. split; [cbn [pos]; congruence|]. cbn [kw].
    split; [apply NA; assumption|]. split; [apply NA; [assumption|]; rewrite <- HR; exact HE|].
    intros n HI. specialize (G n HI). clear -G. induction ks as [|[m w] ks IH]; [exact G|]. cbn [app get_kw]. destruct (String.eqb n m); [reflexivity|exact IH].
Qed.

Lemma new_same : forall k c c', same_call (meaningful k) c c' -> new X k c = new X k c'.
Proof.
  intros k c c' H.
  assert (HB : incl basics (meaningful k)) by (destruct k; intros n HN; revert HN; cbn; intuition).
  assert (HP : incl (map fst (params k)) (meaningful k)) by (destruct k; intros n HN; revert HN; cbn; intuition).
  assert (HM : incl (map fst (message_params empty)) (meaningful k)) by (intros n HN; apply HB; revert HN; cbn; intuition).
  destruct k; cbn [new].
  - pose proof (forward_same _ _ c c' H HP) as E.
    destruct (forward (params NSign1) c) as [d|e], (forward (params NSign1) c') as [d'|e']; cbn [bind]; try contradiction; [|congruence].
    rewrite (message_same _ d d' E HB). reflexivity.
  - pose proof (enter_same _ _ c c' H HP) as E.
    destruct (enter (params NSign) c) as [[r d]|e], (enter (params NSign) c') as [[r' d']|e']; cbn [bind]; try contradiction; [|congruence].
    destruct E as [<- E]. destruct r as [|p [|u [|pl [|s [|]]]]]; try reflexivity.
    pose proof (message_add _ [("external_aad", empty); ("key", none)] [p; u; pl] d d' E HB) as Q. cbn [app] in *. rewrite Q; [reflexivity| | |].
    + intros n HN. revert HN. cbn. intuition.
    + cbn. intuition discriminate.
    + repeat constructor; cbn; intuition discriminate.
  - pose proof (enter_same _ _ c c' H HP) as E.
    destruct (enter (params NSigner) c) as [[r d]|e], (enter (params NSigner) c') as [[r' d']|e']; cbn [bind]; try contradiction; [|congruence].
    destruct E as [<- E]. destruct r as [|p [|u [|pl [|ad [|ky [|]]]]]]; try reflexivity.
    pose proof (message_add _ [("payload", pl); ("external_aad", ad); ("key", ky)] [p; u] d d' E HB) as Q. cbn [app] in *. rewrite Q; [reflexivity| | |].
    + intros n HN. revert HN. cbn. intuition.
    + cbn. intuition discriminate.
    + repeat constructor; cbn; intuition discriminate.
  - pose proof (forward_same _ _ c c' H HP) as E.
    destruct (forward (params NEnc0) c) as [d|e], (forward (params NEnc0) c') as [d'|e']; cbn [bind]; try contradiction; [|congruence].
    pose proof (forward_same _ _ d d' E HM) as E2.
    destruct (forward (message_params empty) d) as [d2|e], (forward (message_params empty) d') as [d2'|e']; cbn [bind]; try contradiction; [|congruence].
    rewrite (message_same _ d2 d2' E2 HB). reflexivity.
  - pose proof (with_recipients_same _ NEnc c c' H HP) as E.
    destruct (with_recipients NEnc c) as [[d a]|e], (with_recipients NEnc c') as [[d' a']|e']; cbn [bind]; try contradiction; [|congruence].
    destruct E as [<- E]. pose proof (forward_same _ _ d d' E HM) as E2.
    destruct (forward (message_params empty) d) as [d2|e], (forward (message_params empty) d') as [d2'|e']; cbn [bind]; try contradiction; [|congruence].
    rewrite (message_same _ d2 d2' E2 HB). reflexivity.
  - pose proof (forward_same _ _ c c' H HP) as E.
    destruct (forward (params NMac0) c) as [d|e], (forward (params NMac0) c') as [d'|e']; cbn [bind]; try contradiction; [|congruence].
    pose proof (forward_same _ _ d d' E HM) as E2.
    destruct (forward (message_params empty) d) as [d2|e], (forward (message_params empty) d') as [d2'|e']; cbn [bind]; try contradiction; [|congruence].
    rewrite (message_same _ d2 d2' E2 HB). reflexivity.
  - pose proof (with_recipients_same _ NMac c c' H HP) as E.
    destruct (with_recipients NMac c) as [[d a]|e], (with_recipients NMac c') as [[d' a']|e']; cbn [bind]; try contradiction; [|congruence].
    destruct E as [<- E]. pose proof (forward_same _ _ d d' E HM) as E2.
    destruct (forward (message_params empty) d) as [d2|e], (forward (message_params empty) d') as [d2'|e']; cbn [bind]; try contradiction; [|congruence].
    rewrite (message_same _ d2 d2' E2 HB). reflexivity.
  - pose proof (with_recipients_same _ NRcpt c c' H HP) as E.
    destruct (with_recipients NRcpt c) as [[d a]|e], (with_recipients NRcpt c') as [[d' a']|e']; cbn [bind]; try contradiction; [|congruence].
    destruct E as [<- E]. rewrite (message_same _ d d' E HB). reflexivity.
Qed.

(** ** What the first [__init__] binds *)
Lemma new_enter : forall k c c', enter (params k) c = enter (params k) c' -> new X k c = new X k c'.
Proof. intros k c c' H. destruct k; cbn [new]; unfold forward, with_recipients; rewrite H; reflexivity. Qed.
Lemma new_refused : forall k c e, enter (params k) c = Err e -> new X k c = Err e.
Proof. intros k c e H. destruct k; cbn [new]; unfold forward, with_recipients; rewrite H; reflexivity. Qed.
Lemma params_names : forall k, map fst (params k) = documented k.
Proof. destruct k; reflexivity. Qed.
Lemma documented_nodup : forall k, NoDup (documented k).
Proof. destruct k; repeat constructor; cbn; intuition discriminate. Qed.

(** ** The fields of the new object *)
Definition tstr_of (l : list (string * arg)) : bool := match get_kw "alg_tstr_encoding" l with Some v => truthy (val v) | None => false end.
Definition allow_of (l : list (string * arg)) : bool := match get_kw "allow_unknown_attributes" l with Some v => truthy (val v) | None => true end.

Lemma base_two : forall p u l, fine l -> get_kw "phdr" l = None -> get_kw "uhdr" l = None -> get_kw "payload" l = None ->
  forall pl ad k,
  (m <- base_init X (Call [p; u] l) ;; pl' <- check_payload (val pl) ;; ad' <- check_aad (val ad) ;; k' <- check_key (val k) ;;
   Ok (with_key (with_aad (with_payload m pl') ad') k')) =
  core_init X (Args (val p) (val u) (val pl) (val ad) (val k) (val (given "phdr_encoded" none l)) (tstr_of l) (allow_of l)).
Proof.
  intros p u l HF H1 H2 H3 pl ad k. unfold base_init. rewrite enter_fine by exact HF. cbn [pos kw base_params bind_params].
  rewrite H1, H2, H3.
  assert (E : (match get_kw "phdr_encoded" l with
               | Some v => '(r, c) <- bind_params [] [] (drop_kw "phdr_encoded" l);; Ok (v :: r, c)
               | None => '(r, c) <- bind_params [] [] l;; Ok (none :: r, c)
               end) = Ok ([given "phdr_encoded" none l], Call [] (match get_kw "phdr_encoded" l with Some _ => drop_kw "phdr_encoded" l | None => l end))).
  { unfold given. destruct (get_kw "phdr_encoded" l); reflexivity. }
  cbn [bind_params] in E. rewrite E. cbn [bind kw].
  assert (T : forall n, n <> "phdr_encoded" -> get_kw n (match get_kw "phdr_encoded" l with Some _ => drop_kw "phdr_encoded" l | None => l end) = get_kw n l).
  { intros n HN. destruct (get_kw "phdr_encoded" l); [|reflexivity]. rewrite get_drop. destruct (String.eqb_spec n "phdr_encoded"); [contradiction|reflexivity]. }
  rewrite (T "alg_tstr_encoding"), (T "allow_unknown_attributes") by discriminate. fold (tstr_of l). fold (allow_of l).
  unfold core_init. cbn [a_phdr a_uhdr a_payload a_aad a_key a_phdr_encoded a_tstr a_allow].
  set (e := given "phdr_encoded" none l). clearbody e. clear E T.
  match goal with |- bind (bind ?A _) _ = bind ?B _ => change B with A; destruct A as [ph|x]; [|reflexivity] end. cbn [bind].
  cbn [val none]. destruct ph; try reflexivity; destruct (match val u with VNone => VDict [] | _ => _ end); try reflexivity.
  destruct (parse_items X (allow_of l) d []) as [pd|x]; [|reflexivity]. cbn [bind].
  destruct (parse_items X (allow_of l) d0 []) as [ud|x]; [|reflexivity]. cbn [bind].
  match goal with |- bind (bind ?A _) _ = bind ?A _ => destruct A as [raw|x]; [|reflexivity] end. cbn [bind check_payload].
  destruct (check_payload (val pl)) as [pl'|x]; [|reflexivity]. cbn [bind].
  destruct (check_aad (val ad)) as [ad'|x]; [|reflexivity]. cbn [bind].
  destruct (check_key (val k)) as [k'|x]; reflexivity.
Qed.

Lemma message_five : forall p u pl ad k l, fine l -> (forall n, In n (map fst (message_params none)) -> get_kw n l = None) ->
  message_init X (Call [p; u; pl; ad; k] l) =
  core_init X (Args (val p) (val u) (val pl) (val ad) (val k) (val (given "phdr_encoded" none l)) (tstr_of l) (allow_of l)).
Proof.
  intros p u pl ad k l HF HN. unfold message_init. rewrite enter_fine by exact HF. cbn [pos kw].
  pose proof (bind_full (message_params none) [p; u; pl; ad; k] [] l eq_refl HN) as Q. cbn [app] in Q. rewrite Q. cbn [bind pos kw].
  apply base_two; [exact HF| | |]; apply HN; cbn; intuition.
Qed.
Lemma forward_five : forall d p u pl ad k l, fine l -> (forall n, In n (map fst (message_params none)) -> get_kw n l = None) ->
  forward (message_params d) (Call [p; u; pl; ad; k] l) = Ok (Call [p; u; pl; ad; k] l).
Proof.
  intros d p u pl ad k l HF HN. unfold forward. rewrite enter_fine by exact HF. cbn [pos kw].
  pose proof (bind_full (message_params d) [p; u; pl; ad; k] [] l eq_refl HN) as Q. cbn [app] in Q. rewrite Q. reflexivity.
Qed.

(** [message_init] with some of its arguments by name. *)
Lemma message_three : forall p u pl ad k l, fine l -> (forall n, In n (map fst (message_params none)) -> get_kw n l = None) ->
  message_init X (Call [p; u; pl] (("external_aad", ad) :: ("key", k) :: l)) =
  core_init X (Args (val p) (val u) (val pl) (val ad) (val k) (val (given "phdr_encoded" none l)) (tstr_of l) (allow_of l)).
Proof.
  intros p u pl ad k l HF HN. rewrite <- (message_five p u pl ad k l HF HN). unfold message_init.
  assert (HF' : fine (("external_aad", ad) :: ("key", k) :: l)).
  { destruct HF as [A B]. split; cbn [map fst].
    - constructor; [|constructor; [|exact A]].
      + intros [H|H]; [discriminate|]. revert H. apply get_none. apply HN. cbn. intuition.
      + apply get_none. apply HN. cbn. intuition.
    - intros [H|[H|H]]; [discriminate|discriminate|contradiction]. }
  rewrite !enter_fine by assumption. cbn [pos kw].
  rewrite (bind_by_name (message_params none) [p; u; pl; ad; k] l); [|repeat constructor; cbn; intuition discriminate|cbn; lia|exact HN].
  rewrite (bind_by_name (message_params none) [p; u; pl]); [|repeat constructor; cbn; intuition discriminate|cbn; lia|].
  - reflexivity.
  - intros n HI. cbn [length firstn map fst message_params] in HI. pose proof (HN n) as Q. revert Q. cbn [map fst message_params get_kw In].
    destruct HI as [<-|[<-|[<-|[]]]]; cbn [String.eqb Ascii.eqb Bool.eqb]; intros Q; apply Q; intuition.
Qed.
Lemma message_two : forall p u pl ad k l, fine l -> (forall n, In n (map fst (message_params none)) -> get_kw n l = None) ->
  message_init X (Call [p; u] (("payload", pl) :: ("external_aad", ad) :: ("key", k) :: l)) =
  core_init X (Args (val p) (val u) (val pl) (val ad) (val k) (val (given "phdr_encoded" none l)) (tstr_of l) (allow_of l)).
Proof.
  intros p u pl ad k l HF HN. rewrite <- (message_five p u pl ad k l HF HN). unfold message_init.
  assert (HF' : fine (("payload", pl) :: ("external_aad", ad) :: ("key", k) :: l)).
  { destruct HF as [A B]. split; cbn [map fst].
    - constructor; [|constructor; [|constructor; [|exact A]]].
      + intros [H|[H|H]]; [discriminate|discriminate|]. revert H. apply get_none. apply HN. cbn. intuition.
      + intros [H|H]; [discriminate|]. revert H. apply get_none. apply HN. cbn. intuition.
      + apply get_none. apply HN. cbn. intuition.
    - intros [H|[H|[H|H]]]; [discriminate|discriminate|discriminate|contradiction]. }
  rewrite !enter_fine by assumption. cbn [pos kw].
  rewrite (bind_by_name (message_params none) [p; u; pl; ad; k] l); [|repeat constructor; cbn; intuition discriminate|cbn; lia|exact HN].
  rewrite (bind_by_name (message_params none) [p; u]); [|repeat constructor; cbn; intuition discriminate|cbn; lia|].
  - reflexivity.
  - intros n HI. cbn [length firstn map fst message_params] in HI. pose proof (HN n) as Q. revert Q. cbn [map fst message_params get_kw In].
    destruct HI as [<-|[<-|[]]]; cbn [String.eqb Ascii.eqb Bool.eqb]; intros Q; apply Q; intuition.
Qed.
End WithCrypto.

(** ** Keyword arguments only *)

Lemma passed_given : forall l n d a, each_once l -> passed l n d a -> given n d l = a.
Proof.
  intros l n d a HO [H|[H ->]]; unfold given.
  - apply get_some in H; [|exact HO]. rewrite H. reflexivity.
  - apply get_none in H. rewrite H. reflexivity.
Qed.
Lemma given_passed : forall l n d, each_once l -> passed l n d (given n d l).
Proof.
  intros l n d HO. unfold passed, given. destruct (get_kw n l) as [a|] eqn:E; [left; apply get_some; assumption|right; split; [apply get_none; exact E|reflexivity]].
Qed.

(** The arguments of the constructor in the form the other properties use. *)
Definition the_args (k : kind) (l : list (string * arg)) : args :=
  Args (val (given "phdr" none l)) (val (given "uhdr" none l)) (val (given (payload_name k) (payload_default k) l))
       (match k with NSign => VBytes [] | _ => val (given "external_aad" empty l) end)
       (match k with NSign => VNone | _ => val (given "key" none l) end)
       (val (given "phdr_encoded" none l)) (tstr_of l) (allow_of l).
Lemma new_keywords : forall X k l, each_once l -> (forall n, In n (taken k) -> ~ In n (map fst l)) ->
  new X k (Call [] l) =
  match core_init X (the_args k l) with
  | Err e => Err e
  | Ok m =>
    match k with
    | NSign1 | NMac0 => Ok (Obj m (VBytes []) none)
    | NSign => match take_signers (given "signers" none l) with Ok s => Ok (Obj m VNone s) | Err e => Err e end
    | NSigner | NEnc0 => Ok (Obj m VNone none)
    | NEnc | NRcpt => match take_recipients (given "recipients" none l) with Ok s => Ok (Obj m VNone s) | Err e => Err e end
    | NMac => Ok (Obj m (VBytes []) (given "recipients" none l))
    end
  end.
Proof.
  intros X k l HO HT.
  assert (HF : fine l) by (split; [exact HO|apply HT; destruct k; left; reflexivity]).
  assert (ND : NoDup (map fst (params k))) by (rewrite params_names; apply documented_nodup).
  pose proof (bind_keywords (params k) l ND) as HB.
  set (l' := drop_all _ l) in HB. assert (HF' : fine l') by (apply fine_drop; exact HF).
  assert (G : forall n, get_kw n l' = if existsb (String.eqb n) (map fst (params k)) then None else get_kw n l) by (intros n; apply (get_dropped _ _ _ _ eq_refl)).
  assert (GE : given "phdr_encoded" none l' = given "phdr_encoded" none l) by (unfold given; rewrite G; destruct k; reflexivity).
  assert (GT : tstr_of l' = tstr_of l) by (unfold tstr_of; rewrite G; destruct k; reflexivity).
  assert (GA : allow_of l' = allow_of l) by (unfold allow_of; rewrite G; destruct k; reflexivity).
  assert (EE : enter (params k) (Call [] l) = Ok (map (fun p => given (fst p) (snd p) l) (params k), Call [] l')) by (rewrite enter_fine by exact HF; exact HB).
  assert (N5 : forall n, In n (map fst (message_params none)) -> get_kw n l' = None).
  { intros n HI. rewrite G. destruct (existsb (String.eqb n) (map fst (params k))) eqn:E; [reflexivity|]. apply get_none. apply HT.
    rewrite params_names in E. destruct k; cbn [message_params map fst In] in HI; repeat (destruct HI as [<-|HI]; [cbn in E; try discriminate E; cbn; tauto|]); contradiction. }
  clearbody l'. clear HB G.
  destruct k; cbn [new]; unfold the_args; cbn [payload_name payload_default].
  - unfold forward. rewrite EE. cbn [bind params message_params map fst snd app pos Construct.kw].
    rewrite (message_five X _ _ _ _ _ l' HF' N5), GE, GT, GA. destruct (core_init X _); reflexivity.
  - rewrite EE. cbn [bind params map fst snd app pos Construct.kw].
    rewrite (message_three X _ _ _ _ _ l' HF' N5), GE, GT, GA. destruct (core_init X _); [|reflexivity]. cbn [bind]. destruct (take_signers _); reflexivity.
  - rewrite EE. cbn [bind params map fst snd app pos Construct.kw].
    rewrite (message_two X _ _ _ _ _ l' HF' N5), GE, GT, GA. destruct (core_init X _); reflexivity.
  - unfold forward at 1. rewrite EE. cbn [bind params message_params map fst snd app pos Construct.kw].
    fold (message_params empty). rewrite (forward_five empty _ _ _ _ _ l' HF' N5). cbn [bind].
    rewrite (message_five X _ _ _ _ _ l' HF' N5), GE, GT, GA. destruct (core_init X _); reflexivity.
  - unfold with_recipients. rewrite EE. cbn [bind params message_params map fst snd app pos Construct.kw].
    fold (message_params empty). rewrite (forward_five empty _ _ _ _ _ l' HF' N5). cbn [bind].
    rewrite (message_five X _ _ _ _ _ l' HF' N5), GE, GT, GA. destruct (core_init X _); [|reflexivity]. cbn [bind]. destruct (take_recipients _); reflexivity.
  - unfold forward at 1. rewrite EE. cbn [bind params message_params map fst snd app pos Construct.kw].
    fold (message_params empty). rewrite (forward_five empty _ _ _ _ _ l' HF' N5). cbn [bind].
    rewrite (message_five X _ _ _ _ _ l' HF' N5), GE, GT, GA. destruct (core_init X _); reflexivity.
  - unfold with_recipients. rewrite EE. cbn [bind params message_params map fst snd app pos Construct.kw].
    fold (message_params empty). rewrite (forward_five empty _ _ _ _ _ l' HF' N5). cbn [bind].
    rewrite (message_five X _ _ _ _ _ l' HF' N5), GE, GT, GA. destruct (core_init X _); reflexivity.
  - unfold with_recipients. rewrite EE. cbn [bind params message_params map fst snd app pos Construct.kw].
    rewrite (message_five X _ _ _ _ _ l' HF' N5), GE, GT, GA. destruct (core_init X _); [|reflexivity]. cbn [bind]. destruct (take_recipients _); reflexivity.
Qed.
