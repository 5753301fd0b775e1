(** The store-based functions of Heap.v and the value-based ones of Recipients.v agree on
    messages without repeated recipient objects. *)
From Coq Require Import NArith ZArith Bool String Lia.
From Coq Require Import Init.Byte List.
From Verif Require Import Bytes BytesProofs Value ValueProofs Cbor CborProofs SpecData DataProofs Registry
  RegistryProofs Crypto Keys Algorithms Headers Messages Recipients SpecRegistry SpecHdr HdrProofs SpecRcpt RcptProofs RcptTrip4 Heap SpecHeap.
Import ListNotations.
Local Open Scope result_scope.

Lemma upd_same : forall A (f : N -> A) i x, upd f i x i = x.
Proof. intros. unfold upd. rewrite N.eqb_refl. reflexivity. Qed.
Lemma upd_other : forall A (f : N -> A) i x j, j <> i -> upd f i x j = f j.
Proof. intros A f i x j H. unfold upd. apply N.eqb_neq in H. rewrite H. reflexivity. Qed.

Fixpoint refsize (r : rref) : nat := match r with Ref _ subs => S (list_sum (map refsize subs)) end.

Lemma load_ext_all : forall k l, (list_sum (map refsize l) < k)%nat -> forall st st', (forall j, In j (all_objects l) -> st j = st' j) -> map (load st) l = map (load st') l.
Proof.
  induction k as [|k IH]; [lia|]. induction l as [|[i subs] l IHl]; intros HK st st' H; [reflexivity|].
  cbn [map list_sum fold_right refsize] in HK. change (fold_right Nat.add 0 (map refsize l)) with (list_sum (map refsize l)) in HK.
  cbn [map load]. f_equal.
  - rewrite (H i) by (left; reflexivity). f_equal. apply IH; [lia|]. intros j HJ. apply H. right. apply in_or_app. left. exact HJ.
  - apply IHl; [lia|]. intros j HJ. apply H. apply in_or_app. right. exact HJ.
Qed.
Lemma load_exts : forall l st st', (forall j, In j (all_objects l) -> st j = st' j) -> map (load st) l = map (load st') l.
Proof. intros l. apply (load_ext_all (S (list_sum (map refsize l)))). lia. Qed.
Lemma load_ext : forall r st st', (forall j, In j (objects r) -> st j = st' j) -> load st r = load st' r.
Proof.
  intros r st st' H. assert (E : map (load st) [r] = map (load st') [r]); [|injection E; auto].
  apply load_exts. intros j HJ. apply H. unfold all_objects in HJ. cbn [flat_map] in HJ. rewrite app_nil_r in HJ. exact HJ.
Qed.

Lemma load_set : forall st i c subs, ~ In i (all_objects subs) ->
  load (set_core st i c) (Ref i subs) = Rcpt i (o_class (st i)) c (o_ctx (st i)) (map (load st) subs).
Proof.
  intros st i c subs H. cbn [load]. unfold set_core at 1 2 3. rewrite upd_same. cbn [o_class o_core o_ctx]. f_equal.
  apply load_exts. intros j HJ. unfold set_core. rewrite upd_other; [reflexivity|]. intros ->. contradiction.
Qed.

Lemma set_same : forall st i j, set_core st i (o_core (st i)) j = st j.
Proof. intros st i j. unfold set_core, upd. destruct (N.eqb_spec j i) as [->|]; [destruct (st i)|]; reflexivity. Qed.

Section Refine.
Variable X : crypto.

Definition h_finish (subs : list rref) (n : N) (st : store) (items : list pyval) : (N * store) * result pyval :=
  match subs with
  | [] => ((n, st), Ok (VList items))
  | _ =>
    match h_encodes X n st subs with
    | (s, Err e) => (s, Err e)
    | (s, Ok vs) => (s, Ok (VList (items ++ [VList vs])))
    end
  end.

(** [refines1 n st r y]: the outcome [y] of a store-based call is that of the value-based
    one, and other objects are as before. *)
Definition refines1 (n : N) (st : store) (r : rref) (y : (N * store) * result pyval) : Prop :=
  rcpt_encode X n (load st r) = ((fst (fst y), load (snd (fst y)) r), snd y) /\
  forall j, ~ In j (objects r) -> snd (fst y) j = st j.
Definition refines (n : N) (st : store) (l : list rref) (y : (N * store) * result (list pyval)) : Prop :=
  rcpts_encode X n (map (load st) l) = ((fst (fst y), map (load (snd (fst y))) l), snd y) /\
  forall j, ~ In j (all_objects l) -> snd (fst y) j = st j.

Lemma NoDup_app_inv : forall A (l m : list A), NoDup (l ++ m) -> NoDup l /\ NoDup m /\ forall x, In x l -> ~ In x m.
Proof.
  induction l as [|a l IH]; intros m H; [split; [constructor|split; [exact H|intros x []]]|]. cbn [app] in H. inversion H as [|? ? HN HR]; subst.
  destruct (IH _ HR) as (A1 & A2 & A3). split; [constructor; [intros HI; apply HN; apply in_or_app; auto|exact A1]|]. split; [exact A2|].
  intros x [<-|HX] HM; [apply HN; apply in_or_app; auto|exact (A3 _ HX HM)].
Qed.

Lemma finish_refines : forall i subs, (forall n st, NoDup (all_objects subs) -> refines n st subs (h_encodes X n st subs)) ->
  NoDup (all_objects subs) -> ~ In i (all_objects subs) -> forall n st c items,
  let y := h_finish subs n (set_core st i c) items in
  finish X i (o_class (st i)) (o_ctx (st i)) (map (load st) subs) n c items = ((fst (fst y), load (snd (fst y)) (Ref i subs)), snd y) /\
  forall j, ~ In j (i :: all_objects subs) -> snd (fst y) j = st j.
Proof.
  intros i subs IH HD HI n st c items. unfold h_finish, finish.
  assert (HF : forall j, ~ In j (i :: all_objects subs) -> set_core st i c j = st j).
  { intros j HJ. unfold set_core. apply upd_other. intros ->. apply HJ. left. reflexivity. }
  destruct subs as [|s subs]; cbv zeta.
  - cbn [fst snd map]. rewrite load_set by exact HI. split; [reflexivity|exact HF].
  - destruct (IH n (set_core st i c) HD) as [E F].
    assert (EL : map (load (set_core st i c)) (s :: subs) = map (load st) (s :: subs)).
    { apply load_exts. intros j HJ. unfold set_core. apply upd_other. intros ->. contradiction. }
    rewrite EL in E. cbn [map] in *. rewrite E. destruct (h_encodes X n (set_core st i c) (s :: subs)) as [[n1 st1] x]. cbn [fst snd] in *.
    assert (HL : load st1 (Ref i (s :: subs)) = Rcpt i (o_class (st i)) c (o_ctx (st i)) (map (load st1) (s :: subs))).
    { cbn [load]. rewrite (F i HI). unfold set_core. rewrite upd_same. reflexivity. }
    assert (HG : forall j, ~ In j (i :: all_objects (s :: subs)) -> st1 j = st j).
    { intros j HJ. rewrite F by (intros HJ'; apply HJ; right; exact HJ'). apply HF. exact HJ. }
    destruct x as [vs|e]; cbn [fst snd]; rewrite HL; (split; [reflexivity|exact HG]).
Qed.

Lemma h_encode_kw : forall n st i subs, o_class (st i) = RKeyWrap -> h_encode X n st (Ref i subs) =
  match bind (phdr_encoded (o_core (st i))) (fun p => bind (kw_encrypt X n (o_core (st i)) (map (load st) subs)) (fun w => Ok (p, w))) with
  | Err e => ((N.succ n, st), Err e)
  | Ok (p, w) => h_finish subs (N.succ n) st [VBytes p; VDict (uhdr (o_core (st i))); VBytes w]
  end.
Proof. intros n st i subs H. cbn [h_encode]. rewrite H. reflexivity. Qed.

Lemma h_encode_kakw : forall n st i subs, o_class (st i) = RAgreeKW -> h_encode X n st (Ref i subs) =
  let c := o_core (st i) in
  match bind (phdr_encoded c) (fun p => bind (get_attr c Algorithm) (fun a => bind (get_key_wrap_func a) (fun _ => Ok p))) with
  | Err e => ((n, st), Err e)
  | Ok p =>
    match kakw_encrypt X n c with
    | (c1, Err e) => ((N.succ n, set_core st i c1), Err e)
    | (c1, Ok w) => h_finish subs (N.succ n) (set_core st i c1) [VBytes p; VDict (uhdr c1); VBytes w]
    end
  end.
Proof.
  intros n st i subs H. cbn [h_encode]. rewrite H. cbv zeta. destruct (bind (phdr_encoded (o_core (st i))) _); [|reflexivity].
  destruct (kakw_encrypt X n (o_core (st i))) as [c1 []]; reflexivity.
Qed.

(** What [encode] of a direct key agreement recipient does before its own recipients. *)
Definition agree_setup (n : N) (c : core) (alg pk : pyval) : core * result unit :=
  match ckey c with
  | Some _ => (c, Ok tt)
  | None =>
    match alg_in alg es_hkdf with
    | Err e => (c, Err e)
    | Ok true => setup_ephemeral X n c pk
    | Ok false => (c, Err CoseException)
    end
  end.
Definition agree_check (k : nat) (alg : pyval) (c1 : core) (res : result unit) : result bytes :=
  _ <- res ;;
  if Nat.ltb 1 k then Err CoseMalformedMessage
  else
    e <- get_attr c1 EphemeralKey ;;
    es <- (if is_none e then alg_in alg es_hkdf else Ok false) ;;
    if es : bool then Err CoseMalformedMessage else phdr_encoded c1.
Definition agree_start (c : core) : result (pyval * pyval) :=
  alg <- get_attr c Algorithm ;;
  if is_none alg then Err CoseMalformedMessage
  else
    let pk := dget_or (local c) StaticKey VNone in
    if is_none pk then Err CoseException else Ok (alg, pk).

Lemma encode_agree : forall n id c ctx subs, rcpt_encode X n (Rcpt id RAgree c ctx subs) =
  match agree_start c with
  | Err e => ((n, Rcpt id RAgree c ctx subs), Err e)
  | Ok (alg, pk) =>
    let '(c1, res) := agree_setup n c alg pk in
    match agree_check (length subs) alg c1 res with
    | Err e => ((N.succ n, Rcpt id RAgree c1 ctx subs), Err e)
    | Ok p => finish X id RAgree ctx subs (N.succ n) c1 [VBytes p; VDict (uhdr c1); VBytes []]
    end
  end.
Proof. reflexivity. Qed.

Lemma h_encode_agree : forall n st i subs, o_class (st i) = RAgree -> h_encode X n st (Ref i subs) =
  match agree_start (o_core (st i)) with
  | Err e => ((n, st), Err e)
  | Ok (alg, pk) =>
    let '(c1, res) := agree_setup n (o_core (st i)) alg pk in
    match agree_check (length subs) alg c1 res with
    | Err e => ((N.succ n, set_core st i c1), Err e)
    | Ok p => h_finish subs (N.succ n) (set_core st i c1) [VBytes p; VDict (uhdr c1); VBytes []]
    end
  end.
Proof. intros n st i subs H. cbn [h_encode]. rewrite H. reflexivity. Qed.

Lemma encodes_refine : forall k l, (list_sum (map refsize l) < k)%nat ->
  forall n st, NoDup (all_objects l) -> refines n st l (h_encodes X n st l).
Proof.
  induction k as [|k IHk]; [lia|]. induction l as [|r l IHl]; intros HK n st HD.
  - split; [reflexivity|]. intros j _. reflexivity.
  - cbn [map list_sum fold_right] in HK. change (fold_right Nat.add 0 (map refsize l)) with (list_sum (map refsize l)) in HK.
    unfold all_objects in HD. cbn [flat_map] in HD. fold (all_objects l) in HD. apply NoDup_app_inv in HD as (HD1 & HD2 & HDis).
    assert (HR : refines1 n st r (h_encode X n st r)).
    { destruct r as [i subs]. cbn [refsize] in HK. cbn [objects] in HD1. fold (all_objects subs) in HD1. inversion HD1 as [|? ? HI HDs]; subst.
      assert (IH : forall n st, NoDup (all_objects subs) -> refines n st subs (h_encodes X n st subs)) by (apply IHk; lia).
      assert (Keep : forall n e, refines1 n st (Ref i subs) ((n, st), Err e) <-> rcpt_encode X n (load st (Ref i subs)) = ((n, load st (Ref i subs)), Err e)).
      { intros n0 e. unfold refines1. cbn [fst snd]. tauto. }
      assert (Set1 : forall c1 j, ~ In j (i :: all_objects subs) -> set_core st i c1 j = st j).
      { intros c1 j HJ. unfold set_core. apply upd_other. intros ->. apply HJ. left. reflexivity. }
      assert (HLd : load st (Ref i subs) = Rcpt i (o_class (st i)) (o_core (st i)) (o_ctx (st i)) (map (load st) subs)) by reflexivity.
      destruct (o_class (st i)) eqn:EC.
      - unfold refines1. rewrite HLd. cbn [h_encode rcpt_encode]. rewrite EC. cbn [fst snd]. rewrite HLd, map_length. split; [reflexivity|intros; reflexivity].
      - rewrite (h_encode_kw _ _ _ _ EC). unfold refines1. rewrite HLd, encode_kw.
        destruct (bind (phdr_encoded (o_core (st i))) _) as [[p w]|e]; cbn [fst snd]; [|rewrite HLd; split; [reflexivity|intros; reflexivity]].
        pose proof (finish_refines i subs IH HDs HI (N.succ n) st (o_core (st i)) [VBytes p; VDict (uhdr (o_core (st i))); VBytes w]) as HF. cbv zeta in HF.
        rewrite EC in HF.
        (* writing the same attributes changes nothing *)
        assert (HE : forall items n0, snd (h_finish subs n0 st items) = snd (h_finish subs n0 (set_core st i (o_core (st i))) items) /\
          fst (fst (h_finish subs n0 st items)) = fst (fst (h_finish subs n0 (set_core st i (o_core (st i))) items)) /\
          load (snd (fst (h_finish subs n0 st items))) (Ref i subs) = load (snd (fst (h_finish subs n0 (set_core st i (o_core (st i))) items))) (Ref i subs) /\
          forall j, ~ In j (i :: all_objects subs) -> snd (fst (h_finish subs n0 st items)) j = st j).
        { intros items n0. unfold h_finish. destruct subs as [|s subs].
          - cbn [fst snd]. split; [reflexivity|]. split; [reflexivity|]. split; [|reflexivity]. apply load_ext. intros j _. symmetry. apply set_same.
          - destruct (IH n0 st HDs) as [E1 F1]. destruct (IH n0 (set_core st i (o_core (st i))) HDs) as [E2 F2].
            assert (EL : map (load (set_core st i (o_core (st i)))) (s :: subs) = map (load st) (s :: subs)) by (apply load_exts; intros j _; apply set_same).
            rewrite EL, E1 in E2. destruct (h_encodes X n0 st (s :: subs)) as [[n1 st1] x1]. destruct (h_encodes X n0 (set_core st i (o_core (st i))) (s :: subs)) as [[n2 st2] x2].
            cbn [fst snd] in *. injection E2 as <- EH ET <-.
            assert (HL : load st1 (Ref i (s :: subs)) = load st2 (Ref i (s :: subs))).
            { cbn [load]. rewrite (F1 i HI), (F2 i HI), set_same. cbn [map]. rewrite EH, ET. reflexivity. }
            assert (HG : forall j, ~ In j (i :: all_objects (s :: subs)) -> st1 j = st j) by (intros j HJ; apply F1; intros HJ'; apply HJ; right; exact HJ').
            destruct x1; cbn [fst snd]; auto. }
        destruct (HE [VBytes p; VDict (uhdr (o_core (st i))); VBytes w] (N.succ n)) as (-> & -> & -> & HG). destruct HF as [-> _]. split; [reflexivity|exact HG].
      - rewrite (h_encode_agree _ _ _ _ EC). unfold refines1. rewrite HLd, encode_agree. destruct (agree_start (o_core (st i))) as [[alg pk]|e]; cbn [fst snd];
          [|rewrite HLd; split; [reflexivity|intros; reflexivity]].
        destruct (agree_setup n (o_core (st i)) alg pk) as [c1 res]. rewrite map_length. destruct (agree_check (length subs) alg c1 res) as [p|e]; cbn [fst snd].
        + pose proof (finish_refines i subs IH HDs HI (N.succ n) st c1 [VBytes p; VDict (uhdr c1); VBytes []]) as HF. cbv zeta in HF. rewrite EC in HF. exact HF.
        + rewrite load_set by exact HI. rewrite EC. split; [reflexivity|apply Set1].
      - rewrite (h_encode_kakw _ _ _ _ EC). unfold refines1. rewrite HLd, encode_kakw. cbv zeta. destruct (bind (phdr_encoded (o_core (st i))) _) as [p|e]; cbn [fst snd];
          [|rewrite HLd; split; [reflexivity|intros; reflexivity]].
        destruct (kakw_encrypt X n (o_core (st i))) as [c1 [w|e]]; cbn [fst snd].
        + pose proof (finish_refines i subs IH HDs HI (N.succ n) st c1 [VBytes p; VDict (uhdr c1); VBytes w]) as HF. cbv zeta in HF. rewrite EC in HF. exact HF.
        + rewrite load_set by exact HI. rewrite EC. split; [reflexivity|apply Set1]. }
    destruct HR as [ER FR]. unfold refines. cbn [map h_encodes rcpts_encode]. rewrite ER.
    assert (EL : map (load (snd (fst (h_encode X n st r)))) l = map (load st) l).
    { apply load_exts. intros j HJ. apply FR. intros HJ'. exact (HDis _ HJ' HJ). }
    destruct (h_encode X n st r) as [[n1 st1] [v|e]]; cbn [fst snd] in *.
    + destruct (IHl ltac:(lia) n1 st1 HD2) as [E2 F2]. rewrite <- EL, E2.
      assert (Er : forall st2, (forall j, ~ In j (all_objects l) -> st2 j = st1 j) -> load st1 r = load st2 r).
      { intros st2 H2. apply load_ext. intros j HJ. symmetry. apply H2. apply HDis. exact HJ. }
      assert (HG : forall st2, (forall j, ~ In j (all_objects l) -> st2 j = st1 j) -> forall j, ~ In j (all_objects (r :: l)) -> st2 j = st j).
      { intros st2 H2 j HJ. rewrite H2, FR; [reflexivity|intros H; apply HJ; apply in_or_app; auto|intros H; apply HJ; apply in_or_app; auto]. }
      destruct (h_encodes X n1 st1 l) as [[n2 st2] [vs|e]]; cbn [fst snd] in *; rewrite (Er _ F2); (split; [reflexivity|exact (HG _ F2)]).
    + rewrite EL. split; [reflexivity|]. intros j HJ. apply FR. intros H. apply HJ. apply in_or_app. left. exact H.
Qed.

Lemma encodes_ok : forall l n st, NoDup (all_objects l) -> refines n st l (h_encodes X n st l).
Proof. intros l. apply (encodes_refine (S (list_sum (map refsize l)))). lia. Qed.

Lemma rcpt_encrypt_same : forall n i rc c ctx subs, fst (rcpt_encrypt X n (Rcpt i rc c ctx subs)) = Rcpt i rc (r_core (fst (rcpt_encrypt X n (Rcpt i rc c ctx subs)))) ctx subs.
Proof. intros n i rc c ctx subs. destruct rc; cbn [rcpt_encrypt]; try reflexivity. destruct (kakw_encrypt X n c). reflexivity. Qed.

Definition refines_cek (n : N) (st : store) (kb : pyval) (l : list rref) (y : (N * store) * result pyval) : Prop :=
  cek_loop X n kb (map (load st) l) = ((fst (fst y), map (load (snd (fst y))) l), snd y) /\
  forall j, ~ In j (all_objects l) -> snd (fst y) j = st j.

Lemma cek_refines : forall l n st kb, NoDup (all_objects l) -> refines_cek n st kb l (h_cek_loop X n st kb l).
Proof.
  induction l as [|[i subs] l IH]; intros n st kb HD; [split; [reflexivity|intros; reflexivity]|].
  unfold all_objects in HD. cbn [flat_map] in HD. fold (all_objects l) in HD. apply NoDup_app_inv in HD as (HD1 & HD2 & HDis).
  cbn [objects] in HD1. fold (all_objects subs) in HD1. inversion HD1 as [|? ? HI HDs]; subst.
  unfold refines_cek. cbn [map]. cbn [h_cek_loop cek_loop].
  set (y := match payload (o_core (st i)) with
            | Some [] => (set_core st i (with_payload (o_core (st i)) (match kb with VBytes b => Some b | _ => None end)), kb)
            | p => (st, vopt p) end).
  assert (E : match payload (r_core (load st (Ref i subs))) with
              | Some [] => (r_with (load st (Ref i subs)) (with_payload (r_core (load st (Ref i subs))) (match kb with VBytes b => Some b | _ => None end)), kb)
              | p => (load st (Ref i subs), vopt p) end = (load (fst y) (Ref i subs), snd y) /\
              (forall j, j <> i -> fst y j = st j) /\ o_class (fst y i) = o_class (st i) /\ o_ctx (fst y i) = o_ctx (st i)).
  { unfold y. cbn [load r_core]. destruct (payload (o_core (st i))) as [[|b0 b1]|]; cbn [fst snd];
      (split; [|split; [intros j HJ; try reflexivity; unfold set_core; apply upd_other; exact HJ|split; try reflexivity; unfold set_core; rewrite upd_same; reflexivity]]); try reflexivity.
    change (Rcpt i (o_class (set_core st i (with_payload (o_core (st i)) match kb with VBytes b => Some b | _ => None end) i)) _ _ _) with
      (load (set_core st i (with_payload (o_core (st i)) match kb with VBytes b => Some b | _ => None end)) (Ref i subs)).
    rewrite load_set by exact HI. reflexivity. }
  destruct E as (-> & F1 & _ & _). destruct y as [st1 kb1]. cbn [fst snd] in *.
  assert (HLd : load st1 (Ref i subs) = Rcpt i (o_class (st1 i)) (o_core (st1 i)) (o_ctx (st1 i)) (map (load st1) subs)) by reflexivity.
  pose proof (rcpt_encrypt_same n i (o_class (st1 i)) (o_core (st1 i)) (o_ctx (st1 i)) (map (load st1) subs)) as HS. rewrite <- HLd in HS.
  destruct (rcpt_encrypt X n (load st1 (Ref i subs))) as [r2 x]. cbn [fst] in HS. set (st2 := set_core st1 i (r_core r2)).
  assert (HL2 : load st2 (Ref i subs) = r2) by (unfold st2; rewrite load_set by exact HI; symmetry; exact HS).
  assert (F2 : forall j, j <> i -> st2 j = st j) by (intros j HJ; unfold st2, set_core; rewrite upd_other by exact HJ; apply F1; exact HJ).
  assert (EL : map (load st2) l = map (load st) l).
  { apply load_exts. intros j HJ. apply F2. intros ->. apply (HDis i); [left; reflexivity|exact HJ]. }
  destruct x as [w|e]; cbn [fst snd].
  - destruct (IH (N.succ n) st2 kb1 HD2) as [E2 G2]. rewrite <- EL, E2. destruct (h_cek_loop X (N.succ n) st2 kb1 l) as [[n' st3] x]. cbn [fst snd] in *.
    split.
    + rewrite <- HL2. f_equal. f_equal. f_equal. apply load_ext. intros j HJ. symmetry. apply G2. apply HDis. exact HJ.
    + intros j HJ. rewrite G2 by (intros H; apply HJ; apply in_or_app; auto). apply F2. intros ->. apply HJ. left. reflexivity.
  - rewrite HL2, EL. split; [reflexivity|]. intros j HJ. apply F2. intros ->. apply HJ. left. reflexivity.
Qed.

Lemma encrypt_refines : forall n st c l, NoDup (all_objects l) ->
  let y := h_encrypt X n st c l in
  encm_encrypt X n (EncMsg c (map (load st) l)) = ((fst (fst (fst y)), EncMsg (snd (fst y)) (map (load (snd (fst (fst y)))) l)), snd y) /\
  forall j, ~ In j (all_objects l) -> snd (fst (fst y)) j = st j.
Proof.
  intros n st c l HD y. unfold y, h_encrypt, encm_encrypt. cbn [e_core e_rcpts].
  destruct (bind (get_attr c Algorithm) _) as [t|e]; [|split; [reflexivity|intros; reflexivity]].
  destruct (has_class RDirect (map (load st) l)); [split; [reflexivity|intros; reflexivity]|].
  destruct (has_class RAgree (map (load st) l)).
  { destruct (map (load st) l) as [|r rs] eqn:EM; cbn [fst snd]; [rewrite EM; split; [reflexivity|intros; reflexivity]|].
    destruct (compute_cek X r t false); cbn [fst snd]; rewrite EM; (split; [reflexivity|intros; reflexivity]). }
  destruct (_ || _); [|split; [reflexivity|intros; reflexivity]].
  destruct (get_key_length t) as [len|e]; [|split; [reflexivity|intros; reflexivity]].
  destruct (cek_refines l (N.succ n) st (VBytes (x_urandom X n len)) HD) as [-> F]. destruct (h_cek_loop X _ st _ l) as [[n' st'] [kb|e]]; cbn [fst snd] in *.
  - destruct (sym_with kb t [EncryptOp]); cbn [fst snd]; (split; [reflexivity|exact F]).
  - split; [reflexivity|exact F].
Qed.

Lemma enc_encode_refines : forall n st c l tag sec, NoDup (all_objects l) ->
  let y := h_enc_encode X n st c l tag sec in
  encm_encode X n (EncMsg c (map (load st) l)) tag sec = ((fst (fst (fst y)), EncMsg (snd (fst y)) (map (load (snd (fst (fst y)))) l)), snd y) /\
  forall j, ~ In j (all_objects l) -> snd (fst (fst y)) j = st j.
Proof.
  intros n st c l tag sec HD y. unfold y, h_enc_encode, encm_encode. cbn [e_core].
  destruct (phdr_encoded c) as [p|e]; [|split; [reflexivity|intros; reflexivity]].
  set (z := if sec then let '(s, c1, x) := h_encrypt X n st c l in (s, c1, b <- x ;; Ok (VBytes b)) else ((n, st), c, Ok (vopt (payload c)))).
  assert (E : (if sec then let '(s, x) := encm_encrypt X n (EncMsg c (map (load st) l)) in (s, b <- x ;; Ok (VBytes b))
               else ((n, EncMsg c (map (load st) l)), Ok (vopt (payload c)))) =
              ((fst (fst (fst z)), EncMsg (snd (fst z)) (map (load (snd (fst (fst z)))) l)), snd z) /\
              forall j, ~ In j (all_objects l) -> snd (fst (fst z)) j = st j).
  { unfold z. destruct sec; [|split; [reflexivity|intros; reflexivity]]. destruct (encrypt_refines n st c l HD) as [-> F].
    destruct (h_encrypt X n st c l) as [[[n1 st1] c1] x]. cbn [fst snd] in *. split; [reflexivity|exact F]. }
  destruct E as [-> F]. destruct z as [[[n1 st1] c1] body]. cbn [fst snd] in *. destruct body as [b|e]; [|split; [reflexivity|exact F]].
  cbv zeta. cbn [e_core e_rcpts]. destruct l as [|r l]; [split; [reflexivity|exact F]|].
  destruct (encodes_ok (r :: l) n1 st1 HD) as [E2 F2]. cbn [map] in *. destruct (get_attr c1 Algorithm); [|split; [reflexivity|exact F]].
  rewrite E2. destruct (h_encodes X n1 st1 (r :: l)) as [[n2 st2] [vs|e]]; cbn [fst snd] in *;
    (split; [reflexivity|intros j HJ; rewrite F2 by exact HJ; apply F; exact HJ]).
Qed.

Definition no_double (o : option (list rref)) : Prop := match o with Some l => NoDup (all_objects l) | None => True end.
Definition outside (o : option (list rref)) (j : N) : Prop := match o with Some l => ~ In j (all_objects l) | None => True end.

Lemma tag_refines : forall n st c t o, no_double o ->
  let y := h_compute_tag X n st c t o in
  macm_compute_tag X n (MacMsg c t (option_map (map (load st)) o)) =
    ((fst (fst (fst y)), MacMsg (fst (snd (fst y))) (snd (snd (fst y))) (option_map (map (load (snd (fst (fst y))))) o)), snd y) /\
  forall j, outside o j -> snd (fst (fst y)) j = st j.
Proof.
  intros n st c t o HD y. unfold y, h_compute_tag, macm_compute_tag, mac_super_compute. cbn [mm_core mm_rcpts mm_tag].
  destruct (get_attr c Algorithm) as [a|e]; [|split; [reflexivity|intros; reflexivity]].
  destruct o as [l|]; cbn [option_map]; [|split; [reflexivity|intros; reflexivity]].
  destruct (verify_recipients (map (load st) l)); [|split; [reflexivity|intros; reflexivity]].
  destruct (has_class RDirect (map (load st) l)); [destruct (mac_compute X "MAC" c); (split; [reflexivity|intros; reflexivity])|].
  destruct (has_class RAgree (map (load st) l)).
  { destruct (map (load st) l) as [|r rs] eqn:EM; cbn [fst snd]; [rewrite EM; split; [reflexivity|intros; reflexivity]|].
    destruct (compute_cek X r a false) as [k|]; cbn [fst snd]; [|rewrite EM; split; [reflexivity|intros; reflexivity]].
    destruct (mac_compute X "MAC" (with_key c k)); cbn [fst snd]; rewrite EM; (split; [reflexivity|intros; reflexivity]).
  }
  destruct (_ || _); [|split; [reflexivity|intros; reflexivity]].
  destruct (get_key_length a) as [len|e]; [|split; [reflexivity|intros; reflexivity]].
  destruct (cek_refines l (N.succ n) st (VBytes (x_urandom X n len)) HD) as [-> F]. destruct (h_cek_loop X _ st _ l) as [[n' st'] [kb|e]]; cbn [fst snd] in *;
    (split; [reflexivity|exact F]).
Qed.

Lemma mac_encode_refines : forall n st c t o tag mac, no_double o ->
  let y := h_mac_encode X n st c t o tag mac in
  macm_encode X n (MacMsg c t (option_map (map (load st)) o)) tag mac =
    ((fst (fst (fst y)), MacMsg (fst (snd (fst y))) (snd (snd (fst y))) (option_map (map (load (snd (fst (fst y))))) o)), snd y) /\
  forall j, outside o j -> snd (fst (fst y)) j = st j.
Proof.
  intros n st c t o tag mac HD y. unfold y, h_mac_encode, macm_encode. cbn [mm_core].
  destruct (phdr_encoded c) as [p|e]; [|split; [reflexivity|intros; reflexivity]].
  set (z := if mac then let '(s, m, x) := h_compute_tag X n st c t o in (s, m, b <- x ;; Ok [VBytes b]) else ((n, st), (c, t), Ok [])).
  assert (E : (if mac then let '(s, x) := macm_compute_tag X n (MacMsg c t (option_map (map (load st)) o)) in (s, b <- x ;; Ok [VBytes b])
               else ((n, MacMsg c t (option_map (map (load st)) o)), Ok [])) =
              ((fst (fst (fst z)), MacMsg (fst (snd (fst z))) (snd (snd (fst z))) (option_map (map (load (snd (fst (fst z))))) o)), snd z) /\
              forall j, outside o j -> snd (fst (fst z)) j = st j).
  { unfold z. destruct mac; [|split; [reflexivity|intros; reflexivity]]. destruct (tag_refines n st c t o HD) as [-> F].
    destruct (h_compute_tag X n st c t o) as [[[n1 st1] m] x]. cbn [fst snd] in *. split; [reflexivity|exact F]. }
  destruct E as [-> F]. destruct z as [[[n1 st1] [c1 t1]] x]. cbn [fst snd] in *. destruct x as [tl|e]; [|split; [reflexivity|exact F]].
  cbv zeta. cbn [mm_core mm_rcpts mm_tag]. destruct o as [l|]; cbn [option_map]; [|split; [reflexivity|exact F]].
  destruct l as [|r l]; [split; [reflexivity|exact F]|]. cbn [no_double] in HD.
  destruct (encodes_ok (r :: l) n1 st1 HD) as [E2 F2]. cbn [map] in *. destruct (get_attr c1 Algorithm); [|split; [reflexivity|exact F]].
  rewrite E2. destruct (h_encodes X n1 st1 (r :: l)) as [[n2 st2] [vs|e]]; cbn [fst snd] in *;
    (split; [reflexivity|intros j HJ; rewrite F2 by exact HJ; apply F; exact HJ]).
Qed.

(** ** Programs *)

Lemma refs_no_double : forall c t o, NoDup (all_objects (msg_refs (HMac c t o))) -> no_double o.
Proof. intros c t [l|] H; [exact H|exact I]. Qed.
Lemma refs_outside : forall c t o j, ~ In j (all_objects (msg_refs (HMac c t o))) -> outside o j.
Proof. intros c t [l|] j H; [exact H|exact I]. Qed.

(** A step changes no lists of recipients. *)
Lemma refs_kept : forall w o m, msg_refs (h_msg (fst (hstep X w o)) m) = msg_refs (h_msg w m).
Proof.
  intros w o m. destruct o as [i tag sec|i|i r|i f|i f]; cbn [hstep]; try reflexivity.
  - destruct (h_msg w i) as [c l|c t l] eqn:EM.
    + destruct (h_enc_encode X _ _ c l tag sec) as [[[n st] c'] x]. cbn [fst h_msg]. destruct (N.eq_dec m i) as [->|NE]; [rewrite upd_same, EM; reflexivity|rewrite upd_other by exact NE; reflexivity].
    + destruct (h_mac_encode X _ _ c t l tag sec) as [[[n st] [c' t']] x]. cbn [fst h_msg]. destruct (N.eq_dec m i) as [->|NE]; [rewrite upd_same, EM; reflexivity|rewrite upd_other by exact NE; reflexivity].
  - destruct (h_msg w i) as [c l|c t l] eqn:EM; [reflexivity|].
    destruct (h_compute_tag X _ _ c t l) as [[[n st] [c' t']] x]. cbn [fst h_msg]. destruct (N.eq_dec m i) as [->|NE]; [rewrite upd_same, EM; reflexivity|rewrite upd_other by exact NE; reflexivity].
  - destruct (h_msg w i) as [c l|c t l] eqn:EM; [|reflexivity].
    destruct (encm_decrypt X _ _) as [m' x]. cbn [fst h_msg]. destruct (N.eq_dec m i) as [->|NE]; [rewrite upd_same, EM; reflexivity|rewrite upd_other by exact NE; reflexivity].
  - cbn [fst h_msg]. destruct (N.eq_dec m i) as [->|NE]; [rewrite upd_same; destruct (h_msg w i); reflexivity|rewrite upd_other by exact NE; reflexivity].
Qed.

Definition step_of (w : heap) (o : hop) : option N := match o with Encode m _ _ | ComputeTag m => Some m | _ => None end.

(** Objects that are not recipients of the message worked on stay as they are. *)
Lemma store_frame : forall w o j, (forall m, step_of w o = Some m -> no_repeats w m /\ ~ In j (all_objects (msg_refs (h_msg w m)))) ->
  (forall i f, o = AssignRcpt i f -> j <> i) -> h_store (fst (hstep X w o)) j = h_store w j.
Proof.
  intros w o j HM HA. destruct o as [i tag sec|i|i r|i f|i f]; cbn [hstep step_of] in *.
  - destruct (HM i eq_refl) as [HN HO]. unfold no_repeats in HN. destruct (h_msg w i) as [c l|c t l].
    + destruct (enc_encode_refines (h_n w) (h_store w) c l tag sec HN) as [_ F]. destruct (h_enc_encode X _ _ c l tag sec) as [[[n st] c'] x]. cbn [fst snd h_store] in *. apply F. exact HO.
    + destruct (mac_encode_refines (h_n w) (h_store w) c t l tag sec (refs_no_double _ _ _ HN)) as [_ F]. destruct (h_mac_encode X _ _ c t l tag sec) as [[[n st] [c' t']] x].
      cbn [fst snd h_store] in *. apply F. eapply refs_outside. exact HO.
  - destruct (HM i eq_refl) as [HN HO]. unfold no_repeats in HN. destruct (h_msg w i) as [c l|c t l]; [reflexivity|].
    destruct (tag_refines (h_n w) (h_store w) c t l (refs_no_double _ _ _ HN)) as [_ F]. destruct (h_compute_tag X _ _ c t l) as [[[n st] [c' t']] x].
    cbn [fst snd h_store] in *. apply F. eapply refs_outside. exact HO.
  - destruct (h_msg w i) as [c l|c t l]; [|reflexivity]. destruct (encm_decrypt X _ _). reflexivity.
  - reflexivity.
  - cbn [fst h_store]. unfold set_core. apply upd_other. eapply HA. reflexivity.
Qed.

Lemma view_ext : forall w w' m, h_msg w' m = h_msg w m -> (forall j, In j (all_objects (msg_refs (h_msg w m))) -> h_store w' j = h_store w j) -> view_of w' m = view_of w m.
Proof.
  intros w w' m HM HS. unfold view_of. rewrite HM. destruct (h_msg w m) as [c l|c t [l|]]; cbn [msg_refs option_map] in *; [| |reflexivity]; rewrite (load_exts l _ _ HS); reflexivity.
Qed.

Lemma msg_frame : forall w o m, elsewhere w m o -> h_msg (fst (hstep X w o)) m = h_msg w m.
Proof.
  intros w o m H. destruct o as [i tag sec|i|i r|i f|i f]; cbn [hstep elsewhere] in *; [| | | |reflexivity].
  - destruct (h_msg w i) as [c l|c t l]; [destruct (h_enc_encode X _ _ c l tag sec) as [[[n st] c'] x]|destruct (h_mac_encode X _ _ c t l tag sec) as [[[n st] [c' t']] x]];
      cbn [fst h_msg]; apply upd_other; congruence.
  - destruct (h_msg w i) as [c l|c t l]; [reflexivity|]. destruct (h_compute_tag X _ _ c t l) as [[[n st] [c' t']] x]. cbn [fst h_msg]. apply upd_other; congruence.
  - destruct (h_msg w i) as [c l|c t l]; [|reflexivity]. destruct (encm_decrypt X _ _). cbn [fst h_msg]. apply upd_other; congruence.
  - cbn [fst h_msg]. apply upd_other; congruence.
Qed.

Theorem step_elsewhere : forall w o m, (forall m', m' <> m -> no_repeats w m' /\ disjoint w m m') -> elsewhere w m o ->
  view_of (fst (hstep X w o)) m = view_of w m.
Proof.
  intros w o m HD HE. apply view_ext; [apply msg_frame; exact HE|]. intros j HJ. apply store_frame.
  - intros m' HM. assert (NE : m' <> m) by (destruct o; try discriminate; injection HM as <-; exact HE).
    destruct (HD m' NE) as [A B]. split; [exact A|]. apply B. exact HJ.
  - intros i f -> ->. exact (HE HJ).
Qed.

Theorem runs_elsewhere : forall ops w m, (forall m', m' <> m -> no_repeats w m' /\ disjoint w m m') -> Forall (elsewhere w m) ops ->
  view_of (hruns X w ops) m = view_of w m.
Proof.
  unfold hruns. induction ops as [|o ops IH]; intros w m HD HE; [reflexivity|]. inversion HE as [|? ? HO HR]; subst. cbn [fold_left].
  rewrite IH; [apply step_elsewhere; assumption| |].
  - intros m' NE. unfold no_repeats, disjoint. rewrite !refs_kept. exact (HD m' NE).
  - eapply Forall_impl; [|exact HR]. intros a HA. destruct a; cbn [elsewhere] in *; rewrite ?refs_kept; exact HA.
Qed.

Theorem own_encode : forall w m tag sec, no_repeats w m ->
  match view_of w m with
  | VEnc v => exists n' v', encm_encode X (h_n w) v tag sec = ((n', v'), snd (hstep X w (Encode m tag sec))) /\
                h_n (fst (hstep X w (Encode m tag sec))) = n' /\ view_of (fst (hstep X w (Encode m tag sec))) m = VEnc v'
  | VMac v => exists n' v', macm_encode X (h_n w) v tag sec = ((n', v'), snd (hstep X w (Encode m tag sec))) /\
                h_n (fst (hstep X w (Encode m tag sec))) = n' /\ view_of (fst (hstep X w (Encode m tag sec))) m = VMac v'
  end.
Proof.
  intros w m tag sec HN. unfold no_repeats in HN. unfold view_of at 1. cbn [hstep]. destruct (h_msg w m) as [c l|c t l] eqn:EM.
  - destruct (enc_encode_refines (h_n w) (h_store w) c l tag sec HN) as [E _]. destruct (h_enc_encode X _ _ c l tag sec) as [[[n st] c'] x]. cbn [fst snd] in *.
    do 2 eexists. split; [exact E|]. split; [reflexivity|]. unfold view_of. cbn [h_msg h_store]. rewrite upd_same. reflexivity.
  - destruct (mac_encode_refines (h_n w) (h_store w) c t l tag sec (refs_no_double _ _ _ HN)) as [E _]. destruct (h_mac_encode X _ _ c t l tag sec) as [[[n st] [c' t']] x]. cbn [fst snd] in *.
    do 2 eexists. split; [exact E|]. split; [reflexivity|]. unfold view_of. cbn [h_msg h_store]. rewrite upd_same. reflexivity.
Qed.

Theorem own_tag : forall w m v, no_repeats w m -> view_of w m = VMac v ->
  exists n' v', macm_compute_tag X (h_n w) v = ((n', v'), snd (hstep X w (ComputeTag m))) /\
    h_n (fst (hstep X w (ComputeTag m))) = n' /\ view_of (fst (hstep X w (ComputeTag m))) m = VMac v'.
Proof.
  intros w m v HN HV. unfold no_repeats in HN. unfold view_of in HV. cbn [hstep]. destruct (h_msg w m) as [c l|c t l] eqn:EM; [discriminate|]. injection HV as <-.
  destruct (tag_refines (h_n w) (h_store w) c t l (refs_no_double _ _ _ HN)) as [E _]. destruct (h_compute_tag X _ _ c t l) as [[[n st] [c' t']] x]. cbn [fst snd] in *.
  do 2 eexists. split; [exact E|]. split; [reflexivity|]. unfold view_of. cbn [h_msg h_store]. rewrite upd_same. reflexivity.
Qed.

Theorem own_decrypt : forall w m v r, view_of w m = VEnc v ->
  exists v', encm_decrypt X v (load (h_store w) r) = (v', snd (hstep X w (Decrypt m r))) /\
    view_of (fst (hstep X w (Decrypt m r))) m = VEnc v'.
Proof.
  intros w m v r HV. unfold view_of in HV. cbn [hstep]. destruct (h_msg w m) as [c l|c t l] eqn:EM; [|discriminate]. injection HV as <-.
  destruct (encm_decrypt X _ _) as [v' x] eqn:ED. exists v'. split; [reflexivity|]. unfold view_of. cbn [fst h_msg h_store]. rewrite upd_same.
  assert (HR : e_rcpts v' = map (load (h_store w)) l).
  { unfold encm_decrypt in ED. cbn [e_core e_rcpts] in ED.
    repeat match type of ED with
    | (match ?g with _ => _ end) = _ => destruct g
    | (if ?g then _ else _) = _ => destruct g
    end; injection ED as <- _; reflexivity. }
  destruct v' as [c' l']. cbn [e_core e_rcpts] in *. rewrite HR. reflexivity.
Qed.

End Refine.
