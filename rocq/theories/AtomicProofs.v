(** Proofs of C112. *)
From Coq Require Import NArith ZArith Bool String Lia.
From Coq Require Import Init.Byte List.
From Verif Require Import Bytes Value ValueProofs Registry Crypto Keys Algorithms Headers Messages Recipients SpecRegistry RegistryProofs SpecKeys SpecMapping
  KeyProofs KeyProofs2 KeyProofs3 KeyProofs4 MapProofs RcptProofs WireProofs HdrProofs HdrProofs2 SpecLife LifeProofs SpecAtomic.
Import ListNotations.
Local Open Scope result_scope.

(** ** Keys *)

Lemma attempt_err : forall k r k' e, attempt k r = (k', Err e) -> k' = k.
Proof. intros k [r|x] k' e H; [discriminate|]. injection H as <- _. reflexivity. Qed.

Lemma with_store_eq : forall k, with_store k (k_store k) = k.
Proof. intros []. reflexivity. Qed.
Lemma store_set_twice : forall k c v, store_set (store_set k c v) c v = store_set k c v.
Proof.
  intros k c v. unfold store_set, with_store. cbn [k_store k_cls k_extra]. f_equal.
  generalize (k_store k) as d. induction d as [|[a w] d IH]; cbn [dset]; [rewrite keyeq_refl; reflexivity|].
  destruct (keyeq (VClass c) a) eqn:E; cbn [dset]; rewrite E; [reflexivity|]. rewrite IH. reflexivity.
Qed.

Lemma ops_loop_err : forall v l k k' e, key_ops_loop v l k = (k', Err e) ->
  k' = k \/ exists l0 ops, v = VList l0 /\ mapM (from_id FOps false) l0 = Ok ops /\ k' = store_set k KpKeyOps (VList ops).
Proof.
  intros v. induction l as [|o l IH]; intros k k' e H; cbn [key_ops_loop] in H; [discriminate|].
  destruct (supported_by (k_cls k) o) as [[]|x]; try (injection H as <- _; left; reflexivity).
  destruct (base_set_key_ops v k) as [k1|x] eqn:EB; [|injection H as <- _; left; reflexivity].
  unfold base_set_key_ops in EB. destruct v; try discriminate. apply bind_ok in EB as (ops & EO & EB). injection EB as <-.
  right. eexists _, ops. split; [reflexivity|]. split; [exact EO|]. apply IH in H as [->|(l1 & ops1 & E1 & E2 & ->)]; [reflexivity|].
  injection E1 as <-. rewrite EO in E2. injection E2 as <-. apply store_set_twice.
Qed.

Lemma prop_set_err : forall k p v k' e, prop_set k p v = (k', Err e) -> k' = k \/ half_done k (KSetProp p v) k'.
Proof.
  intros k p v k' e H. unfold prop_set in H. destruct p;
    try (left; exact (attempt_err _ _ _ _ H));
    try (left; destruct (crv_prop (k_cls k)); [exact (attempt_err _ _ _ _ H)|discriminate]);
    try (left; destruct (bytes_prop (k_cls k) _); [exact (attempt_err _ _ _ _ H)|discriminate]).
  - destruct (py_iter v) as [l|x]; [|injection H as <- _; left; reflexivity].
    apply ops_loop_err in H as [->|(l0 & ops & -> & HO & ->)]; [left; reflexivity|]. right. apply HalfOps. exact HO.
  - left. destruct (k_cls k); try discriminate. exact (attempt_err _ _ _ _ H).
Qed.

Lemma refused_ops_stored : forall k o l bad ops, supported_by (k_cls k) o = Ok true ->
  mapM (from_id FOps false) (o :: l) = Ok ops -> In bad l -> supported_by (k_cls k) bad = Ok false ->
  exists e, key_call k (KSetProp PKeyOps (VList (o :: l))) = (store_set k KpKeyOps (VList ops), Err e).
Proof.
  intros k o l bad ops HO HM HI HB. cbn [key_call prop_set py_iter key_ops_loop]. rewrite HO.
  assert (HS : forall k0, base_set_key_ops (VList (o :: l)) k0 = Ok (store_set k0 KpKeyOps (VList ops))) by (intros k0; unfold base_set_key_ops; rewrite HM; reflexivity).
  rewrite HS. clear HM HO.
  assert (HC : k_cls (store_set k KpKeyOps (VList ops)) = k_cls k) by reflexivity.
  assert (HT : store_set (store_set k KpKeyOps (VList ops)) KpKeyOps (VList ops) = store_set k KpKeyOps (VList ops)) by apply store_set_twice.
  revert HI HC HT. generalize (store_set k KpKeyOps (VList ops)) as k1. generalize (VList (o :: l)) HS. intros v HS'. clear HS.
  induction l as [|p l IH]; intros k1 HI HC HT; [destruct HI|]. cbn [key_ops_loop]. rewrite HC.
  destruct HI as [->|HI]; [rewrite HB; eexists; reflexivity|].
  destruct (supported_by (k_cls k) p) as [[]|x]; [|eexists; reflexivity|eexists; reflexivity].
  rewrite HS', HT. apply IH; assumption.
Qed.

Lemma transform_strict : forall c a p, key_transform c false (VClass p) = Ok (VClass p) ->
  key_transform c true a = Ok (VClass p) -> key_transform c false a = Ok (VClass p).
Proof.
  intros c a p HI H. unfold key_transform in *. apply stands_class in H as [(p' & n' & HI' & HS & E)|(HU & <-)].
  - injection E as ->. exact (from_id_spells _ _ _ _ _ HI' HS).
  - exact HI.
Qed.

Lemma coordinate_lost : forall k a, coordinate k a -> has k EC2KpD -> has k EC2KpX -> ~ has k EC2KpY ->
  key_call k (KDelItem a) = (with_store k (ddel (k_store k) (VClass EC2KpX)), Err KeyError).
Proof.
  intros k a [HC HA] HD HX HY. cbn [key_call]. unfold item_del. cbv zeta. rewrite HC.
  apply dmem_has in HD. apply dmem_has in HX. assert (MY : dmem (k_store k) (VClass EC2KpY) = false).
  { destruct (dmem (k_store k) (VClass EC2KpY)) eqn:E; [|reflexivity]. apply dmem_has in E. contradiction. }
  assert (HT : key_transform KEC2 false a = Ok (VClass EC2KpX) \/ key_transform KEC2 false a = Ok (VClass EC2KpY)).
  { rewrite !denotes_iff in HA. destruct HA as [HA|HA]; [left|right]; (refine (transform_strict _ _ _ _ HA); vm_compute; reflexivity). }
  assert (HG : match base_del k (VClass EC2KpX) with (k', Err e) => (k', Err e) | (k', Ok _) => base_del k' (VClass EC2KpY) end =
    (with_store k (ddel (k_store k) (VClass EC2KpX)), Err KeyError)).
  { rewrite base_del_class by (rewrite HC; apply ec2_x_registered). rewrite HX.
    rewrite base_del_class by (cbn [with_store k_cls]; rewrite HC; apply ec2_y_registered).
    cbn [with_store k_store]. rewrite dmem_ddel_other by reflexivity. rewrite MY. reflexivity. }
  destruct HT as [HT|HT]; rewrite HT, HD; cbn [andb negb orb]; exact HG.
Qed.

Lemma del_err : forall k a k' e, item_del k a = (k', Err e) -> k' = k \/
  (coordinate k a /\ has k EC2KpD /\ has k EC2KpX /\ ~ has k EC2KpY /\ k' = with_store k (ddel (k_store k) (VClass EC2KpX))).
Proof.
  intros k a k' e H. assert (HB : base_del k a = (k', Err e) -> k' = k) by exact (attempt_err _ _ _ _).
  unfold item_del in H. cbv zeta in H. destruct (k_cls k) eqn:EC.
  - left. destruct (key_transform KSym false a); [|injection H as <- _; reflexivity]. destruct (_ && _); [auto|injection H as <- _; reflexivity].
  - left. destruct (key_transform KOKP false a); [|injection H as <- _; reflexivity]. destruct (_ && _); [|injection H as <- _; reflexivity].
    destruct (_ && _); [injection H as <- _; reflexivity|auto].
  - destruct (key_transform KEC2 false a) as [t|] eqn:ET; [|injection H as <- _; left; reflexivity].
    destruct (_ && _); [|injection H as <- _; left; reflexivity]. destruct (_ && _); [injection H as <- _; left; reflexivity|].
    destruct (_ && _); [injection H as <- _; left; reflexivity|].
    destruct ((veqb t (VClass EC2KpX) || veqb t (VClass EC2KpY)) && dmem (k_store k) (VClass EC2KpD)) eqn:E5; [|left; auto].
    apply andb_true_iff in E5 as [E5 ED].
    assert (HCo : coordinate k a).
    { split; [assumption|]. rewrite !denotes_iff, (transform_allow _ _ _ ET).
      apply orb_true_iff in E5 as [E5|E5]; apply veqb_eq in E5; subst; auto. }
    rewrite base_del_class in H by (rewrite EC; apply ec2_x_registered).
    destruct (dmem (k_store k) (VClass EC2KpX)) eqn:MX; [|injection H as <- _; left; reflexivity].
    rewrite base_del_class in H by (cbn [with_store k_cls]; rewrite EC; apply ec2_y_registered).
    cbn [with_store k_store] in H. rewrite dmem_ddel_other in H by reflexivity.
    destruct (dmem (k_store k) (VClass EC2KpY)) eqn:MY; [discriminate|]. injection H as <- _. right.
    split; [exact HCo|]. split; [apply dmem_has; exact ED|]. split; [apply dmem_has; exact MX|]. split; [|reflexivity].
    intros HY. apply dmem_has in HY. congruence.
  - left. auto.
Qed.

Lemma update_err : forall d k k' e, item_update k d = (k', Err e) -> exists d1 a v d2, d = d1 ++ (a, v) :: d2 /\ item_update k d1 = (k', Ok tt).
Proof.
  induction d as [|[a v] d IH]; intros k k' e H; cbn [item_update] in H; [discriminate|].
  destruct (item_set k a v) as [k1 [[]|x]] eqn:ES.
  - apply IH in H as (d1 & a1 & v1 & d2 & -> & HU). exists ((a, v) :: d1), a1, v1, d2. split; [reflexivity|]. cbn [item_update]. rewrite ES. exact HU.
  - injection H as <- _. exists [], a, v, d. split; [reflexivity|]. cbn [item_update]. rewrite (attempt_err _ _ _ _ ES). reflexivity.
Qed.

Lemma pop_err : forall k a k' e, item_pop k a = (k', Err e) -> k' = k \/ item_del k a = (k', Err e).
Proof.
  intros k a k' e H. unfold item_pop in H. destruct (item_get k a); [|injection H as <- _; left; reflexivity].
  destruct (item_del k a) as [k1 [u|x]]; [discriminate|]. injection H as <- <-. right. reflexivity.
Qed.

Lemma key_call_err : forall X k o k' e, reachable X k -> key_call k o = (k', Err e) -> k' = k \/ half_done k o k'.
Proof.
  intros X k o k' e HR H. destruct o as [p v|a v|a|a| | |d|a v]; cbn [key_call] in H.
  - exact (prop_set_err _ _ _ _ _ H).
  - left. exact (attempt_err _ _ _ _ H).
  - apply del_err in H as [->|(H1 & H2 & H3 & H4 & ->)]; [left; reflexivity|right]. apply (HalfPair k _ a); auto.
  - unfold done in H. destruct (item_pop k a) as [k1 [u|x]] eqn:EP; cbn [fst snd] in H; [discriminate|]. injection H as <- _.
    apply pop_err in EP as [->|EP]; [left; reflexivity|].
    apply del_err in EP as [->|(H1 & H2 & H3 & H4 & ->)]; [left; reflexivity|right]. apply (HalfPair k _ a); auto.
  - left. unfold done in H. destruct (k_cls k) eqn:EC; try (rewrite (proj1 (clear_never X k HR ltac:(rewrite EC; discriminate))) in H; injection H as <- _; reflexivity).
    destruct (k_store k) as [|[a v] r] eqn:ES.
    + unfold item_popitem in H. rewrite ES in H. injection H as <- _. reflexivity.
    + rewrite (rsa_popitem k a v r EC (proj2 (reachable_good X k HR)) ES) in H. discriminate.
  - left. destruct (k_cls k) eqn:EC; try (change (S (length (k_store k))) with (S (key_len k)) in H; rewrite (proj2 (clear_never X k HR ltac:(rewrite EC; discriminate))) in H; injection H as <- _; reflexivity).
    rewrite (rsa_clear _ k EC (proj2 (reachable_good X k HR)) (Nat.lt_succ_diag_r _)) in H. discriminate.
  - apply update_err in H as (d1 & a & v & d2 & -> & HU). destruct d1 as [|e1 d1].
    + left. injection HU as <-. reflexivity.
    + right. eapply HalfUpdate; [discriminate|exact HU].
  - left. unfold done in H. unfold item_setdefault in H. destruct (item_get k a) as [w|[]]; try discriminate; try (injection H as <- _; reflexivity).
    destruct (item_set k a v) as [k1 [u|x]] eqn:ES; cbn [fst snd] in H; [discriminate|]. injection H as <- _. exact (attempt_err _ _ _ _ ES).
Qed.

(** ** Messages *)

Lemma mac0_as_before : forall X m tag mac m' x, mac0_encode X m tag mac = (m', x) -> m0_core m' = m0_core m /\
  forall tag' mac', snd (mac0_encode X m' tag' mac') = snd (mac0_encode X m tag' mac').
Proof.
  intros X m tag mac m' x H.
  assert (HC : m0_core m' = m0_core m).
  { unfold mac0_encode in H. destruct (phdr_encoded (m0_core m)); [|injection H as <- _; reflexivity].
    destruct mac; [|injection H as <- _; reflexivity]. unfold mac0_compute_tag in H. destruct (mac_compute X "MAC0" (m0_core m)); injection H as <- _; reflexivity. }
  split; [exact HC|]. intros tag' mac'. unfold mac0_encode, mac0_compute_tag. rewrite HC. destruct (phdr_encoded (m0_core m)); [|reflexivity].
  destruct mac'; [|reflexivity]. destruct (mac_compute X "MAC0" (m0_core m)); reflexivity.
Qed.

Section Messages.
Variable X : crypto.

Lemma kakw_own : forall n c c' x, ckey c <> None -> kakw_encrypt X n c = (c', x) -> c' = c.
Proof.
  intros n c c' x HK H. unfold kakw_encrypt in H. destruct (is_none _); [injection H as <- _; reflexivity|].
  destruct (get_attr c Algorithm) as [a|e]; [|injection H as <- _; reflexivity].
  destruct (is_none a); [injection H as <- _; reflexivity|]. destruct (ckey c) as [k|] eqn:EK; [|elim HK; reflexivity].
  injection H as <- _. reflexivity.
Qed.

Lemma finish_own : forall id rc ctx subs n c items n' r' x,
  (forall n n' l' x, rcpts_encode X n subs = ((n', l'), x) -> l' = subs) ->
  finish X id rc ctx subs n c items = ((n', r'), x) -> r' = Rcpt id rc c ctx subs.
Proof.
  intros id rc ctx subs n c items n' r' x HS H. unfold finish in H. destruct subs as [|s subs].
  - injection H as <- <- _. reflexivity.
  - destruct (rcpts_encode X n (s :: subs)) as [[n1 s'] y] eqn:E. apply HS in E. subst s'.
    destruct y; injection H as <- <- _; reflexivity.
Qed.

Lemma encode_own : forall k l, (list_sum (map rsize l) < k)%nat -> Forall own_key l ->
  forall n n' l' x, rcpts_encode X n l = ((n', l'), x) -> l' = l.
Proof.
  induction k as [|k IHk]; [lia|]. intros l. induction l as [|r l IHl]; intros HK HO n n' l' x H.
  - injection H as <- <- <-. reflexivity.
  - inversion HO as [|? ? HO1 HO2]; subst.
    cbn [map list_sum fold_right] in HK. change (fold_right Nat.add 0 (map rsize l)) with (list_sum (map rsize l)) in HK.
    assert (HS : rsize r = S (list_sum (map rsize (r_subs r)))) by (destruct r; reflexivity).
    assert (HR : forall n n' r' x, rcpt_encode X n r = ((n', r'), x) -> r' = r).
    { clear H n n' l' x IHl. intros n n' r' x H. destruct HO1 as [id rc c ctx subs HC HSO]. cbn [r_subs] in HS.
      assert (HSub : forall n n' l' x, rcpts_encode X n subs = ((n', l'), x) -> l' = subs) by (intros; eapply IHk; [|exact HSO|eassumption]; lia).
      assert (Fin : forall n items n' r' x, finish X id rc ctx subs n c items = ((n', r'), x) -> r' = Rcpt id rc c ctx subs).
      { intros n0 items n1 r1 x1 HF. exact (finish_own _ _ _ _ _ _ _ _ _ _ HSub HF). }
      destruct rc.
      - cbn [rcpt_encode] in H. injection H as _ <- _. reflexivity.
      - rewrite encode_kw in H. destruct (bind (phdr_encoded c) _) as [[p w]|e]; [|injection H as _ <- _; reflexivity].
        exact (Fin _ _ _ _ _ H).
      - cbn [rcpt_encode] in H.
        destruct (bind (get_attr c Algorithm) _) as [[a pk]|e]; [|injection H as _ <- _; reflexivity].
        destruct (ckey c) as [kc|] eqn:EK; [|elim HC; auto].
        destruct (bind (Ok tt) _) as [p|e]; [|injection H as _ <- _; reflexivity].
        exact (Fin _ _ _ _ _ H).
      - rewrite encode_kakw in H. destruct (bind (phdr_encoded c) _) as [p|e]; [|injection H as _ <- _; reflexivity].
        destruct (kakw_encrypt X n c) as [c1 [w|e]] eqn:EK; apply kakw_own in EK; auto; subst c1.
        + exact (Fin _ _ _ _ _ H).
        + injection H as _ <- _. reflexivity. }
    cbn [rcpts_encode] in H. destruct (rcpt_encode X n r) as [[n1 r'] [v|e]] eqn:ER; apply HR in ER; subst r'.
    + destruct (rcpts_encode X n1 l) as [[n2 l2] y] eqn:EL. apply IHl in EL; [|lia|exact HO2]. subst l2.
      destruct y; injection H as <- <- _; reflexivity.
    + injection H as <- <- _. reflexivity.
Qed.
Lemma rcpts_encode_own : forall l n n' l' x, Forall own_key l -> rcpts_encode X n l = ((n', l'), x) -> l' = l.
Proof. intros l n n' l' x HO. apply (encode_own (S (list_sum (map rsize l)))); [lia|exact HO]. Qed.

Lemma cek_loop_own : forall l n kb n' l' x, Forall own_key l -> Forall (fun r => payload (r_core r) <> Some []) l ->
  cek_loop X n kb l = ((n', l'), x) -> l' = l.
Proof.
  induction l as [|r l IH]; intros n kb n' l' x HO HP H; cbn [cek_loop] in H.
  - injection H as <- <- _. reflexivity.
  - inversion HO as [|? ? HO1 HO2]; subst. inversion HP as [|? ? HP1 HP2]; subst.
    assert (HE : forall y, (let '(r1, kb1) := match payload (r_core r) with
        | Some [] => (r_with r (with_payload (r_core r) (match kb with VBytes b => Some b | _ => None end)), kb)
        | p => (r, vopt p) end in y r1 kb1) = y r (vopt (payload (r_core r))) :> (N * list rcpt) * result pyval).
    { intros y. destruct (payload (r_core r)) as [[|b p]|]; [elim HP1; reflexivity|reflexivity|reflexivity]. }
    rewrite HE in H. destruct (rcpt_encrypt X n r) as [r2 y] eqn:ER.
    assert (H2 : r2 = r).
    { destruct HO1 as [id rc c ctx subs HC _]. cbn [rcpt_encrypt] in ER. destruct rc; try (injection ER as <- _; reflexivity).
      destruct (kakw_encrypt X n c) as [c' z] eqn:EK. apply kakw_own in EK; auto. subst c'. injection ER as <- _. reflexivity. }
    subst r2. destruct y as [w|e].
    + destruct (cek_loop X (N.succ n) _ l) as [[n2 l2] z] eqn:EL. apply IH in EL; [|assumption|assumption]. subst l2. injection H as <- <- _. reflexivity.
    + injection H as <- <- _. reflexivity.
Qed.

(** After [encrypt] or [encode] at most the key of the message has changed, and that key plays
    no role in later calls. *)
Definition rekeyed (m m' : encmsg) : Prop :=
  m' = m \/ (has_class RDirect (e_rcpts m) = false /\ exists k, m' = EncMsg (with_key (e_core m) k) (e_rcpts m)).

Lemma encrypt_own : forall n m n' m' x, prepared (e_rcpts m) -> encm_encrypt X n m = ((n', m'), x) -> rekeyed m m'.
Proof.
  intros n m n' m' x [HO HP] H. unfold encm_encrypt in H.
  destruct (bind (get_attr _ _) _) as [target|e]; [|injection H as <- <- _; left; reflexivity].
  destruct (has_class RDirect _) eqn:ED; [injection H as <- <- _; left; reflexivity|]. destruct (has_class RAgree _) eqn:EA.
  { destruct (e_rcpts m) as [|r rs] eqn:ER; [injection H as <- <- _; left; reflexivity|].
    destruct (compute_cek X r target false) as [k|e]; injection H as <- <- _; [|left; reflexivity].
    right. rewrite ER. split; [exact ED|]. exists k. reflexivity. }
  destruct (_ || _); [|injection H as <- <- _; left; reflexivity].
  destruct (get_key_length target) as [len|e]; [|injection H as <- <- _; left; reflexivity].
  destruct HP as [HP|[HP|HP]]; [discriminate|discriminate|].
  destruct (cek_loop X _ _ _) as [[n1 rs'] [kb|e]] eqn:EL; apply cek_loop_own in EL; try assumption; subst rs'.
  - destruct (sym_with kb target [EncryptOp]) as [k|e]; injection H as <- <- _.
    + right. split; [exact ED|]. eexists. reflexivity.
    + left. destruct m; reflexivity.
  - injection H as <- <- _. left. destruct m; reflexivity.
Qed.

Lemma rekeyed_enc : forall m m' rs', rekeyed m m' -> rs' = e_rcpts m -> rekeyed m (EncMsg (e_core m') rs').
Proof.
  intros m m' rs' [->|(HD & k & ->)] ->; [left; destruct m; reflexivity|right]. split; [exact HD|]. exists k. reflexivity.
Qed.
Lemma rekeyed_rcpts : forall m m', rekeyed m m' -> e_rcpts m' = e_rcpts m.
Proof. intros m m' [->|(_ & k & ->)]; reflexivity. Qed.

Lemma enc_own : forall n m tag enc n' m' x, prepared (e_rcpts m) -> encm_encode X n m tag enc = ((n', m'), x) -> rekeyed m m'.
Proof.
  intros n m tag enc n' m' x HP H. unfold encm_encode in H. destruct (phdr_encoded (e_core m)) as [p|e]; [|injection H as <- <- _; left; reflexivity].
  set (step := if enc then _ else _) in H. destruct step as [[n1 m1] body] eqn:ES.
  assert (H1 : rekeyed m m1).
  { subst step. destruct enc.
    - destruct (encm_encrypt X n m) as [[n2 m2] y] eqn:EE. apply encrypt_own in EE; [|exact HP]. injection ES as <- <- _. exact EE.
    - injection ES as <- <- _. left. reflexivity. }
  clear ES step. destruct body as [bv|e]; [|injection H as <- <- _; exact H1].
  destruct (e_rcpts m1) as [|r rs] eqn:ER; [injection H as <- <- _; exact H1|].
  destruct (get_attr (e_core m1) Algorithm) as [a|e]; [|injection H as <- <- _; exact H1].
  destruct (rcpts_encode X n1 (r :: rs)) as [[n3 rs'] y] eqn:EE.
  assert (HRS : r :: rs = e_rcpts m) by (rewrite <- ER; exact (rekeyed_rcpts _ _ H1)).
  apply rcpts_encode_own in EE; [|rewrite HRS; exact (proj1 HP)]. rewrite HRS in EE.
  destruct y; injection H as <- <- _; exact (rekeyed_enc _ _ _ H1 EE).
Qed.

Lemma encrypt_again : forall n m k, has_class RDirect (e_rcpts m) = false ->
  snd (encm_encrypt X n (EncMsg (with_key (e_core m) k) (e_rcpts m))) = snd (encm_encrypt X n m) /\
  fst (fst (encm_encrypt X n (EncMsg (with_key (e_core m) k) (e_rcpts m)))) = fst (fst (encm_encrypt X n m)) /\
  e_rcpts (snd (fst (encm_encrypt X n (EncMsg (with_key (e_core m) k) (e_rcpts m))))) = e_rcpts (snd (fst (encm_encrypt X n m))) /\
  exists k', e_core (snd (fst (encm_encrypt X n (EncMsg (with_key (e_core m) k) (e_rcpts m))))) = with_key (e_core (snd (fst (encm_encrypt X n m)))) k'.
Proof.
  intros n m k HD. unfold encm_encrypt. cbn [e_core e_rcpts]. change (get_attr (with_key (e_core m) k) Algorithm) with (get_attr (e_core m) Algorithm).
  assert (Same : forall (c : core) k0, exists k', with_key c k0 = with_key c k') by (intros; eexists; reflexivity).
  assert (Own : forall c : core, exists k', c = with_key c k') by (intros; eexists; apply with_own_key).
  destruct (bind (get_attr _ _) _) as [target|e]; [|cbn [fst snd e_core e_rcpts]; repeat split; try reflexivity; apply Same].
  rewrite HD. destruct (has_class RAgree _).
  { destruct (e_rcpts m) as [|r rs] eqn:ER; [cbn [fst snd e_core e_rcpts]; repeat split; try (symmetry; assumption); try reflexivity; apply Same|].
    destruct (compute_cek X r target false) as [k0|e]; cbn [fst snd e_core e_rcpts]; repeat split; try (symmetry; assumption); try reflexivity.
    - change (with_key (with_key (e_core m) k) k0) with (with_key (e_core m) k0). apply Own.
    - apply Same. }
  destruct (_ || _); [|cbn [fst snd e_core e_rcpts]; repeat split; try reflexivity; apply Same].
  destruct (get_key_length target) as [len|e]; [|cbn [fst snd e_core e_rcpts]; repeat split; try reflexivity; apply Same].
  destruct (cek_loop X _ _ _) as [[n1 rs'] [kb|e]]; [|cbn [fst snd e_core e_rcpts]; repeat split; try reflexivity; apply Same].
  destruct (sym_with kb target [EncryptOp]) as [k0|e]; cbn [fst snd e_core e_rcpts]; repeat split; try reflexivity; [|apply Same].
  change (with_key (with_key (e_core m) k) (Some k0)) with (with_key (e_core m) (Some k0)). apply Own.
Qed.

Lemma enc_again : forall n m k tag enc, has_class RDirect (e_rcpts m) = false ->
  snd (encm_encode X n (EncMsg (with_key (e_core m) k) (e_rcpts m)) tag enc) = snd (encm_encode X n m tag enc).
Proof.
  intros n m k tag enc HD. unfold encm_encode. cbn [e_core e_rcpts]. change (phdr_encoded (with_key (e_core m) k)) with (phdr_encoded (e_core m)).
  destruct (phdr_encoded (e_core m)) as [p|e]; [|reflexivity]. destruct enc.
  - destruct (encrypt_again n m k HD) as (H1 & H2 & H3 & k' & H4).
    destruct (encm_encrypt X n (EncMsg (with_key (e_core m) k) (e_rcpts m))) as [[n1 m1] x1]. destruct (encm_encrypt X n m) as [[n2 m2] x2].
    cbn [fst snd] in *. subst x2 n2. destruct x1 as [b|e]; cbn [bind]; [|reflexivity]. rewrite H3, H4.
    change (get_attr (with_key (e_core m2) k') Algorithm) with (get_attr (e_core m2) Algorithm). destruct (e_rcpts m2) as [|r rs]; [reflexivity|].
    destruct (get_attr (e_core m2) Algorithm); [|reflexivity]. destruct (rcpts_encode X n1 (r :: rs)) as [[n3 rs'] [vs|e]]; reflexivity.
  - cbn [e_rcpts e_core]. destruct (e_rcpts m) as [|r rs]; [reflexivity|]. change (get_attr (with_key (e_core m) k) Algorithm) with (get_attr (e_core m) Algorithm).
    destruct (get_attr (e_core m) Algorithm); [|reflexivity]. destruct (rcpts_encode X n (r :: rs)) as [[n3 rs'] [vs|e]]; reflexivity.
Qed.

Lemma enc_as_before : forall n m tag enc s x, prepared (e_rcpts m) -> encm_encode X n m tag enc = (s, x) ->
  core_kept (e_core m) (e_core (snd s)) /\ e_rcpts (snd s) = e_rcpts m /\
  forall n' tag' enc', snd (encm_encode X n' (snd s) tag' enc') = snd (encm_encode X n' m tag' enc').
Proof.
  intros n m tag enc [n1 m1] x HP H. apply enc_own in H; [|exact HP]. cbn [snd]. destruct H as [->|(HD & k & ->)].
  - split; [apply core_kept_refl|]. split; reflexivity.
  - cbn [e_core e_rcpts]. split; [apply core_kept_key|]. split; [reflexivity|]. intros. apply enc_again. exact HD.
Qed.

(** The first recipient keeps the content key that was made for a message that was not sent. *)
Lemma kw_encode_keeps : forall n r n' r' x, r_class r = RKeyWrap -> rcpt_encode X n r = ((n', r'), x) -> r_core r' = r_core r.
Proof.
  intros n [id rc c ctx subs] n' r' x HC H. cbn [r_class] in HC. subst rc. rewrite encode_kw in H. destruct (bind (phdr_encoded c) _) as [[p w]|e]; [|injection H as _ <- _; reflexivity].
  unfold finish in H. destruct subs as [|s subs]; [injection H as _ <- _; reflexivity|].
  destruct (rcpts_encode X _ (s :: subs)) as [[n1 s'] y]. destruct y; injection H as <- <- _; reflexivity.
Qed.

Lemma content_key_left : forall n m r l target len p n' m' x tag, e_rcpts m = r :: l -> r_class r = RKeyWrap -> payload (r_core r) = Some [] ->
  phdr_encoded (e_core m) = Ok p -> get_attr (e_core m) Algorithm = Ok target -> verify_recipients (e_rcpts m) = Ok tt ->
  has_class RDirect (e_rcpts m) = false -> has_class RAgree (e_rcpts m) = false -> get_key_length target = Ok len ->
  encm_encode X n m tag true = ((n', m'), x) -> exists r' l', e_rcpts m' = r' :: l' /\ payload (r_core r') = Some (x_urandom X n len).
Proof.
  intros n m r l target len p n' m' x tag HR HC HPl HP HA HV HD HG HL H. unfold encm_encode in H. rewrite HP in H.
  assert (HE : exists n1 c1 r1 l1 b, encm_encrypt X n m = ((n1, EncMsg c1 (r1 :: l1)), b) /\ r_class r1 = RKeyWrap /\ payload (r_core r1) = Some (x_urandom X n len)).
  { unfold encm_encrypt. rewrite HA, HV. cbn [bind]. rewrite HD, HG.
    assert (HK : has_class RKeyWrap (e_rcpts m) = true) by (rewrite HR; cbn; rewrite HC; reflexivity). rewrite HK. cbn [orb]. rewrite HL, HR. cbn [cek_loop]. rewrite HPl.
    set (r1 := r_with r _). assert (HC1 : r_class r1 = RKeyWrap) by (subst r1; destruct r; exact HC).
    assert (HP1 : payload (r_core r1) = Some (x_urandom X n len)) by (subst r1; destruct r; reflexivity). clearbody r1.
    destruct (rcpt_encrypt X (N.succ n) r1) as [r2 y] eqn:ER. assert (H2 : r2 = r1).
    { destruct r1 as [id rc c ctx subs]. cbn [r_class] in HC1. subst rc. injection ER as <- _. reflexivity. }
    subst r2. destruct y as [w|e]; [|do 5 eexists; split; [reflexivity|auto]].
    destruct (cek_loop X _ _ l) as [[n2 l2] [kb|e]]; [|do 5 eexists; split; [reflexivity|auto]].
    destruct (sym_with kb target [EncryptOp]); do 5 eexists; (split; [reflexivity|auto]). }
  destruct HE as (n1 & c1 & r1 & l1 & b & HE & HC1 & HP1). rewrite HE in H. destruct b as [b|e]; cbn [bind] in H.
  - cbn [e_rcpts e_core] in H. destruct (get_attr c1 Algorithm); [|injection H as _ <- _; exists r1, l1; auto].
    cbn [rcpts_encode] in H. destruct (rcpt_encode X n1 r1) as [[n2 r2] y] eqn:ER. apply kw_encode_keeps in ER; [|exact HC1].
    destruct y as [v|e]; [destruct (rcpts_encode X n2 l1) as [[n3 l3] [vs|e]]|]; injection H as _ <- _; cbn [e_rcpts]; eexists _, _; (split; [reflexivity|congruence]).
  - injection H as _ <- _. exists r1, l1. auto.
Qed.

(** *** COSE_Mac *)

Definition remade (m m' : macmsg) : Prop :=
  mm_rcpts m' = mm_rcpts m /\
  (mm_core m' = mm_core m \/ (exists rs, mm_rcpts m = Some rs /\ has_class RDirect rs = false /\ exists k, mm_core m' = with_key (mm_core m) k)).

Lemma remade_refl : forall m, remade m m.
Proof. intros m. split; [reflexivity|left; reflexivity]. Qed.

Lemma tag_own : forall n m rs n' m' x, mm_rcpts m = Some rs -> prepared rs -> macm_compute_tag X n m = ((n', m'), x) -> remade m m'.
Proof.
  intros n m rs n' m' x ER [HO HP] H. unfold macm_compute_tag in H. rewrite ER in H.
  destruct (get_attr _ _) as [target|e]; [|injection H as <- <- _; apply remade_refl].
  destruct (verify_recipients rs) as [[]|e]; [|injection H as <- <- _; apply remade_refl].
  assert (HS : forall m0, mac_super_compute X n m0 = ((n', m'), x) -> mm_core m' = mm_core m0 /\ mm_rcpts m' = mm_rcpts m0).
  { intros m0 HM. unfold mac_super_compute in HM. destruct (mac_compute X "MAC" (mm_core m0)); injection HM as <- <- _; auto. }
  destruct (has_class RDirect _) eqn:ED; [apply HS in H as [H1 H2]; split; auto|]. destruct (has_class RAgree _) eqn:EA.
  { destruct rs as [|r rs]; [injection H as <- <- _; apply remade_refl|].
    destruct (compute_cek X r target false) as [k|e]; [|injection H as <- <- _; apply remade_refl].
    apply HS in H as [H1 H2]. cbn [mm_core mm_rcpts] in H1, H2. split; [congruence|]. right. exists (r :: rs). split; [exact ER|]. split; [exact ED|]. exists k. exact H1. }
  destruct (_ || _); [|injection H as <- <- _; apply remade_refl].
  destruct (get_key_length target) as [len|e]; [|injection H as <- <- _; apply remade_refl].
  destruct HP as [HP|[HP|HP]]; [discriminate|discriminate|].
  destruct (cek_loop X _ _ _) as [[n1 rs'] [kb|e]] eqn:EL; apply cek_loop_own in EL; try assumption; subst rs'; injection H as <- <- _;
    (split; [cbn [mm_rcpts]; congruence|left; reflexivity]).
Qed.

Lemma mac_own : forall n m rs tag mac n' m' x, mm_rcpts m = Some rs -> prepared rs -> macm_encode X n m tag mac = ((n', m'), x) -> remade m m'.
Proof.
  intros n m rs tag mac n' m' x HRs HP H. unfold macm_encode in H. destruct (phdr_encoded (mm_core m)) as [p|e]; [|injection H as <- <- _; apply remade_refl].
  set (step := if mac then _ else _) in H. destruct step as [[n1 m1] body] eqn:ES.
  assert (H1 : remade m m1).
  { subst step. destruct mac.
    - destruct (macm_compute_tag X n m) as [[n2 m2] y] eqn:EE. apply (tag_own _ _ _ _ _ _ HRs HP) in EE. injection ES as <- <- _. exact EE.
    - injection ES as <- <- _. apply remade_refl. }
  clear ES step. destruct body as [bv|e]; [|injection H as <- <- _; exact H1].
  destruct (mm_rcpts m1) as [[|r rs1]|] eqn:ER; [injection H as <- <- _; exact H1| |injection H as <- <- _; exact H1].
  destruct (get_attr (mm_core m1) Algorithm) as [a|e]; [|injection H as <- <- _; exact H1].
  destruct (rcpts_encode X n1 (r :: rs1)) as [[n3 rs'] y] eqn:EE. destruct H1 as [HA HB]. rewrite ER, HRs in HA. injection HA as HA.
  apply rcpts_encode_own in EE; [|rewrite HA; exact (proj1 HP)]. rewrite HA in EE. subst rs'.
  destruct y; injection H as <- <- _; (split; [cbn [mm_rcpts]; congruence|exact HB]).
Qed.

Lemma tag_again : forall n c t t' rs k, has_class RDirect rs = false ->
  snd (macm_compute_tag X n (MacMsg (with_key c k) t' (Some rs))) = snd (macm_compute_tag X n (MacMsg c t (Some rs))) /\
  fst (fst (macm_compute_tag X n (MacMsg (with_key c k) t' (Some rs)))) = fst (fst (macm_compute_tag X n (MacMsg c t (Some rs)))) /\
  mm_rcpts (snd (fst (macm_compute_tag X n (MacMsg (with_key c k) t' (Some rs))))) = mm_rcpts (snd (fst (macm_compute_tag X n (MacMsg c t (Some rs))))) /\
  exists k', mm_core (snd (fst (macm_compute_tag X n (MacMsg (with_key c k) t' (Some rs))))) = with_key (mm_core (snd (fst (macm_compute_tag X n (MacMsg c t (Some rs)))))) k'.
Proof.
  intros n c t t' rs k HD. unfold macm_compute_tag. cbn [mm_core mm_rcpts mm_tag]. change (get_attr (with_key c k) Algorithm) with (get_attr c Algorithm).
  assert (Same : forall (c : core) k0, exists k', with_key c k0 = with_key c k') by (intros; eexists; reflexivity).
  assert (Own : forall c : core, exists k', c = with_key c k') by (intros; eexists; apply with_own_key).
  destruct (get_attr c Algorithm) as [target|e]; [|cbn [fst snd mm_core mm_rcpts]; repeat split; try reflexivity; apply Same].
  destruct (verify_recipients rs) as [[]|e]; [|cbn [fst snd mm_core mm_rcpts]; repeat split; try reflexivity; apply Same].
  rewrite HD. destruct (has_class RAgree _).
  { destruct rs as [|r rs]; [cbn [fst snd mm_core mm_rcpts]; repeat split; try reflexivity; apply Same|].
    destruct (compute_cek X r target false) as [k0|e]; [|cbn [fst snd mm_core mm_rcpts]; repeat split; try reflexivity; apply Same].
    change (with_key (with_key c k) k0) with (with_key c k0). unfold mac_super_compute. cbn [mm_core mm_rcpts].
    destruct (mac_compute X "MAC" (with_key c k0)); cbn [fst snd mm_core mm_rcpts]; repeat split; try reflexivity; apply Own. }
  destruct (_ || _); [|cbn [fst snd mm_core mm_rcpts]; repeat split; try reflexivity; apply Same].
  destruct (get_key_length target) as [len|e]; [|cbn [fst snd mm_core mm_rcpts]; repeat split; try reflexivity; apply Same].
  destruct (cek_loop X _ _ _) as [[n1 rs'] [kb|e]]; cbn [fst snd mm_core mm_rcpts]; repeat split; try reflexivity; apply Same.
Qed.

Lemma mac_again : forall n c t t' rs k tag mac, has_class RDirect rs = false \/ k = ckey c ->
  snd (macm_encode X n (MacMsg (with_key c k) t' (Some rs)) tag mac) = snd (macm_encode X n (MacMsg c t (Some rs)) tag mac).
Proof.
  intros n c t t' rs k tag mac HD. unfold macm_encode. cbn [mm_core mm_rcpts]. change (phdr_encoded (with_key c k)) with (phdr_encoded c).
  destruct (phdr_encoded c) as [p|e]; [|reflexivity]. destruct mac.
  - assert (HA : snd (macm_compute_tag X n (MacMsg (with_key c k) t' (Some rs))) = snd (macm_compute_tag X n (MacMsg c t (Some rs))) /\
      fst (fst (macm_compute_tag X n (MacMsg (with_key c k) t' (Some rs)))) = fst (fst (macm_compute_tag X n (MacMsg c t (Some rs)))) /\
      mm_rcpts (snd (fst (macm_compute_tag X n (MacMsg (with_key c k) t' (Some rs))))) = mm_rcpts (snd (fst (macm_compute_tag X n (MacMsg c t (Some rs))))) /\
      exists k', mm_core (snd (fst (macm_compute_tag X n (MacMsg (with_key c k) t' (Some rs))))) = with_key (mm_core (snd (fst (macm_compute_tag X n (MacMsg c t (Some rs)))))) k').
    { destruct (has_class RDirect rs) eqn:ED; [|exact (tag_again n c t t' rs k ED)]. destruct HD as [HD|HD]; [discriminate|]. subst k.
      assert (HW : with_key c (ckey c) = c) by (symmetry; apply with_own_key). rewrite HW.
      assert (Own : forall c : core, exists k', c = with_key c k') by (intros; eexists; apply with_own_key).
      unfold macm_compute_tag. cbn [mm_core mm_rcpts]. destruct (get_attr c Algorithm); [|cbn [fst snd mm_core mm_rcpts]; repeat split; apply Own].
      destruct (verify_recipients rs) as [[]|]; [|cbn [fst snd mm_core mm_rcpts]; repeat split; apply Own]. rewrite ED. unfold mac_super_compute. cbn [mm_core mm_rcpts].
      destruct (mac_compute X "MAC" c); cbn [fst snd mm_core mm_rcpts]; repeat split; apply Own. }
    destruct HA as (H1 & H2 & H3 & k' & H4).
    destruct (macm_compute_tag X n (MacMsg (with_key c k) t' (Some rs))) as [[n1 m1] x1]. destruct (macm_compute_tag X n (MacMsg c t (Some rs))) as [[n2 m2] x2].
    cbn [fst snd] in *. subst x2 n2. destruct x1 as [b|e]; cbn [bind]; [|reflexivity]. rewrite H3, H4.
    change (get_attr (with_key (mm_core m2) k') Algorithm) with (get_attr (mm_core m2) Algorithm). destruct (mm_rcpts m2) as [[|r rs1]|]; [reflexivity| |reflexivity].
    destruct (get_attr (mm_core m2) Algorithm); [|reflexivity]. destruct (rcpts_encode X n1 (r :: rs1)) as [[n3 rs'] [vs|e]]; reflexivity.
  - cbn [mm_rcpts mm_core]. destruct rs as [|r rs]; [reflexivity|]. change (get_attr (with_key c k) Algorithm) with (get_attr c Algorithm).
    destruct (get_attr c Algorithm); [|reflexivity]. destruct (rcpts_encode X n (r :: rs)) as [[n3 rs'] [vs|e]]; reflexivity.
Qed.

Lemma mac_as_before : forall n m rs tag mac s x, mm_rcpts m = Some rs -> prepared rs -> macm_encode X n m tag mac = (s, x) ->
  core_kept (mm_core m) (mm_core (snd s)) /\ mm_rcpts (snd s) = mm_rcpts m /\
  forall n' tag' mac', snd (macm_encode X n' (snd s) tag' mac') = snd (macm_encode X n' m tag' mac').
Proof.
  intros n m rs tag mac [n1 m1] x HRs HP H. apply (mac_own _ _ _ _ _ _ _ _ HRs HP) in H as [HR HC]. cbn [snd].
  assert (HK : exists k, mm_core m1 = with_key (mm_core m) k /\ (has_class RDirect rs = false \/ k = ckey (mm_core m))).
  { destruct HC as [HC|(rs1 & HR1 & HD & k & HC)]; [exists (ckey (mm_core m)); split; [rewrite HC; apply with_own_key|right; reflexivity]|].
    exists k. split; [exact HC|left; congruence]. }
  destruct HK as (k & HE & HK). destruct m as [c t r0], m1 as [c1 t1 r1]. cbn [mm_core mm_rcpts] in *. subst r0 r1 c1.
  split; [apply core_kept_key|]. split; [reflexivity|]. intros. apply mac_again. exact HK.
Qed.

(** *** A failed attempt to make a key pair *)

Lemma setup_left : forall n c pk k v, ckey c = None -> (bind (peer pk) (fun p => bind (prop_get p PCrv) (fun crv => ec2_generate X n crv VNone))) = Ok k ->
  get_attr c EphemeralKey = Ok v -> is_none v = false -> setup_ephemeral X n c pk = (with_key c (Some k), Err CoseException).
Proof.
  intros n c pk k v HK HG HA HN. unfold setup_ephemeral. rewrite HG. change (get_attr (with_key c (Some k)) EphemeralKey) with (get_attr c EphemeralKey). rewrite HA, HN. reflexivity.
Qed.

Lemma key_pair_left : forall n m r pk k v alg target len p tag, e_rcpts m = [r] -> r_class r = RAgreeKW -> ckey (r_core r) = None ->
  phdr_encoded (e_core m) = Ok p -> get_attr (e_core m) Algorithm = Ok target -> get_key_length target = Ok len ->
  dget (local (r_core r)) StaticKey = Some pk -> is_none pk = false ->
  get_attr (r_core r) Algorithm = Ok alg -> is_none alg = false -> alg_in alg es_kw = Ok true ->
  bind (peer pk) (fun q => bind (prop_get q PCrv) (fun crv => ec2_generate X (N.succ n) crv VNone)) = Ok k ->
  get_attr (r_core r) EphemeralKey = Ok v -> is_none v = false ->
  exists s r', encm_encode X n m tag true = (s, Err CoseException) /\ e_rcpts (snd s) = [r'] /\ ckey (r_core r') = Some k /\
    phdr (r_core r') = phdr (r_core r) /\ uhdr (r_core r') = uhdr (r_core r).
Proof.
  intros n m r pk k v alg target len p tag HR HC HK HP HA HL HS HSn HAl HAn HE HG HV HVn. unfold encm_encode. rewrite HP. unfold encm_encrypt. rewrite HA, HR.
  destruct r as [id rc c ctx subs]. cbn [r_class r_core] in *. subst rc.
  assert (HVr : verify_recipients [Rcpt id RAgreeKW c ctx subs] = Ok tt) by reflexivity. rewrite HVr. cbn [bind].
  assert (HD : has_class RDirect [Rcpt id RAgreeKW c ctx subs] = false) by reflexivity. rewrite HD.
  assert (HD2 : has_class RAgree [Rcpt id RAgreeKW c ctx subs] = false) by reflexivity. rewrite HD2.
  assert (HD3 : has_class RKeyWrap [Rcpt id RAgreeKW c ctx subs] || has_class RAgreeKW [Rcpt id RAgreeKW c ctx subs] = true) by reflexivity. rewrite HD3.
  rewrite HL. cbn [cek_loop r_core].
  assert (HX : forall pl, kakw_encrypt X (N.succ n) (with_payload c pl) = (with_key (with_payload c pl) (Some k), Err CoseException)).
  { intros pl. unfold kakw_encrypt. change (local (with_payload c pl)) with (local c). unfold dget_or. rewrite HS, HSn.
    change (get_attr (with_payload c pl) Algorithm) with (get_attr c Algorithm). rewrite HAl, HAn. change (ckey (with_payload c pl)) with (ckey c). rewrite HK, HE.
    rewrite (setup_left (N.succ n) (with_payload c pl) pk k v HK HG HV HVn). reflexivity. }
  assert (HO : with_payload c (payload c) = c) by (destruct c; reflexivity).
  destruct (payload c) as [[|b pl]|] eqn:EP; cbn [r_with rcpt_encrypt].
  - rewrite HX. eexists _, _. split; [reflexivity|]. split; [reflexivity|]. auto.
  - rewrite <- HO, HX, HO. eexists _, _. split; [reflexivity|]. split; [reflexivity|]. auto.
  - rewrite <- HO, HX, HO. eexists _, _. split; [reflexivity|]. split; [reflexivity|]. auto.
Qed.

End Messages.
