(** Proofs of C88 and C89 about shared recipients and signers. *)
From Coq Require Import NArith ZArith Bool String Lia.
From Coq Require Import Init.Byte List.
From Verif Require Import Bytes Value Cbor Registry Crypto Keys Algorithms Headers Messages Recipients Heap ValueProofs.
From Verif Require Import SpecCrypto SpecAlg SpecRcptTrip SpecLife SpecHeap LifeProofs RcptTrip6 HeapProofs.
Import ListNotations.
Local Open Scope result_scope.

Section Share.
Variable X : crypto.

Theorem shared_key : forall w m1 m2 c1 c2 l t1 t2 b1 b2, law_urandom_len X -> m1 <> m2 ->
  h_msg w m1 = HEnc c1 l -> h_msg w m2 = HEnc c2 l -> NoDup (all_objects l) ->
  Forall wraps (map (load (h_store w)) l) -> one_content_key (map (load (h_store w)) l) ->
  let w1 := fst (hstep X w (Encode m1 t1 true)) in let w2 := fst (hstep X w1 (Encode m2 t2 true)) in
  snd (hstep X w (Encode m1 t1 true)) = Ok b1 -> snd (hstep X w1 (Encode m2 t2 true)) = Ok b2 ->
  exists K k1 k2 d1 d2, h_msg w2 m1 = HEnc d1 l /\ h_msg w2 m2 = HEnc d2 l /\
    ckey d1 = Some k1 /\ ckey d2 = Some k2 /\ secret k1 K /\ secret k2 K.
Proof.
  intros w m1 m2 c1 c2 l t1 t2 b1 b2 LU NE E1 E2 HD HW HO w1 w2 R1 R2.
  assert (E12 : h_msg w1 m2 = HEnc c2 l) by (unfold w1; rewrite msg_frame; [exact E2|exact NE]).
  assert (E21 : h_msg w2 m1 = h_msg w1 m1) by (unfold w2; apply msg_frame; intros E; exact (NE (eq_sym E))).
  assert (N1 : no_repeats w m1) by (unfold no_repeats; rewrite E1; exact HD).
  assert (N2 : no_repeats w1 m2) by (unfold no_repeats; rewrite E12; exact HD).
  pose proof (own_encode X w m1 t1 true N1) as O1. pose proof (own_encode X w1 m2 t2 true N2) as O2.
  fold w1 in O1. fold w2 in O2. unfold view_of in O1, O2. rewrite E1 in O1. rewrite E12 in O2.
  destruct O1 as (n1 & v1 & P1 & _ & V1). destruct O2 as (n2 & v2 & P2 & _ & V2). rewrite R1 in P1. rewrite R2 in P2.
  pose proof (refs_kept X w (Encode m1 t1 true) m1) as K1. fold w1 in K1. rewrite E1 in K1.
  pose proof (refs_kept X w1 (Encode m2 t2 true) m2) as K2. fold w2 in K2. rewrite E12 in K2.
  destruct (h_msg w1 m1) as [d1 l1|] eqn:M1; [|discriminate V1]. cbn [msg_refs] in K1. subst l1. injection V1 as V1.
  destruct (h_msg w2 m2) as [d2 l2|] eqn:M2; [|discriminate V2]. cbn [msg_refs] in K2. subst l2. injection V2 as V2.
  destruct (first_settled X _ (EncMsg c1 (map (load (h_store w)) l)) _ _ _ _ LU HW P1) as (K & S1 & A1). specialize (A1 HO). rewrite <- V1 in S1, A1. cbn [e_rcpts] in A1.
  assert (HW1 : Forall wraps (map (load (h_store w1)) l)) by (exact (proj1 S1)).
  destruct (first_settled X _ (EncMsg c2 (map (load (h_store w1)) l)) _ _ _ _ LU HW1 P2) as (K' & S2 & _).
  pose proof S1 as (_ & HKd & HNe & _ & k1 & C1 & C2). pose proof S2 as (_ & _ & _ & HL' & k2 & C3 & C4).
  cbn [e_core e_rcpts] in *. rewrite <- V2 in C3, HL'. cbn [e_core e_rcpts] in C3, HL'.
  assert (HKK : K' = K).
  { pose proof (enc_encode_keeps X _ _ _ _ _ _ _ P2) as [_ HF]. rewrite <- V2 in HF. cbn [e_rcpts] in HF.
    clear - HF HL' A1 HKd HNe. set (a := map (load (h_store w1)) l) in *. set (b := map (load (h_store w2)) l) in *. clearbody a b.
    destruct a as [|r0 a]; [congruence|]. specialize (HL' r0). clear HNe.
    assert (HX : Forall (fun r => payload (r_core r) = Some K) b).
    { clear HL'. revert A1 HKd. induction HF as [|x y u v Hxy HF IH]; intros A HK; [constructor|].
      inversion_clear A as [|? ? A1 A2]. inversion_clear HK as [|? ? K1 K2]. constructor; [|apply IH; assumption].
      destruct K1 as (k & EK & NK). destruct Hxy as [id rc c c' ctx subs subs' HFk HS]. cbn [r_core] in *.
      destruct HFk as (_ & _ & _ & _ & _ & [E|E] & _); congruence. }
    inversion HF; subst. match goal with H : Forall _ (?y :: ?v) |- _ => rename H into HFy end.
    assert (HIn : forall l d, l <> [] -> In (@last rcpt l d) l).
    { clear. intros l d. induction l as [|x l IH]; [congruence|]. intros _. destruct l as [|y l]; [left; reflexivity|]. right. apply IH. discriminate. }
    rewrite Forall_forall in HFy. match type of HL' with payload (r_core (last ?q _)) = _ => rewrite (HFy (last q r0) (HIn q r0 ltac:(discriminate))) in HL' end. congruence. }
  subst K'. exists K, k1, k2, d1, d2. auto 10.
Qed.

(** ** Histories of one message *)

Lemma load_change : forall i f st r, load (set_core st i (f (o_core (st i)))) r = change i f (load st r).
Proof.
  intros i f st. fix IH 1. intros [j subs]. cbn [load change]. f_equal.
  - unfold set_core, upd. destruct (N.eqb j i) eqn:E; [apply N.eqb_eq in E; subst j|]; reflexivity.
  - unfold set_core, upd. destruct (N.eqb j i) eqn:E; [apply N.eqb_eq in E; subst j|]; reflexivity.
  - unfold set_core, upd. destruct (N.eqb j i) eqn:E; [apply N.eqb_eq in E; subst j|]; reflexivity.
  - rewrite map_map. induction subs as [|x subs IHs]; [reflexivity|]. cbn [map]. f_equal; [apply IH|exact IHs].
Qed.

Lemma step_mine : forall w m o v, no_repeats w m -> mine w m o = Some v ->
  vstep X (h_n w) (view_of w m) v = (view_of (fst (hstep X w o)) m, snd (hstep X w o)).
Proof.
  intros w m o v HN HM. destruct o as [m' tag sec|m'|m' r|m' f|i f]; cbn [mine] in HM.
  1-4: destruct (N.eqb m' m) eqn:EN; [|discriminate]; apply N.eqb_eq in EN; subst m'; injection HM as <-.
  - pose proof (own_encode X w m tag sec HN) as H. destruct (view_of w m) as [v|v]; destruct H as (n' & v' & E & _ & ->); cbn [vstep]; rewrite E; reflexivity.
  - destruct (view_of w m) as [v|v] eqn:EV.
    + unfold view_of in EV |- *. cbn [hstep vstep]. destruct (h_msg w m) as [c l|c t l] eqn:EM; [|discriminate]. cbn [fst snd]. rewrite EM, EV. reflexivity.
    + destruct (own_tag X w m v HN EV) as (n' & v' & E & _ & ->). cbn [vstep]. rewrite E. reflexivity.
  - destruct (view_of w m) as [v|v] eqn:EV.
    + destruct (own_decrypt X w m v r EV) as (v' & E & ->). cbn [vstep]. rewrite E. reflexivity.
    + unfold view_of in EV |- *. cbn [hstep vstep]. destruct (h_msg w m) as [c l|c t l] eqn:EM; [discriminate|]. cbn [fst snd]. rewrite EM, EV. reflexivity.
  - unfold view_of. cbn [hstep fst snd h_msg h_store]. rewrite upd_same. destruct (h_msg w m); reflexivity.
  - destruct (existsb _ _); [|discriminate]. injection HM as <-. unfold view_of. cbn [hstep fst snd h_msg h_store].
    assert (E : forall l, map (load (set_core (h_store w) i (f (o_core (h_store w i))))) l = map (change i f) (map (load (h_store w)) l)).
    { intros l. rewrite map_map. apply map_ext. intros r. apply load_change. }
    destruct (h_msg w m) as [c l|c t [l|]]; cbn [vstep e_core e_rcpts mm_core mm_tag mm_rcpts option_map]; rewrite ?E; reflexivity.
Qed.

Lemma step_not_mine : forall w m o, mine w m o = None -> elsewhere w m o.
Proof.
  intros w m o H. destruct o as [m' tag sec|m'|m' r|m' f|i f]; cbn [mine elsewhere] in *.
  1-4: destruct (N.eqb m' m) eqn:E; [discriminate|]; apply N.eqb_neq in E; exact E.
  destruct (existsb _ _) eqn:E; [discriminate|]. intros HI. apply Bool.not_true_iff_false in E. apply E. apply existsb_exists. exists i. split; [exact HI|apply N.eqb_refl].
Qed.

Theorem runs_alone : forall ops w m, (forall m', no_repeats w m' /\ (m' <> m -> disjoint w m m')) ->
  alone X (view_of w m) (history_of X w m ops) (view_of (hruns X w ops) m).
Proof.
  induction ops as [|o ops IH]; intros w m HD; [constructor|]. cbn [history_of]. unfold hruns in *. cbn [fold_left].
  assert (HD' : forall m', no_repeats (fst (hstep X w o)) m' /\ (m' <> m -> disjoint (fst (hstep X w o)) m m')).
  { intros m'. unfold no_repeats, disjoint. rewrite !refs_kept. exact (HD m'). }
  specialize (IH (fst (hstep X w o)) m HD'). destruct (mine w m o) as [v|] eqn:EM.
  - pose proof (step_mine w m o v (proj1 (HD m)) EM) as E. destruct (hstep X w o) as [w' x]. cbn [fst snd] in *. econstructor; eassumption.
  - apply step_not_mine in EM. rewrite <- (step_elsewhere X w o m) with (2 := EM).
    + destruct (hstep X w o) as [w' x]. exact IH.
    + intros m' NE. split; [apply HD|apply HD; exact NE].
Qed.

(** ** Signers *)

Lemma signers_own : forall w m seed l d, (forall s, In s l -> sw_parent w s = Some m) ->
  h_signers X w seed l d = signers_encode X seed (Some (sw_core w m)) (map (sw_sig w) l) d.
Proof.
  intros w m seed l d. revert seed. induction l as [|s l IH]; intros seed H; [reflexivity|]. cbn [h_signers signers_encode map].
  rewrite (H s (or_introl eq_refl)), IH; [reflexivity|]. intros; apply H; right; assumption.
Qed.

Theorem own_sign_encode : forall w seed m tag d, own_signers w m -> h_sign_encode X w seed m tag d = sign_encode X seed (sign_view w m) tag d.
Proof.
  intros w seed m tag d H. unfold h_sign_encode, sign_encode, sign_view. cbn [sm_core sm_signers]. unfold own_signers in H.
  destruct (sw_lists w (sw_list w m)) as [|s l]; [reflexivity|]. rewrite (signers_own w m seed (s :: l) d H). reflexivity.
Qed.

Lemma adopt_in : forall l p m s, In s l -> adopt p m l s = Some m.
Proof.
  unfold adopt. intros l. induction l as [|x l IH] using rev_ind; intros p m s H; [contradiction|]. rewrite fold_left_app. cbn [fold_left].
  unfold upd. destruct (N.eqb s x) eqn:E; [reflexivity|]. apply IH. apply in_app_iff in H as [H|[->|[]]]; [exact H|]. rewrite N.eqb_refl in E. discriminate.
Qed.
Lemma adopt_out : forall l p m s, ~ In s l -> adopt p m l s = p s.
Proof.
  unfold adopt. intros l. induction l as [|x l IH]; intros p m s H; [reflexivity|]. cbn [fold_left]. rewrite IH; [|intros HI; apply H; right; exact HI].
  unfold upd. destruct (N.eqb s x) eqn:E; [|reflexivity]. apply N.eqb_eq in E. exfalso. apply H. left. congruence.
Qed.

Theorem own_after_set : forall w m l, own_signers (fst (sstep w (SetSigners m l))) m.
Proof.
  intros w m l s H. cbn [sstep fst sw_lists sw_list sw_parent] in *. rewrite upd_same in H. apply adopt_in. exact H.
Qed.

Lemma own_step : forall w m o, own_signers w m -> considerate w m o -> own_signers (fst (sstep w o)) m.
Proof.
  intros w m o H HC. destruct o as [m' l|m'|l new|m' f|s f]; cbn [considerate] in HC; try exact H.
  - destruct (N.eq_dec m' m) as [->|NE]; [apply own_after_set|]. destruct HC as [E|HC]; [congruence|].
    intros s HS. cbn [sstep fst sw_lists sw_list sw_parent] in *. rewrite upd_other in HS by congruence.
    rewrite adopt_out; [apply H; exact HS|]. intros HI. exact (HC s HI HS).
  - intros s HS. cbn [sstep fst sw_lists sw_list sw_parent] in *. unfold upd in HS. destruct (N.eqb _ l) eqn:E; [|apply H; exact HS].
    apply N.eqb_eq in E. subst l. apply H. exact (HC eq_refl s HS).
Qed.

Lemma own_runs : forall ops w m, own_signers w m -> considerate_runs w m ops -> own_signers (sruns w ops) m.
Proof.
  unfold sruns. induction ops as [|o ops IH]; intros w m H HC; [exact H|]. destruct HC as [H1 H2]. cbn [fold_left]. apply IH; [|exact H2]. apply own_step; assumption.
Qed.

Theorem shared_signers : forall w m1 m2 l seed tag d b, m1 <> m2 -> sw_lists w l <> [] ->
  let w' := sruns w [SetSigners m1 l; SetSigners m2 l] in
  h_sign_encode X w' seed m1 tag d = Ok b ->
  exists p sigs, phdr_encoded (sw_core w m1) = Ok p /\
    signers_encode X seed (Some (sw_core w m2)) (map (sw_sig w) (sw_lists w l)) d = Ok sigs /\
    emit (sw_core w m1) 98 tag [VBytes p; VDict (uhdr (sw_core w m1)); vopt (payload (sw_core w m1)); VList sigs] = Ok b.
Proof.
  intros w m1 m2 l seed tag d b NE HL w' H. unfold h_sign_encode in H. apply bind_ok in H as (p & HP & H).
  assert (EL : sw_lists w' (sw_list w' m1) = sw_lists w l).
  { unfold w', sruns. cbn [fold_left sstep fst sw_list sw_lists]. rewrite upd_other by exact NE. rewrite upd_same. reflexivity. }
  rewrite EL in H. destruct (sw_lists w l) as [|s r] eqn:ES; [congruence|].
  rewrite (signers_own w' m2 seed (s :: r) d) in H.
  - apply bind_ok in H as (items & HI & H). apply bind_ok in HI as (sigs & HS & E). injection E as <-.
    exists p, sigs. split; [exact HP|]. split; [exact HS|exact H].
  - intros x HX. unfold w', sruns. cbn [fold_left sstep fst sw_parent sw_lists]. apply adopt_in. rewrite ES. exact HX.
Qed.

Lemma orphan_fails : forall w l s seed d, In s l -> sw_parent w s = None -> is_ok (h_signers X w seed l d) = false.
Proof.
  intros w l. induction l as [|x l IH]; intros s seed d HI HP; [contradiction|]. destruct HI as [->|HI].
  - cbn [h_signers]. rewrite HP. cbn [option_map]. unfold signer_encode. destruct (phdr_encoded (sw_sig w s)); [|reflexivity]. cbn [bind signer_structure].
    unfold compute_signature. destruct (get_attr (sw_sig w s) Algorithm) as [al|]; cbn [bind]; [|reflexivity].
    destruct (key_verification (sw_sig w s) al SignOp); cbn [bind]; [|reflexivity]. destruct (has_sign al); reflexivity.
  - cbn [h_signers]. destruct (signer_encode X seed _ _ d); [|reflexivity]. cbn [bind]. specialize (IH s (N.succ seed) d HI HP). destruct (h_signers X w (N.succ seed) l d); [discriminate|reflexivity].
Qed.

Theorem appended_signer : forall w m s old seed tag d, sw_parent w s = None ->
  sw_lists w (sw_list w m) = old -> 
  let w' := fst (sstep w (ChangeList (sw_list w m) (old ++ [s]))) in
  is_ok (h_sign_encode X w' seed m tag d) = false.
Proof.
  intros w m s old seed tag d HP HL w'. unfold h_sign_encode.
  assert (EL : sw_lists w' (sw_list w' m) = old ++ [s]) by (unfold w'; cbn [sstep fst sw_lists sw_list]; apply upd_same).
  rewrite EL. destruct (phdr_encoded (sw_core w' m)); [|reflexivity]. cbn [bind].
  assert (HF : is_ok (h_signers X w' seed (old ++ [s]) d) = false) by (apply (orphan_fails w' _ s); [apply in_app_iff; right; left; reflexivity|exact HP]).
  destruct (old ++ [s]) as [|x r] eqn:E; [destruct old; discriminate|]. destruct (h_signers X w' seed (x :: r) d); [discriminate|reflexivity].
Qed.

(** ** A list appended to itself *)
Lemma own_list_runs : forall fuel l i, (i < length l)%nat -> append_own fuel i l = None.
Proof.
  induction fuel as [|fuel IH]; intros l i H; destruct (nth_error l i) eqn:E; cbn [append_own]; rewrite E; try reflexivity.
  all: try (exfalso; apply nth_error_None in E; lia).
  apply IH. rewrite app_length. cbn [length]. lia.
Qed.
End Share.
