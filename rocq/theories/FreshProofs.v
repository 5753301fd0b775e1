(** Proofs for C129. *)
From Coq Require Import NArith ZArith Bool String Lia.
From Coq Require Import Init.Byte List.
From Verif Require Import Bytes Value Cbor Registry Crypto Keys Algorithms Headers Messages Recipients SpecCrypto SpecAlg SpecTrip SpecKeys SpecMsg SpecFresh.
From Verif Require Import BytesProofs ValueProofs AlgProofs KeyProofs4 RcptProofs AgainProofs AcceptProofs.
Import ListNotations.
Local Open Scope result_scope.
Local Open Scope list_scope.

(** ** What is drawn, for lists of anything *)

Section Draws.
Context {A : Type} (keep : A -> A -> Prop) (new : N -> A -> A -> Prop).

Inductive draws (lo hi : N) : list A -> list A -> list (option N) -> Prop :=
| D_nil : draws lo hi [] [] []
| D_keep r r' l l' os : keep r r' -> draws lo hi l l' os -> draws lo hi (r :: l) (r' :: l') (None :: os)
| D_new p r r' l l' os : (lo <= p < hi)%N -> new p r r' -> draws lo hi l l' os -> draws lo hi (r :: l) (r' :: l') (Some p :: os).

Definition somes (os : list (option N)) : list N := flat_map (fun o => match o with Some p => [p] | None => [] end) os.
Definition drawn (lo hi : N) (l l' : list A) : Prop := exists os, draws lo hi l l' os /\ NoDup (somes os).

Lemma draws_range : forall lo hi l l' os p, draws lo hi l l' os -> In p (somes os) -> (lo <= p < hi)%N.
Proof. intros lo hi l l' os p H. induction H; cbn [somes flat_map app In]; [tauto|exact IHdraws|]. intros [<-|H']; auto. Qed.

Lemma draws_wider : forall lo hi lo' hi' l l' os, (lo' <= lo)%N -> (hi <= hi')%N -> draws lo hi l l' os -> draws lo' hi' l l' os.
Proof. intros lo hi lo' hi' l l' os HL HH H. induction H; constructor; auto. lia. Qed.

Lemma drawn_wider : forall lo hi lo' hi' l l', (lo' <= lo)%N -> (hi <= hi')%N -> drawn lo hi l l' -> drawn lo' hi' l l'.
Proof. intros lo hi lo' hi' l l' HL HH (os & H & HN). exists os. split; [exact (draws_wider _ _ _ _ _ _ _ HL HH H)|exact HN]. Qed.

Lemma somes_app : forall a b, somes (a ++ b) = somes a ++ somes b.
Proof. intros a b. apply flat_map_app. Qed.

Lemma drawn_app : forall lo mid hi a a' b b', (lo <= mid)%N -> (mid <= hi)%N -> drawn lo mid a a' -> drawn mid hi b b' -> drawn lo hi (a ++ b) (a' ++ b').
Proof.
  intros lo mid hi a a' b b' H1 H2 (os & HA & NA) (os' & HB & NB). exists (os ++ os'). split.
  - apply (draws_wider lo mid lo hi) in HA; [|lia|exact H2]. apply (draws_wider mid hi lo hi) in HB; [|exact H1|lia].
    clear NA NB. induction HA; cbn [app]; [exact HB|apply D_keep; auto|apply D_new; auto].
  - rewrite somes_app. revert NA. assert (HD : forall p, In p (somes os) -> ~ In p (somes os')).
    { intros p I1 I2. apply (draws_range _ _ _ _ _ _ HA) in I1. apply (draws_range _ _ _ _ _ _ HB) in I2. lia. }
    clear HA. induction (somes os) as [|p l IH]; cbn [app]; intros NA; [exact NB|]. inversion NA as [|? ? N1 N2]; subst. constructor.
    + rewrite in_app_iff. intros [I|I]; [exact (N1 I)|exact (HD p (or_introl eq_refl) I)].
    + apply IH; [intros q I; apply HD; right; exact I|exact N2].
Qed.

(** The positions of two places of the list are different. *)
Lemma drawn_at : forall lo hi l l', drawn lo hi l l' -> forall i r, nth_error l i = Some r -> exists r', nth_error l' i = Some r' /\
  (keep r r' \/ exists p, (lo <= p < hi)%N /\ new p r r').
Proof.
  intros lo hi l l' (os & H & _). induction H as [|r r' l l' os HK H IH|p r r' l l' os HP HK H IH]; intros i x E; destruct i as [|i]; try discriminate E; cbn [nth_error] in *.
  - injection E as <-. exists r'. auto.
  - exact (IH i x E).
  - injection E as <-. exists r'. split; [reflexivity|]. right. exists p. auto.
  - exact (IH i x E).
Qed.

Lemma draws_at : forall lo hi l l' os i r r', draws lo hi l l' os -> nth_error l i = Some r -> nth_error l' i = Some r' ->
  (nth_error os i = Some None /\ keep r r') \/ exists p, nth_error os i = Some (Some p) /\ (lo <= p < hi)%N /\ new p r r'.
Proof.
  intros lo hi l l' os i r r' H. revert i. induction H as [|x x' l l' os HK H IH|p x x' l l' os HP HK H IH]; intros [|i] E E'; try discriminate E; cbn [nth_error] in *.
  - injection E as <-. injection E' as <-. auto.
  - exact (IH i E E').
  - injection E as <-. injection E' as <-. right. exists p. auto.
  - exact (IH i E E').
Qed.

Lemma in_somes : forall os i p, nth_error os i = Some (Some p) -> In p (somes os).
Proof. intros os i p H. apply nth_error_In in H. apply in_flat_map. exists (Some p). split; [exact H|left; reflexivity]. Qed.

Lemma somes_apart : forall os i j p q, NoDup (somes os) -> i <> j -> nth_error os i = Some (Some p) -> nth_error os j = Some (Some q) -> p <> q.
Proof.
  induction os as [|o os IH]; intros i j p q HN HD E E'; [destruct i; discriminate|]. destruct i as [|i], j as [|j]; cbn [nth_error] in *; [congruence| | |].
  - injection E as ->. apply in_somes in E'. cbn [somes flat_map app] in HN. inversion HN as [|? ? N1 N2]; subst. intros ->. exact (N1 E').
  - injection E' as ->. apply in_somes in E. cbn [somes flat_map app] in HN. inversion HN as [|? ? N1 N2]; subst. intros ->. exact (N1 E).
  - apply (IH i j p q); auto. destruct o; [inversion HN; assumption|exact HN].
Qed.

Lemma drawn_apart : forall lo hi l l' i j r r' s s', drawn lo hi l l' -> i <> j ->
  nth_error l i = Some r -> nth_error l' i = Some r' -> nth_error l j = Some s -> nth_error l' j = Some s' ->
  keep r r' \/ keep s s' \/ exists p q, (lo <= p < hi)%N /\ (lo <= q < hi)%N /\ p <> q /\ new p r r' /\ new q s s'.
Proof.
  intros lo hi l l' i j r r' s s' (os & H & HN) HD E1 E1' E2 E2'.
  destruct (draws_at _ _ _ _ _ _ _ _ H E1 E1') as [[_ K]|(p & P1 & P2 & P3)]; [auto|].
  destruct (draws_at _ _ _ _ _ _ _ _ H E2 E2') as [[_ K]|(q & Q1 & Q2 & Q3)]; [auto|].
  right; right. exists p, q. split; [exact P2|]. split; [exact Q2|]. split; [exact (somes_apart _ _ _ _ _ HN HD P1 Q1)|auto].
Qed.
Hypothesis keep_refl : forall r, keep r r.

Lemma drawn_refl : forall lo hi l, drawn lo hi l l.
Proof.
  intros lo hi l. exists (map (fun _ => None) l). split; [induction l; cbn [map]; constructor; auto|].
  induction l as [|x l IH]; [constructor|exact IH].
Qed.

Hypothesis keep_keep : forall r s t, keep r s -> keep s t -> keep r t.
Hypothesis keep_new : forall p r s t, keep r s -> new p s t -> new p r t.
Hypothesis new_keep : forall p r s t, new p r s -> keep s t -> new p r t.
Hypothesis new_new : forall p q r s t, new p r s -> new q s t -> False.

Lemma drawn_trans : forall lo mid hi a b c, (lo <= mid)%N -> (mid <= hi)%N -> drawn lo mid a b -> drawn mid hi b c -> drawn lo hi a c.
Proof.
  intros lo mid hi a b c H1 H2 (os & HA & NA) (os' & HB & NB).
  enough (E : exists os2, draws lo hi a c os2 /\ NoDup (somes os2) /\ forall p, In p (somes os2) -> In p (somes os) \/ In p (somes os')) by (destruct E as (o & E1 & E2 & _); exists o; auto).
  revert c os' HB NB NA. induction HA as [|r r' l l' os HK HA IH|p r r' l l' os HP HK HA IH]; intros c os' HB NB NA.
  - inversion HB; subst. exists []. split; [constructor|]. split; [constructor|]. intros p [].
  - inversion HB as [|? r2 ? l2 os2 HK2 HB2|q ? r2 ? l2 os2 HQ HK2 HB2]; subst.
    + destruct (IH l2 os2 HB2 NB NA) as (o & O1 & O2 & O3). exists (None :: o). split; [constructor; [exact (keep_keep _ _ _ HK HK2)|exact O1]|]. split; [exact O2|exact O3].
    + cbn [somes flat_map app] in NB. inversion NB as [|? ? N1 N2]; subst. destruct (IH l2 os2 HB2 N2 NA) as (o & O1 & O2 & O3).
      exists (Some q :: o). split; [constructor; [lia|exact (keep_new _ _ _ _ HK HK2)|exact O1]|]. cbn [somes flat_map app]. split.
      * constructor; [|exact O2]. intros I. apply O3 in I as [I|I]; [|exact (N1 I)]. apply (draws_range _ _ _ _ _ _ HA) in I. lia.
      * intros p' [<-|I]; [right; left; reflexivity|]. apply O3 in I as [I|I]; [left; exact I|right; right; exact I].
  - inversion HB as [|? r2 ? l2 os2 HK2 HB2|q ? r2 ? l2 os2 HQ HK2 HB2]; subst.
    + cbn [somes flat_map app] in NA. inversion NA as [|? ? N1 N2]; subst. destruct (IH l2 os2 HB2 NB N2) as (o & O1 & O2 & O3).
      exists (Some p :: o). split; [constructor; [lia|exact (new_keep _ _ _ _ HK HK2)|exact O1]|]. cbn [somes flat_map app]. split.
      * constructor; [|exact O2]. intros I. apply O3 in I as [I|I]; [exact (N1 I)|]. apply (draws_range _ _ _ _ _ _ HB2) in I. lia.
      * intros p' [<-|I]; [left; left; reflexivity|]. apply O3 in I as [I|I]; [left; right; exact I|right; exact I].
    + destruct (new_new _ _ _ _ _ HK HK2).
Qed.
End Draws.

(** ** Recipients *)

Section Recipients.
Variable X : crypto.

Definition key_kept (r r' : rcpt) : Prop := r_id r' = r_id r /\ ckey (r_core r') = ckey (r_core r).
Definition key_made (p : N) (r r' : rcpt) : Prop := r_id r' = r_id r /\ ckey (r_core r) = None /\
  exists k crv, ckey (r_core r') = Some k /\ ec2_generate X p crv VNone = Ok k.

Notation rdrawn := (drawn key_kept key_made).

Lemma kept_refl : forall r, key_kept r r. Proof. split; reflexivity. Qed.
Lemma kept_kept : forall r s t, key_kept r s -> key_kept s t -> key_kept r t.
Proof. intros r s t [] []. split; congruence. Qed.
Lemma kept_made : forall p r s t, key_kept r s -> key_made p s t -> key_made p r t.
Proof. intros p r s t [K1 K2] (K3 & K4 & H). split; [congruence|]. split; [congruence|exact H]. Qed.
Lemma made_kept : forall p r s t, key_made p r s -> key_kept s t -> key_made p r t.
Proof. intros p r s t (K1 & K2 & k & crv & H & HG) [K3 K4]. split; [congruence|]. split; [congruence|]. exists k, crv. split; [congruence|exact HG]. Qed.
Lemma made_made : forall p q r s t, key_made p r s -> key_made q s t -> False.
Proof. intros p q r s t (_ & _ & k & crv & H & _) (_ & H' & _). congruence. Qed.

Definition people (l : list rcpt) : list rcpt := flat_map household l.
Definition rpayload (r : rcpt) : option bytes := payload (r_core r).

Definition core_step (n : N) (c c1 : core) : Prop :=
  payload c1 = payload c /\ (ckey c1 = ckey c \/ (ckey c = None /\ exists k crv, ckey c1 = Some k /\ ec2_generate X n crv VNone = Ok k)).

Lemma core_same : forall n c, core_step n c c.
Proof. intros. split; auto. Qed.

Lemma setup_step : forall n c pk c1 x, ckey c = None -> setup_ephemeral X n c pk = (c1, x) -> core_step n c c1.
Proof.
  intros n c pk c1 x HK H. unfold setup_ephemeral in H. destruct (bind (peer pk) _) as [k|] eqn:EG; [|injection H as <- _; apply core_same].
  apply bind_ok in EG as (p & _ & EG). apply bind_ok in EG as (crv & _ & EG).
  assert (HS : core_step n c (with_key c (Some k))) by (split; [reflexivity|]; right; split; [exact HK|]; exists k, crv; auto).
  destruct (get_attr _ _) as [v|]; [|injection H as <- _; exact HS]. destruct (negb _); [injection H as <- _; exact HS|].
  destruct (dmem _ _); injection H as <- _; exact HS.
Qed.

Lemma kakw_step : forall n c c1 x, kakw_encrypt X n c = (c1, x) -> core_step n c c1.
Proof.
  intros n c c1 x H. unfold kakw_encrypt in H. destruct (is_none _); [injection H as <- _; apply core_same|].
  destruct (get_attr c Algorithm) as [a|]; [|injection H as <- _; apply core_same]. destruct (is_none a); [injection H as <- _; apply core_same|].
  destruct (ckey c) as [k|] eqn:EK; [injection H as <- _; apply core_same|].
  destruct (alg_in a es_kw) as [[]|]; [|injection H as <- _; apply core_same|injection H as <- _; apply core_same].
  destruct (setup_ephemeral X n c _) as [c2 y] eqn:ES. injection H as <- _. exact (setup_step _ _ _ _ _ EK ES).
Qed.

Lemma node_drawn : forall n hi id rc c c1 ctx subs subs', core_step n c c1 -> (N.succ n <= hi)%N -> rdrawn (N.succ n) hi (people subs) (people subs') ->
  rdrawn n hi (household (Rcpt id rc c ctx subs)) (household (Rcpt id rc c1 ctx subs')).
Proof.
  intros n hi id rc c c1 ctx subs subs' [_ HC] HH HD. cbn [household].
  refine (drawn_app _ _ n (N.succ n) hi [_] [_] _ _ ltac:(lia) HH _ HD).
  destruct HC as [HC|(HN & k & crv & HC & HG)].
  - exists [None]. split; [|constructor]. constructor; [split; [reflexivity|exact HC]|constructor].
  - exists [Some n]. split; [|repeat constructor; intros []]. constructor; [lia| |constructor]. split; [reflexivity|]. split; [exact HN|]. exists k, crv. auto.
Qed.

Lemma all_drawn : forall k l, list_sum (map height l) < k -> forall n n' l' x, rcpts_encode X n l = ((n', l'), x) ->
  (n <= n')%N /\ rdrawn n n' (people l) (people l') /\ map rpayload l' = map rpayload l.
Proof.
  induction k as [|k IHk]; [lia|]. intros l. induction l as [|r l IHl]; intros HK n n' l' x H.
  - injection H as <- <- _. split; [lia|]. split; [apply drawn_refl, kept_refl|reflexivity].
  - cbn [map list_sum fold_right] in HK. change (fold_right Nat.add 0 (map height l)) with (list_sum (map height l)) in HK.
    assert (HA : forall n n' r1 v, rcpt_encode X n r = ((n', r1), v) -> (n <= n')%N /\ rdrawn n n' (household r) (household r1) /\ rpayload r1 = rpayload r).
    { clear H n n' l' x IHl. intros n n' r1 v H. destruct r as [id rc c ctx subs]. cbn [height] in HK.
      assert (HSame : forall m, (n <= m)%N -> (m, Rcpt id rc c ctx subs) = (n', r1) ->
        (n <= n')%N /\ rdrawn n n' (household (Rcpt id rc c ctx subs)) (household r1) /\ rpayload r1 = rpayload (Rcpt id rc c ctx subs)).
      { intros m HM E. injection E as <- <-. split; [exact HM|]. split; [apply drawn_refl, kept_refl|reflexivity]. }
      assert (HStop : forall c1, core_step n c c1 -> (N.succ n, Rcpt id rc c1 ctx subs) = (n', r1) ->
        (n <= n')%N /\ rdrawn n n' (household (Rcpt id rc c ctx subs)) (household r1) /\ rpayload r1 = rpayload (Rcpt id rc c ctx subs)).
      { intros c1 HC E. injection E as <- <-. split; [lia|]. split; [apply (node_drawn n _ id rc c c1 ctx subs subs HC); [lia|apply drawn_refl, kept_refl]|]. apply HC. }
      assert (HF : forall c1 items, core_step n c c1 -> finish X id rc ctx subs (N.succ n) c1 items = ((n', r1), v) ->
        (n <= n')%N /\ rdrawn n n' (household (Rcpt id rc c ctx subs)) (household r1) /\ rpayload r1 = rpayload (Rcpt id rc c ctx subs)).
      { intros c1 items HC E. unfold finish in E. destruct subs as [|s subs].
        - apply (HStop c1 HC). apply pair_equal_spec in E as [E _]. exact E.
        - destruct (rcpts_encode X (N.succ n) (s :: subs)) as [[n2 s'] y] eqn:ES. destruct (IHk (s :: subs) ltac:(lia) _ _ _ _ ES) as (H1 & H2 & _).
          assert (E' : (n2, Rcpt id rc c1 ctx s') = (n', r1)) by (destruct y; apply pair_equal_spec in E as [E _]; exact E). injection E' as <- <-.
          split; [lia|]. split; [apply node_drawn; auto|]. apply HC. }
      destruct rc.
      - cbn [rcpt_encode] in H. apply pair_equal_spec in H as [H _]. exact (HSame n ltac:(lia) H).
      - rewrite encode_kw in H. destruct (bind (phdr_encoded c) _) as [[p w]|]; [exact (HF c _ (core_same n c) H)|].
        apply pair_equal_spec in H as [H _]. exact (HSame (N.succ n) ltac:(lia) H).
      - cbn [rcpt_encode] in H. destruct (bind (get_attr c Algorithm) _) as [[a pk]|]; [|apply pair_equal_spec in H as [H _]; exact (HSame n ltac:(lia) H)].
        match type of H with (let '(_, _) := ?t in _) = _ => destruct t as [c1 y] eqn:EC end.
        assert (HC : core_step n c c1).
        { destruct (ckey c) as [kk|] eqn:EK; [injection EC as <- _; apply core_same|].
          destruct (alg_in a es_hkdf) as [[]|]; [exact (setup_step _ _ _ _ _ EK EC)|injection EC as <- _; apply core_same|injection EC as <- _; apply core_same]. }
        match type of H with match ?e with Ok _ => _ | Err _ => _ end = _ => destruct e as [p|] end.
        + exact (HF c1 _ HC H).
        + apply pair_equal_spec in H as [H _]. exact (HStop c1 HC H).
      - rewrite encode_kakw in H. destruct (bind (phdr_encoded c) _) as [p|]; [|apply pair_equal_spec in H as [H _]; exact (HSame n ltac:(lia) H)].
        destruct (kakw_encrypt X n c) as [c1 [w|]] eqn:EK; [exact (HF c1 _ (kakw_step _ _ _ _ EK) H)|].
        apply pair_equal_spec in H as [H _]. exact (HStop c1 (kakw_step _ _ _ _ EK) H). }
    cbn [rcpts_encode] in H. destruct (rcpt_encode X n r) as [[n1 r1] [v|]] eqn:E1; destruct (HA _ _ _ _ E1) as (A1 & A2 & A3).
    + destruct (rcpts_encode X n1 l) as [[n2 l2] y] eqn:E2. destruct (IHl ltac:(lia) _ _ _ _ E2) as (B1 & B2 & B3).
      assert (E : (n2, r1 :: l2) = (n', l')) by (destruct y; apply pair_equal_spec in H as [H _]; exact H). injection E as <- <-.
      split; [lia|]. split; [exact (drawn_app _ _ n n1 n2 _ _ _ _ A1 B1 A2 B2)|]. cbn [map]. congruence.
    + apply pair_equal_spec in H as [H _]. injection H as <- <-. split; [exact A1|]. split; [|cbn [map]; congruence].
      refine (drawn_app _ _ n n1 n1 _ _ _ _ A1 (N.le_refl _) A2 _). apply drawn_refl, kept_refl.
Qed.

Lemma encode_drawn : forall l n n' l' x, rcpts_encode X n l = ((n', l'), x) ->
  (n <= n')%N /\ rdrawn n n' (people l) (people l') /\ map rpayload l' = map rpayload l.
Proof. intros l. apply (all_drawn (S (list_sum (map height l)))). lia. Qed.

(** ** The loop that gives the content key to the recipients *)

Lemma encrypt_step : forall n r r1 x, rcpt_encrypt X n r = (r1, x) -> exists c1, r1 = r_with r c1 /\ core_step n (r_core r) c1.
Proof.
  intros n [id rc c ctx subs] r1 x H. cbn [rcpt_encrypt] in H. destruct rc.
  1-3: injection H as <- _; exists c; split; [reflexivity|apply core_same].
  destruct (kakw_encrypt X n c) as [c1 y] eqn:EK. injection H as <- _. exists c1. split; [reflexivity|exact (kakw_step _ _ _ _ EK)].
Qed.

Lemma loop_drawn : forall l n kb n' l' x, cek_loop X n kb l = ((n', l'), x) -> (n <= n')%N /\ rdrawn n n' (people l) (people l').
Proof.
  induction l as [|r l IH]; intros n kb n' l' x H; cbn [cek_loop] in H.
  - injection H as <- <- _. split; [lia|apply drawn_refl, kept_refl].
  - match type of H with (let '(_, _) := ?t in _) = _ => destruct t as [r1 kb1] eqn:E1 end.
    assert (HR : exists c1, r1 = r_with r c1 /\ ckey c1 = ckey (r_core r)).
    { destruct r as [id rc c ctx subs]. cbn [r_core] in E1. destruct (payload c) as [[|y p]|]; injection E1 as <- _; eexists; split; reflexivity. }
    destruct (rcpt_encrypt X n r1) as [r2 y] eqn:ER. apply encrypt_step in ER as (c2 & -> & HC). destruct HR as (c1 & -> & HK).
    assert (HD : rdrawn n (N.succ n) (household r) (household (r_with (r_with r c1) c2))).
    { destruct r as [id rc c ctx subs]. cbn [r_with r_core] in *. refine (drawn_app _ _ n (N.succ n) (N.succ n) [_] [_] _ _ ltac:(lia) ltac:(lia) _ _); [|apply drawn_refl, kept_refl].
      destruct HC as [_ [HC|(HN & k & crv & HC & HG)]].
      - exists [None]. split; [|constructor]. constructor; [split; [reflexivity|cbn [r_core]; congruence]|constructor].
      - exists [Some n]. split; [|repeat constructor; intros []]. constructor; [lia| |constructor]. split; [reflexivity|]. cbn [r_core]. split; [congruence|]. exists k, crv. auto. }
    destruct y as [w|].
    + destruct (cek_loop X (N.succ n) kb1 l) as [[n2 l2] z] eqn:EL. injection H as <- <- _. destruct (IH _ _ _ _ _ EL) as [B1 B2].
      split; [lia|]. exact (drawn_app _ _ n (N.succ n) n2 _ _ _ _ ltac:(lia) B1 HD B2).
    + injection H as <- <- _. split; [lia|]. refine (drawn_app _ _ n (N.succ n) (N.succ n) _ _ _ _ ltac:(lia) ltac:(lia) HD _). apply drawn_refl, kept_refl.
Qed.

Lemma encm_encrypt_drawn : forall n m n' m' x, encm_encrypt X n m = ((n', m'), x) -> (n <= n')%N /\ rdrawn n n' (people (e_rcpts m)) (people (e_rcpts m')).
Proof.
  intros n [c rs] n' m' x H. unfold encm_encrypt in H. cbn [e_core e_rcpts] in *.
  assert (HS : forall c1 : core, (n, EncMsg c1 rs) = (n', m') -> (n <= n')%N /\ rdrawn n n' (people rs) (people (e_rcpts m'))).
  { intros c1 E. injection E as <- <-. split; [lia|apply drawn_refl, kept_refl]. }
  destruct (bind (get_attr c Algorithm) _) as [t|]; [|apply pair_equal_spec in H as [H _]; exact (HS _ H)].
  destruct (has_class RDirect rs); [apply pair_equal_spec in H as [H _]; exact (HS _ H)|].
  destruct (has_class RAgree rs).
  { destruct rs as [|r rs]; [apply pair_equal_spec in H as [H _]; exact (HS _ H)|]. destruct (compute_cek X r t false); apply pair_equal_spec in H as [H _]; exact (HS _ H). }
  destruct (_ || _); [|apply pair_equal_spec in H as [H _]; exact (HS _ H)]. destruct (get_key_length t) as [len|]; [|apply pair_equal_spec in H as [H _]; exact (HS _ H)].
  destruct (cek_loop X (N.succ n) _ rs) as [[n1 rs1] y] eqn:EL. apply loop_drawn in EL as [L1 L2].
  assert (E : n1 = n' /\ rs1 = e_rcpts m').
  { destruct y as [kb|]; [destruct (sym_with kb t _) as [k|]|]; apply pair_equal_spec in H as [H _]; injection H as <- <-; auto. }
  destruct E as [<- <-]. split; [lia|]. apply (drawn_wider _ _ (N.succ n) n1); [lia|lia|exact L2].
Qed.

Lemma encm_encode_drawn : forall n m tag enc n' m' x, encm_encode X n m tag enc = ((n', m'), x) -> (n <= n')%N /\ rdrawn n n' (people (e_rcpts m)) (people (e_rcpts m')).
Proof.
  intros n m tag enc n' m' x H. unfold encm_encode in H.
  destruct (phdr_encoded (e_core m)) as [p|]; [|apply pair_equal_spec in H as [H _]; injection H as <- <-; split; [lia|apply drawn_refl, kept_refl]].
  match type of H with (let '(_, _) := ?t in _) = _ => destruct t as [[n1 m1] body] eqn:EB end.
  assert (HB : (n <= n1)%N /\ rdrawn n n1 (people (e_rcpts m)) (people (e_rcpts m1))).
  { destruct enc; [|injection EB as <- <- _; split; [lia|apply drawn_refl, kept_refl]].
    destruct (encm_encrypt X n m) as [[n2 m2] y] eqn:EE. injection EB as <- <- _. exact (encm_encrypt_drawn _ _ _ _ _ EE). }
  clear EB. destruct HB as [B1 B2]. destruct body as [b|]; [|apply pair_equal_spec in H as [H _]; injection H as <- <-; auto].
  destruct (e_rcpts m1) as [|r rs] eqn:ER; [apply pair_equal_spec in H as [H _]; injection H as <- <-; rewrite ER; auto|].
  destruct (get_attr (e_core m1) Algorithm) as [a|]; [|apply pair_equal_spec in H as [H _]; injection H as <- <-; rewrite ER; auto].
  destruct (rcpts_encode X n1 (r :: rs)) as [[n2 rs'] y] eqn:EE. apply encode_drawn in EE as (A1 & A2 & _).
  assert (E : n2 = n' /\ rs' = e_rcpts m') by (destruct y; apply pair_equal_spec in H as [H _]; injection H as <- <-; auto). destruct E as [<- <-].
  split; [lia|]. exact (drawn_trans _ _ kept_refl kept_kept kept_made made_kept made_made n n1 n2 _ _ _ B1 A1 B2 A2).
Qed.

Lemma everyone_app : forall a b, everyone (a ++ b) = everyone a ++ everyone b.
Proof. intros. apply flat_map_app. Qed.

Lemma history_drawn : forall n w n' w', history X n w n' w' -> (n <= n')%N /\ rdrawn n n' (everyone w) (everyone w').
Proof.
  intros n w n' w' H. induction H as [n w|n w n1 a m b n2 tag enc n3 m' x H [IH1 IH2] HL HE]; [split; [lia|apply drawn_refl, kept_refl]|].
  apply encm_encode_drawn in HE as [E1 E2]. split; [lia|].
  refine (drawn_trans _ _ kept_refl kept_kept kept_made made_kept made_made n n1 n3 _ _ _ IH1 ltac:(lia) IH2 _). rewrite !everyone_app.
  refine (drawn_app _ _ n1 n2 n3 _ _ _ _ HL E1 _ _); [apply drawn_refl, kept_refl|].
  change (everyone (m :: b)) with (people (e_rcpts m) ++ everyone b). change (everyone (m' :: b)) with (people (e_rcpts m') ++ everyone b).
  refine (drawn_app _ _ n2 n3 n3 _ _ _ _ E1 (N.le_refl _) E2 _). apply drawn_refl, kept_refl.
Qed.

Lemma drawn_ids : forall lo hi l l', rdrawn lo hi l l' -> map r_id l' = map r_id l.
Proof. intros lo hi l l' (os & H & _). induction H as [|r r' l l' os [HK _] H IH|p r r' l l' os HP [HK _] H IH]; cbn [map]; congruence. Qed.

(** The private number of a generated key is the generator's. *)
Lemma made_number : forall p r r' crv d, key_made p r r' -> private_number r' crv d -> d = x_ec_gen X crv p.
Proof.
  intros p r r' crv d (_ & _ & k & cv & HK & HG) (k' & b & HK' & HC & HB & <-). rewrite HK in HK'. injection HK' as <-.
  unfold ec2_generate in HG. apply bind_ok in HG as (c & _ & HG). destruct c as [| | | | | | | | | | | | | |c|]; try discriminate.
  destruct (veqb _ _) eqn:EV; [|discriminate]. apply bind_ok in HG as ([px py] & _ & HG). apply veqb_eq in EV.
  apply ec2_import in HG as (P1 & _ & _ & bd & P4 & _ & P5); [|exact EV]. rewrite P1 in HC. injection HC as HC.
  unfold bytes_param in HB. unfold stored_sized in *. rewrite HB in P4. injection P4 as ->. rewrite P5, HC. reflexivity.
Qed.
End Recipients.
