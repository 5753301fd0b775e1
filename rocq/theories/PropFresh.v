(** C129: random keys are never used twice. *)
From Coq Require Import NArith ZArith Bool String Lia.
From Coq Require Import Init.Byte List.
From Verif Require Import Bytes Value Cbor Registry Crypto Keys Algorithms Headers Messages Recipients Toy SpecCrypto SpecAlg SpecTrip SpecKeys SpecMsg SpecRcptTrip SpecFresh.
From Verif Require Import BytesProofs ValueProofs AlgProofs RcptProofs RcptTrip2 RcptTrip6 AgainProofs AgainProofs2 AcceptProofs FreshProofs PropHdr PropMsg PropRcpt PropRcptTrip.
Import ListNotations.
Local Open Scope result_scope.
Local Open Scope list_scope.

(** ** The content key *)

Section Content.
Variable X : crypto.
Hypothesis LU : law_urandom_len X.

Definition filled_up (K : bytes) (i j : nat) : list (option bytes) := repeat (Some K) i ++ repeat (Some []) j.

Lemma encrypt_payload : forall n r r1 x, rcpt_encrypt X n r = (r1, x) -> rpayload r1 = rpayload r.
Proof. intros n r r1 x H. apply encrypt_step in H as (c1 & -> & HC & _). destruct r. exact HC. Qed.

Lemma loop_filled : forall l n K i j n' l' x, K <> [] -> cek_loop X n (VBytes K) l = ((n', l'), x) -> map rpayload l = filled_up K i j ->
  exists i' j', map rpayload l' = filled_up K i' j' /\ (l <> [] -> i' <> 0).
Proof.
  induction l as [|r l IH]; intros n K i j n' l' x HK H HP; cbn [cek_loop] in H.
  - injection H as _ <- _. exists i, j. split; [exact HP|congruence].
  - cbn [map] in HP. match type of H with (let '(_, _) := ?t in _) = _ => destruct t as [r1 kb1] eqn:E1 end.
    assert (HR : rpayload r1 = Some K /\ kb1 = VBytes K /\ exists i1 j1, map rpayload l = filled_up K i1 j1).
    { unfold rpayload in HP at 1. destruct i as [|i]; [destruct j as [|j]; [discriminate HP|]|]; injection HP as HP1 HP2; rewrite HP1 in E1.
      - apply pair_equal_spec in E1 as [<- <-]. split; [destruct r; reflexivity|]. split; [reflexivity|]. exists 0, j. exact HP2.
      - destruct K as [|y K]; [congruence|]. apply pair_equal_spec in E1 as [<- <-]. split; [exact HP1|]. split; [reflexivity|]. exists i, j. exact HP2. }
    destruct HR as (HR & -> & i1 & j1 & HL). destruct (rcpt_encrypt X n r1) as [r2 [w|]] eqn:ER; apply encrypt_payload in ER; rewrite HR in ER.
    + destruct (cek_loop X (N.succ n) (VBytes K) l) as [[n2 l2] y] eqn:EL. injection H as _ <- _.
      destruct (IH _ _ _ _ _ _ _ HK EL HL) as (i2 & j2 & E & _). exists (S i2), j2. split; [|discriminate]. cbn [map]. rewrite ER, E. reflexivity.
    + injection H as _ <- _. exists (S i1), j1. split; [|discriminate]. cbn [map]. rewrite ER, HL. reflexivity.
Qed.

Lemma loop_set : forall l n kb K i j, K <> [] -> map rpayload l = filled_up K (S i) j -> cek_loop X n kb l = cek_loop X n (VBytes K) l.
Proof.
  intros [|r l] n kb K i j HK HP; [discriminate|]. cbn [map] in HP. injection HP as HP _. unfold rpayload in HP. cbn [cek_loop]. rewrite HP.
  destruct K; [congruence|reflexivity].
Qed.

Definition has_key (K : bytes) (m : encmsg) : Prop := K <> [] /\ exists i j, map rpayload (e_rcpts m) = filled_up K (S i) j.
Definition content_kept (m m' : encmsg) : Prop := m' = m \/ (no_content_key m /\ no_content_key m') \/ exists K, has_key K m /\ has_key K m'.
Definition content_made (p : N) (m m' : encmsg) : Prop := no_content_key m /\ exists len, In len [16; 24; 32] /\ has_key (x_urandom X p len) m'.

Lemma has_key_unique : forall K K' m, has_key K m -> has_key K' m -> K = K'.
Proof. intros K K' m (_ & i & j & H) (_ & i' & j' & H'). rewrite H in H'. injection H' as H' _. exact H'. Qed.

Lemma has_key_not_blank : forall K m, has_key K m -> ~ no_content_key m.
Proof.
  intros K m (HK & i & j & H) HB. unfold no_content_key in HB. destruct (e_rcpts m) as [|r l]; [discriminate|]. inversion HB as [|? ? HR]; subst.
  cbn [map] in H. injection H as H _. unfold rpayload in H. congruence.
Qed.

Lemma blank_payloads : forall m, no_content_key m -> exists j, forall K, map rpayload (e_rcpts m) = filled_up K 0 j.
Proof.
  intros m H. exists (length (e_rcpts m)). intros K. unfold no_content_key in H. cbn [filled_up repeat app]. unfold filled_up. cbn [repeat app].
  induction H as [|r l HR H IH]; [reflexivity|]. cbn [map length repeat]. rewrite IH. unfold rpayload. rewrite HR. reflexivity.
Qed.

Lemma same_payloads : forall m m', map rpayload (e_rcpts m') = map rpayload (e_rcpts m) -> (no_content_key m -> no_content_key m') /\ (forall K, has_key K m -> has_key K m').
Proof.
  intros m m' H. split.
  - unfold no_content_key. intros HB. assert (HL : Forall (fun o => o = Some []) (map rpayload (e_rcpts m))) by (apply Forall_map; exact HB).
    rewrite <- H in HL. apply Forall_map in HL. exact HL.
  - intros K (HK & i & j & E). split; [exact HK|]. exists i, j. congruence.
Qed.

Lemma ck_refl : forall m, content_kept m m. Proof. left. reflexivity. Qed.
Lemma ck_trans : forall r s t, content_kept r s -> content_kept s t -> content_kept r t.
Proof.
  intros r s t [->|[[A B]|(K & A & B)]] H; [exact H| |].
  - destruct H as [->|[[C D]|(K & C & _)]]; [right; left; auto|right; left; auto|]. destruct (has_key_not_blank _ _ C B).
  - destruct H as [->|[[C D]|(K' & C & D)]]; [right; right; exists K; auto|destruct (has_key_not_blank _ _ B C)|].
    right; right. exists K. split; [exact A|]. rewrite (has_key_unique _ _ _ B C). exact D.
Qed.
Lemma ck_cm : forall p r s t, content_kept r s -> content_made p s t -> content_made p r t.
Proof.
  intros p r s t [->|[[A B]|(K & A & B)]] (C & H); [split; assumption|split; assumption|]. destruct (has_key_not_blank _ _ B C).
Qed.
Lemma cm_ck : forall p r s t, content_made p r s -> content_kept s t -> content_made p r t.
Proof.
  intros p r s t (A & len & HI & HK) H. split; [exact A|]. exists len. split; [exact HI|]. destruct H as [->|[[C D]|(K & C & D)]]; [exact HK|destruct (has_key_not_blank _ _ HK C)|].
  rewrite (has_key_unique _ _ _ HK C). exact D.
Qed.
Lemma cm_cm : forall p q r s t, content_made p r s -> content_made q s t -> False.
Proof. intros p q r s t (_ & len & _ & HK) (HB & _). exact (has_key_not_blank _ _ HK HB). Qed.

Lemma key_lengths : forall a n, get_key_length a = Ok n -> In n [16; 24; 32].
Proof.
  intros a n H. unfold get_key_length in H. destruct (alg_kind a) as [k|] eqn:EK; [|discriminate].
  apply kind_in in EK as (z & _ & EK). unfold alg_defs in EK. cbn [In] in EK.
  repeat (destruct EK as [EK|EK]; [injection EK as _ <-; first [discriminate H|injection H as <-; cbn [In]; tauto]|]). destruct EK.
Qed.

Lemma encrypt_content : forall n m n' m' x, no_content_key m \/ (exists K, has_key K m) -> encm_encrypt X n m = ((n', m'), x) ->
  content_kept m m' \/ exists p, (n <= p < n')%N /\ content_made p m m'.
Proof.
  intros n [c rs] n' m' x HO H. unfold encm_encrypt in H. cbn [e_core e_rcpts] in H.
  assert (HS : forall c1 : core, (n, EncMsg c1 rs) = (n', m') -> content_kept (EncMsg c rs) m' \/ exists p, (n <= p < n')%N /\ content_made p (EncMsg c rs) m').
  { intros c1 E. injection E as <- <-. left. right. destruct HO as [HO|(K & HO)]; [left; split; exact HO|right; exists K; split; exact HO]. }
  destruct (bind (get_attr c Algorithm) _) as [t|]; [|apply pair_equal_spec in H as [H _]; exact (HS _ H)].
  destruct (has_class RDirect rs); [apply pair_equal_spec in H as [H _]; exact (HS _ H)|].
  destruct (has_class RAgree rs).
  { destruct rs as [|r rs]; [apply pair_equal_spec in H as [H _]; exact (HS _ H)|]. destruct (compute_cek X r t false); apply pair_equal_spec in H as [H _]; exact (HS _ H). }
  destruct (_ || _) eqn:EC; [|apply pair_equal_spec in H as [H _]; exact (HS _ H)]. destruct (get_key_length t) as [len|] eqn:EL; [|apply pair_equal_spec in H as [H _]; exact (HS _ H)].
  assert (HN : rs <> []) by (intros ->; discriminate EC). clear HS EC.
  destruct (cek_loop X (N.succ n) _ rs) as [[n1 rs1] y] eqn:ECL.
  assert (E : n1 = n' /\ rs1 = e_rcpts m').
  { destruct y as [kb|]; [destruct (sym_with kb t _) as [k|]|]; apply pair_equal_spec in H as [H _]; injection H as <- <-; auto. }
  clear H. destruct E as [<- ->]. destruct (loop_drawn X _ _ _ _ _ _ ECL) as [HD _].
  destruct HO as [HO|(K & HO)].
  - right. exists n. split; [lia|]. split; [exact HO|]. exists len. split; [exact (key_lengths _ _ EL)|].
    assert (HK : x_urandom X n len <> []) by (intros E; apply (f_equal (@List.length _)) in E; rewrite LU in E; exact (key_length_pos _ _ EL E)).
    split; [exact HK|]. destruct (blank_payloads _ HO) as (j & HB). cbn [e_rcpts] in HB.
    destruct (loop_filled _ _ _ _ _ _ _ _ HK ECL (HB _)) as (i' & j' & E & HI). destruct i' as [|i']; [destruct (HI HN eq_refl)|]. exists i', j'. exact E.
  - left. right. right. exists K. split; [exact HO|]. destruct HO as (HK & i & j & HP). cbn [e_rcpts] in HP. split; [exact HK|]. rewrite (loop_set _ _ _ _ _ _ HK HP) in ECL.
    destruct (loop_filled _ _ _ _ _ _ _ _ HK ECL HP) as (i' & j' & E & HI). destruct i' as [|i']; [destruct (HI HN eq_refl)|]. exists i', j'. exact E.
Qed.

Lemma encode_content : forall n m tag enc n' m' x, no_content_key m \/ (exists K, has_key K m) -> encm_encode X n m tag enc = ((n', m'), x) ->
  content_kept m m' \/ exists p, (n <= p < n')%N /\ content_made p m m'.
Proof.
  intros n m tag enc n' m' x HO H. unfold encm_encode in H.
  destruct (phdr_encoded (e_core m)) as [p|]; [|apply pair_equal_spec in H as [H _]; injection H as <- <-; left; apply ck_refl].
  match type of H with (let '(_, _) := ?t in _) = _ => destruct t as [[n1 m1] body] eqn:EB end.
  assert (HB : content_kept m m1 \/ exists p, (n <= p < n1)%N /\ content_made p m m1).
  { destruct enc; [|injection EB as <- <- _; left; apply ck_refl].
    destruct (encm_encrypt X n m) as [[n2 m2] y] eqn:EE. injection EB as <- <- _. exact (encrypt_content _ _ _ _ _ HO EE). }
  clear EB. destruct body as [b|]; [|apply pair_equal_spec in H as [H _]; injection H as <- <-; auto].
  destruct (e_rcpts m1) as [|r rs] eqn:ER; [apply pair_equal_spec in H as [H _]; injection H as <- <-; auto|].
  destruct (get_attr (e_core m1) Algorithm) as [a|]; [|apply pair_equal_spec in H as [H _]; injection H as <- <-; auto].
  destruct (rcpts_encode X n1 (r :: rs)) as [[n2 rs'] y] eqn:EE. apply encode_drawn in EE as (A1 & _ & A2).
  assert (E : n2 = n' /\ rs' = e_rcpts m') by (destruct y; apply pair_equal_spec in H as [H _]; injection H as <- <-; auto). destruct E as [<- ->].
  rewrite <- ER in A2. destruct (same_payloads m1 m' A2) as [P1 P2].
  assert (HO1 : no_content_key m1 \/ exists K, has_key K m1).
  { destruct HB as [[->|[[_ B]|(K & _ & B)]]|(q & _ & _ & len & _ & B)]; [exact HO|left; exact B|right; exists K; exact B|right; eexists; exact B]. }
  assert (HC : content_kept m1 m') by (right; destruct HO1 as [O|(K & O)]; [left; auto|right; exists K; auto]).
  destruct HB as [HB|(q & Q1 & Q2)]; [left; exact (ck_trans _ _ _ HB HC)|]. right. exists q. split; [lia|exact (cm_ck _ _ _ _ Q2 HC)].
Qed.

Lemma encrypt_made : forall n m n' m' x, Forall wraps (e_rcpts m) -> no_content_key m -> encm_encrypt X n m = ((n', m'), Ok x) ->
  exists len, In len [16; 24; 32] /\ has_key (x_urandom X n len) m'.
Proof.
  intros n m n' m' x HW HB H. assert (HR : has_class RDirect (e_rcpts m) = false /\ has_class RAgree (e_rcpts m) = false).
  { split; (destruct (has_class _ _) eqn:E; [|reflexivity]); exfalso; unfold has_class in E; apply existsb_exists in E as (r & HI & E);
      rewrite Forall_forall in HW; destruct (HW r HI) as [E'|E']; rewrite E' in E; discriminate E. }
  destruct HR as [R1 R2]. unfold encm_encrypt in H. rewrite R1, R2 in H. destruct (bind (get_attr _ _) _) as [a|]; [|discriminate].
  destruct (_ || _) eqn:EW; [|discriminate]. destruct (get_key_length a) as [len|] eqn:EL; [|discriminate].
  destruct (cek_loop X (N.succ n) _ (e_rcpts m)) as [[n3 rs3] [kb|]] eqn:EC; [|discriminate]. destruct (sym_with kb a _) as [k3|]; [|discriminate].
  apply pair_equal_spec in H as [H _]. injection H as _ <-. exists len. split; [exact (key_lengths _ _ EL)|].
  assert (HK : x_urandom X n len <> []) by (intros E; apply (f_equal (@List.length _)) in E; rewrite LU in E; exact (key_length_pos _ _ EL E)).
  split; [exact HK|]. cbn [e_rcpts]. destruct (blank_payloads _ HB) as (j & HJ).
  destruct (loop_filled _ _ _ _ _ _ _ _ HK EC (HJ _)) as (i' & j' & E & HI). destruct i' as [|i']; [|exists i', j'; exact E].
  destruct HI; [|reflexivity]. intros E0. rewrite E0 in EW. discriminate EW.
Qed.

Lemma encode_made : forall n m t n' m' b, Forall wraps (e_rcpts m) -> no_content_key m -> encm_encode X n m t true = ((n', m'), Ok b) ->
  exists len, In len [16; 24; 32] /\ has_key (x_urandom X n len) m'.
Proof.
  intros n m t n' m' b HW HB H. unfold encm_encode in H. destruct (phdr_encoded (e_core m)) as [p|]; [|discriminate].
  destruct (encm_encrypt X n m) as [[n1 m1] [y|]] eqn:EE; cbn [bind] in H; [|discriminate].
  apply encrypt_made in EE as (len & HL & HK); [|exact HW|exact HB]. exists len. split; [exact HL|].
  destruct (e_rcpts m1) as [|r rs] eqn:ER; [apply pair_equal_spec in H as [H _]; injection H as <- <-; exact HK|].
  destruct (get_attr (e_core m1) Algorithm) as [a|]; [|discriminate].
  destruct (rcpts_encode X n1 (r :: rs)) as [[n2 rs'] [vs|]] eqn:E4; [|discriminate]. apply pair_equal_spec in H as [H _]. injection H as <- <-.
  apply encode_drawn in E4 as (_ & _ & E4). rewrite <- ER in E4. exact (proj2 (same_payloads m1 (EncMsg (e_core m1) rs') E4) _ HK).
Qed.

Lemma content_ok : forall lo hi w w', drawn content_kept content_made lo hi w w' -> Forall no_content_key w -> Forall (fun m => no_content_key m \/ exists K, has_key K m) w'.
Proof.
  intros lo hi w w' (os & H & _) HF. induction H as [|m m' l l' os HK H IH|p m m' l l' os HP HK H IH]; [constructor| |]; inversion HF as [|? ? F1 F2]; subst; (constructor; [|exact (IH F2)]).
  - destruct HK as [->|[[_ B]|(K & _ & B)]]; [left; exact F1|left; exact B|right; exists K; exact B].
  - destruct HK as (_ & len & _ & B). right. eexists. exact B.
Qed.

Lemma history_content : forall n w n' w', Forall no_content_key w -> history X n w n' w' -> (n <= n')%N /\ drawn content_kept content_made n n' w w'.
Proof.
  intros n w n' w' HF H. induction H as [n w|n w n1 a m b n2 tag enc n3 m' x H IH HL HE]; [split; [lia|apply drawn_refl, ck_refl]|].
  destruct (IH HF) as [IH1 IH2]. pose proof (content_ok _ _ _ _ IH2 HF) as HO. apply Forall_app in HO as [_ HO]. inversion HO as [|? ? HOm _]; subst.
  destruct (encm_encode_drawn X _ _ _ _ _ _ _ HE) as [HN _]. split; [lia|].
  refine (drawn_trans _ _ ck_refl ck_trans ck_cm cm_ck cm_cm n n1 n3 _ _ _ IH1 ltac:(lia) IH2 _).
  refine (drawn_app _ _ n1 n2 n3 _ _ _ _ HL HN _ _); [apply drawn_refl, ck_refl|].
  refine (drawn_app _ _ n2 n3 n3 [m] [m'] _ _ HN (N.le_refl _) _ _); [|apply drawn_refl, ck_refl].
  destruct (encode_content _ _ _ _ _ _ _ HOm HE) as [HC|(p & HP & HC)].
  - exists [None]. split; [|constructor]. constructor; [exact HC|constructor].
  - exists [Some p]. split; [|repeat constructor; intros []]. constructor; [exact HP|exact HC|constructor].
Qed.

Lemma was_given_key : forall m K K', has_key K m -> was_given m K' -> K' = K.
Proof.
  intros m K K' (HK & i & j & H) (HK' & r & HI & HR). apply (in_map rpayload) in HI. unfold rpayload at 1 in HI. rewrite HR, H in HI.
  apply in_app_or in HI as [HI|HI]; apply repeat_spec in HI; congruence.
Qed.
Lemma not_given : forall m K, no_content_key m -> ~ was_given m K.
Proof. intros m K HB (HK & r & HI & HR). apply (proj1 (Forall_forall _ _) HB) in HI. congruence. Qed.
End Content.

(** ** C129 *)

(** Over any history of calls, two recipients, of the same message or not, for which the library
    generated keys on the same curve have different keys. (The places in the lists are those of the
    same recipients before and after.) *)
Theorem C129_ephemeral : forall X n w n' w', history X n w n' w' -> new_private_keys X n n' ->
  map r_id (everyone w') = map r_id (everyone w) /\
  forall i j r r' s s' crv d e, i <> j -> nth_error (everyone w) i = Some r -> nth_error (everyone w') i = Some r' ->
    nth_error (everyone w) j = Some s -> nth_error (everyone w') j = Some s' -> ckey (r_core r) = None -> ckey (r_core s) = None ->
    private_number r' crv d -> private_number s' crv e -> d <> e.
Proof.
  intros X n w n' w' H HN. apply history_drawn in H as [_ H]. split; [exact (drawn_ids _ _ _ _ _ H)|].
  intros i j r r' s s' crv d e HD E1 E1' E2 E2' K1 K2 P1 P2.
  destruct (drawn_apart _ _ _ _ _ _ _ _ _ _ _ _ H HD E1 E1' E2 E2') as [[_ K]|[[_ K]|(p & q & HP & HQ & HPQ & M1 & M2)]].
  - destruct P1 as (k & b & P1 & _). congruence.
  - destruct P2 as (k & b & P2 & _). congruence.
  - rewrite (made_number _ _ _ _ _ _ M1 P1), (made_number _ _ _ _ _ _ M2 P2). exact (HN crv p q HP HQ HPQ).
Qed.
Print Assumptions C129_ephemeral.

(** Messages for which the user chose no content key: each has one content key for all its
    recipients, whatever calls fail in between, and no two messages have the same. *)
Theorem C129_content : forall X n w n' w', law_urandom_len X -> Forall no_content_key w -> history X n w n' w' -> new_key_bytes X n n' ->
  forall i j m m' K K', nth_error w' i = Some m -> nth_error w' j = Some m' -> was_given m K -> was_given m' K' -> (K = K' <-> i = j).
Proof.
  intros X n w n' w' LU HF H HN i j m m' K K' E E' G G'. destruct (history_content X LU _ _ _ _ HF H) as [_ HD]. clear H.
  assert (HL : length w' = length w) by (clear - HD; destruct HD as (os & H & _); induction H; cbn [length]; congruence).
  destruct (nth_error w i) as [m0|] eqn:E0; [|apply nth_error_None in E0; apply (f_equal (fun o => match o with Some _ => true | None => false end)) in E;
    assert (HI : i < length w') by (apply nth_error_Some; destruct (nth_error w' i); congruence); lia].
  destruct (nth_error w j) as [m0'|] eqn:E0'; [|apply nth_error_None in E0'; apply (f_equal (fun o => match o with Some _ => true | None => false end)) in E';
    assert (HI : j < length w') by (apply nth_error_Some; destruct (nth_error w' j); congruence); lia].
  pose proof (content_ok X _ _ _ _ HD HF) as HO. rewrite Forall_forall in HO.
  destruct (HO m (nth_error_In _ _ E)) as [B|(K1 & B)]; [destruct (not_given _ _ B G)|]. destruct (HO m' (nth_error_In _ _ E')) as [B'|(K1' & B')]; [destruct (not_given _ _ B' G')|].
  rewrite (was_given_key _ _ _ B G), (was_given_key _ _ _ B' G'). split.
  - intros EK. destruct (Nat.eq_dec i j) as [HE|HE]; [exact HE|exfalso].
    assert (NB : no_content_key m0 /\ no_content_key m0') by (rewrite Forall_forall in HF; split; apply HF; eapply nth_error_In; eassumption). destruct NB as [NB NB'].
    assert (HK : forall m0 m K, no_content_key m0 -> has_key K m -> content_kept m0 m -> False).
    { intros x y L N1 N2 [->|[[_ A]|(L' & A & _)]]; [exact (has_key_not_blank _ _ N2 N1)|exact (has_key_not_blank _ _ N2 A)|exact (has_key_not_blank _ _ A N1)]. }
    destruct (drawn_apart _ _ _ _ _ _ _ _ _ _ _ _ HD HE E0 E E0' E') as [K2|[K2|(p & q & HP & HQ & HPQ & (_ & len & I1 & M1) & (_ & len' & I2 & M2))]];
      [exact (HK _ _ _ NB B K2)|exact (HK _ _ _ NB' B' K2)|].
    rewrite (has_key_unique _ _ _ B M1), (has_key_unique _ _ _ B' M2) in EK. exact (HN p q len len' I1 I2 HP HQ HPQ EK).
  - intros ->. rewrite E in E'. injection E' as <-. exact (has_key_unique _ _ _ B B').
Qed.
Print Assumptions C129_content.

(** The key given to the recipients is the one the payload is encrypted with, and comes from the
    random source. *)
Theorem C129_used : forall X n m t n1 m1 b, law_urandom_len X -> Forall wraps (e_rcpts m) -> no_content_key m ->
  encm_encode X n m t true = ((n1, m1), Ok b) ->
  exists K k len, ckey (e_core m1) = Some k /\ secret k K /\ was_given m1 K /\ Forall (fun r => payload (r_core r) = Some K) (e_rcpts m1) /\
    In len [16; 24; 32] /\ K = x_urandom X n len.
Proof.
  intros X n m t n1 m1 b LU HW HB H. destruct (same_content_key X n m t n1 m1 b m1 LU HW H (AE_none _ _)) as (K & k & _ & HK & HS & _ & _ & _ & HA).
  assert (HO : one_content_key (e_rcpts m)) by (left; apply Forall_forall; exact HB). specialize (HA HO).
  destruct (encode_made X LU _ _ _ _ _ _ HW HB H) as (len & HI & HL & i & j & HP). exists K, k, len.
  assert (E : exists r, In r (e_rcpts m1) /\ payload (r_core r) = Some (x_urandom X n len)).
  { destruct (e_rcpts m1) as [|r l]; [discriminate HP|]. exists r. split; [left; reflexivity|]. cbn [map] in HP. injection HP as HP _. exact HP. }
  destruct E as (r & HR & HE). assert (HKK : K = x_urandom X n len) by (rewrite Forall_forall in HA; specialize (HA r HR); congruence). subst K.
  split; [exact HK|]. split; [exact HS|]. split; [split; [exact HL|exists r; auto]|]. split; [exact HA|]. split; [exact HI|reflexivity].
Qed.
Print Assumptions C129_used.

(** ** Examples *)

(** The toy source does not repeat itself. *)
Lemma toy_new_keys : new_private_keys toy 0 1000.
Proof. intros crv i j HI HJ HD. cbn [x_ec_gen toy]. rewrite !N.mod_small by lia. lia. Qed.
Lemma toy_new_bytes : new_key_bytes toy 0 50.
Proof.
  assert (H : forallb (fun i => forallb (fun j => forallb (fun len => forallb (fun len' => N.eqb i j || negb (bytes_eqb (x_urandom toy i len) (x_urandom toy j len'))) [16; 24; 32]) [16; 24; 32])
    (map N.of_nat (seq 0 50))) (map N.of_nat (seq 0 50)) = true) by (vm_compute; reflexivity).
  intros i j len len' HL HL' HI HJ HD HE. rewrite forallb_forall in H. assert (HS : forall x, (0 <= x < 50)%N -> In x (map N.of_nat (seq 0 50))).
  { intros x HX. apply in_map_iff. exists (N.to_nat x). split; [lia|]. apply in_seq. lia. }
  specialize (H i (HS i HI)). cbv beta in H. rewrite forallb_forall in H. specialize (H j (HS j HJ)). cbv beta in H. rewrite forallb_forall in H. specialize (H len HL). cbv beta in H.
  rewrite forallb_forall in H. specialize (H len' HL'). cbv beta in H. rewrite HE in H. apply orb_true_iff in H as [H|H]; [apply N.eqb_eq in H; congruence|].
  apply negb_true_iff in H. assert (E : bytes_eqb (x_urandom toy j len') (x_urandom toy j len') = true) by (apply bytes_eqb_eq; reflexivity). congruence.
Qed.

(** Two messages, the first with two recipients without keys of their own, encoded in turn, with a
    call that fails in between, and the first one again. *)
Definition ex_world : list encmsg := [ex_enc [ex_kw 0 (Some ex_sym) []; ex_agree 1; ex_agree 2]; ex_enc [ex_kw 3 None []]; ex_enc [ex_agree 4]].
Fixpoint ex_run (is_ : list nat) (n : N) (w : list encmsg) : N * list encmsg :=
  match is_ with
  | [] => (n, w)
  | i :: is_ =>
    match nth_error w i with
    | Some m => let '((n', m'), _) := encm_encode toy n m true true in ex_run is_ n' (firstn i w ++ m' :: skipn (S i) w)
    | None => (n, w)
    end
  end.
Lemma ex_run_history : forall is_ n w n0 w0, history toy n0 w0 n w -> history toy n0 w0 (fst (ex_run is_ n w)) (snd (ex_run is_ n w)).
Proof.
  induction is_ as [|i is_ IH]; intros n w n0 w0 H; cbn [ex_run]; [exact H|]. destruct (nth_error w i) as [m|] eqn:E; [|exact H].
  destruct (encm_encode toy n m true true) as [[n' m'] x] eqn:EE. apply IH. apply (H_call toy n0 w0 n (firstn i w) m (skipn (S i) w) n true true n' m' x); [|apply N.le_refl|exact EE].
  replace (firstn i w ++ m :: skipn (S i) w) with w; [exact H|]. clear - E. revert i E. induction w as [|y w IHw]; intros [|i] E; try discriminate E; cbn [nth_error] in E.
  - injection E as ->. reflexivity.
  - cbn [firstn app]. change (skipn (S (S i)) (y :: w)) with (skipn (S i) w). rewrite <- (IHw i E). reflexivity.
Qed.
Example C129_example : exists n' w', Forall no_content_key ex_world /\ history toy 0 ex_world n' w' /\ (n' <= 50)%N /\
  (exists m m' K K', nth_error w' 0 = Some m /\ nth_error w' 2 = Some m' /\ was_given m K /\ was_given m' K' /\ bytes_eqb K K' = false) /\
  (exists r r' r'' d d' d'', nth_error (everyone w') 1 = Some r /\ nth_error (everyone w') 2 = Some r' /\ nth_error (everyone w') 4 = Some r'' /\
     private_number r 1 d /\ private_number r' 1 d' /\ private_number r'' 1 d'' /\ N.eqb d d' = false /\ N.eqb d d'' = false) /\
  exists e, snd (encm_encode toy 0 (nth 1 ex_world (ex_enc [])) true true) = Err e.
Proof.
  pose (s := ex_run [0; 1; 2; 0] 0%N ex_world). exists (fst s), (snd s).
  split; [repeat (constructor; [repeat constructor|]); constructor|]. split; [apply ex_run_history, H_start|]. split; [vm_compute; discriminate|].
  split; [|split].
  - do 4 eexists. split; [vm_compute; reflexivity|]. split; [vm_compute; reflexivity|].
    split; [split; [|eexists; split; [left; reflexivity|reflexivity]]; discriminate|].
    split; [split; [|eexists; split; [left; reflexivity|reflexivity]]; discriminate|]. vm_compute. reflexivity.
  - do 6 eexists. split; [vm_compute; reflexivity|]. split; [vm_compute; reflexivity|]. split; [vm_compute; reflexivity|].
    do 3 (split; [eexists; eexists; split; [reflexivity|]; split; [reflexivity|]; split; reflexivity|]). split; vm_compute; reflexivity.
  - eexists. vm_compute. reflexivity.
Qed.
