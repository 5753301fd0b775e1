(** Lemmas about the life of message objects (C77-C79). *)
From Coq Require Import NArith ZArith Bool String Lia.
From Coq Require Import Init.Byte List.
From Verif Require Import Bytes BytesProofs Value ValueProofs Cbor CborProofs Registry Crypto Keys SpecKeys KeyProofs Algorithms Headers Messages Recipients
  SpecData SpecTrip DataProofs KeyTrip3 RcptProofs WireProofs HdrProofs HdrProofs2 SpecMsg MsgTrip MsgTrip2 SpecRcptTrip SpecLife.
Import ListNotations.
Local Open Scope result_scope.

(** ** Decrypting *)

Section Life.
Variable X : crypto.

Lemma decrypt_keeps : forall m r m' x, encm_decrypt X m r = (m', x) ->
  e_rcpts m' = e_rcpts m /\ exists k, e_core m' = with_key (e_core m) k /\ (has_class RDirect (e_rcpts m) = true -> m' = m).
Proof.
  intros m r m' x H. assert (HS : forall y, (m, y) = (m', x) -> e_rcpts m' = e_rcpts m /\
    exists k, e_core m' = with_key (e_core m) k /\ (has_class RDirect (e_rcpts m) = true -> m' = m)).
  { intros y E. injection E as <- _. split; [reflexivity|]. exists (ckey (e_core m)). split; [apply with_own_key|reflexivity]. }
  unfold encm_decrypt in H. destruct (get_attr (e_core m) Algorithm) as [target|e]; [|exact (HS _ H)].
  destruct (negb _); [exact (HS _ H)|]. destruct (verify_recipients (e_rcpts m)) as [[]|e]; [|exact (HS _ H)].
  destruct (has_class RDirect (e_rcpts m)) eqn:ED; [exact (HS _ H)|]. destruct (_ || _); [|exact (HS _ H)].
  destruct (compute_cek X r target true) as [k|e]; [|exact (HS _ H)]. injection H as <- _. cbn [e_rcpts e_core].
  split; [reflexivity|]. exists k. split; [reflexivity|discriminate].
Qed.

Lemma decrypt_key_irrelevant : forall m r k, has_class RDirect (e_rcpts m) = false ->
  snd (encm_decrypt X (EncMsg (with_key (e_core m) k) (e_rcpts m)) r) = snd (encm_decrypt X m r).
Proof.
  intros m r k HD. unfold encm_decrypt. cbn [e_core e_rcpts].
  change (get_attr (with_key (e_core m) k) Algorithm) with (get_attr (e_core m) Algorithm).
  destruct (get_attr (e_core m) Algorithm) as [target|e]; [|reflexivity]. destruct (negb _); [reflexivity|].
  destruct (verify_recipients (e_rcpts m)); [|reflexivity]. rewrite HD. destruct (_ || _); [|reflexivity].
  destruct (compute_cek X r target true); reflexivity.
Qed.

Lemma after_decrypts_state : forall m m', after_decrypts X m m' ->
  e_rcpts m' = e_rcpts m /\ exists k, e_core m' = with_key (e_core m) k /\ (has_class RDirect (e_rcpts m) = true -> m' = m).
Proof.
  intros m m' H. induction H as [|m1 m2 r x H IH HD].
  - split; [reflexivity|]. exists (ckey (e_core m)). split; [apply with_own_key|reflexivity].
  - destruct IH as (HR & k & HC & HM). apply decrypt_keeps in HD as (HR2 & k2 & HC2 & HM2). split; [congruence|].
    exists k2. split; [rewrite HC2, HC; reflexivity|]. intros E. rewrite HM2 by congruence. auto.
Qed.

Lemma decrypt_repeatable : forall m m' r, after_decrypts X m m' ->
  snd (encm_decrypt X m' r) = snd (encm_decrypt X m r).
Proof.
  intros m m' r H. apply after_decrypts_state in H as (HR & k & HC & HM).
  destruct (has_class RDirect (e_rcpts m)) eqn:ED; [rewrite HM by reflexivity; reflexivity|].
  destruct m' as [c' rs']. cbn [e_rcpts e_core] in *. subst. apply decrypt_key_irrelevant. exact ED.
Qed.

(** ** Encoding *)

Lemma fields_kept_refl : forall c, fields_kept c c.
Proof. intros c. unfold fields_kept. do 5 (split; [reflexivity|]). split; left; [|split]; reflexivity. Qed.

Lemma fields_kept_trans : forall a b c, fields_kept a b -> fields_kept b c -> fields_kept a c.
Proof.
  intros a b c (A1 & A2 & A3 & A4 & A5 & A6 & A7) (B1 & B2 & B3 & B4 & B5 & B6 & B7).
  unfold fields_kept. do 5 (split; [congruence|]). split.
  - destruct A6 as [A6|A6]; [|right; exact A6]. rewrite <- A6. destruct B6 as [B6|B6]; [left; congruence|right; exact B6].
  - destruct A7 as [[A7 A8]|(A7 & k & A8 & A9)].
    + rewrite <- A7, <- A8. exact B7.
    + destruct B7 as [[B7 B8]|(B7 & k' & B8 & B9)]; [|congruence]. right. split; [exact A7|]. exists k.
      split; [congruence|]. rewrite B8. exact A9.
Qed.

Lemma rcpt_kept_refl : forall r, rcpt_kept r r.
Proof.
  assert (H : forall n r, (rsize r < n)%nat -> rcpt_kept r r).
  { induction n as [|n IH]; [lia|]. intros [id rc c ctx subs] H. constructor; [apply fields_kept_refl|].
    cbn [rsize] in H. assert (HL : (list_sum (map rsize subs) < n)%nat) by lia. clear H.
    induction subs as [|s subs IHs]; constructor.
    - apply IH. cbn in HL. lia.
    - apply IHs. cbn in HL. change (fold_right Nat.add 0 (map rsize subs)) with (list_sum (map rsize subs)) in HL. lia. }
  intros r. apply (H (S (rsize r))). lia.
Qed.
Lemma rcpts_kept_refl : forall l, Forall2 rcpt_kept l l.
Proof. induction l; constructor; [apply rcpt_kept_refl|assumption]. Qed.

Lemma rcpt_kept_trans : forall a b c, rcpt_kept a b -> rcpt_kept b c -> rcpt_kept a c.
Proof.
  assert (H : forall n a b c, (rsize a < n)%nat -> rcpt_kept a b -> rcpt_kept b c -> rcpt_kept a c).
  { induction n as [|n IH]; [lia|]. intros a b c HS H1 H2.
    inversion H1 as [id rc x x' ctx s s' F1 S1]; subst. inversion H2 as [id2 rc2 y y' ctx2 t t' F2 S2]; subst.
    constructor; [eapply fields_kept_trans; eassumption|]. cbn [rsize] in HS.
    assert (HL : (list_sum (map rsize s) < n)%nat) by lia. clear H1 H2 HS F1 F2. revert t' S2.
    induction S1 as [|p q s s' HPQ S1 IHs]; intros t' S2; inversion S2; subst; constructor.
    - eapply IH; [|eassumption|eassumption]. cbn in HL. lia.
    - apply IHs; [|assumption]. cbn in HL. change (fold_right Nat.add 0 (map rsize s)) with (list_sum (map rsize s)) in HL. lia. }
  intros a b c. apply (H (S (rsize a))). lia.
Qed.
Lemma rcpts_kept_trans : forall a b c, Forall2 rcpt_kept a b -> Forall2 rcpt_kept b c -> Forall2 rcpt_kept a c.
Proof.
  intros a b c H. revert c. induction H; intros c H2; inversion H2; subst; constructor; [eapply rcpt_kept_trans; eassumption|auto].
Qed.

Lemma setup_keeps : forall n c pk c' x, setup_ephemeral X n c pk = (c', x) -> ckey c = None -> fields_kept c c'.
Proof.
  intros n c pk c' x H HK. unfold setup_ephemeral in H.
  destruct (bind (peer pk) _) as [k|e] eqn:EG; [|injection H as <- _; apply fields_kept_refl].
  assert (H1 : fields_kept c (with_key c (Some k))).
  { unfold fields_kept. cbn [phdr phdr_raw local tstr aad payload with_key ckey uhdr]. do 5 (split; [reflexivity|]).
    split; [left; reflexivity|]. right. split; [exact HK|]. exists k. auto. }
  destruct (get_attr (with_key c (Some k)) EphemeralKey) as [v|e]; [|injection H as <- _; exact H1].
  destruct (negb (is_none v)); [injection H as <- _; exact H1|]. destruct (dmem _ _); [|injection H as <- _; exact H1].
  injection H as <- _. unfold fields_kept. cbn [phdr phdr_raw local tstr aad payload with_key with_uhdr ckey uhdr].
  do 5 (split; [reflexivity|]). split; [left; reflexivity|]. right. split; [exact HK|]. exists k. split; [reflexivity|]. right.
  apply bind_ok in EG as (p & _ & EG). apply bind_ok in EG as (crv & _ & EG).
  apply generated in EG as (_ & _ & _ & _ & _ & _ & (_ & HD & _) & _). unfold public_params.
  rewrite ddel_filter; [reflexivity|]. rewrite <- distinct_keys_dnodup. exact HD.
Qed.

Lemma kakw_keeps : forall n c c' x, kakw_encrypt X n c = (c', x) -> fields_kept c c'.
Proof.
  intros n c c' x H. unfold kakw_encrypt in H. destruct (is_none _); [injection H as <- _; apply fields_kept_refl|].
  destruct (get_attr c Algorithm) as [a|e]; [|injection H as <- _; apply fields_kept_refl].
  destruct (is_none a); [injection H as <- _; apply fields_kept_refl|]. destruct (ckey c) as [k|] eqn:EK.
  - injection H as <- _. apply fields_kept_refl.
  - destruct (alg_in a es_kw) as [[]|e]; try (injection H as <- _; apply fields_kept_refl).
    destruct (setup_ephemeral X n c _) as [c1 r] eqn:ES. injection H as <- _. eapply setup_keeps; eassumption.
Qed.

Lemma finish_keeps : forall (P : rcpt -> rcpt -> Prop) id rc ctx subs n c items n' r' x,
  (forall n n' l' x, rcpts_encode X n subs = ((n', l'), x) -> Forall2 rcpt_kept subs l') ->
  finish X id rc ctx subs n c items = ((n', r'), x) -> exists subs', r' = Rcpt id rc c ctx subs' /\ Forall2 rcpt_kept subs subs'.
Proof.
  intros P id rc ctx subs n c items n' r' x HS H. unfold finish in H. destruct subs as [|s subs].
  - injection H as <- <- _. exists []. split; [reflexivity|constructor].
  - destruct (rcpts_encode X n (s :: subs)) as [[n1 s'] y] eqn:E. apply HS in E. exists s'.
    destruct y; injection H as <- <- _; split; (reflexivity || exact E).
Qed.

Lemma encode_keeps : forall k l, (list_sum (map rsize l) < k)%nat ->
  forall n n' l' x, rcpts_encode X n l = ((n', l'), x) -> Forall2 rcpt_kept l l'.
Proof.
  induction k as [|k IHk]; [lia|]. intros l. induction l as [|r l IHl]; intros HK n n' l' x H.
  - injection H as <- <- <-. constructor.
  - cbn [map list_sum fold_right] in HK. change (fold_right Nat.add 0 (map rsize l)) with (list_sum (map rsize l)) in HK.
    assert (HS : rsize r = S (list_sum (map rsize (r_subs r)))) by (destruct r; reflexivity).
    assert (HR : forall n n' r' x, rcpt_encode X n r = ((n', r'), x) -> rcpt_kept r r').
    { clear H n n' l' x IHl. intros n n' r' x H. destruct r as [id rc c ctx subs]. cbn [r_subs] in HS.
      assert (HSub : forall n n' l' x, rcpts_encode X n subs = ((n', l'), x) -> Forall2 rcpt_kept subs l') by (apply IHk; lia).
      assert (Same : forall c1, fields_kept c c1 -> rcpt_kept (Rcpt id rc c ctx subs) (Rcpt id rc c1 ctx subs)).
      { intros c1 HC. constructor; [exact HC|]. apply rcpts_kept_refl. }
      assert (Fin : forall n c1 items n' r' x, fields_kept c c1 -> finish X id rc ctx subs n c1 items = ((n', r'), x) -> rcpt_kept (Rcpt id rc c ctx subs) r').
      { intros n0 c1 items n1 r1 x1 HC HF. apply (finish_keeps (fun _ _ => True)) in HF as (s' & -> & HF); [|exact HSub]. constructor; assumption. }
      destruct rc.
      - cbn [rcpt_encode] in H. injection H as _ <- _. apply rcpt_kept_refl.
      - rewrite encode_kw in H. destruct (bind (phdr_encoded c) _) as [[p w]|e]; [|injection H as _ <- _; apply rcpt_kept_refl].
        eapply Fin; [apply fields_kept_refl|exact H].
      - cbn [rcpt_encode] in H.
        destruct (bind (get_attr c Algorithm) _) as [[a pk]|e]; [|injection H as _ <- _; apply rcpt_kept_refl].
        match type of H with (let '(c1, res) := ?st in _) = _ => destruct st as [c1 res] eqn:ES end.
        assert (HC : fields_kept c c1).
        { destruct (ckey c) eqn:EK; [injection ES as <- _; apply fields_kept_refl|].
          destruct (alg_in a es_hkdf) as [[]|]; try (injection ES as <- _; apply fields_kept_refl). eapply setup_keeps; eassumption. }
        destruct (bind res _) as [p|e]; [|injection H as _ <- _; apply Same; exact HC].
        eapply Fin; [exact HC|exact H].
      - rewrite encode_kakw in H. destruct (bind (phdr_encoded c) _) as [p|e]; [|injection H as _ <- _; apply rcpt_kept_refl].
        destruct (kakw_encrypt X n c) as [c1 [w|e]] eqn:EK; apply kakw_keeps in EK.
        + eapply Fin; [exact EK|exact H].
        + injection H as _ <- _. apply Same. exact EK. }
    cbn [rcpts_encode] in H. destruct (rcpt_encode X n r) as [[n1 r'] [v|e]] eqn:ER; apply HR in ER.
    + destruct (rcpts_encode X n1 l) as [[n2 l2] y] eqn:EL. apply IHl in EL; [|lia].
      destruct y; injection H as <- <- _; constructor; assumption.
    + injection H as <- <- _. constructor; [exact ER|apply rcpts_kept_refl].
Qed.
Lemma rcpts_encode_keeps : forall l n n' l' x, rcpts_encode X n l = ((n', l'), x) -> Forall2 rcpt_kept l l'.
Proof. intros l. apply (encode_keeps (S (list_sum (map rsize l)))). lia. Qed.

Lemma cek_loop_keeps : forall l n kb n' l' x, cek_loop X n kb l = ((n', l'), x) -> Forall2 rcpt_kept l l'.
Proof.
  induction l as [|r l IH]; intros n kb n' l' x H; cbn [cek_loop] in H.
  - injection H as <- <- _. constructor.
  - match type of H with (let '(r1, kb1) := ?st in _) = _ => destruct st as [r1 kb1] eqn:ES end.
    assert (H1 : rcpt_kept r r1).
    { destruct r as [id rc c ctx subs]. cbn [r_core] in ES. destruct (payload c) as [[|b p]|] eqn:EP; injection ES as <- _; try apply rcpt_kept_refl.
      cbn [r_with]. constructor; [|apply rcpts_kept_refl]. unfold fields_kept. cbn [phdr phdr_raw local tstr aad payload with_payload ckey uhdr].
      do 5 (split; [reflexivity|]). split; [right; exact EP|]. left. auto. }
    destruct (rcpt_encrypt X n r1) as [r2 y] eqn:ER.
    assert (H2 : rcpt_kept r1 r2).
    { destruct r1 as [id rc c ctx subs]. cbn [rcpt_encrypt] in ER. destruct rc; try (injection ER as <- _; apply rcpt_kept_refl).
      destruct (kakw_encrypt X n c) as [c' z] eqn:EK. apply kakw_keeps in EK. injection ER as <- _. cbn [r_with].
      constructor; [exact EK|apply rcpts_kept_refl]. }
    pose proof (rcpt_kept_trans _ _ _ H1 H2) as H3. destruct y as [w|e].
    + destruct (cek_loop X (N.succ n) kb1 l) as [[n2 l2] z] eqn:EL. apply IH in EL. injection H as <- <- _. constructor; assumption.
    + injection H as <- <- _. constructor; [exact H3|apply rcpts_kept_refl].
Qed.

Lemma core_kept_key : forall c k, core_kept c (with_key c k).
Proof. intros c k. unfold core_kept. do 6 (split; [reflexivity|]). reflexivity. Qed.
Lemma core_kept_refl : forall c, core_kept c c.
Proof. intros c. unfold core_kept. do 6 (split; [reflexivity|]). reflexivity. Qed.
Lemma core_kept_trans : forall a b c, core_kept a b -> core_kept b c -> core_kept a c.
Proof. intros a b c H1 H2. unfold core_kept in *. intuition congruence. Qed.

Definition enc_kept (m m' : encmsg) : Prop := core_kept (e_core m) (e_core m') /\ Forall2 rcpt_kept (e_rcpts m) (e_rcpts m').
Lemma enc_kept_refl : forall m, enc_kept m m.
Proof. intros m. split; [apply core_kept_refl|apply rcpts_kept_refl]. Qed.
Lemma enc_kept_trans : forall a b c, enc_kept a b -> enc_kept b c -> enc_kept a c.
Proof. intros a b c [] []. split; [eapply core_kept_trans|eapply rcpts_kept_trans]; eassumption. Qed.

Lemma encrypt_keeps : forall n m n' m' x, encm_encrypt X n m = ((n', m'), x) -> enc_kept m m'.
Proof.
  intros n m n' m' x H. unfold encm_encrypt in H.
  destruct (bind (get_attr _ _) _) as [target|e]; [|injection H as <- <- _; apply enc_kept_refl].
  destruct (has_class RDirect _); [injection H as <- <- _; apply enc_kept_refl|]. destruct (has_class RAgree _).
  { destruct (e_rcpts m) as [|r rs] eqn:ER; [injection H as <- <- _; apply enc_kept_refl|].
    destruct (compute_cek X r target false) as [k|e]; injection H as <- <- _; [|apply enc_kept_refl].
    split; cbn [e_core e_rcpts]; [apply core_kept_key|]. rewrite ER. apply rcpts_kept_refl. }
  destruct (_ || _); [|injection H as <- <- _; apply enc_kept_refl].
  destruct (get_key_length target) as [len|e]; [|injection H as <- <- _; apply enc_kept_refl].
  destruct (cek_loop X _ _ _) as [[n1 rs'] [kb|e]] eqn:EL; apply cek_loop_keeps in EL.
  - destruct (sym_with kb target [EncryptOp]) as [k|e]; injection H as <- <- _; (split; cbn [e_core e_rcpts]; [|exact EL]);
      [apply core_kept_key|apply core_kept_refl].
  - injection H as <- <- _. split; cbn [e_core e_rcpts]; [apply core_kept_refl|exact EL].
Qed.

Lemma enc_encode_keeps : forall n m tag enc n' m' x, encm_encode X n m tag enc = ((n', m'), x) -> enc_kept m m'.
Proof.
  intros n m tag enc n' m' x H. unfold encm_encode in H. destruct (phdr_encoded (e_core m)) as [p|e]; [|injection H as <- <- _; apply enc_kept_refl].
  set (step := if enc then _ else _) in H. destruct step as [[n1 m1] body] eqn:ES.
  assert (H1 : enc_kept m m1).
  { subst step. destruct enc.
    - destruct (encm_encrypt X n m) as [[n2 m2] y] eqn:EE. apply encrypt_keeps in EE. injection ES as <- <- _. exact EE.
    - injection ES as <- <- _. apply enc_kept_refl. }
  clear ES step. destruct body as [bv|e]; [|injection H as <- <- _; exact H1].
  destruct (e_rcpts m1) as [|r rs] eqn:ER; [injection H as <- <- _; exact H1|].
  destruct (get_attr (e_core m1) Algorithm) as [a|e]; [|injection H as <- <- _; exact H1].
  destruct (rcpts_encode X n1 (r :: rs)) as [[n3 rs'] y] eqn:EE. apply rcpts_encode_keeps in EE.
  apply (enc_kept_trans _ _ _ H1). rewrite <- ER in EE.
  destruct y; injection H as <- <- _; (split; cbn [e_core e_rcpts]; [apply core_kept_refl|exact EE]).
Qed.

Lemma after_encodes_keeps : forall m m', after_encodes X m m' -> enc_kept m m'.
Proof.
  intros m m' H. induction H as [|m1 n t enc s x H IH HE]; [apply enc_kept_refl|].
  destruct s as [n' m2]. apply enc_encode_keeps in HE. exact (enc_kept_trans _ _ _ IH HE).
Qed.

(** *** COSE_Mac *)

Definition mac_kept (m m' : macmsg) : Prop := core_kept (mm_core m) (mm_core m') /\
  match mm_rcpts m, mm_rcpts m' with Some l, Some l' => Forall2 rcpt_kept l l' | None, None => True | _, _ => False end.
Lemma mac_kept_refl : forall m, mac_kept m m.
Proof. intros m. split; [apply core_kept_refl|]. destruct (mm_rcpts m); [apply rcpts_kept_refl|exact I]. Qed.
Lemma mac_kept_trans : forall a b c, mac_kept a b -> mac_kept b c -> mac_kept a c.
Proof.
  intros a b c [A1 A2] [B1 B2]. split; [eapply core_kept_trans; eassumption|].
  destruct (mm_rcpts a), (mm_rcpts b), (mm_rcpts c); try contradiction; [eapply rcpts_kept_trans; eassumption|exact I].
Qed.

Lemma super_keeps : forall n m n' m' x, mac_super_compute X n m = ((n', m'), x) -> mac_kept m m'.
Proof.
  intros n m n' m' x H. unfold mac_super_compute in H. destruct (mac_compute X "MAC" (mm_core m)); injection H as <- <- _; [|apply mac_kept_refl].
  split; cbn [mm_core mm_rcpts]; [apply core_kept_refl|]. destruct (mm_rcpts m); [apply rcpts_kept_refl|exact I].
Qed.

Lemma compute_tag_keeps : forall n m n' m' x, macm_compute_tag X n m = ((n', m'), x) -> mac_kept m m'.
Proof.
  intros n m n' m' x H. unfold macm_compute_tag in H.
  destruct (get_attr _ _) as [target|e]; [|injection H as <- <- _; apply mac_kept_refl].
  destruct (mm_rcpts m) as [rs|] eqn:ER; [|injection H as <- <- _; apply mac_kept_refl].
  destruct (verify_recipients rs) as [[]|e]; [|injection H as <- <- _; apply mac_kept_refl].
  destruct (has_class RDirect _); [apply super_keeps in H; exact H|]. destruct (has_class RAgree _).
  { destruct rs as [|r rs]; [injection H as <- <- _; apply mac_kept_refl|].
    destruct (compute_cek X r target false) as [k|e]; [|injection H as <- <- _; apply mac_kept_refl].
    apply super_keeps in H. eapply mac_kept_trans; [|exact H]. split; cbn [mm_core mm_rcpts]; [apply core_kept_key|]. rewrite ER. apply rcpts_kept_refl. }
  destruct (_ || _); [|injection H as <- <- _; apply mac_kept_refl].
  destruct (get_key_length target) as [len|e]; [|injection H as <- <- _; apply mac_kept_refl].
  destruct (cek_loop X _ _ _) as [[n1 rs'] [kb|e]] eqn:EL; apply cek_loop_keeps in EL; injection H as <- <- _;
    (split; cbn [mm_core mm_rcpts]; [apply core_kept_refl|rewrite ER; exact EL]).
Qed.

Lemma mac_encode_keeps : forall n m tag mac n' m' x, macm_encode X n m tag mac = ((n', m'), x) -> mac_kept m m'.
Proof.
  intros n m tag mac n' m' x H. unfold macm_encode in H. destruct (phdr_encoded (mm_core m)) as [p|e]; [|injection H as <- <- _; apply mac_kept_refl].
  set (step := if mac then _ else _) in H. destruct step as [[n1 m1] body] eqn:ES.
  assert (H1 : mac_kept m m1).
  { subst step. destruct mac.
    - destruct (macm_compute_tag X n m) as [[n2 m2] y] eqn:EE. apply compute_tag_keeps in EE. injection ES as <- <- _. exact EE.
    - injection ES as <- <- _. apply mac_kept_refl. }
  clear ES step. destruct body as [bv|e]; [|injection H as <- <- _; exact H1].
  destruct (mm_rcpts m1) as [[|r rs]|] eqn:ER; [injection H as <- <- _; exact H1| |injection H as <- <- _; exact H1].
  destruct (get_attr (mm_core m1) Algorithm) as [a|e]; [|injection H as <- <- _; exact H1].
  destruct (rcpts_encode X n1 (r :: rs)) as [[n3 rs'] y] eqn:EE. apply rcpts_encode_keeps in EE.
  apply (mac_kept_trans _ _ _ H1).
  destruct y; injection H as <- <- _; (split; cbn [mm_core mm_rcpts]; [apply core_kept_refl|rewrite ER; exact EE]).
Qed.

Lemma after_mac_encodes_keeps : forall m m', after_mac_encodes X m m' -> mac_kept m m'.
Proof.
  intros m m' H. induction H as [|m1 n t mac s x H IH HE|m1 n s x H IH HE]; [apply mac_kept_refl| |]; destruct s as [n' m2].
  - apply mac_encode_keeps in HE. exact (mac_kept_trans _ _ _ IH HE).
  - apply compute_tag_keeps in HE. exact (mac_kept_trans _ _ _ IH HE).
Qed.

Lemma mac0_encode_keeps : forall m tag mac m' x, mac0_encode X m tag mac = (m', x) -> m0_core m' = m0_core m.
Proof.
  intros m tag mac m' x H. unfold mac0_encode in H. destruct (phdr_encoded (m0_core m)) as [p|e]; [|injection H as <- _; reflexivity].
  destruct mac; [|injection H as <- _; reflexivity]. unfold mac0_compute_tag in H.
  destruct (mac_compute X "MAC0" (m0_core m)) as [t|e]; injection H as <- _; reflexivity.
Qed.

(** ** Forwarding *)

Lemma same_uhdr : forall h h', same_headers h h' -> no_key_headers h -> h' = h.
Proof.
  intros h h' H. induction H as [|[a v] [a' v'] h h' [HA HV] H IH]; intros HN; [reflexivity|]. cbn [fst snd] in *. subst a'.
  f_equal.
  - destruct HV as [-> | [HK _]]; [reflexivity|]. destruct (HN v) as [N1 N2]. destruct HK as [-> | ->]; exfalso; [apply N1|apply N2]; left; reflexivity.
  - apply IH. intros w. destruct (HN w) as [N1 N2]. split; intros HI; [apply N1|apply N2]; right; exact HI.
Qed.

(** The same bytes are produced from the object that arrives. *)
Lemma emit_again : forall c c' t tag items, tstr c = false -> tstr c' = false -> emit c' t tag items = emit c t tag items.
Proof. intros c c' t tag items H1 H2. unfold emit, dumps_msg. rewrite H1, H2. reflexivity. Qed.

Lemma enc0_forward : forall c b enc e, headers_ok X c -> no_key_headers (uhdr c) -> tstr c = false ->
  e = None \/ e = Some 16%N -> enc0_encode X c true enc = Ok b ->
  exists c', decode X e true (VBytes b) = Ok (MEnc0 c') /\ enc0_encode X c' true false = Ok b.
Proof.
  intros c b enc e HO HN HT He H. unfold enc0_encode in H. apply bind_ok in H as (p & HP & H).
  apply bind_ok in H as (body & HB & H).
  assert (HB' : exists o, body = vopt o).
  { destruct enc; [apply bind_ok in HB as (ct & _ & HB); injection HB as <-; exists (Some ct); reflexivity|]. injection HB as <-. eauto. }
  destruct HB' as (o & ->). clear HB. pose proof H as HE.
  apply emit_trip in H; [|reflexivity|].
  2:{ repeat (apply Forall_cons; [try reflexivity|]); [..|apply Forall_nil]; [apply (uhdr_data X); apply HO|rewrite vopt_wire; apply vopt_data]. }
  cbn [map] in H. rewrite wire_dict, vopt_wire in H. cbn [wire] in H.
  destruct (core_trip X c p (HMsg (tstr c)) o (vopt o) [] HO HP (vopt_check _)) as (c' & HC & (_ & HU & HPE & _) & HPL & _ & HT' & _).
  exists c'. split.
  - unfold decode. rewrite H. unfold from_cose_obj. cbn [N.eqb Pos.eqb]. unfold enc0_from_obj. rewrite HC.
    cbn [bind]. destruct He as [-> | ->]; reflexivity.
  - unfold enc0_encode. rewrite HPE, HP. cbn [bind]. rewrite HPL, (same_uhdr _ _ HU HN), (emit_again c c'); assumption.
Qed.

Lemma sign1_forward : forall seed seed' m d d' b sign e, headers_ok X (s1_core m) -> no_key_headers (uhdr (s1_core m)) -> tstr (s1_core m) = false ->
  sign = true \/ (exists s, s1_sig m = VBytes s /\ s <> []) ->
  e = None \/ e = Some 18%N -> sign1_encode X seed m true sign d = Ok b ->
  exists m' s, decode X e true (VBytes b) = Ok (MSign1 m') /\ s1_sig m' = VBytes s /\
    (s <> [] -> sign1_encode X seed' m' true false d' = Ok b).
Proof.
  intros seed seed' m d d' b sign e HO HN HT HS He H. unfold sign1_encode in H. apply bind_ok in H as (p & HP & H).
  apply bind_ok in H as (items & HI & H). set (c := s1_core m) in *.
  assert (HX : exists s, items = [VBytes p; VDict (uhdr c); vopt (payload c); VBytes s]).
  { destruct sign.
    - apply bind_ok in HI as (s & _ & HI). injection HI as <-. exists s. reflexivity.
    - destruct HS as [HS|(s & HS & HNE)]; [discriminate|]. rewrite HS in HI.
      replace (truthy (VBytes s)) with true in HI by (destruct s; [elim HNE; reflexivity|reflexivity]).
      injection HI as <-. exists s. reflexivity. }
  destruct HX as (s & ->). clear HI HS. pose proof H as HE.
  apply emit_trip in H; [|reflexivity|].
  2:{ repeat (apply Forall_cons; [try reflexivity|]); [..|apply Forall_nil]; [apply (uhdr_data X); apply HO|rewrite vopt_wire; apply vopt_data]. }
  cbn [map] in H. rewrite wire_dict, vopt_wire in H. cbn [wire] in H.
  destruct (core_trip X c p (HMsg (tstr c)) (payload c) (vopt (payload c)) [VBytes s] HO HP (vopt_check _))
    as (c' & HC & (_ & HU & HPE & _) & HPL & _ & HT' & _).
  exists (Sign1 c' (VBytes s)), s. split; [|split; [reflexivity|]].
  - unfold decode. rewrite H. unfold from_cose_obj. cbn [N.eqb Pos.eqb]. unfold sign1_from_obj. rewrite HC.
    cbn [bind]. destruct He as [-> | ->]; reflexivity.
  - intros HNE. unfold sign1_encode. cbn [s1_core s1_sig]. rewrite HPE, HP. cbn [bind].
    replace (truthy (VBytes s)) with true by (destruct s; [elim HNE; reflexivity|reflexivity]).
    cbn [bind app]. rewrite HPL, (same_uhdr _ _ HU HN), (emit_again c c'); assumption.
Qed.

(** What is received never holds a key. *)
Lemma core_from_obj_keyless : forall allow obj c rest, core_from_obj X allow obj = Ok (c, rest) -> ckey c = None /\ aad c = [].
Proof.
  intros allow obj c rest H. apply core_from_obj_inv in H as (p & u & pl & c0 & _ & HC & _ & ->).
  apply core_init_inv in HC as (pd & ud & _ & _ & _ & _ & _ & _ & HA & HK & _).
  cbn [a_aad a_key check_key ckey aad with_payload] in *. split; congruence.
Qed.

Lemma sign_not_forwarded : forall e allow b m seed tag d o, decode X e allow b = Ok (MSign m) -> sm_signers m <> [] ->
  sign_encode X seed m tag d <> Ok o.
Proof.
  intros e allow b m seed tag d o H HN HE. apply decode_inv in H as (b0 & obj & _ & _ & _ & H & _).
  cbn [message_tag] in H. unfold from_cose_obj in H. cbn [N.eqb Pos.eqb] in H.
  apply bind_ok in H as (x & HX & H). injection H as ->. unfold sign_from_obj in HX. apply bind_ok in HX as ([c rest] & _ & HX).
  destruct rest as [|s rest]; [discriminate|]. apply bind_ok in HX as (l & _ & HX). apply bind_ok in HX as (ss & HS & HX). injection HX as <-.
  cbn [sm_signers] in *. destruct ss as [|s0 ss]; [elim HN; reflexivity|]. destruct l as [|r l]; [discriminate|].
  apply mapM_cons_ok in HS as (y & ys & HY & _ & E). injection E as <- <-.
  assert (HK : ckey s0 = None).
  { destruct r; cbn [signer_from_obj] in HY; try discriminate. apply bind_ok in HY as ([c' rest'] & HC & HY). injection HY as <-.
    apply core_from_obj_keyless in HC. apply HC. }
  unfold sign_encode in HE. cbn [sm_core sm_signers] in HE. apply bind_ok in HE as (p & _ & HE). apply bind_ok in HE as (it & HI & _).
  apply bind_ok in HI as (vs & HV & _). cbn [signers_encode] in HV. apply bind_ok in HV as (v & HV & _). unfold signer_encode in HV.
  apply bind_ok in HV as (p' & _ & HV). apply bind_ok in HV as (sg & HV & _). unfold compute_signature in HV.
  apply bind_ok in HV as (a & _ & HV). apply bind_ok in HV as (k & HV & _). unfold key_verification in HV. rewrite HK in HV. discriminate.
Qed.

Lemma mac0_not_forwarded : forall m b mac e, headers_ok X (m0_core m) -> no_key_headers (uhdr (m0_core m)) ->
  e = None \/ e = Some 17%N -> snd (mac0_encode X m true true) = Ok b ->
  exists m', decode X e true (VBytes b) = Ok (MMac0 m') /\
    forall b', snd (mac0_encode X m' true mac) = Ok b' -> decode X None true (VBytes b') = Err IndexError.
Proof.
  intros m b mac e HO HN He H. unfold mac0_encode, mac0_compute_tag in H.
  destruct (phdr_encoded (m0_core m)) as [p|] eqn:HP; [|discriminate].
  destruct (mac_compute X "MAC0" (m0_core m)) as [t|] eqn:HT; [|discriminate]. cbn [snd app] in H. set (c := m0_core m) in *.
  apply emit_trip in H; [|reflexivity|].
  2:{ repeat (apply Forall_cons; [try reflexivity|]); [..|apply Forall_nil]; [apply (uhdr_data X); apply HO|rewrite vopt_wire; apply vopt_data]. }
  cbn [map] in H. rewrite wire_dict, vopt_wire in H. cbn [wire] in H.
  destruct (core_trip X c p (HMsg (tstr c)) (payload c) (vopt (payload c)) [VBytes t] HO HP (vopt_check _))
    as (c' & HC & (HPH & HU & HPE & _ & HK) & HPL & HRW & HT' & _).
  exists (Mac0 c' (VBytes t)). split.
  - unfold decode. rewrite H. unfold from_cose_obj. cbn [N.eqb Pos.eqb]. unfold mac0_from_obj. rewrite HC.
    cbn [bind]. destruct He as [-> | ->]; reflexivity.
  - intros b' HB. destruct mac.
    + unfold mac0_encode, mac0_compute_tag, mac_compute in HB. cbn [m0_core] in HB. rewrite HK in HB.
      destruct (phdr_encoded c'); [|discriminate]. destruct (get_attr c' Algorithm); discriminate HB.
    + apply (mac0_unmaced X) with (m := Mac0 c' (VBytes t)); [|exact HB]. cbn [m0_core]. split.
      * unfold protected_ok. rewrite HRW. apply core_from_obj_inv in HC as (p0 & u & pl & c0 & E & HI & _ & EC). injection E as <- <- <-.
        apply core_init_inv in HI as (pd & ud & HM & _ & HI & _). rewrite EC. cbn [phdr with_payload a_phdr a_phdr_encoded a_allow] in *.
        destruct HM as [[HM _]|[(_ & b0 & E & HM)|(_ & [E|E] & HM)]]; try discriminate.
        -- injection E as <-. right. exists pd. auto.
        -- injection E as ->. subst pd. injection HI as <-. left. auto.
      * rewrite (same_uhdr _ _ HU HN). apply HO.
Qed.

End Life.
