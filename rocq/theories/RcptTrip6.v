(** Encoding the same message again. *)
From Coq Require Import NArith ZArith Bool String Lia.
From Coq Require Import Init.Byte List.
From Verif Require Import Bytes BytesProofs Value ValueProofs Cbor CborProofs SpecData DataProofs Registry
  RegistryProofs Crypto SpecCrypto Keys Algorithms Headers Messages Recipients SpecRegistry SpecKeys SpecHdr HdrProofs
  SpecTrip KeyTrip KeyTrip2 SpecAlg KeyProofs KeyProofs2 AlgProofs SpecMsg HdrTrip MsgTrip MsgTrip2 SpecRcpt RcptProofs RcptProofs2
  SpecRcptTrip RcptTrip RcptTrip2 RcptTrip3 RcptTrip4.
Import ListNotations.
Local Open Scope result_scope.

Section Trip.
Variable X : crypto.

(** ** Content keys are kept, whatever happens *)

Definition keeps (r r' : rcpt) : Prop := r_class r' = r_class r /\ payload (r_core r') = payload (r_core r).

Lemma setup_keeps : forall n c pk c1 x, setup_ephemeral X n c pk = (c1, x) -> payload c1 = payload c.
Proof.
  intros n c pk c1 x H. unfold setup_ephemeral in H. destruct (bind (peer pk) _) as [k|e]; [|injection H as <- _; reflexivity].
  destruct (get_attr (with_key c (Some k)) EphemeralKey) as [v|e]; [|injection H as <- _; reflexivity].
  destruct (negb (is_none v)); [injection H as <- _; reflexivity|]. destruct (dmem _ _); injection H as <- _; reflexivity.
Qed.

Lemma kakw_keeps : forall n c c1 x, kakw_encrypt X n c = (c1, x) -> payload c1 = payload c.
Proof.
  intros n c c1 x H. unfold kakw_encrypt in H. destruct (is_none _); [injection H as <- _; reflexivity|].
  destruct (get_attr c Algorithm) as [a|e]; [|injection H as <- _; reflexivity]. destruct (is_none a); [injection H as <- _; reflexivity|].
  destruct (ckey c); [apply pair_equal_spec in H as [<- _]; reflexivity|].
  destruct (alg_in a es_kw) as [[]|e]; [|apply pair_equal_spec in H as [<- _]; reflexivity..].
  destruct (setup_ephemeral X n c _) as [c2 r] eqn:ES. apply pair_equal_spec in H as [<- _]. eapply setup_keeps. exact ES.
Qed.

Lemma encrypt_keeps : forall n r r' x, rcpt_encrypt X n r = (r', x) -> keeps r r'.
Proof.
  intros n [id rc c ctx subs] r' x H. destruct rc; cbn [rcpt_encrypt] in H; try (apply pair_equal_spec in H as [<- _]; split; reflexivity).
  destruct (kakw_encrypt X n c) as [c1 y] eqn:EK. apply pair_equal_spec in H as [<- _]. split; [reflexivity|]. eapply kakw_keeps. exact EK.
Qed.

Lemma finish_keeps : forall id rc ctx subs n c items n' r' x, finish X id rc ctx subs n c items = ((n', r'), x) -> r_class r' = rc /\ r_core r' = c.
Proof.
  intros id rc ctx subs n c items n' r' x H. unfold finish in H. destruct subs as [|s subs]; [injection H as _ <- _; auto|].
  destruct (rcpts_encode X n (s :: subs)) as [[n1 s'] [vs|e]]; injection H as _ <- _; auto.
Qed.

Lemma encode_keeps : forall n r n' r' x, wraps r -> rcpt_encode X n r = ((n', r'), x) -> keeps r r'.
Proof.
  intros n [id rc c ctx subs] n' r' x [HW|HW] H; cbn [r_class] in HW; subst rc.
  - rewrite encode_kw in H. destruct (bind (phdr_encoded c) _) as [[p w]|e]; [|injection H as _ <- _; split; reflexivity].
    apply finish_keeps in H as [E1 E2]. unfold keeps. rewrite E1, E2. split; reflexivity.
  - rewrite encode_kakw in H. destruct (bind (phdr_encoded c) _) as [p|e]; [|injection H as _ <- _; split; reflexivity].
    destruct (kakw_encrypt X n c) as [c1 [w|e]] eqn:EK; apply kakw_keeps in EK.
    + apply finish_keeps in H as [E1 E2]. unfold keeps. rewrite E1, E2. split; [reflexivity|exact EK].
    + injection H as _ <- _. split; [reflexivity|exact EK].
Qed.

Lemma keeps_list : forall l l', Forall2 keeps l l' -> map (fun r => payload (r_core r)) l' = map (fun r => payload (r_core r)) l /\
  (Forall wraps l -> Forall wraps l').
Proof.
  intros l l' H. induction H as [|r r' l l' [H1 H2] HF [I1 I2]]; [auto|]. split; [cbn [map]; rewrite I1, H2; reflexivity|].
  intros HW. inversion_clear HW as [|? ? HWr HWl]. constructor; [|auto]. unfold wraps in *. rewrite H1. exact HWr.
Qed.

Lemma keeps_refl : forall l, Forall2 keeps l l.
Proof. induction l; constructor; [split; reflexivity|assumption]. Qed.

Lemma list_keeps : forall l n n' l' x, Forall wraps l -> rcpts_encode X n l = ((n', l'), x) -> Forall2 keeps l l'.
Proof.
  induction l as [|r l IH]; intros n n' l' x HW H; [injection H as _ <- _; constructor|]. inversion_clear HW as [|? ? HWr HWl].
  cbn [rcpts_encode] in H. destruct (rcpt_encode X n r) as [[n1 r'] y] eqn:ER. pose proof (encode_keeps _ _ _ _ _ HWr ER) as HK. destruct y as [v|e].
  - destruct (rcpts_encode X n1 l) as [[n2 l2] z] eqn:EL. pose proof (IH _ _ _ _ HWl EL) as HL.
    destruct z; injection H as _ <- _; constructor; assumption.
  - injection H as _ <- _. constructor; [exact HK|apply keeps_refl].
Qed.

(** When every recipient has its content key already. *)
Definition keyed (r : rcpt) : Prop := exists k, k <> [] /\ payload (r_core r) = Some k.

Lemma keyed_content : forall K r k, payload (r_core r) = Some k -> k <> [] -> content K r = k.
Proof. intros K r k H HN. unfold content. rewrite H. destruct k; [congruence|reflexivity]. Qed.

Lemma cek_keeps : forall l n kb n' l' x, Forall keyed l -> cek_loop X n kb l = ((n', l'), x) -> Forall2 keeps l l'.
Proof.
  induction l as [|r l IH]; intros n kb n' l' x HF H; [injection H as _ <- _; constructor|]. inversion_clear HF as [|? ? (k & HN & HP) HFl].
  cbn [cek_loop] in H. rewrite HP in H. destruct k as [|b k]; [congruence|].
  destruct (rcpt_encrypt X n r) as [r2 y] eqn:ER. pose proof (encrypt_keeps _ _ _ _ ER) as HK. destruct y as [w|e].
  - destruct (cek_loop X (N.succ n) _ l) as [[n2 l2] z] eqn:EL. injection H as _ <- _. constructor; [exact HK|]. eapply IH; eassumption.
  - injection H as _ <- _. constructor; [exact HK|apply keeps_refl].
Qed.

(** The content key of the last recipient is the one used. *)
Lemma keyed_last : forall l K r0, Forall keyed l -> l <> [] -> payload (r_core (last l r0)) = Some (last (contents K l) K).
Proof.
  induction l as [|r l IH]; intros K r0 HF HN; [congruence|]. inversion_clear HF as [|? ? (k & HK & HP) HFl].
  cbn [contents]. rewrite (keyed_content K r k HP HK), (last_cons _ (contents k l)). destruct l as [|r1 l]; [exact HP|].
  change (last (r :: r1 :: l) r0) with (last (r1 :: l) r0). apply IH; [exact HFl|discriminate].
Qed.

(** The invariant. *)
Definition settled (K : bytes) (m : encmsg) : Prop :=
  Forall wraps (e_rcpts m) /\ Forall keyed (e_rcpts m) /\ e_rcpts m <> [] /\
  (forall r0, payload (r_core (last (e_rcpts m) r0)) = Some K) /\ exists k, ckey (e_core m) = Some k /\ secret k K.

Lemma keeps_settled : forall K c c' l l', settled K (EncMsg c l) -> Forall2 keeps l l' ->
  (exists k, ckey c' = Some k /\ secret k K) -> settled K (EncMsg c' l').
Proof.
  intros K c c' l l' (H1 & H2 & H3 & H4 & _) HK HC. destruct (keeps_list _ _ HK) as [_ HW]. unfold settled. cbn [e_core e_rcpts] in *.
  split; [exact (HW H1)|]. split.
  { clear - HK H2. induction HK as [|r r' l l' [_ HP] HK IH]; [constructor|]. inversion_clear H2 as [|? ? HKr HKl]. constructor; [|exact (IH HKl)].
    unfold keyed in *. rewrite HP. exact HKr. }
  split. { intros E. rewrite E in HK. inversion HK. congruence. }
  split; [|exact HC]. intros r0. rewrite <- (H4 r0). clear - HK H3. revert H3. induction HK as [|r r' l l' [_ HP] HK IH]; intros HN; [congruence|].
  destruct HK as [|r1 r1' l l' HK1 HK]; [exact HP|]. change (last (r :: r1 :: l) r0) with (last (r1 :: l) r0).
  change (last (r' :: r1' :: l') r0) with (last (r1' :: l') r0). apply IH. discriminate.
Qed.

Lemma encrypt_settled : forall K n m s x, settled K m -> encm_encrypt X n m = (s, x) -> settled K (snd s).
Proof.
  intros K n [c l] s x HS H. pose proof HS as (H1 & H2 & H3 & H4 & HK). unfold encm_encrypt in H. cbn [e_core e_rcpts] in *.
  destruct (bind (get_attr c Algorithm) _) as [a|e] eqn:EA; [|injection H as <- _; exact HS].
  destruct (wraps_classes _ H1) as [W1 W2]. rewrite W1, W2 in H.
  destruct (has_class RKeyWrap l || has_class RAgreeKW l); [|injection H as <- _; exact HS].
  destruct (get_key_length a) as [len|e] eqn:EL; [|injection H as <- _; exact HS].
  destruct (key_length_alg a len EL) as (z & kd & -> & HKd).
  destruct (cek_loop X (N.succ n) _ l) as [[n2 rs1] y] eqn:EC. pose proof (cek_keeps _ _ _ _ _ _ H2 EC) as HKe.
  destruct y as [kb|e]; [|injection H as <- _; eapply keeps_settled; [exact HS|exact HKe|exact HK]].
  apply cek_ready in EC as [_ ->]; [|exact H1].
  destruct (sym_with _ (alg z) [EncryptOp]) as [k|e] eqn:ES; [|injection H as <- _; eapply keeps_settled; [exact HS|exact HKe|exact HK]].
  apply pair_equal_spec in H as [<- _]. cbn [snd]. eapply keeps_settled; [exact HS|exact HKe|]. exists k. split; [reflexivity|].
  destruct l as [|r l]; [congruence|]. pose proof (keyed_last _ (x_urandom X n len) r H2 H3) as HL. rewrite H4 in HL.
  assert (EK : K = last (contents (x_urandom X n len) (r :: l)) (x_urandom X n len)) by congruence. rewrite <- EK in ES. apply sym_with_is with (kd := kd) in ES as (b & E & ->); [|exact HKd|cbn; auto]. injection E as <-. apply sym_key_secret.
Qed.

Lemma encode_settled : forall K n m t enc s x, settled K m -> encm_encode X n m t enc = (s, x) -> settled K (snd s).
Proof.
  intros K n m t enc s x HS H. unfold encm_encode in H. destruct (phdr_encoded (e_core m)) as [p|e]; [|injection H as <- _; exact HS].
  assert (HB : exists n1 m1 body, (if enc then let '(s, x) := encm_encrypt X n m in (s, bind x (fun b => Ok (VBytes b))) else ((n, m), Ok (vopt (payload (e_core m))))) =
    ((n1, m1), body) /\ settled K m1).
  { destruct enc; [|exists n, m; eexists; split; [reflexivity|exact HS]]. destruct (encm_encrypt X n m) as [[n1 m1] y] eqn:EE.
    apply (encrypt_settled K) in EE; [|exact HS]. exists n1, m1. eexists. split; [reflexivity|exact EE]. }
  destruct HB as (n1 & [c l] & body & E & HS1). rewrite E in H. clear E. destruct body as [bd|e]; [|injection H as <- _; exact HS1].
  cbn [e_core e_rcpts] in H. destruct l as [|r l]; [destruct HS1 as (_ & _ & HN & _); elim HN; reflexivity|].
  destruct (get_attr c Algorithm); [|injection H as <- _; exact HS1].
  destruct (rcpts_encode X n1 (r :: l)) as [[n2 l2] y] eqn:ER. pose proof HS1 as (HW & _ & _ & _ & HK). apply list_keeps in ER; [|exact HW].
  destruct y; apply pair_equal_spec in H as [<- _]; cbn [snd]; eapply keeps_settled; [exact HS1|exact ER|exact HK|exact HS1|exact ER|exact HK].
Qed.

Lemma length_positive : forall a n, get_key_length a = Ok n -> n <> 0.
Proof.
  assert (H : forallb (fun e => match get_key_length (alg (fst e)) with Ok 0 => false | _ => true end) alg_defs = true) by (vm_compute; reflexivity).
  intros a n HL. destruct (key_length_alg a n HL) as (z & kd & -> & HK). apply kind_def in HK. apply existsb_exists in HK as (e & HI & E).
  apply Z.eqb_eq in E. subst z. rewrite forallb_forall in H. specialize (H _ HI). cbv beta in H. rewrite HL in H. destruct n; [discriminate|]. discriminate.
Qed.

Lemma contents_some : forall l K, K <> [] -> Forall (fun k => k <> []) (contents K l).
Proof.
  induction l as [|r l IH]; intros K HK; [constructor|]. cbn [contents].
  assert (HC : content K r <> []) by (unfold content; destruct (payload (r_core r)) as [[|]|]; congruence). constructor; auto.
Qed.

Lemma ready_payload : forall r K r2, ready X r K r2 -> payload (r_core r2) = Some K /\ r_class r2 = r_class r.
Proof.
  intros r K r2 (_ & HC & _ & HP). destruct (filled_core r K) as (F1 & F2 & _). rewrite F1 in HP. rewrite F2 in HC. split; [|exact HC].
  destruct HP as [[_ HP]|(_ & _ & n & a & HP & _)]; [rewrite HP; reflexivity|]. apply setup_keeps in HP. rewrite HP. reflexivity.
Qed.

Lemma all_ready_payloads : forall l ks l2, all_ready X l ks l2 -> map (fun r => payload (r_core r)) l2 = map Some ks /\ (Forall wraps l -> Forall wraps l2).
Proof.
  intros l ks l2 H. induction H as [|r k r2 l ks l2 HR HA [I1 I2]]; [auto|]. destruct (ready_payload _ _ _ HR) as [E1 E2]. split.
  - cbn [map]. rewrite I1, E1. reflexivity.
  - intros HW. inversion_clear HW as [|? ? HWr HWl]. constructor; [|auto]. unfold wraps in *. rewrite E2. exact HWr.
Qed.

Lemma first_settled : forall n m t n1 m1 b, law_urandom_len X -> Forall wraps (e_rcpts m) -> encm_encode X n m t true = ((n1, m1), Ok b) ->
  exists K, settled K m1 /\ (one_content_key (e_rcpts m) -> Forall (fun r => payload (r_core r) = Some K) (e_rcpts m1)).
Proof.
  intros n m t n1 m1 b LU HW H.
  destruct (wrapped_structure X n m t n1 m1 b HW H) as (p & z & kd & len & K & ke & ct & n2 & rs1 & rs2 & vs & _ & _ & HKd & HL & EK & HR & HSy & _ & HEc & -> & _ & HN & _).
  set (K0 := x_urandom X n len) in *. assert (HK0 : K0 <> []).
  { intros E. pose proof (LU n len) as HU. fold K0 in HU. rewrite E in HU. exact (length_positive _ _ HL (eq_sym HU)). }
  pose proof (contents_some (e_rcpts m) K0 HK0) as HCs. destruct (all_ready_payloads _ _ _ HR) as [HP1 HW1]. specialize (HW1 HW).
  assert (HNc : contents K0 (e_rcpts m) <> []) by (destruct (e_rcpts m); [congruence|discriminate]).
  assert (HS : settled K (EncMsg (with_key (e_core m) (Some ke)) rs1)).
  { unfold settled. cbn [e_core e_rcpts]. split; [exact HW1|]. split.
    { clear - HCs HP1. revert HP1. generalize (contents K0 (e_rcpts m)) HCs. clear. induction rs1 as [|r l IH]; intros ks HF HP; [constructor|].
      destruct ks as [|k ks]; [discriminate|]. injection HP as H1 H2. inversion_clear HF as [|? ? Hk Hks]. constructor; [exists k; auto|]. eapply IH; eassumption. }
    split. { intros E. rewrite E in HP1. destruct (contents K0 (e_rcpts m)); [congruence|discriminate]. }
    split.
    { intros r0. rewrite EK. clear - HP1 HNc. revert HP1 HNc. generalize (contents K0 (e_rcpts m)). clear. induction rs1 as [|r l IH]; intros ks HP HN.
      - destruct ks; [congruence|discriminate].
      - destruct ks as [|k ks]; [congruence|]. injection HP as H1 H2. rewrite !last_cons. destruct l as [|r1 l]; destruct ks as [|k1 ks]; try discriminate; [exact H1|].
        rewrite last_cons. specialize (IH (k1 :: ks) H2 ltac:(discriminate)). rewrite !last_cons in IH. rewrite last_cons. exact IH. }
    exists ke. split; [reflexivity|]. apply sym_with_is with (kd := kd) in HSy as (b' & E & ->); [|exact HKd|cbn; auto]. injection E as <-. apply sym_key_secret. }
  pose proof (list_keeps _ _ _ _ _ HW1 HEc) as HKe. exists K. split.
  { eapply keeps_settled; [exact HS|exact HKe|]. apply HS. }
  intros H1. cbn [e_rcpts]. destruct (one_key_contents K0 _ H1) as (K' & E1 & E2). rewrite <- EK in E1. subst K'.
  destruct (keeps_list _ _ HKe) as [HP2 _]. rewrite HP1 in HP2. clear - HP2 E2. revert HP2 E2. generalize (contents K0 (e_rcpts m)). clear.
  induction rs2 as [|r l IH]; intros ks HP HF; [constructor|]. destruct ks as [|k ks]; [discriminate|]. injection HP as H1 H2.
  inversion_clear HF as [|? ? E HF']. constructor; [congruence|]. eapply IH; eassumption.
Qed.

(** ** Successful encodings *)

Lemma holder_ready : forall r K r2 k lo, ready X r K r2 -> holder X r k lo -> holder X r2 k lo.
Proof.
  intros r K r2 k lo (_ & HC & _ & HP) HH. destruct (filled_core r K) as (F1 & F2 & F3 & F4). rewrite F1 in HP. rewrite F2 in *.
  destruct HP as [[HK HP]|(HC2 & HK & n & a & HSt & HA & HIn)].
  - destruct HH as [z ks b HCl HZ HG HKs HSe HSe'|z ks HCl HZ HG HKs HRs HAO HOO|z cv pr HCl HZ HG HPr HDh HSn HNp HSu].
    + eapply (H_wrap X r2 k lo z ks b); rewrite ?HC, ?HP; assumption.
    + eapply (H_oaep X r2 k lo z ks); rewrite ?HC, ?HP; assumption.
    + eapply (H_agree X r2 k lo z cv pr); rewrite ?HC, ?HP; assumption.
  - rewrite HC2 in HC. destruct HH as [z ks b HCl _ _ _ _ _|z ks HCl _ _ _ _ _ _|z cv pr HCl HZ HG HPr HDh HSn HNp HSu]; try congruence.
    set (c := with_payload (r_core r) (Some K)) in *.
    assert (EA : a = alg z) by (change (get_attr c Algorithm) with (get_attr (r_core r) Algorithm) in HA; congruence). subst a.
    assert (EP : dget_or (local c) StaticKey VNone = kval pr) by (unfold dget_or; change (local c) with (local (r_core r)); rewrite HPr; reflexivity).
    rewrite EP in HSt. pose proof (setup_but X _ _ _ _ HSt) as HB. pose proof (but_get _ _ Algorithm HB eq_refl) as HG1.
    change (get_attr c Algorithm) with (get_attr (r_core r) Algorithm) in HG1. rewrite HG in HG1. pose proof HB as (B1 & _ & B3 & _).
    eapply (H_agree X r2 k lo z cv pr).
    + exact HC.
    + exact HZ.
    + exact HG1.
    + rewrite B3. exact HPr.
    + exact HDh.
    + right. eapply generated_sender; [|exact HDh|exact HSt].
      assert (HIe : existsb (fun y => veqb (alg z) (algc y)) es_kw = true) by (unfold alg_in in HIn; cbn [hashable alg] in HIn; congruence).
      apply existsb_exists in HIe as (y & HI1 & HI2). apply veqb_eq in HI2. injection HI2 as ->.
      cbn [es_kw In] in HI1. repeat (destruct HI1 as [<-|HI1]; [reflexivity|]). destruct HI1.
    + unfold no_protected_keys in *. rewrite B1. exact HNp.
    + unfold same_supplements in *. rewrite B3. exact HSu.
Qed.

(** The second pass changes nothing. *)
Lemma second_pass : forall l n n' l' vs, Forall wraps l -> Forall (fun r => ckey (r_core r) <> None /\ simple r) l ->
  rcpts_encode X n l = ((n', l'), Ok vs) -> l' = l.
Proof.
  induction l as [|r l IH]; intros n n' l' vs HW HF H; [injection H as _ <- _; reflexivity|].
  inversion_clear HW as [|? ? HWr HWl]. inversion_clear HF as [|? ? [HK [HS _]] HFl].
  cbn [rcpts_encode] in H. destruct (rcpt_encode X n r) as [[n1 r'] [v|e]] eqn:ER; [|discriminate].
  destruct (rcpts_encode X n1 l) as [[n2 l2] [vs2|e]] eqn:EL; [|discriminate]. injection H as _ <- _.
  apply IH in EL; [|exact HWl|exact HFl]. subst l2. f_equal. destruct r as [id rc c ctx subs]. cbn [r_subs r_core r_class] in *. subst subs.
  destruct HWr as [E|E]; cbn [r_class] in E; subst rc.
  - rewrite encode_kw in ER. destruct (bind (phdr_encoded c) _) as [[p w]|e]; [|discriminate]. injection ER as _ <- _. reflexivity.
  - rewrite encode_kakw in ER. destruct (bind (phdr_encoded c) _) as [p|e]; [|discriminate].
    destruct (kakw_encrypt X n c) as [c1 [w|e]] eqn:EK; [|discriminate].
    destruct (kakw_state X n c c1 w EK) as [[_ ->]|(E & _)]; [|congruence]. injection ER as _ <- _. reflexivity.
Qed.

(** Everything the round trip needs still holds after a successful encoding. *)
Definition sendable_msg (m : encmsg) : Prop :=
  headers_ok X (e_core m) /\ Forall (fun r => headers_ok X (r_core r) /\ simple r) (e_rcpts m) /\
  Forall wraps (e_rcpts m) /\ one_content_key (e_rcpts m).

Definition same_holders (m m' : encmsg) : Prop :=
  length (e_rcpts m') = length (e_rcpts m) /\ payload (e_core m') = payload (e_core m) /\ aad (e_core m') = aad (e_core m) /\
  forall i r, nth_error (e_rcpts m) i = Some r -> exists r', nth_error (e_rcpts m') i = Some r' /\ forall k lo, holder X r k lo -> holder X r' k lo.

Lemma send_keeps : forall n m t s b, law_urandom_len X -> sendable_msg m -> encm_encode X n m t true = (s, Ok b) ->
  sendable_msg (snd s) /\ same_holders m (snd s) /\ (forall c', arrived (e_core (snd s)) c' -> arrived (e_core m) c').
Proof.
  intros n m t [n1 m1] b LU (HO & HF & HW & H1) H. pose proof (first_settled n m t n1 m1 b LU HW H) as (K & HSet & HOne). specialize (HOne H1).
  destruct (wrapped_structure X n m t n1 m1 b HW H) as (p & z & kd & len & K' & ke & ct & n2 & rs1 & rs2 & vs & _ & _ & HKd & HL & EK & HR & HSy & _ & HEc & -> & _ & HN & _).
  destruct (all_ready_lands X _ _ _ HR HF) as (HF1 & HC1 & HN1). destruct (all_ready_payloads _ _ _ HR) as [HP1 HW1]. specialize (HW1 HW).
  assert (HKs : Forall (fun r => ckey (r_core r) <> None /\ simple r) rs1).
  { clear - HR HF. induction HR as [|r k r2 l ks l2 HR HA IH]; [constructor|]. inversion_clear HF as [|? ? [HO HS] HF']. constructor; [|exact (IH HF')].
    destruct (ready_facts X r k r2 HR HO HS) as (_ & R2 & R3 & _). auto. }
  pose proof (second_pass _ _ _ _ _ HW1 HKs HEc) as ->. cbn [snd e_rcpts e_core] in *. split; [|split].
  - split; [exact HO|]. split; [exact HF1|]. split; [exact HW1|]. right. destruct rs1 as [|r0 rest].
    { destruct HSet as (_ & _ & E & _). elim E. reflexivity. }
    inversion_clear HOne as [|? ? E1 E2]. exists r0, rest, K. split; [reflexivity|].
    split. { destruct HSet as (_ & HKy & _). inversion_clear HKy as [|? ? (k & Hk & Ek) _]. congruence. }
    split; [exact E1|]. intros r HI. right. rewrite Forall_forall in E2. auto.
  - split. { cbn [e_rcpts]. rewrite <- (map_length r_class rs1), HC1. apply map_length. }
    split; [reflexivity|]. split; [reflexivity|]. intros i r HI. destruct (HN1 i r HI) as (Ki & r1 & _ & HI1 & HRi).
    exists r1. split; [exact HI1|]. intros k lo HH. eapply holder_ready; eassumption.
  - intros c' HA. exact HA.
Qed.

Lemma sends_keep : forall m m', law_urandom_len X -> sendable_msg m -> after_sends X m m' ->
  sendable_msg m' /\ same_holders m m' /\ (forall c', arrived (e_core m') c' -> arrived (e_core m) c').
Proof.
  intros m m' LU HS H. induction H as [|m1 n t s b H IH HE].
  - split; [exact HS|]. split; [|auto]. unfold same_holders. do 3 (split; [reflexivity|]). intros i r HI. exists r. auto.
  - destruct IH as (S1 & (L1 & P1 & A1 & G1) & C1). destruct (send_keeps n m1 t s b LU S1 HE) as (S2 & (L2 & P2 & A2 & G2) & C2).
    split; [exact S2|]. split; [|auto]. split; [congruence|]. split; [congruence|]. split; [congruence|].
    intros i r HI. destruct (G1 i r HI) as (r1 & HI1 & HH1). destruct (G2 i r1 HI1) as (r2 & HI2 & HH2). exists r2. auto.
Qed.

(** Every encoding decrypts, for every recipient. *)
Theorem every_send_trip : forall m m1 n s b e, law_gcm X -> law_ccm X -> law_wrap X -> law_wrap_some X -> law_oaep X -> law_oaep_some X ->
  law_ecdh X -> law_urandom_len X -> headers_ok X (e_core m) -> Forall (fun r => headers_ok X (r_core r) /\ simple r) (e_rcpts m) ->
  Forall wraps (e_rcpts m) -> one_content_key (e_rcpts m) -> e = None \/ e = Some 96%N ->
  after_sends X m m1 -> encm_encode X n m1 true true = (s, Ok b) ->
  exists m', decode X e true (VBytes b) = Ok (MEnc m') /\ arrived (e_core m) (e_core m') /\
    length (e_rcpts m') = length (e_rcpts m) /\ recipients_arrive (e_rcpts (snd s)) (e_rcpts m') /\
    forall i r k lo, nth_error (e_rcpts m) i = Some r -> holder X r k lo ->
      exists r' pl, nth_error (e_rcpts m') i = Some r' /\ payload (e_core m) = Some pl /\
        snd (encm_decrypt X (equip_msg m' (aad (e_core m)) i (equip_rcpt r' k lo)) (equip_rcpt r' k lo)) = Ok pl.
Proof.
  intros m m1 n s b e LG LC LW LWS LO LOS LE LU HO HF HW H1 He HS H. destruct s as [n' m2].
  destruct (sends_keep m m1 LU (conj HO (conj HF (conj HW H1))) HS) as ((HO1 & HF1 & HW1 & HC1) & (L1 & P1 & A1 & G1) & HAr).
  destruct (wrapped_trip X n m1 n' m2 b e LG LC LW LWS LO LOS LE HO1 HF1 HW1 HC1 He H) as (m' & HD & HA & HL & HRA & HX).
  exists m'. split; [exact HD|]. split; [auto|]. split; [congruence|]. split; [exact HRA|].
  intros i r k lo HI HH. destruct (G1 i r HI) as (r1 & HI1 & HH1). rewrite <- P1, <- A1. apply (HX i r1 k lo HI1). auto.
Qed.

(** ** The content key after the first encoding, whatever the later outcomes *)

Lemma encode_payloads : forall K n m t enc s x, settled K m -> encm_encode X n m t enc = (s, x) ->
  map (fun r => payload (r_core r)) (e_rcpts (snd s)) = map (fun r => payload (r_core r)) (e_rcpts m).
Proof.
  intros K n m t enc s x HS H. unfold encm_encode in H. destruct (phdr_encoded (e_core m)) as [p|e]; [|injection H as <- _; reflexivity].
  assert (HB : exists n1 m1 body, (if enc then let '(s, x) := encm_encrypt X n m in (s, bind x (fun b => Ok (VBytes b))) else ((n, m), Ok (vopt (payload (e_core m))))) =
    ((n1, m1), body) /\ Forall2 keeps (e_rcpts m) (e_rcpts m1)).
  { destruct enc; [|exists n, m; eexists; split; [reflexivity|apply keeps_refl]]. destruct (encm_encrypt X n m) as [[n1 m1] y] eqn:EE.
    exists n1, m1. eexists. split; [reflexivity|]. pose proof HS as (H1 & H2 & _). unfold encm_encrypt in EE.
    destruct (bind (get_attr (e_core m) Algorithm) _); [|injection EE as _ <- _; apply keeps_refl].
    destruct (wraps_classes _ H1) as [W1 W2]. rewrite W1, W2 in EE.
    destruct (_ || _); [|injection EE as _ <- _; apply keeps_refl]. destruct (get_key_length _) as [len|e]; [|injection EE as _ <- _; apply keeps_refl].
    destruct (cek_loop X (N.succ n) _ (e_rcpts m)) as [[n2 rs1] z] eqn:EC. pose proof (cek_keeps _ _ _ _ _ _ H2 EC) as HKe.
    destruct z as [kb|e]; [|injection EE as _ <- _; exact HKe]. destruct (sym_with _ _ _); apply pair_equal_spec in EE as [EE _]; injection EE as _ <-; exact HKe. }
  destruct HB as (n1 & m1 & body & E & HS1). rewrite E in H. clear E. destruct (keeps_list _ _ HS1) as [HP HW]. specialize (HW (proj1 HS)).
  destruct body as [bd|e]; [|injection H as <- _; exact HP].
  destruct (e_rcpts m1) as [|r l] eqn:ER; [apply pair_equal_spec in H as [<- _]; cbn [snd]; rewrite ER; exact HP|].
  destruct (get_attr (e_core m1) Algorithm); [|injection H as <- _; cbn [snd]; rewrite ER; exact HP].
  destruct (rcpts_encode X n1 (r :: l)) as [[n2 l2] y] eqn:EE. apply list_keeps in EE; [|exact HW]. destruct (keeps_list _ _ EE) as [HP2 _].
  destruct y; apply pair_equal_spec in H as [<- _]; cbn [snd e_rcpts]; rewrite HP2; exact HP.
Qed.

Lemma after_settled : forall K m m', after_encodes X m m' -> settled K m -> settled K m' /\
  map (fun r => payload (r_core r)) (e_rcpts m') = map (fun r => payload (r_core r)) (e_rcpts m).
Proof.
  intros K m m' H HS. induction H as [|m1 n t enc s x H [I1 I2] HE]; [auto|]. split; [eapply encode_settled; eassumption|].
  rewrite (encode_payloads K n m1 t enc s x I1 HE). exact I2.
Qed.

Theorem same_content_key : forall n m t n1 m1 b m2, law_urandom_len X -> Forall wraps (e_rcpts m) ->
  encm_encode X n m t true = ((n1, m1), Ok b) -> after_encodes X m1 m2 ->
  exists K k1 k2, ckey (e_core m1) = Some k1 /\ secret k1 K /\ ckey (e_core m2) = Some k2 /\ secret k2 K /\
    map (fun r => payload (r_core r)) (e_rcpts m2) = map (fun r => payload (r_core r)) (e_rcpts m1) /\
    (one_content_key (e_rcpts m) -> Forall (fun r => payload (r_core r) = Some K) (e_rcpts m2)).
Proof.
  intros n m t n1 m1 b m2 LU HW H HA. destruct (first_settled n m t n1 m1 b LU HW H) as (K & HS & H1).
  destruct (after_settled K m1 m2 HA HS) as [HS2 HP]. pose proof HS as (_ & _ & _ & _ & k1 & E1 & E2). pose proof HS2 as (_ & _ & _ & _ & k2 & E3 & E4).
  exists K, k1, k2. repeat (split; [assumption|]). intros HO. specialize (H1 HO). clear - HP H1. revert HP H1. generalize (e_rcpts m1) (e_rcpts m2). clear.
  intros l l'. revert l. induction l' as [|r' l' IH]; intros l HP HF; [constructor|]. destruct l as [|r l]; [discriminate|]. injection HP as E1 E2.
  inversion_clear HF as [|? ? E HF']. constructor; [congruence|]. eapply IH; eassumption.
Qed.
End Trip.
