(** Recipient lists: from the sender's objects to the receiver's. *)
From Coq Require Import NArith ZArith Bool String Lia.
From Coq Require Import Init.Byte List.
From Verif Require Import Bytes BytesProofs Value ValueProofs Cbor CborProofs SpecData DataProofs Registry
  RegistryProofs Crypto SpecCrypto Keys Algorithms Headers Messages Recipients SpecRegistry SpecKeys SpecHdr HdrProofs
  SpecTrip KeyTrip KeyTrip2 SpecAlg KeyProofs KeyProofs2 AlgProofs SpecMsg HdrTrip MsgTrip MsgTrip2 SpecRcpt RcptProofs RcptProofs2
  SpecRcptTrip RcptTrip RcptTrip2.
Import ListNotations.
Local Open Scope result_scope.

Section Trip.
Variable X : crypto.

Lemma setup_headers : forall n c pk c1, setup_ephemeral X n c pk = (c1, Ok tt) -> headers_ok X c -> headers_ok X c1.
Proof.
  intros n c pk c1 H [HP HU]. pose proof (setup_sent X n c pk c1 H) as (k & _ & HPo & HC & _ & HE & _).
  pose proof (setup_but X n c pk c1 H) as (E1 & E2 & _). split.
  - unfold protected_ok in *. rewrite E1, E2. exact HP.
  - rewrite HE. apply sendable_dset; [exact HU|]. apply (HO_map X (-1) (public_part k)); [cbn; auto|]. apply public_portable; assumption.
Qed.

(** What is at the receiver for recipient [r], which became [r'] when it was encoded. *)
Definition lands (n : N) (r r' rr : rcpt) : Prop :=
  r_id r' = r_id r /\ r_class r' = r_class r /\ r_class rr = r_class r /\ r_subs rr = [] /\ arrived (r_core r') (r_core rr) /\
  local (r_core rr) = [] /\ key_headers (phdr (r_core rr)) /\ key_headers (uhdr (r_core rr)) /\
  exists w, payload (r_core rr) = Some w /\
    match r_class r with
    | RDirect => r' = r
    | RKeyWrap => r_core r' = r_core r /\ kw_encrypt X n (r_core r) [] = Ok w
    | RAgree => but_ephemeral (r_core r) (r_core r') /\ (ckey (r_core r) <> None -> r_core r' = r_core r)
    | RAgreeKW => kakw_encrypt X n (r_core r) = (r_core r', Ok w)
    end.

Lemma encode_lands : forall n r n' r' v ctx id h, law_wrap_some X -> law_oaep_some X -> headers_ok X (r_core r) -> simple r ->
  rcpt_encode X n r = ((n', r'), Ok v) ->
  data_value false (wire cls_fullname h v) = true /\
  exists rr, create_recipient X true ctx id (wire cls_fullname h v) = Ok rr /\ r_id rr = id /\ lands n r r' rr.
Proof.
  intros n r n' r' v ctx id h LW LO HO (HS & z & HZ & HG) H. apply encode_emits in H as (p & w & tail & -> & HP & HI & HC & HT & HM).
  rewrite (HT HS). clear HT.
  assert (HB : but_ephemeral (r_core r) (r_core r') /\ headers_ok X (r_core r') /\ acceptable (r_class r) z (r_core r') w).
  { destruct (r_class r) eqn:ER; cbn [acceptable class_algs] in *.
    - destruct HM as (-> & -> & a & HA & HN). split; [apply but_refl|]. split; [exact HO|]. split; [reflexivity|].
      intros ->. apply HN. rewrite HG in HA. injection HA as <-. reflexivity.
    - destruct HM as (-> & HM). split; [apply but_refl|]. split; [exact HO|]. split; [eapply kw_some; eassumption|eapply kw_phdr; exact HM].
    - destruct HM as (-> & (a & HA & HE) & HM). rewrite HG in HA. injection HA as <-.
      split; [destruct HM as [[_ ->]|(_ & pk & HM)]; [apply but_refl|eapply setup_but; exact HM]|].
      split; [destruct HM as [[_ ->]|(_ & pk & HM)]; [exact HO|eapply setup_headers; [exact HM|exact HO]]|].
      intros HEs. destruct HE as [HE|HE]; [exact HE|]. exfalso. cbn [es_hkdf In] in HEs.
      repeat (destruct HEs as [<-|HEs]; [discriminate|]). exact HEs.
    - pose proof (kakw_but X n _ _ _ HM) as [HB _]. split; [exact HB|].
      split; [destruct (kakw_state X n _ _ _ HM) as [[_ ->]|(_ & HSt & _)]; [exact HO|eapply setup_headers; [exact HSt|exact HO]]|].
      eapply kakw_some; [exact LW| |exact HG|exact HM]. exact HZ. }
  destruct HB as (HB & HO' & HAc).
  pose proof (but_get _ _ Algorithm HB eq_refl) as HG'. rewrite HG in HG'. pose proof (but_encoded _ _ HB) as HP'. rewrite HP in HP'.
  change (wire cls_fullname h (VList [VBytes p; VDict (uhdr (r_core r')); VBytes w]))
    with (VList [VBytes p; wire cls_fullname h (VDict (uhdr (r_core r'))); VBytes w]).
  split.
  { cbn [data_value forallb]. rewrite (uhdr_data X) by (apply HO'). reflexivity. }
  rewrite wire_dict.
  destruct (recipient_trip X (r_core r') p h w (r_class r) ctx id z HO' HP' HG' HZ HAc) as (rr & HCr & R1 & R2 & R3 & R4 & R5 & R6 & R7 & R8).
  exists rr. split; [exact HCr|]. split; [exact R1|]. unfold lands. do 8 (split; [first [assumption|reflexivity]|]). exists w. split; [assumption|].
  destruct (r_class r) eqn:ER.
  - apply HM.
  - rewrite HS in HM. exact HM.
  - split; [exact HB|]. intros HN. destruct HM as (_ & _ & [[_ HM]|[HM _]]); [exact HM|contradiction].
  - exact HM.
Qed.

(** The list. *)
Inductive all_land : list rcpt -> list rcpt -> list rcpt -> Prop :=
| AL_nil : all_land [] [] []
| AL_cons n r r' rr l l' ll : lands n r r' rr -> all_land l l' ll -> all_land (r :: l) (r' :: l') (rr :: ll).

Lemma list_lands : forall h ctx l n n' l' vs id, law_wrap_some X -> law_oaep_some X ->
  Forall (fun r => headers_ok X (r_core r) /\ simple r) l -> rcpts_encode X n l = ((n', l'), Ok vs) ->
  Forall (fun v => data_value false (wire cls_fullname h v) = true) vs /\
  exists rrs, create_all X true ctx id (map (wire cls_fullname h) vs) = Ok rrs /\ all_land l l' rrs.
Proof.
  intros h ctx l. induction l as [|r l IH]; intros n n' l' vs id LW LO HF H.
  - injection H as _ <- <-. split; [constructor|]. exists []. split; [reflexivity|constructor].
  - cbn [rcpts_encode] in H. inversion_clear HF as [|? ? [HO HS] HF']. destruct (rcpt_encode X n r) as [[n1 r'] [v|e]] eqn:ER; [|discriminate].
    destruct (rcpts_encode X n1 l) as [[n2 l2] [vs2|e]] eqn:EL; [|discriminate]. injection H as _ <- <-.
    destruct (encode_lands n r n1 r' v ctx id h LW LO HO HS ER) as (HD & rr & HC & HI & HL).
    destruct (IH n1 n2 l2 vs2 (N.succ id) LW LO HF' EL) as (HD2 & rrs & HC2 & HL2).
    split; [constructor; assumption|]. exists (rr :: rrs). split; [cbn [map create_all]; rewrite HC; cbn [bind]; rewrite HC2; reflexivity|].
    econstructor; eassumption.
Qed.

Lemma all_land_nth : forall l l' ll i r, all_land l l' ll -> nth_error l i = Some r ->
  exists n r' rr, nth_error l' i = Some r' /\ nth_error ll i = Some rr /\ lands n r r' rr.
Proof.
  intros l l' ll i r H. revert i. induction H as [|n r0 r' rr l l' ll HL HA IH]; intros i HI; [destruct i; discriminate|].
  destruct i as [|i]; [injection HI as <-; exists n, r', rr; auto|]. apply IH in HI. exact HI.
Qed.

Lemma all_land_classes : forall l l' ll, all_land l l' ll -> map r_class ll = map r_class l /\ length ll = length l.
Proof.
  intros l l' ll H. induction H as [|n r0 r' rr l l' ll HL HA [IH1 IH2]]; [auto|]. destruct HL as (_ & _ & HC & _).
  cbn [map length]. rewrite IH1, IH2, HC. auto.
Qed.

Lemma all_land_arrive : forall l l' ll, all_land l l' ll -> recipients_arrive l' ll.
Proof.
  intros l l' ll H. induction H as [|n r0 r' rr l l' ll HL HA IH]; constructor; [|exact IH].
  destruct HL as (_ & E1 & E2 & E3 & E4 & _). rewrite E1, E2. auto.
Qed.

(** ** The content key *)

(** [r2] is [r1] after its content key was wrapped. *)
Definition prepared (r1 r2 : rcpt) : Prop :=
  r_id r2 = r_id r1 /\ r_class r2 = r_class r1 /\ r_subs r2 = r_subs r1 /\
  ((ckey (r_core r1) <> None /\ r_core r2 = r_core r1) \/
   (r_class r1 = RAgreeKW /\ ckey (r_core r1) = None /\
    exists n a, setup_ephemeral X n (r_core r1) (dget_or (local (r_core r1)) StaticKey VNone) = (r_core r2, Ok tt) /\
      get_attr (r_core r1) Algorithm = Ok a /\ alg_in a es_kw = Ok true)).

Lemma encrypt_prepared : forall n r r2 w, wraps r -> rcpt_encrypt X n r = (r2, Ok w) -> prepared r r2.
Proof.
  intros n [id rc c ctx subs] r2 w [HW|HW] H; cbn [r_class] in HW; subst rc; cbn [rcpt_encrypt] in H.
  - apply pair_equal_spec in H as [<- H]. unfold prepared. do 3 (split; [reflexivity|]). left. split; [|reflexivity].
    cbn [r_core]. intros HN. destruct (kw_no_key X n c subs HN) as [e HE]. congruence.
  - destruct (kakw_encrypt X n c) as [c' x] eqn:EK. apply pair_equal_spec in H as [<- ->]. unfold prepared. cbn [r_with r_id r_class r_subs r_core].
    do 3 (split; [reflexivity|]). destruct (kakw_state X n c c' w EK) as [[HK ->]|(HK & HS & a & HA & HI)]; [left; auto|].
    right. split; [reflexivity|]. split; [exact HK|]. exists n, a. auto.
Qed.

Definition filled (r : rcpt) (K : bytes) : rcpt := r_with r (with_payload (r_core r) (Some K)).
Definition ready (r : rcpt) (K : bytes) (r2 : rcpt) : Prop := prepared (filled r K) r2.

(** The content keys the recipients end up with. *)
Definition content (K : bytes) (r : rcpt) : bytes :=
  match payload (r_core r) with Some [] | None => K | Some k => k end.
Fixpoint contents (K : bytes) (l : list rcpt) : list bytes :=
  match l with
  | [] => []
  | r :: l' => content K r :: contents (content K r) l'
  end.

Lemma filled_same : forall r K, payload (r_core r) = Some K -> filled r K = r.
Proof. intros [id rc [] ctx subs] K H. cbn in H. subst. reflexivity. Qed.

Lemma wrap_payload : forall n r r2 w, wraps r -> rcpt_encrypt X n r = (r2, Ok w) -> payload (r_core r) <> None.
Proof.
  assert (HN : forall n a k w, alg_key_wrap X n a k VNone = Ok w -> False).
  { intros n a k w H. unfold alg_key_wrap in H. destruct (alg_kind a) as [[]|]; try discriminate; apply bind_ok in H as (? & _ & H); discriminate. }
  intros n [id rc c ctx subs] r2 w [HW|HW] H; cbn [r_class] in HW; subst rc; cbn [rcpt_encrypt r_core] in *; intros EP.
  - apply pair_equal_spec in H as [_ H]. unfold kw_encrypt in H. rewrite EP in H. cbn [vopt] in H. apply bind_ok in H as (a & _ & H).
    destruct (negb _); [discriminate|]. destruct (is_none a); [discriminate|]. apply bind_ok in H as (kw & _ & H). destruct kw.
    + do 3 (apply bind_ok in H as (? & _ & H)). eauto.
    + apply bind_ok in H as (oa & _ & H). destruct oa; [|discriminate]. destruct (ckey c); [|discriminate]. apply bind_ok in H as (? & _ & H). eauto.
  - destruct (kakw_encrypt X n c) as [c' x] eqn:EK. apply pair_equal_spec in H as [_ ->].
    destruct (kakw_but X n c c' w EK) as [(_ & _ & _ & _ & HPl & _) _].
    unfold kakw_encrypt in EK. destruct (is_none _); [discriminate|]. destruct (get_attr c Algorithm) as [a|e]; [|discriminate].
    destruct (is_none a); [discriminate|].
    match type of EK with (let '(_, _) := ?t in _) = _ => destruct t as [c2 r] end. apply pair_equal_spec in EK as [<- H].
    do 5 (apply bind_ok in H as (? & _ & H)). rewrite HPl, EP in H. eauto.
Qed.

Inductive all_ready : list rcpt -> list bytes -> list rcpt -> Prop :=
| AR_nil : all_ready [] [] []
| AR_cons r k r2 l ks l2 : ready r k r2 -> all_ready l ks l2 -> all_ready (r :: l) (k :: ks) (r2 :: l2).

Lemma last_cons : forall (A : Type) (l : list A) x d, last (x :: l) d = last l x.
Proof.
  intros A l. induction l as [|y l IH]; intros x d; [reflexivity|].
  change (last (x :: y :: l) d) with (last (y :: l) d). rewrite !IH. reflexivity.
Qed.

Lemma cek_ready : forall l n K n' l' kb, Forall wraps l -> cek_loop X n (VBytes K) l = ((n', l'), Ok kb) ->
  all_ready l (contents K l) l' /\ kb = VBytes (last (contents K l) K).
Proof.
  induction l as [|r l IH]; intros n K n' l' kb HF H.
  - injection H as _ <- <-. split; [constructor|reflexivity].
  - cbn [cek_loop] in H. inversion_clear HF as [|? ? HW HF'].
    assert (HR : exists k r2 w n2 l2, content K r = k /\
      rcpt_encrypt X n (filled r k) = (r2, Ok w) /\ cek_loop X (N.succ n) (VBytes k) l = ((n2, l2), Ok kb) /\ l' = r2 :: l2).
    { unfold content. destruct (payload (r_core r)) as [[|b0 b]|] eqn:EP.
      - fold (filled r K) in H. destruct (rcpt_encrypt X n (filled r K)) as [r2 [w|e]] eqn:EE; [|discriminate].
        destruct (cek_loop X (N.succ n) (VBytes K) l) as [[n2 l2] x] eqn:EL. injection H as _ <- ->. exists K, r2, w, n2, l2. auto.
      - destruct (rcpt_encrypt X n r) as [r2 [w|e]] eqn:EE; [|discriminate]. cbn [vopt] in H.
        destruct (cek_loop X (N.succ n) (VBytes (b0 :: b)) l) as [[n2 l2] x] eqn:EL. injection H as _ <- ->. exists (b0 :: b), r2, w, n2, l2.
        rewrite filled_same by exact EP. auto.
      - destruct (rcpt_encrypt X n r) as [r2 [w|e]] eqn:EE; [|discriminate]. exfalso. exact (wrap_payload n r r2 w HW EE EP). }
    destruct HR as (k & r2 & w & n2 & l2 & Ek & HE & HL & ->). apply IH in HL as [HL ->]; [|exact HF'].
    cbn [contents]. rewrite Ek. split; [|rewrite last_cons; reflexivity]. constructor; [|exact HL].
    apply (encrypt_prepared n _ _ w); [|exact HE]. destruct r as [id rc c ctx subs]. exact HW.
Qed.

Lemma one_key_contents : forall K l, one_content_key l -> exists k, last (contents K l) K = k /\ Forall (fun x => x = k) (contents K l).
Proof.
  assert (H0 : forall k l, (forall r, In r l -> payload (r_core r) = Some [] \/ payload (r_core r) = Some k) ->
     last (contents k l) k = k /\ Forall (fun x => x = k) (contents k l)).
  { intros k l. induction l as [|r l IH]; intros H; [split; [reflexivity|constructor]|]. cbn [contents].
    assert (E : content k r = k) by (unfold content; destruct (H r (or_introl eq_refl)) as [-> | ->]; [reflexivity|destruct k; reflexivity]).
    rewrite E, last_cons. destruct IH as [I1 I2]; [intros; apply H; right; assumption|]. split; [exact I1|]. constructor; [reflexivity|exact I2]. }
  intros K l [H|(r0 & rest & k & -> & HN & HP & H)].
  - exists K. apply H0. intros r HI. left. auto.
  - exists k. assert (E : content K r0 = k) by (unfold content; rewrite HP; destruct k; congruence). cbn [contents]. rewrite E, last_cons.
    destruct (H0 k rest H) as [H1 H2]. split; [exact H1|]. constructor; [reflexivity|exact H2].
Qed.
End Trip.
