(** Encoding COSE_Encrypt and COSE_Mac again (C128). *)
From Coq Require Import NArith ZArith Bool String Lia.
From Coq Require Import Init.Byte List.
From Verif Require Import Bytes BytesProofs Value ValueProofs Cbor CborProofs Registry Crypto SpecCrypto Keys Algorithms Headers Messages Recipients
  SpecAlg SpecMsg SpecRcpt RcptProofs SpecRcptTrip RcptTrip RcptTrip2 RcptTrip4 AcceptProofs SpecAgain AgainProofs.
Import ListNotations.
Local Open Scope result_scope.

Section Again.
Variable X : crypto.

(** ** The loop over the recipients *)

Definition encrypts (r : rcpt) : Prop := exists w, forall n, rcpt_encrypt X n r = (r, Ok w).
Definition filled_in (r : rcpt) : Prop := exists b p, payload (r_core r) = Some (b :: p).
Definition final (kb : pyval) (l : list rcpt) : pyval := fold_left (fun _ r => vopt (payload (r_core r))) l kb.

Lemma kw_keyed : forall n c subs w, kw_encrypt X n c subs = Ok w -> ckey c <> None.
Proof.
  intros n c subs w H E. unfold kw_encrypt in H. apply bind_ok in H as (a & _ & H). destruct (negb (Nat.eqb _ 0)); [discriminate|].
  destruct (is_none a); [discriminate|]. apply bind_ok in H as ([] & _ & H).
  - unfold kw_kek_encrypt in H. rewrite E in H. apply bind_ok in H as (kb & H & _). destruct subs; [discriminate|]. apply bind_ok in H as (u & _ & H).
    destruct (has_class RAgree _); [discriminate|]. destruct (_ || _); [|discriminate]. apply bind_ok in H as (? & _ & H). discriminate H.
  - apply bind_ok in H as ([] & _ & H); [|discriminate]. rewrite E in H. discriminate H.
Qed.

Lemma encrypts_keyed : forall r, encrypts r -> ckey (r_core r) <> None.
Proof.
  intros [id rc c ctx subs] (w & H). specialize (H 0%N). cbn [r_core rcpt_encrypt] in *. destruct rc; try discriminate H.
  - apply pair_equal_spec in H as [_ H]. exact (kw_keyed _ _ _ _ H).
  - destruct (kakw_encrypt X 0 c) as [c' x] eqn:E. apply pair_equal_spec in H as [H ->]. cbn [r_with] in H. injection H as ->.
    exact (proj2 (kakw_but X _ _ _ _ E)).
Qed.

Lemma encrypts_kept : forall r r1, encrypts r -> no_oaep r -> same_but r r1 -> encrypts r1.
Proof.
  intros r r1 HE HO (HC & _ & HK). specialize (HK (encrypts_keyed r HE)). destruct HE as (w & HE).
  destruct HO as [id rc c ctx subs HO _]. destruct r1 as [id1 rc1 c1 ctx1 subs1]. cbn [r_class r_core] in *. subst rc1 c1.
  exists w. intros n. specialize (HE n). cbn [rcpt_encrypt] in *. destruct rc; try discriminate HE.
  - apply pair_equal_spec in HE as [_ H]. rewrite (proj1 (kw_again X n n c subs subs1 w HO H)). reflexivity.
  - destruct (kakw_encrypt X n c) as [c' x]. apply pair_equal_spec in HE as [H ->]. cbn [r_with] in *. injection H as ->. reflexivity.
Qed.

Lemma no_oaep_with : forall id rc c c1 ctx subs, no_oaep (Rcpt id rc c ctx subs) -> get_attr c1 Algorithm = get_attr c Algorithm ->
  no_oaep (Rcpt id rc c1 ctx subs).
Proof.
  intros id rc c c1 ctx subs H E. inversion H as [? ? ? ? ? HO HS]; subst. constructor; [|exact HS].
  intros (z & HZ & HG). apply HO. exists z. split; [exact HZ|congruence].
Qed.

Lemma encrypt_again : forall n r r1 w, no_oaep r -> rcpt_encrypt X n r = (r1, Ok w) ->
  encrypts r1 /\ no_oaep r1 /\ r_class r1 = r_class r /\ payload (r_core r1) = payload (r_core r) /\ payload (r_core r1) <> None.
Proof.
  intros n r r1 w HO H. destruct r as [id rc c ctx subs]. cbn [rcpt_encrypt] in H. destruct rc; try discriminate H.
  - apply pair_equal_spec in H as [<- H]. inversion HO as [? ? ? ? ? HO1 HS]; subst.
    split; [|split; [exact HO|]; split; [reflexivity|]; split; [reflexivity|]; exact (proj2 (kw_again X n n c subs subs w HO1 H))].
    exists w. intros n0. cbn [rcpt_encrypt]. rewrite (proj1 (kw_again X n n0 c subs subs w HO1 H)). reflexivity.
  - destruct (kakw_encrypt X n c) as [c' x] eqn:E. apply pair_equal_spec in H as [<- ->]. cbn [r_with r_core r_class].
    pose proof (kakw_but X n c c' w E) as [HB _]. split; [|split; [|split; [reflexivity|]; split]].
    + exists w. intros n0. cbn [rcpt_encrypt]. rewrite (proj1 (kakw_again X n n0 c c' w E)). reflexivity.
    + apply (no_oaep_with _ _ c); [exact HO|]. exact (but_get c c' Algorithm HB eq_refl).
    + apply HB.
    + exact (proj2 (kakw_again X n n c c' w E)).
Qed.

Lemma loop_first : forall l n K n' l1 k1, K <> [] -> Forall no_oaep l -> cek_loop X n (VBytes K) l = ((n', l1), Ok k1) ->
  Forall (fun r => encrypts r /\ no_oaep r /\ filled_in r) l1 /\ map r_class l1 = map r_class l /\ k1 = final (VBytes K) l1.
Proof.
  induction l as [|r l IH]; intros n K n' l1 k1 HK HF H; cbn [cek_loop] in H.
  - injection H as _ <- <-. split; [constructor|]. split; reflexivity.
  - inversion_clear HF as [|? ? HR HFl].
    assert (HS : exists r1 K1, K1 <> [] /\ no_oaep r1 /\ r_class r1 = r_class r /\
      (payload (r_core r1) = Some K1 \/ payload (r_core r1) = None) /\
      match rcpt_encrypt X n r1 with
      | (r2, Err e) => ((N.succ n, r2 :: l), Err e)
      | (r2, Ok _) => match cek_loop X (N.succ n) (vopt (payload (r_core r1))) l with ((n0, l''), x) => ((n0, r2 :: l''), x) end
      end = ((n', l1), Ok k1)).
    { destruct r as [id rc c ctx subs]. cbn [r_core] in H. destruct (payload c) as [[|b p]|] eqn:EP; cbn [r_with] in H.
      - exists (Rcpt id rc (with_payload c (Some K)) ctx subs), K. split; [exact HK|].
        split; [apply (no_oaep_with _ _ c); [exact HR|reflexivity]|]. split; [reflexivity|]. split; [left; reflexivity|]. exact H.
      - exists (Rcpt id rc c ctx subs), (b :: p). split; [discriminate|]. split; [exact HR|]. split; [reflexivity|]. cbn [r_core]. rewrite EP.
        split; [left; reflexivity|]. exact H.
      - exists (Rcpt id rc c ctx subs), K. split; [exact HK|]. split; [exact HR|]. split; [reflexivity|]. cbn [r_core]. rewrite EP.
        split; [right; reflexivity|]. exact H. }
    clear H. destruct HS as (r1 & K1 & HK1 & HR1 & HC1 & HP1 & H). destruct (rcpt_encrypt X n r1) as [r2 [w|e]] eqn:ER; [|discriminate].
    apply encrypt_again in ER as (E1 & E2 & E3 & E4 & E5); [|exact HR1]. rewrite E4 in E5. destruct HP1 as [HP1|HP1]; [|congruence].
    rewrite HP1 in *. cbn [vopt] in H. destruct (cek_loop X (N.succ n) (VBytes K1) l) as [[n2 l2] x] eqn:EL. injection H as _ <- ->.
    apply IH in EL as (I1 & I2 & I3); [|exact HK1|exact HFl]. split.
    { constructor; [|exact I1]. split; [exact E1|]. split; [exact E2|]. unfold filled_in. rewrite E4. destruct K1 as [|b p]; [congruence|]. eauto. }
    split; [cbn [map]; congruence|]. rewrite I3. unfold final. cbn [fold_left]. rewrite E4. reflexivity.
Qed.

Lemma loop_again : forall l n kb, Forall (fun r => encrypts r /\ filled_in r) l ->
  exists n', cek_loop X n kb l = ((n', l), Ok (final kb l)).
Proof.
  induction l as [|r l IH]; intros n kb HF; [eexists; reflexivity|]. inversion HF as [|? ? [HE (b & p & HP)] HFl]; subst. destruct HE as (w & HE).
  cbn [cek_loop]. rewrite HP. cbn [vopt]. rewrite (HE n). destruct (IH (N.succ n) (VBytes (b :: p)) HFl) as (n' & ->). eexists.
  unfold final. cbn [fold_left]. rewrite HP. reflexivity.
Qed.

Lemma final_some : forall l kb kb', l <> [] -> final kb l = final kb' l.
Proof. intros [|r l] kb kb' H; [congruence|reflexivity]. Qed.

Lemma final_kept : forall l l', Forall2 same_but l l' -> forall kb, final kb l' = final kb l.
Proof.
  intros l l' H. induction H as [|r r' l l' (_ & HP & _) H IH]; intros kb; [reflexivity|]. unfold final in *. cbn [fold_left]. rewrite HP. apply IH.
Qed.

Lemma class_eqs : forall l l', map r_class l' = map r_class l ->
  (forall rc, has_class rc l' = has_class rc l) /\ verify_recipients l' = verify_recipients l.
Proof.
  intros l l' H. assert (H1 : forall rc, has_class rc l' = has_class rc l).
  { intros rc. unfold has_class. revert l H. induction l' as [|r l' IH]; intros [|r0 l] H; try discriminate; [reflexivity|].
    injection H as H0 H. cbn [existsb]. rewrite H0, (IH _ H). reflexivity. }
  split; [exact H1|]. unfold verify_recipients, n_classes. cbn [filter]. rewrite !H1.
  apply (f_equal (@List.length _)) in H. rewrite !map_length in H. rewrite H. reflexivity.
Qed.

Lemma same_classes : forall l l', Forall2 same_but l l' -> map r_class l' = map r_class l.
Proof. intros l l' H. induction H as [|r r' l l' (HC & _) H IH]; [reflexivity|]. cbn [map]. congruence. Qed.

Lemma cek_again : forall r r1 t k, compute_cek X r t false = Ok k -> same_but r r1 -> compute_cek X r1 t false = Ok k.
Proof.
  intros r r1 t k H (HC & HP & HK). unfold compute_cek in *. rewrite HC. destruct (r_class r) eqn:EC.
  - discriminate H.
  - rewrite HP. exact H.
  - rewrite HK; [exact H|]. intros E. apply bind_ok in H as (k0 & H & _). unfold agree_compute_cek in H.
    apply bind_ok in H as (a & _ & H). apply bind_ok in H as (u & _ & H). destruct (negb u); [discriminate|].
    apply bind_ok in H as (pk & _ & H). destruct (is_none pk); [discriminate|]. apply bind_ok in H as (p & _ & H). apply bind_ok in H as (? & _ & H).
    rewrite E in H. discriminate H.
  - rewrite HP. exact H.
Qed.

(** ** COSE_Encrypt *)

Lemma key_length_pos : forall a n, get_key_length a = Ok n -> n <> 0.
Proof.
  intros a n H E. subst n. unfold get_key_length in H. destruct (alg_kind a) as [k|] eqn:EK; [|discriminate].
  apply kind_in in EK as (z & _ & EK). unfold alg_defs in EK. cbn [In] in EK.
  repeat (destruct EK as [EK|EK]; [injection EK as _ <-; discriminate H|]). destruct EK.
Qed.

Lemma with_key_twice : forall c k k', with_key (with_key c k) k' = with_key c k'.
Proof. intros [q1 q2 q3 q4 q5 q6 q7 q8] k k'. reflexivity. Qed.

(** After [encrypt], whatever [encode] does to the recipients, [encrypt] gives the same again. *)
Lemma encm_encrypt_again : forall n m n1 m1 b, law_urandom_len X -> Forall no_oaep (e_rcpts m) -> encm_encrypt X n m = ((n1, m1), Ok b) ->
  Forall no_oaep (e_rcpts m1) /\ phdr_encoded (e_core m1) = phdr_encoded (e_core m) /\
  forall rs2, Forall2 same_but (e_rcpts m1) rs2 -> forall n', exists n2, encm_encrypt X n' (EncMsg (e_core m1) rs2) = ((n2, EncMsg (e_core m1) rs2), Ok b).
Proof.
  intros n [c rs] n1 m1 b LU HO H. unfold encm_encrypt in H. cbn [e_core e_rcpts] in *.
  destruct (bind (get_attr c Algorithm) _) as [t|e] eqn:EA; [|discriminate].
  apply bind_ok in EA as (t' & EA & EV). apply bind_ok in EV as (u & EV & ET). injection ET as ->.
  destruct (has_class RDirect rs) eqn:ED.
  { apply pair_equal_spec in H as [H1 H]. apply pair_equal_spec in H1 as [_ <-]. cbn [e_core e_rcpts]. split; [exact HO|]. split; [reflexivity|].
    intros rs2 HS n'. destruct (class_eqs _ _ (same_classes _ _ HS)) as [HC HV]. exists n'. unfold encm_encrypt. cbn [e_core e_rcpts].
    rewrite EA, HV, EV. cbn [bind]. rewrite HC, ED, H. reflexivity. }
  destruct (has_class RAgree rs) eqn:EG.
  { destruct rs as [|r rs]; [discriminate|]. destruct (compute_cek X r t false) as [k|e] eqn:EK; [|discriminate].
    apply pair_equal_spec in H as [H1 H]. apply pair_equal_spec in H1 as [_ <-]. cbn [e_core e_rcpts]. split; [exact HO|]. split; [reflexivity|].
    intros rs2 HS n'. destruct (class_eqs _ _ (same_classes _ _ HS)) as [HC HV]. exists n'. unfold encm_encrypt. cbn [e_core e_rcpts].
    change (get_attr (with_key c k) Algorithm) with (get_attr c Algorithm). rewrite EA, HV, EV. cbn [bind]. rewrite !HC, ED, EG.
    inversion HS as [|? r2 ? rs2' HS1 HS2]; subst. rewrite (cek_again _ _ _ _ EK HS1), with_key_twice, H. reflexivity. }
  destruct (has_class RKeyWrap rs || has_class RAgreeKW rs) eqn:EW; [|discriminate].
  destruct (get_key_length t) as [len|e] eqn:EL; [|discriminate].
  destruct (cek_loop X (N.succ n) _ rs) as [[n2 rs1] [kb|e]] eqn:EC; [|discriminate].
  apply loop_first in EC as (L1 & L2 & ->); [|intros E; apply (f_equal (@List.length _)) in E; rewrite LU in E; exact (key_length_pos _ _ EL E)|exact HO].
  destruct (sym_with _ t [EncryptOp]) as [k|e] eqn:ES; [|discriminate].
  apply pair_equal_spec in H as [H1 H]. apply pair_equal_spec in H1 as [_ <-]. cbn [e_core e_rcpts].
  split; [eapply Forall_impl; [|exact L1]; cbn beta; tauto|]. split; [reflexivity|].
  intros rs2 HS n'. destruct (class_eqs _ _ (same_classes _ _ HS)) as [HC HV]. destruct (class_eqs _ _ L2) as [HC1 HV1].
  assert (HN : rs2 <> []).
  { intros ->. inversion HS. subst rs1. destruct rs; [discriminate EW|discriminate L2]. }
  assert (HF : Forall (fun r => encrypts r /\ filled_in r) rs2).
  { clear - HS L1. induction HS as [|r r2 rs1 rs2 H1 HS IH]; [constructor|]. inversion_clear L1 as [|? ? (E1 & E2 & E3) L]. constructor; [|exact (IH L)].
    split; [exact (encrypts_kept _ _ E1 E2 H1)|]. destruct H1 as (_ & HP & _). unfold filled_in. rewrite HP. exact E3. }
  unfold encm_encrypt. cbn [e_core e_rcpts]. change (get_attr (with_key c (Some k)) Algorithm) with (get_attr c Algorithm).
  rewrite EA, HV, HV1, EV. cbn [bind]. rewrite !HC, !HC1, ED, EG, EW, EL.
  destruct (loop_again rs2 (N.succ n') (VBytes (x_urandom X n' len)) HF) as (n3 & ->).
  rewrite (final_some rs2 _ (VBytes (x_urandom X n len)) HN), (final_kept _ _ HS), ES, with_key_twice, H. exists n3. reflexivity.
Qed.

Lemma same_refl : forall l, Forall2 same_but l l.
Proof. induction l; constructor; [repeat (split; [reflexivity|]); reflexivity|assumption]. Qed.

Theorem encm_encode_again : forall n m t e n1 m1 b, law_urandom_len X -> Forall no_oaep (e_rcpts m) ->
  encm_encode X n m t e = ((n1, m1), Ok b) -> forall n', exists n2, encm_encode X n' m1 t e = ((n2, m1), Ok b).
Proof.
  intros n m t e n1 m1 b LU HO H n'. unfold encm_encode in H. destruct (phdr_encoded (e_core m)) as [p|] eqn:EP; [|discriminate].
  assert (HS : exists n2 m2 v, phdr_encoded (e_core m2) = Ok p /\ Forall no_oaep (e_rcpts m2) /\
    (forall rs2, Forall2 same_but (e_rcpts m2) rs2 -> exists n3,
      (if e then let '(s, x) := encm_encrypt X n' (EncMsg (e_core m2) rs2) in (s, bind x (fun b => Ok (VBytes b)))
       else ((n', EncMsg (e_core m2) rs2), Ok (vopt (payload (e_core m2))))) = ((n3, EncMsg (e_core m2) rs2), Ok v)) /\
    match e_rcpts m2 with
    | [] => ((n2, m2), emit (e_core m2) 96 t [VBytes p; VDict (uhdr (e_core m2)); v])
    | rs =>
      match get_attr (e_core m2) Algorithm with
      | Err e => ((n2, m2), Err e)
      | Ok _ =>
        match rcpts_encode X n2 rs with
        | ((n3, rs'), Err e) => ((n3, EncMsg (e_core m2) rs'), Err e)
        | ((n3, rs'), Ok vs) => ((n3, EncMsg (e_core m2) rs'), emit (e_core m2) 96 t ([VBytes p; VDict (uhdr (e_core m2)); v] ++ [VList vs]))
        end
      end
    end = ((n1, m1), Ok b)).
  { destruct e.
    - destruct (encm_encrypt X n m) as [[n2 m2] [x|x]] eqn:EE; cbn [bind] in H; [|discriminate].
      apply encm_encrypt_again in EE as (E1 & E2 & E3); [|exact LU|exact HO]. exists n2, m2, (VBytes x). split; [congruence|]. split; [exact E1|].
      split; [|exact H]. intros rs2 HS. destruct (E3 rs2 HS n') as (n3 & ->). exists n3. reflexivity.
    - exists n, m, (vopt (payload (e_core m))). split; [exact EP|]. split; [exact HO|]. split; [|exact H]. intros rs2 _. exists n'. reflexivity. }
  clear H. destruct HS as (n2 & m2 & v & E1 & E2 & E3 & H). destruct m2 as [c2 rs2]. cbn [e_core e_rcpts] in *.
  destruct rs2 as [|r rs2].
  - apply pair_equal_spec in H as [H1 H]. apply pair_equal_spec in H1 as [_ <-]. unfold encm_encode. cbn [e_core e_rcpts]. rewrite E1.
    destruct (E3 [] (Forall2_nil _)) as (n3 & ->). cbn [e_core e_rcpts]. rewrite H. exists n3. reflexivity.
  - destruct (get_attr c2 Algorithm) as [a|] eqn:EA; [|discriminate]. destruct (rcpts_encode X n2 (r :: rs2)) as [[n3 rs'] [vs|]] eqn:ER; [|discriminate].
    apply rcpts_again in ER as [A1 A2]; [|exact E2]. apply pair_equal_spec in H as [H1 H]. apply pair_equal_spec in H1 as [_ <-].
    unfold encm_encode. cbn [e_core e_rcpts]. rewrite E1. destruct (E3 rs' A2) as (n4 & ->). cbn [e_core e_rcpts].
    destruct rs' as [|r' rs']; [inversion A2|]. rewrite EA. destruct (A1 n4) as (n5 & ->). rewrite H. exists n5. reflexivity.
Qed.
End Again.
