(** Proofs for C105: messages with recipients, and exceptions. *)
From Coq Require Import NArith ZArith Bool String Lia.
From Coq Require Import Init.Byte List.
From Verif Require Import Bytes Value Registry Crypto Keys Algorithms Headers Messages Recipients SpecKeys SpecStruct SpecAlg SpecAccept SpecCheck SpecSend SpecRcpt SpecIncomplete
  ValueProofs KeyProofs2 KeyProofs3 MsgTrip AcceptProofs CheckProofs CheckProofs2 SendProofs RcptProofs RcptTrip CekProofs IncProofs.
Import ListNotations.
Local Open Scope result_scope.

Section Inc.
Variable X : crypto.

(** ** Wrapping *)

Lemma kw_ready : forall n c subs b, typed_key c -> kw_encrypt X n c subs = Ok b -> phdr c = [] /\ wrapping c /\ payload c <> None.
Proof.
  intros n c subs b HT H. unfold kw_encrypt in H. apply bind_ok in H as (a & HA & H).
  destruct (phdr c) as [|? ?] eqn:EP; [|discriminate]. split; [reflexivity|]. cbn [length Nat.eqb negb] in H.
  destruct (is_none a); [discriminate|]. apply bind_ok in H as (kw & HKW & H). destruct kw.
  - destruct (alg_in_alg _ _ _ HKW eq_refl) as (z & HZ & ->). apply bind_ok in H as (kb & HKB & H). apply bind_ok in H as (kek & HS & H).
    apply bind_ok in H as (u & _ & H). apply sym_init_secret in HS as (s & -> & HS).
    assert (HE : exists m, In (z, m) aes_wraps /\ alg_kind (alg z) = Some (AKw m)).
    { cbn in HZ. destruct HZ as [<-|[<-|[<-|[]]]]; [exists 16|exists 24|exists 32]; (split; [cbn; auto|vm_compute; reflexivity]). }
    destruct HE as (m & HM & EK). unfold alg_key_wrap in H. rewrite EK in H. apply bind_ok in H as (s' & HS' & H). apply bind_ok in H as (d & HD & _).
    split; [|destruct (payload c); [discriminate|discriminate HD]]. left. unfold kw_key in HS'. rewrite HS in HS'. cbn [bind py_len] in HS'.
    destruct (Nat.eqb m (length s)) eqn:EL; [|discriminate]. apply Nat.eqb_eq in EL.
    unfold kw_kek_encrypt in HKB. destruct (ckey c) as [k|] eqn:EC.
    + exists z, m, k, s. auto.
    + destruct subs as [|r l]; [discriminate|]. apply bind_ok in HKB as (? & _ & HKB). destruct (has_class RAgree _); [discriminate|].
      destruct (_ || _); [|discriminate]. apply bind_ok in HKB as (? & _ & HKB). discriminate.
  - apply bind_ok in H as (oa & HOA & H). destruct oa; [|discriminate]. destruct (alg_in_alg _ _ _ HOA eq_refl) as (z & HZ & ->).
    destruct (ckey c) as [k|] eqn:EC; [|discriminate]. apply bind_ok in H as (u & HV & H).
    destruct (verify_permits c z k KRSA [Cls FOps 5; Cls FOps 3] u (HT k EC) HA EC HV) as [HP HC]. split.
    + right. exists z, k. auto.
    + assert (HE : exists h, alg_kind (alg z) = Some (AOaep h)) by (cbn in HZ; destruct HZ as [<-|[<-|[<-|[]]]]; eexists; vm_compute; reflexivity).
      destruct HE as [h EK]. unfold alg_key_wrap in H. rewrite EK in H. apply bind_ok in H as (? & _ & H). apply bind_ok in H as (d & HD & _).
      destruct (payload c); [discriminate|discriminate HD].
Qed.

Lemma agree_static : forall c t pk lk a b, agree_kek X c t pk lk a = Ok b -> exists p k, pk = kval p /\ lk = Some k.
Proof.
  intros c t pk lk a b H. unfold agree_kek in H. apply bind_ok in H as (? & _ & H). apply bind_ok in H as (p & HP & H).
  apply bind_ok in H as (? & _ & H). apply bind_ok in H as (? & _ & H). apply bind_ok in H as (k & HK & _).
  unfold peer in HP. destruct pk; try discriminate. cbn in HP. injection HP as <-. destruct lk; [|discriminate]. eexists (Key _ _ _). eexists. split; reflexivity.
Qed.

Lemma local_static : forall c p, dget_or (local c) StaticKey VNone = kval p -> dget (local c) StaticKey = Some (kval p).
Proof. intros c p H. unfold dget_or in H. destruct (dget (local c) StaticKey); [congruence|discriminate]. Qed.

Lemma wrap_kinds : forall z w, alg_kind (alg z) = Some (AEcdhKW w) -> In z [-29; -30; -31; -32; -33; -34]%Z.
Proof.
  intros z w H. destruct (kind_in _ _ H) as (z' & E & HI). injection E as <-. clear H.
  assert (HF : forallb (fun e => match snd e with AEcdhKW _ => existsb (Z.eqb (fst e)) [-29; -30; -31; -32; -33; -34]%Z | _ => true end) alg_defs = true)
    by (vm_compute; reflexivity).
  rewrite forallb_forall in HF. specialize (HF _ HI). cbn [fst snd] in HF. apply existsb_exists in HF as (y & HY & E). apply Z.eqb_eq in E. subst y. exact HY.
Qed.

Lemma setup_fields : forall n c pk c1 r, setup_ephemeral X n c pk = (c1, r) -> payload c1 = payload c /\ phdr c1 = phdr c /\ phdr_raw c1 = phdr_raw c.
Proof.
  intros n c pk c1 r H. unfold setup_ephemeral in H. destruct (_ <- peer pk ;; _) as [k|x]; [|injection H as <- _; auto].
  destruct (get_attr _ _) as [v|x]; [|injection H as <- _; auto]. destruct (negb _); [injection H as <- _; auto|]. destruct (dmem _ _); injection H as <- _; auto.
Qed.

Lemma wrapped_payload : forall n a k p b, alg_key_wrap X n a k (vopt p) = Ok b -> p <> None.
Proof.
  intros n a k p b H. unfold alg_key_wrap in H. destruct p; [discriminate|].
  destruct (alg_kind a) as [[]|]; try discriminate; apply bind_ok in H as (? & _ & H); discriminate.
Qed.

Lemma kakw_ready : forall n c c' b, kakw_encrypt X n c = (c', Ok b) ->
  exists z p, get_attr c Algorithm = Ok (alg z) /\ In z [-29; -30; -31; -32; -33; -34]%Z /\ dget (local c) StaticKey = Some (kval p) /\
    ((exists k, ckey c = Some k) \/ In z [-29; -30; -31]%Z) /\ payload c <> None.
Proof.
  intros n c c' b H. unfold kakw_encrypt in H. cbv zeta in H. destruct (is_none (dget_or (local c) StaticKey VNone)); [discriminate|].
  destruct (get_attr c Algorithm) as [a|x] eqn:EA; [|discriminate]. destruct (is_none a); [discriminate|].
  destruct (ckey c) as [k|] eqn:EK.
  - injection H as <- H. cbn [bind] in H. apply bind_ok in H as (a' & HA' & H). rewrite EA in HA'. injection HA' as <-.
    apply bind_ok in H as (wf & HW & H). apply bind_ok in H as (kb & HK & H).
    apply bind_ok in H as (kek & _ & H). apply agree_static in HK as (p & k' & HP & _). apply local_static in HP.
    unfold get_key_wrap_func in HW. destruct (alg_kind a) as [q|] eqn:EQ; [|discriminate]. destruct (kind_in a q EQ) as (z & -> & _). destruct q; try discriminate.
    + exists z, p. split; [reflexivity|]. split; [eapply wrap_kinds; exact EQ|]. split; [exact HP|]. split; [left; eauto|]. eapply wrapped_payload; exact H.
    + injection HW as <-. discriminate H.
  - destruct (alg_in a es_kw) as [[]|] eqn:EI; [|injection H as _ H; discriminate|injection H as _ H; discriminate].
    destruct (alg_in_alg _ _ _ EI eq_refl) as (z & HZ & ->). destruct (setup_ephemeral X n c _) as [c1 r] eqn:ES. destruct (setup_fields _ _ _ _ _ ES) as (HPL & _).
    injection H as <- H. apply bind_ok in H as (u & _ & H). apply bind_ok in H as (a' & HA' & H). apply bind_ok in H as (wf & _ & H).
    apply bind_ok in H as (kb & HK & H). apply bind_ok in H as (kek & _ & H). apply agree_static in HK as (p & k' & HP & _). apply local_static in HP.
    exists z, p. split; [reflexivity|]. split; [cbn in HZ |- *; tauto|]. split; [exact HP|]. split; [right; exact HZ|]. rewrite <- HPL. eapply wrapped_payload; exact H.
Qed.

Lemma agree_ready : forall c t k, agree_compute_cek X c t false = Ok k ->
  exists z p k', get_attr c Algorithm = Ok (alg z) /\ In z [-25; -26; -27; -28]%Z /\ dget (local c) StaticKey = Some (kval p) /\ ckey c = Some k'.
Proof.
  intros c t k H. unfold agree_compute_cek in H. apply bind_ok in H as (a & HA & H). apply bind_ok in H as (b & HB & H). destruct b; [|discriminate].
  destruct (alg_in_alg _ _ _ HB eq_refl) as (z & HZ & ->). cbn [negb bind] in H. destruct (is_none _); [discriminate|].
  apply bind_ok in H as (p' & _ & H). apply bind_ok in H as (? & _ & H). apply bind_ok in H as (lk & HL & H). apply bind_ok in H as (? & _ & H).
  apply bind_ok in H as (kb & HK & _). apply agree_static in HK as (p & k' & HP & HQ). apply local_static in HP.
  exists z, p, k'. split; [exact HA|]. split; [cbn in HZ |- *; tauto|]. auto.
Qed.

(** ** The loop over the recipients *)

Lemma loop_ready : forall l n kb n' l' k, Forall (fun r => typed_key (r_core r)) l -> cek_loop X n kb l = ((n', l'), Ok k) ->
  Forall (fun r => (r_class r = RKeyWrap \/ r_class r = RAgreeKW) /\ ready_recipient r) l.
Proof.
  induction l as [|r l IH]; intros n kb n' l' k HF H; [constructor|]. apply Forall_cons_iff in HF as [HT HF]. cbn [cek_loop] in H. cbv zeta in H.
  destruct r as [id rc c ctx subs]. cbn [r_core r_with] in *.
  set (d := match payload c with Some [] => (Rcpt id rc (with_payload c (match kb with VBytes b => Some b | _ => None end)) ctx subs, kb)
              | p => (Rcpt id rc c ctx subs, vopt p) end) in H.
  assert (HD : exists c1 kb1, d = (Rcpt id rc c1 ctx subs, kb1) /\ (c1 = c \/ exists q, c1 = with_payload c q /\ payload c = Some [])).
  { unfold d. destruct (payload c) as [[|x p]|]; eexists; eexists; (split; [reflexivity|]); eauto. }
  destruct HD as (c1 & kb1 & -> & HC). destruct (rcpt_encrypt X n (Rcpt id rc c1 ctx subs)) as [r2 [b|x]] eqn:ER; [|discriminate].
  destruct (cek_loop X (N.succ n) kb1 l) as [[n2 l2] x2] eqn:EL. injection H as _ _ ->. constructor; [|eapply IH; eassumption].
  cbn [rcpt_encrypt] in ER. unfold ready_recipient. cbn [r_class r_core r_subs]. destruct rc; try discriminate.
  - injection ER as _ ER. split; [left; reflexivity|]. apply kw_ready in ER.
    + destruct HC as [-> |(q & -> & HQ)]; [exact ER|]. destruct ER as (HP & HW & _). split; [exact HP|]. split; [|rewrite HQ; discriminate]. exact HW.
    + destruct HC as [-> |(q & -> & _)]; exact HT.
  - destruct (kakw_encrypt X n c1) as [c2 r3] eqn:EK. injection ER as _ ->. split; [right; reflexivity|]. apply kakw_ready in EK as (z & p & HA & HZ & HP & HK & HL).
    exists z, p. destruct HC as [-> |(q & -> & HQ)]; [auto 8|]. split; [exact HA|]. split; [exact HZ|]. split; [exact HP|]. split; [exact HK|]. rewrite HQ. discriminate.
Qed.

(** ** COSE_Encrypt *)

Definition no_base_iv (k : key) : Prop := param k KpBaseIV = None.

Lemma made_nonce : forall c k n, byte_iv_headers c -> no_base_iv k -> get_nonce (with_key c (Some k)) = Ok n -> exists b, get_attr c IV = Ok (VBytes b).
Proof.
  intros c k n HB HN H. unfold get_nonce in H. apply bind_ok in H as (iv & HI & H). change (get_attr (with_key c (Some k)) IV) with (get_attr c IV) in HI.
  destruct (HB IV iv (or_introl eq_refl) HI) as [-> | [b ->]]; [|eauto]. exfalso.
  cbn [is_none ckey with_key] in H. rewrite prop_get_place in H. cbn [place bytes_prop absent_value] in H. unfold no_base_iv in HN. rewrite HN in H. discriminate.
Qed.

Lemma enc_made : forall ctx c k t, byte_iv_headers c -> no_base_iv k -> enc_encrypt X ctx (with_key c (Some k)) = Ok t ->
  payload c <> None /\ declares c enc_algorithm /\ exists b, get_attr c IV = Ok (VBytes b).
Proof.
  intros ctx c k t HB HN H. unfold enc_encrypt in H. cbn [ckey with_key] in H. change (get_attr (with_key c (Some k)) Algorithm) with (get_attr c Algorithm) in H.
  apply bind_ok in H as (a & HA & H). apply bind_ok in H as (n & Hn & H). apply bind_ok in H as (u & _ & H). apply bind_ok in H as (u' & HM & H).
  apply enc_kind in HM as (z & -> & HZ). apply bind_ok in H as (data & _ & H). split; [|split; [exists z; auto|eapply made_nonce; eassumption]].
  change (payload (with_key c (Some k))) with (payload c) in H. destruct (payload c); [discriminate|]. unfold alg_encrypt in H.
  destruct (alg_kind (alg z)) as [[]|]; try discriminate; apply bind_ok in H as (? & _ & H); apply bind_ok in H as (? & _ & H); discriminate.
Qed.

Lemma wrapped_key : forall kb t k, sym_with kb t [EncryptOp] = Ok k -> no_base_iv k.
Proof.
  intros kb t k H. unfold sym_with, sym_init, common_init in H. cbn [opt_items bind transform_params] in H.
  assert (E : from_id (param_fam KSym) true (VClass KpAlg) = Ok (VClass KpAlg)) by (vm_compute; reflexivity). rewrite E in H. cbn [bind] in H. clear E.
  change (parse_kp (VClass KpAlg) t) with (from_id FAlg false t) in H. destruct (from_id FAlg false t) as [t'|x]; [|discriminate]. cbn [bind] in H.
  match type of H with (k0 <- ?e ;; _) = _ => assert (E : e = Ok (Key KSym [(VClass KpKty, KtySymmetric); (VClass KpAlg, t'); (VClass KpKeyOps, VList [EncryptOp])] [])) by (vm_compute; reflexivity) end.
  rewrite E in H. cbn [bind] in H. destruct (veqb _ _); [discriminate|]. unfold set_k in H. destruct kb; try discriminate. destruct (existsb _ _); [|discriminate].
  injection H as <-. reflexivity.
Qed.

Lemma agreed_no_iv : forall c t k, agree_compute_cek X c t false = Ok k -> no_base_iv k.
Proof.
  intros c t k H. unfold agree_compute_cek in H. apply bind_ok in H as (a & HA & H). apply bind_ok in H as (b & HB & H). destruct b; [|discriminate].
  cbn [negb bind] in H. destruct (is_none _); [discriminate|].
  apply bind_ok in H as (p' & _ & H). apply bind_ok in H as (? & _ & H). apply bind_ok in H as (lk & HL & H). apply bind_ok in H as (? & _ & H).
  apply bind_ok in H as (kb & HK & H). apply (derived_ok kb t [] k) in H as (t' & _ & [-> _]); [reflexivity|left; reflexivity].
Qed.

Lemma direct_ready : forall l n n' l' vs, Forall (fun r => r_class r = RDirect) l -> rcpts_encode X n l = ((n', l'), Ok vs) -> Forall ready_recipient l.
Proof.
  induction l as [|r l IH]; intros n n' l' vs HF H; [constructor|]. apply Forall_cons_iff in HF as [HC HF]. cbn [rcpts_encode] in H.
  destruct (rcpt_encode X n r) as [[n1 r1] [v|x]] eqn:ER; [|discriminate]. destruct (rcpts_encode X n1 l) as [[n2 l2] [vs2|x]] eqn:EL; [|discriminate].
  constructor; [|eapply IH; eassumption]. destruct r as [id rc c ctx subs]. cbn [r_class] in HC. subst rc. cbn [rcpt_encode] in ER. injection ER as _ _ ER.
  unfold ready_recipient. cbn [r_class r_core r_subs]. apply bind_ok in ER as (a & HA & ER). destruct (veqb _ _ && _); [discriminate|].
  destruct (is_none a) eqn:EN; [discriminate|]. destruct subs; [|discriminate]. split; [reflexivity|]. exists a. split; [exact HA|]. intros ->. discriminate.
Qed.

Lemma all_direct : forall rs, verify_recipients rs = Ok tt -> has_class RDirect rs = true -> Forall (fun r => r_class r = RDirect) rs.
Proof.
  intros rs HV HD. apply verify_mix in HV as [HV _]. apply has_class_iff in HD. apply Forall_forall. intros r HI. apply HV; assumption.
Qed.

Lemma encrypt_sent : forall n m s b, typed_key (e_core m) -> byte_iv_headers (e_core m) -> Forall (fun r => typed_key (r_core r)) (e_rcpts m) ->
  encm_encrypt X n m = (s, Ok b) ->
  e_rcpts m <> [] /\ payload (e_core m) <> None /\ declares (e_core m) enc_algorithm /\
  ((Forall (fun r => r_class r = RDirect) (e_rcpts m) /\ snd s = m /\ exists z k, permitted (e_core m) z k [Cls FOps 3] /\ k_cls k = KSym /\ has_nonce (e_core m) k) \/
   (Forall (fun r => r_class r <> RDirect) (e_rcpts m) /\ Forall ready_recipient (e_rcpts m) /\ exists v, get_attr (e_core m) IV = Ok (VBytes v))).
Proof.
  intros n [c rs] s b HT HB HF H. cbn [e_core e_rcpts] in *. unfold encm_encrypt in H. cbn [e_core e_rcpts] in H. cbv zeta in H.
  destruct (alg <- get_attr c Algorithm ;; _ <- verify_recipients rs ;; Ok alg) as [target|x] eqn:ET; [|discriminate].
  apply bind_ok in ET as (a & HA & ET). apply bind_ok in ET as ([] & HV & ET). injection ET as ->.
  destruct (has_class RDirect rs) eqn:ED.
  - injection H as <- H. apply enc_sent in H as (HP & z & k & HPM & HC & HZ & HN); [|exact HT|exact HB].
    split; [intros ->; discriminate|]. split; [exact HP|]. split; [exists z; split; [apply HPM|exact HZ]|]. left. split; [apply all_direct; assumption|]. split; [reflexivity|]. eauto 8.
  - assert (HND : Forall (fun r => r_class r <> RDirect) rs) by (apply Forall_forall; intros r HI; revert r HI; apply has_class_false; exact ED).
    destruct (has_class RAgree rs) eqn:EA.
    + destruct rs as [|r rs]; [discriminate|]. destruct (compute_cek X r target false) as [k|x] eqn:EC; [|discriminate]. injection H as <- H.
      pose proof (proj1 (verify_mix _) HV) as [_ HM]. pose proof (proj1 (has_class_iff _ _) EA) as HEx. specialize (HM HEx). destruct rs as [|r2 rs]; [|cbn in HM; lia].
      destruct HEx as (r' & HI & HR). cbn in HI. destruct HI as [<-|[]]. unfold compute_cek in EC. rewrite HR in EC. apply bind_ok in EC as (k' & HK & EC). injection EC as <-.
      apply enc_made in H as (HP & HDC & HIV); [|exact HB|eapply agreed_no_iv; exact HK]. split; [discriminate|]. split; [exact HP|]. split; [exact HDC|]. right.
      split; [exact HND|]. split; [|exact HIV]. constructor; [|constructor]. unfold ready_recipient. rewrite HR. eapply agree_ready. exact HK.
    + destruct (has_class RKeyWrap rs || has_class RAgreeKW rs) eqn:EW; [|discriminate]. destruct (get_key_length target) as [len|x]; [|discriminate].
      destruct (cek_loop X (N.succ n) _ rs) as [[n' rs'] [kb|x]] eqn:EL; [|discriminate]. destruct (sym_with kb target [EncryptOp]) as [k|x] eqn:ES; [|discriminate].
      injection H as <- H. apply enc_made in H as (HP & HDC & HIV); [|exact HB|eapply wrapped_key; exact ES].
      split; [intros ->; discriminate|]. split; [exact HP|]. split; [exact HDC|]. right. split; [exact HND|]. split; [|exact HIV].
      apply loop_ready in EL; [|exact HF]. eapply Forall_impl; [|exact EL]. cbn beta. tauto.
Qed.

Lemma encm_sent : forall n m tag b, typed_key (e_core m) -> byte_iv_headers (e_core m) -> Forall (fun r => typed_key (r_core r)) (e_rcpts m) ->
  snd (encm_encode X n m tag true) = Ok b ->
  e_rcpts m <> [] /\ Forall ready_recipient (e_rcpts m) /\ payload (e_core m) <> None /\ declares (e_core m) enc_algorithm /\
  ((Forall (fun r => r_class r = RDirect) (e_rcpts m) /\ exists z k, permitted (e_core m) z k [Cls FOps 3] /\ k_cls k = KSym /\ has_nonce (e_core m) k) \/
   (Forall (fun r => r_class r <> RDirect) (e_rcpts m) /\ exists v, get_attr (e_core m) IV = Ok (VBytes v))).
Proof.
  intros n m tag b HT HB HF H. unfold encm_encode in H. destruct (phdr_encoded (e_core m)) as [p|x]; [|discriminate].
  destruct (encm_encrypt X n m) as [[n1 m1] [ct|x]] eqn:EE; [|discriminate]. cbn [bind] in H. apply encrypt_sent in EE as (HN & HP & HD & HR); [|assumption..].
  split; [exact HN|]. destruct HR as [(HC & HS & HK)|(HC & HR & HI)]; [|auto 8]. split; [|auto 8]. cbn [snd] in HS. subst m1.
  cbv zeta in H. destruct (e_rcpts m) as [|r rs] eqn:ER; [elim HN; reflexivity|]. destruct (get_attr (e_core m) Algorithm); [|discriminate].
  destruct (rcpts_encode X n1 (r :: rs)) as [[n2 l2] [vs|x]] eqn:EC; [|discriminate]. eapply direct_ready; eassumption.
Qed.

(** ** COSE_Mac *)

Lemma mac_made : forall ctx c k t, mac_compute X ctx (with_key c (Some k)) = Ok t -> payload c <> None /\ declares c mac_algorithm.
Proof.
  intros ctx c k t H. unfold mac_compute in H. change (get_attr (with_key c (Some k)) Algorithm) with (get_attr c Algorithm) in H. cbn [ckey with_key] in H.
  apply bind_ok in H as (a & HA & H). apply bind_ok in H as (u & _ & H). apply bind_ok in H as (u' & HM & H). apply mac_kind in HM as (z & -> & HZ).
  apply bind_ok in H as (data & HD & _). split; [|exists z; auto]. unfold mac_structure in HD. apply bind_ok in HD as (p & _ & HD).
  change (payload (with_key c (Some k))) with (payload c) in HD. destruct (payload c); [discriminate|discriminate].
Qed.

Lemma macm_sent : forall n m tag b, typed_key (mm_core m) -> snd (macm_encode X n m tag true) = Ok b ->
  exists rs, mm_rcpts m = Some rs /\ rs <> [] /\ Forall ready_recipient rs /\ payload (mm_core m) <> None /\ declares (mm_core m) mac_algorithm /\
  ((Forall (fun r => r_class r = RDirect) rs /\ exists z k, permitted (mm_core m) z k [Cls FOps 9] /\ k_cls k = KSym) \/
   exists r, rs = [r] /\ r_class r = RAgree).
Proof.
  intros n [c t o] tag b HT H. cbn [mm_core mm_rcpts] in *. unfold macm_encode in H. cbn [mm_core] in H. destruct (phdr_encoded c) as [p|x]; [|discriminate].
  unfold macm_compute_tag in H. cbn [mm_core mm_rcpts mm_tag] in H. cbv zeta in H. destruct (get_attr c Algorithm) as [target|x] eqn:EA; [|discriminate].
  destruct o as [rs|]; [|discriminate]. exists rs. split; [reflexivity|]. destruct (verify_recipients rs) as [[]|x] eqn:EV; [|discriminate].
  destruct (has_class RDirect rs) eqn:ED.
  - unfold mac_super_compute in H. cbn [mm_core mm_rcpts] in H. destruct (mac_compute X "MAC" c) as [tg|x] eqn:EM; [|discriminate].
    cbn [bind mm_core mm_rcpts mm_tag] in H. apply mac_sent in EM as (HP & z & k & HPM & HC & HZ); [|exact HT].
    assert (HAD : Forall (fun r => r_class r = RDirect) rs) by (apply all_direct; assumption).
    destruct rs as [|r rs]; [discriminate|]. rewrite EA in H. destruct (rcpts_encode X n (r :: rs)) as [[n2 l2] [vs|x]] eqn:EC; [|discriminate].
    split; [discriminate|]. split; [eapply direct_ready; eassumption|]. split; [exact HP|]. split; [exists z; split; [apply HPM|exact HZ]|]. left. split; [exact HAD|]. eauto.
  - destruct (has_class RAgree rs) eqn:EG.
    + destruct rs as [|r rs]; [discriminate|]. pose proof (proj1 (verify_mix _) EV) as [_ HM]. pose proof (proj1 (has_class_iff _ _) EG) as HEx. specialize (HM HEx).
      destruct rs as [|r2 rs]; [|cbn in HM; lia]. destruct HEx as (r' & HI & HR). cbn in HI. destruct HI as [<-|[]].
      destruct (compute_cek X r target false) as [k|x] eqn:EC; [|discriminate]. unfold compute_cek in EC. rewrite HR in EC. apply bind_ok in EC as (k' & HK & EC). injection EC as <-.
      unfold mac_super_compute in H. cbn [mm_core mm_rcpts mm_tag] in H. destruct (mac_compute X "MAC" (with_key c (Some k'))) as [tg|x] eqn:EM; [|discriminate].
      apply mac_made in EM as [HP HD]. split; [discriminate|]. split; [constructor; [|constructor]|]; [|eauto 8].
      unfold ready_recipient. rewrite HR. eapply agree_ready. exact HK.
    + destruct (_ || _); [|discriminate]. destruct (get_key_length target); [|discriminate]. destruct (cek_loop X _ _ rs) as [[? ?] [?|?]]; discriminate.
Qed.
End Inc.
