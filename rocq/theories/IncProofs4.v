(** Proofs for C105: the exceptions of [encode] for messages with recipients. *)
From Coq Require Import NArith ZArith Bool String Lia.
From Coq Require Import Init.Byte List.
From Verif Require Import Bytes Value Registry Crypto Keys Algorithms Headers Messages Recipients SpecKeys SpecStruct SpecAlg SpecAccept SpecCheck SpecSend SpecRcpt
  SpecIncomplete SpecIncomplete2 ValueProofs KeyProofs2 KeyProofs3 MsgTrip AcceptProofs CheckProofs CheckProofs2 SendProofs RcptProofs RcptTrip CekProofs IncProofs IncProofs2 IncProofs3.
Import ListNotations.
Local Open Scope result_scope.

Section Inc.
Variable X : crypto.

(** ** Keys made on the way *)

Definition made_options : list dict := [[(VClass KpKeyOps, VList [EncryptOp])]; [(VClass KpKeyOps, VList [WrapOp; EncryptOp])]].

Lemma made_common : forall t o, In o made_options ->
  common_init KSym (VDict ((VClass KpAlg, t) :: o)) true =
  (t' <- from_id FAlg false t ;; Ok (Key KSym ((VClass KpKty, KtySymmetric) :: (VClass KpAlg, t') :: o) [])).
Proof.
  intros t o HO. unfold common_init. cbn [opt_items bind transform_params].
  assert (E : from_id (param_fam KSym) true (VClass KpAlg) = Ok (VClass KpAlg)) by (vm_compute; reflexivity). rewrite E. cbn [bind]. clear E.
  change (parse_kp (VClass KpAlg) t) with (from_id FAlg false t). destruct (from_id FAlg false t) as [t'|x]; [|reflexivity]. cbn [bind].
  repeat (destruct HO as [<-|HO]; [vm_compute; reflexivity|]). destruct HO.
Qed.

Lemma made_ok : forall b t o k, In o made_options -> sym_init (VBytes b) (VDict ((VClass KpAlg, t) :: o)) true = Ok k ->
  exists t', from_id FAlg false t = Ok t' /\ derived b t' o k.
Proof.
  intros b t o k HO H. unfold sym_init in H. rewrite (made_common t o HO) in H. destruct (from_id FAlg false t) as [t'|x]; [|discriminate].
  cbn [bind] in H. destruct (veqb _ _); [discriminate|]. exists t'. split; [reflexivity|]. unfold set_k in H. destruct (existsb _ _) eqn:E; [|discriminate].
  injection H as <-. split.
  - repeat (destruct HO as [<-|HO]; [reflexivity|]). destruct HO.
  - apply existsb_exists in E as (n & HI & E). apply Nat.eqb_eq in E. rewrite E. exact HI.
Qed.

Lemma made_err : forall b t o x, In o made_options -> sym_init (VBytes b) (VDict ((VClass KpAlg, t) :: o)) true = Err x -> is_cose_exception x = true.
Proof.
  intros b t o x HO H. unfold sym_init in H. rewrite (made_common t o HO) in H. destruct (from_id FAlg false t) as [t'|y] eqn:E.
  - cbn [bind] in H. destruct (veqb _ _); [injection H as <-; reflexivity|]. unfold set_k in H. destruct (existsb _ _); [discriminate|]. injection H as <-. reflexivity.
  - cbn [bind] in H. injection H as <-. apply from_id_err in E. subst y. reflexivity.
Qed.

Lemma made_typed : forall b c o k, In o made_options -> derived b (VClass c) o k -> typed k.
Proof.
  intros b c o k HO [-> HL]. unfold typed, param. cbn [k_store k_extra k_cls].
  repeat (destruct HO as [<-|HO]; [repeat split;
    [intros v H; vm_compute in H; injection H as <-; eauto
    |intros v H; vm_compute in H; first [discriminate|injection H as <-; eauto]
    |intros v H; vm_compute in H; discriminate
    |intros e []
    |exists b; split; [reflexivity|exact HL]]|]). destruct HO.
Qed.

(** ** Wrapping *)

Lemma kw_err : forall n c x, typed_key c -> sendable_headers c -> kw_encrypt X n c [] = Err x -> is_cose_exception x = true \/ wrap_refusal X c x.
Proof.
  intros n c x HT HS H. unfold kw_encrypt in H. apply bind_err_inv in H as [H|(a & HA & H)]; [apply get_attr_err in H; subst x; auto|].
  destruct (negb _); [injection H as <-; auto|]. destruct (is_none a) eqn:EN; [injection H as <-; auto|].
  apply bind_err_inv in H as [H|(kw & HKW & H)].
  { right. right. right. left. unfold alg_in in H. destruct (hashable a) eqn:EH; [discriminate|]. injection H as <-. split; [cbn; auto|].
    intros [(z & m & k & b & HZ & _)|(z & k & (HZ & _) & _)]; rewrite HA in HZ; injection HZ as ->; discriminate EH. }
  destruct kw.
  - destruct (alg_in_alg _ _ _ HKW eq_refl) as (z & HZ & ->). apply bind_err_inv in H as [H|(kb & HKB & H)].
    { unfold kw_kek_encrypt in H. destruct (ckey c) as [k|] eqn:EC; [|injection H as <-; auto].
      destruct (prop_get_err _ _ _ H) as [HX|HX]; [auto|]. right. right. right. left. split.
      - cbn in HX |- *. tauto.
      - intros [(z' & m & k' & b & HZ' & _ & HK' & HSe & _)|(z' & k' & (HZ' & HK' & _) & HI & _)].
        + rewrite EC in HK'. injection HK' as <-. unfold secret in HSe. congruence.
        + rewrite HA in HZ'. injection HZ' as <-. cbn in HZ, HI. lia. }
    unfold kw_kek_encrypt in HKB. destruct (ckey c) as [k|] eqn:EC; [|discriminate].
    destruct (k_cls k) eqn:EK; try (rewrite (foreign_property k PK (HT k EC)) in HKB by (rewrite EK; reflexivity); discriminate).
    destruct (typed_secret k (HT k EC) EK) as (b & HB & HL). rewrite HKB in HB. injection HB as ->.
    unfold sym_with in H. apply bind_err_inv in H as [H|(kek & HKE & H)]; [left; eapply made_err; [|exact H]; cbn; auto|].
    apply made_ok in HKE as (t' & HT' & HD); [|cbn; auto].
    assert (t' = alg z) by (clear -HT' HZ; cbn in HZ; repeat (destruct HZ as [<-|HZ]; [vm_compute in HT'; injection HT' as <-; reflexivity|]); destruct HZ). subst t'.
    assert (HKV : key_verify kek KSym (alg z) [WrapOp; EncryptOp] = Ok tt).
    { destruct HD as [-> _]. clear -HZ. cbn in HZ. repeat (destruct HZ as [<-|HZ]; [vm_compute; reflexivity|]). destruct HZ. }
    rewrite HKV in H. cbn [bind] in H.
    assert (HKK : prop_get kek PK = Ok (VBytes b)) by (destruct HD as [-> _]; reflexivity).
    unfold alg_key_wrap in H.
    assert (HKD : exists len, alg_kind (alg z) = Some (AKw len) /\ In (z, len) aes_wraps).
    { clear -HZ. cbn in HZ. repeat (destruct HZ as [<-|HZ]; [eexists; split; [reflexivity|cbn; auto]|]). destruct HZ. }
    destruct HKD as (len & HKD & HLen). rewrite HKD in H. unfold kw_key in H. rewrite HKK in H. cbn [bind py_len] in H.
    destruct (Nat.eqb len (length b)) eqn:EL.
    + cbn [as_bytes bind] in H. destruct (payload c) as [pl|] eqn:EP; cbn [vopt as_bytes bind] in H.
      * right. left. left. eauto.
      * injection H as <-. right. right. left. auto.
    + cbn [bind] in H. injection H as <-. right. right. right. left. split; [cbn; auto|]. apply Nat.eqb_neq in EL.
      intros [(z' & m & k' & b' & HZ' & HM & HK' & HSe & HLb)|(z' & k' & (HZ' & HK' & _) & HI & _)].
      * rewrite EC in HK'. injection HK' as <-. unfold secret in HSe. rewrite HKB in HSe. injection HSe as <-. rewrite HA in HZ'. injection HZ' as <-.
        apply EL. clear -HLen HM HLb. cbn [aes_wraps In] in HLen, HM. intuition congruence.
      * rewrite HA in HZ'. injection HZ' as <-. cbn in HZ, HI. lia.
  - apply bind_err_inv in H as [H|(oa & HOA & H)].
    { exfalso. unfold alg_in in H, HKW. destruct (hashable a); discriminate. }
    destruct oa.
    + destruct (alg_in_alg _ _ _ HOA eq_refl) as (z & HZ & ->). destruct (ckey c) as [k|] eqn:EC.
      2: { injection H as <-. right. right. right. left. split; [cbn; auto|].
           intros [(z' & m & k' & b & _ & _ & HK' & _)|(z' & k' & (_ & HK' & _) & _)]; congruence. }
      apply bind_err_inv in H as [H|(u & HV & H)].
      { left. destruct (HT k EC) as (HT1 & HT2 & _). eapply (key_verify_some k KRSA z [Cls FOps 5; Cls FOps 3]); eassumption. }
      pose proof (key_verify_cls _ _ _ _ _ HV) as HC. unfold alg_key_wrap in H.
      assert (HKD : exists h, alg_kind (alg z) = Some (AOaep h)) by (clear -HZ; cbn in HZ; repeat (destruct HZ as [<-|HZ]; [eexists; reflexivity|]); destruct HZ).
      destruct HKD as (h & HKD). rewrite HKD in H. apply bind_err_inv in H as [H|(q & _ & H)].
      * exfalso. destruct (HT k EC) as (_ & _ & _ & _ & HN). rewrite HC in HN. destruct HN as (nn & ne & HN1 & HN2).
        unfold rsa_public_numbers, attr_int in H. rewrite (prop_get_place k PE), HC in H. cbn [place bytes_prop] in H.
        rewrite HN2 in H. cbn [bind as_bytes] in H.
        rewrite (prop_get_place k PN), HC in H. cbn [place bytes_prop] in H. rewrite HN1 in H. cbn [bind as_bytes] in H. discriminate.
      * destruct (payload c) as [pl|] eqn:EP; cbn [vopt as_bytes bind] in H.
        -- right. left. right. eauto.
        -- injection H as <-. right. right. left. auto.
    + injection H as <-. right. right. right. left. split; [cbn; auto|].
      assert (HNA : forall z, a = alg z -> In z (aes_kw ++ oaep) -> False).
      { intros z -> HI. cbn [app aes_kw oaep In] in HI. repeat (destruct HI as [<-|HI]; [first [vm_compute in HKW; discriminate|vm_compute in HOA; discriminate]|]). destruct HI. }
      intros [(z & m & k & b & HZ & HM & _)|(z & k & (HZ & _) & HI & _)]; rewrite HA in HZ; injection HZ as ->; eapply HNA; try reflexivity.
      * clear -HM. cbn [aes_wraps In] in HM. cbn [app aes_kw oaep In]. intuition (injection H as <- <- || injection H0 as <- <-; tauto).
      * cbn [app aes_kw oaep In] in *. tauto.
Qed.

(** ** The content *)

Lemma enc_refused : forall ctx c x, typed_key c -> byte_iv_headers c -> sendable_headers c -> enc_encrypt X ctx c = Err x ->
  is_cose_exception x = true \/ enc_refusal X c x.
Proof.
  intros ctx c x HT HB HH H. unfold enc_encrypt in H. destruct (ckey c) as [k|] eqn:EK; [|injection H as <-; auto].
  apply bind_err_inv in H as [H|(a & HA & H)]; [apply get_attr_err in H; subst x; auto|].
  apply bind_err_inv in H as [H|(n & HN & H)].
  { destruct (get_nonce_err c k x EK (HT k EK) HB H) as [HX|(-> & H1 & H2 & _)]; [auto|]. right. right. right. left. auto. }
  destruct (get_nonce_bytes c n HB HN) as [nb ->]. apply bind_err_inv in H as [H|(u & HV & H)].
  { apply key_verify_err in H as [H|[-> H]]; [auto| |exact (HT k EK)]. right. right. left. split; [reflexivity|]. eapply not_class; eassumption. }
  apply bind_err_inv in H as [H|(u' & HM & H)].
  { apply has_enc_err in H as [-> H]. right. right. left. split; [reflexivity|]. eapply declared; eassumption. }
  apply bind_err_inv in H as [H|(t & _ & H)].
  - right. right. right. right. unfold enc_structure in H. apply bind_err_inv in H as [H|(q & _ & H)]; [eapply only_never_err; [apply send_base; exact HH|exact H]|].
    eapply only_never_err; [apply (send_plain ctx [q; aad c])|exact H].
  - right. apply key_verify_cls in HV. destruct (typed_secret k (HT k EK) HV) as (b & HBk & _). unfold has_enc in HM. unfold alg_encrypt in H.
    destruct (alg_kind a) as [[]|]; try discriminate; unfold attr_bytes in H; rewrite HBk in H; cbn [bind as_bytes] in H;
    (destruct (payload c) as [pl|] eqn:EP; cbn [vopt as_bytes bind] in H; [left|injection H as <-; right; right; left; split; [reflexivity|left; exact EP]]).
    + left. eauto 8.
    + right. eauto 8.
Qed.

(** A key without a base IV: a missing IV is a COSE exception. *)
Lemma made_refused : forall ctx c k x, typed k -> no_base_iv k -> byte_iv_headers c -> sendable_headers c -> enc_encrypt X ctx (with_key c (Some k)) = Err x ->
  is_cose_exception x = true \/ sealed_refusal X c x.
Proof.
  intros ctx c k x HT HN HB HH H.
  assert (HTy : typed_key (with_key c (Some k))) by (intros k' E; injection E as <-; exact HT).
  destruct (enc_refused ctx (with_key c (Some k)) x HTy HB HH H) as [HX|[HX|[HX|[[-> HX]|HX]]]]; [auto|right; left; exact HX|right; right; left; exact HX| |right; right; right; right; exact HX].
  destruct HX as [HX|[H1 H2]]; [right; right; right; left; auto|]. exfalso. change (get_attr (with_key c (Some k))) with (get_attr c) in H1, H2.
  unfold enc_encrypt in H. cbn [ckey with_key] in H. apply bind_err_inv in H as [H|(a & HA & H)]; [apply get_attr_err in H; discriminate|].
  apply bind_err_inv in H as [H|(n & HNn & _)].
  - destruct (get_nonce_err (with_key c (Some k)) k _ eq_refl HT HB H) as [HX|(_ & _ & _ & v & HV)]; [discriminate HX|]. unfold no_base_iv in HN. congruence.
  - destruct (made_nonce c k n HB HN HNn) as [b HI]. congruence.
Qed.

Lemma mac_refused : forall ctx c x, typed_key c -> sendable_headers c -> mac_compute X ctx c = Err x -> is_cose_exception x = true \/ mac_refusal c x.
Proof.
  intros ctx c x HT HH EM. unfold mac_compute in EM. apply bind_err_inv in EM as [H|(a & HA & H)]; [apply get_attr_err in H; subst x; auto|].
  destruct (ckey c) as [k|] eqn:EK; [|injection H as <-; auto]. apply bind_err_inv in H as [H|(u & HV & H)].
  { apply key_verify_err in H as [H|[-> H]]; [auto| |exact (HT k EK)]. right. left. split; [reflexivity|]. eapply not_class; eassumption. }
  apply bind_err_inv in H as [H|(u' & HM & H)].
  { apply has_mac_err in H as [-> H]. right. left. split; [reflexivity|]. eapply declared; eassumption. }
  apply bind_err_inv in H as [H|(t & _ & H)].
  - right. right. unfold mac_structure in H. apply bind_err_inv in H as [H|(q & _ & H)]; [right; eapply only_never_err; [apply send_base; exact HH|exact H]|].
    destruct (payload c) as [pl|] eqn:EL; [|left; split; [congruence|reflexivity]]. right. eapply only_never_err; [apply (send_plain ctx [q; aad c; pl])|exact H].
  - apply key_verify_cls in HV. destruct (compute_tag_ok X a k t _ (HT k EK) HV HM) as (b & HB). rewrite HB in H. discriminate.
Qed.

(** ** Recipients *)

Lemma direct_err : forall n r, plain_recipient RDirect r ->
  (forall x, snd (rcpt_encode X n r) = Err x -> is_cose_exception x = true \/ x = OverflowError) /\
  (forall v, snd (rcpt_encode X n r) = Ok v -> sendable v = true).
Proof.
  intros n [id rc c ctx subs] (HC & HS & HT & HH). cbn [r_class r_subs r_core] in *. subst rc subs. cbn [rcpt_encode snd]. split.
  - intros x H. apply bind_err_inv in H as [H|(a & _ & H)]; [apply get_attr_err in H; subst x; auto|]. destruct (_ && _); [injection H as <-; auto|].
    destruct (is_none a); [injection H as <-; auto|]. cbn [length Nat.eqb negb] in H. apply bind_err_inv in H as [H|(p & _ & H)]; [|discriminate].
    right. eapply only_never_err; [apply send_phdr; exact HH|exact H].
  - intros v H. apply bind_ok in H as (a & _ & H). destruct (_ && _); [discriminate|]. destruct (is_none a); [discriminate|]. cbn [length Nat.eqb negb] in H.
    apply bind_ok in H as (p & _ & H). injection H as <-. destruct HH as [_ HU]. cbn [sendable forallb] in HU |- *. rewrite HU. reflexivity.
Qed.

Lemma wrap_err : forall n r, plain_recipient RKeyWrap r ->
  (forall x, snd (rcpt_encode X n r) = Err x -> is_cose_exception x = true \/ wrap_refusal X (r_core r) x) /\
  (forall v, snd (rcpt_encode X n r) = Ok v -> sendable v = true).
Proof.
  intros n [id rc c ctx subs] (HC & HS & HT & HH). cbn [r_class r_subs r_core] in *. subst rc subs. cbn [rcpt_encode].
  destruct (p <- phdr_encoded c ;; w <- kw_encrypt X n c [] ;; Ok (p, w)) as [[p w]|y] eqn:E; cbn [snd]; (split; [intros x H|intros v H]); try discriminate.
  - injection H as <-. destruct HH as [_ HU]. cbn [sendable forallb] in HU |- *. rewrite HU. reflexivity.
  - injection H as <-. apply bind_err_inv in E as [H|(p & _ & H)]; [right; right; right; right; eapply only_never_err; [apply send_phdr; exact HH|exact H]|].
    apply bind_err_inv in H as [H|(w & _ & H)]; [eapply kw_err; eassumption|discriminate].
Qed.

Lemma all_err : forall (Q : rcpt -> exn -> Prop) l n,
  Forall (fun r => forall n, (forall x, snd (rcpt_encode X n r) = Err x -> is_cose_exception x = true \/ Q r x) /\ (forall v, snd (rcpt_encode X n r) = Ok v -> sendable v = true)) l ->
  (forall x, snd (rcpts_encode X n l) = Err x -> is_cose_exception x = true \/ exists r, In r l /\ Q r x) /\
  (forall vs, snd (rcpts_encode X n l) = Ok vs -> forallb sendable vs = true).
Proof.
  intros Q. induction l as [|r l IH]; intros n HF; cbn [rcpts_encode]; [split; [discriminate|intros vs H; injection H as <-; reflexivity]|].
  apply Forall_cons_iff in HF as [HR HF]. destruct (HR n) as [H1 H2]. destruct (rcpt_encode X n r) as [[n1 r'] [v|y]]; cbn [snd] in *.
  - destruct (IH n1 HF) as [H3 H4]. destruct (rcpts_encode X n1 l) as [[n2 l'] [vs|y]]; cbn [snd] in *; (split; [intros x H|intros ws H]); try discriminate.
    + injection H as <-. cbn [forallb]. rewrite (H2 v eq_refl), (H4 vs eq_refl). reflexivity.
    + injection H as <-. destruct (H3 y eq_refl) as [HX|(q & HI & HQ)]; [auto|]. right. exists q. split; [right; exact HI|exact HQ].
  - split; [intros x H|discriminate]. injection H as <-. destruct (H1 y eq_refl) as [HX|HX]; [auto|]. right. exists r. split; [left; reflexivity|exact HX].
Qed.

(** The recipient after the first pass: its payload may have been filled in. *)
Definition refilled (r r' : rcpt) : Prop := exists p, r' = r_with r (with_payload (r_core r) p) /\ (p = None -> payload (r_core r) = None).

Lemma refilled_plain : forall r r', refilled r r' -> plain_recipient RKeyWrap r -> plain_recipient RKeyWrap r' /\ forall x, wrap_refusal X (r_core r') x -> wrap_refusal X (r_core r) x.
Proof.
  intros [id rc c ctx subs] r' (p & -> & HP) (HC & HS & HT & HH). cbn [r_with r_core r_class r_subs] in *. split; [exact (conj HC (conj HS (conj HT HH)))|].
  intros x [H|[[-> H]|[H|H]]]; [left; exact H|right; left; auto|right; right; left; exact H|right; right; right; exact H].
Qed.

Lemma loop_err : forall l n b, Forall (plain_recipient RKeyWrap) l ->
  match cek_loop X n (VBytes b) l with
  | ((_, l'), Ok kb) => Forall2 refilled l l' /\ exists b', kb = VBytes b'
  | (_, Err x) => is_cose_exception x = true \/ exists r, In r l /\ wrap_refusal X (r_core r) x
  end.
Proof.
  induction l as [|r l IH]; intros n b HF; cbn [cek_loop]; [split; [constructor|eauto]|]. apply Forall_cons_iff in HF as [HR HF]. cbv zeta.
  destruct r as [id rc c ctx subs]. cbn [r_core r_with].
  set (d := match payload c with Some [] => (Rcpt id rc (with_payload c (Some b)) ctx subs, VBytes b) | p => (Rcpt id rc c ctx subs, vopt p) end).
  assert (HD : exists c1 kb1, d = (Rcpt id rc c1 ctx subs, kb1) /\ refilled (Rcpt id rc c ctx subs) (Rcpt id rc c1 ctx subs) /\ (kb1 = VNone -> payload c1 = None) /\ (kb1 = VNone \/ exists b', kb1 = VBytes b')).
  { unfold d, refilled. cbn [r_core r_with]. destruct (payload c) as [[|x p]|] eqn:EP; cbn [vopt]; do 2 eexists; (split; [reflexivity|]).
    - split; [exists (Some b); split; [reflexivity|discriminate]|]. split; [discriminate|eauto].
    - split; [exists (Some (x :: p)); split; [destruct c; cbn in *; subst; reflexivity|discriminate]|]. split; [discriminate|eauto].
    - split; [exists None; split; [destruct c; cbn in *; subst; reflexivity|auto]|]. split; [auto|auto]. }
  clearbody d. destruct HD as (c1 & kb1 & -> & HRF & HKN & HKB). destruct (refilled_plain _ _ HRF HR) as [HR1 HW]. cbn [r_core] in HW.
  destruct HR1 as (HC1 & HS1 & HT1 & HH1). cbn [r_class r_subs r_core] in *. subst rc subs. cbn [rcpt_encrypt].
  destruct (kw_encrypt X n c1 []) as [w|x] eqn:EW.
  - pose proof (kw_ready X n c1 [] w HT1 EW) as (_ & _ & HP1). destruct HKB as [-> |[b' ->]]; [elim HP1; auto|].
    specialize (IH (N.succ n) b' HF). destruct (cek_loop X (N.succ n) (VBytes b') l) as [[n2 l2] [kb|x]].
    + destruct IH as [IH HB]. split; [constructor; assumption|exact HB].
    + destruct IH as [HX|(q & HI & HQ)]; [auto|]. right. exists q. split; [right; exact HI|exact HQ].
  - destruct (kw_err n c1 x HT1 HH1 EW) as [HX|HX]; [auto|]. right. eexists. split; [left; reflexivity|]. apply HW. exact HX.
Qed.

Lemma refilled_all : forall l l', Forall2 refilled l l' -> Forall (plain_recipient RKeyWrap) l ->
  Forall (plain_recipient RKeyWrap) l' /\ forall r' x, In r' l' -> wrap_refusal X (r_core r') x -> exists r, In r l /\ wrap_refusal X (r_core r) x.
Proof.
  intros l l' H. induction H as [|r r' l l' HR _ IH]; intros HF; [split; [constructor|intros ? ? []]|]. apply Forall_cons_iff in HF as [HP HF].
  destruct (refilled_plain r r' HR HP) as [H1 H2]. destruct (IH HF) as [H3 H4]. split; [constructor; assumption|].
  intros q x [<-|HI] HQ; [exists r; split; [left; reflexivity|auto]|]. destruct (H4 q x HI HQ) as (s & HS & HW). exists s. split; [right; exact HS|exact HW].
Qed.

(** ** Messages *)

Lemma encm_direct_refused : forall n m tag x, typed_key (e_core m) -> byte_iv_headers (e_core m) -> sendable_headers (e_core m) ->
  Forall (plain_recipient RDirect) (e_rcpts m) -> snd (encm_encode X n m tag true) = Err x -> is_cose_exception x = true \/ enc_refusal X (e_core m) x.
Proof.
  intros n [c rs] tag x HT HB HH HF H. cbn [e_core e_rcpts] in *. unfold encm_encode in H. cbn [e_core e_rcpts] in H.
  assert (HO : forall y, y = OverflowError -> is_cose_exception y = true \/ enc_refusal X c y) by (intros y ->; right; right; right; right; reflexivity).
  destruct (phdr_encoded c) as [p|y] eqn:EP; [|cbn [snd] in H; injection H as <-; apply HO; eapply only_never_err; [apply send_phdr; exact HH|exact EP]].
  unfold encm_encrypt in H. cbn [e_core e_rcpts] in H. cbv zeta in H.
  destruct (alg <- get_attr c Algorithm ;; _ <- verify_recipients rs ;; Ok alg) as [a|y] eqn:EA; cbn [bind snd] in H.
  2: { injection H as <-. apply bind_err_inv in EA as [E|(a & _ & E)]; [apply get_attr_err in E; subst y; auto|].
       apply bind_err_inv in E as [E|(? & _ & E)]; [|discriminate]. left. unfold verify_recipients in E. repeat (destruct (_ && _) in E; [injection E as <-; reflexivity|]).
       repeat match type of E with (if ?b then _ else _) = _ => destruct b end; congruence || (injection E as <-; reflexivity). }
  destruct (has_class RDirect rs) eqn:ED.
  2: { destruct rs as [|r rs]; [cbn in H; injection H as <-; auto|]. exfalso. apply Forall_cons_iff in HF as [(HC & _) _]. unfold has_class in ED. cbn [existsb] in ED. rewrite HC in ED. discriminate. }
  destruct (enc_encrypt X "Encrypt" c) as [b|y] eqn:EE; cbn [bind snd] in H; [|injection H as <-; eapply enc_refused; eassumption].
  cbn [e_core e_rcpts] in H. destruct HH as [HPh HU]. destruct rs as [|r rs]; [discriminate ED|].
  destruct (get_attr c Algorithm) as [a'|y] eqn:EG; [|apply get_attr_err in EG; subst y; injection H as <-; auto].
  destruct (all_err (fun _ y => y = OverflowError) (r :: rs) n) as [H1 H2]; [eapply Forall_impl; [|exact HF]; intros q HQ k; apply direct_err; exact HQ|].
  destruct (rcpts_encode X n (r :: rs)) as [[n2 rs'] [vs|y]]; cbn [snd] in H, H1, H2.
  - apply HO. eapply only_never_err; [|exact H]. apply send_emit. cbn [app forallb sendable] in HU |- *. rewrite HU, (H2 vs eq_refl). reflexivity.
  - injection H as <-. destruct (H1 y eq_refl) as [HX|(_ & _ & HX)]; [auto|apply HO; exact HX].
Qed.

Lemma encm_wrap_refused : forall n m tag x, byte_iv_headers (e_core m) -> sendable_headers (e_core m) ->
  Forall (plain_recipient RKeyWrap) (e_rcpts m) -> snd (encm_encode X n m tag true) = Err x ->
  is_cose_exception x = true \/ sealed_refusal X (e_core m) x \/ exists r, In r (e_rcpts m) /\ wrap_refusal X (r_core r) x.
Proof.
  intros n [c rs] tag x HB HH HF H. cbn [e_core e_rcpts] in *. unfold encm_encode in H. cbn [e_core e_rcpts] in H.
  assert (HO : forall y, y = OverflowError -> is_cose_exception y = true \/ sealed_refusal X c y \/ exists r, In r rs /\ wrap_refusal X (r_core r) y)
    by (intros y ->; right; left; right; right; right; reflexivity).
  destruct (phdr_encoded c) as [p|y] eqn:EP; [|cbn [snd] in H; injection H as <-; apply HO; eapply only_never_err; [apply send_phdr; exact HH|exact EP]].
  unfold encm_encrypt in H. cbn [e_core e_rcpts] in H. cbv zeta in H.
  destruct (alg <- get_attr c Algorithm ;; _ <- verify_recipients rs ;; Ok alg) as [a|y] eqn:EA; cbn [bind snd] in H.
  2: { injection H as <-. apply bind_err_inv in EA as [E|(a & _ & E)]; [apply get_attr_err in E; subst y; auto|].
       apply bind_err_inv in E as [E|(? & _ & E)]; [|discriminate]. left. unfold verify_recipients in E.
       repeat match type of E with (if ?b then _ else _) = _ => destruct b end; congruence || (injection E as <-; reflexivity). }
  assert (HA : get_attr c Algorithm = Ok a) by (apply bind_ok in EA as (a' & HA & EA); apply bind_ok in EA as (? & _ & EA); congruence).
  destruct rs as [|r0 rs0]; [cbn in H; injection H as <-; auto|]. set (rs := r0 :: rs0) in *.
  assert (HCl : has_class RDirect rs = false /\ has_class RAgree rs = false /\ has_class RKeyWrap rs = true).
  { rewrite Forall_forall in HF. repeat split; try (apply not_true_is_false; intros E; apply existsb_exists in E as (r & HI & E); destruct (HF r HI) as (HC & _); rewrite HC in E; discriminate).
    apply existsb_exists. exists r0. split; [left; reflexivity|]. destruct (HF r0 (or_introl eq_refl)) as (-> & _). reflexivity. }
  destruct HCl as (H1 & H2 & H3). rewrite H1, H2, H3 in H. cbn [orb] in H.
  destruct (get_key_length a) as [len|y] eqn:EL; cbn [bind snd] in H.
  2: { injection H as <-. right. left. right. left. unfold get_key_length in EL. destruct (alg_kind a) as [q|] eqn:EK.
       - split; [destruct q; try congruence; unfold kw_length in EL; repeat match type of EL with context [match ?e with _ => _ end] => destruct e end; congruence|]. eapply declared; [exact HA|]. intros z -> [HZ|HZ]; each HZ; vm_compute in EK; injection EK as <-; discriminate.
       - split; [congruence|]. eapply declared; [exact HA|]. intros z -> [HZ|HZ]; each HZ; vm_compute in EK; discriminate. }
  pose proof (loop_err rs (N.succ n) (x_urandom X n len) HF) as HL.
  destruct (cek_loop X (N.succ n) (VBytes (x_urandom X n len)) rs) as [[n' rs'] [kb|y]]; cbn [bind snd] in H.
  2: { injection H as <-. destruct HL as [HX|HX]; auto. }
  destruct HL as (HL & b & ->). destruct (refilled_all rs rs' HL HF) as [HF' HW].
  destruct (sym_with (VBytes b) a [EncryptOp]) as [k|y] eqn:ES; cbn [bind snd] in H.
  2: { injection H as <-. left. eapply made_err; [|exact ES]. cbn. auto. }
  destruct (key_length_class _ _ EL) as (z & ->).
  assert (HTy : typed k).
  { unfold sym_with in ES. apply made_ok in ES as (t' & HT' & HD); [|cbn; auto]. destruct (from_id_class _ _ _ HT') as [c' ->]. eapply made_typed; [|exact HD]. cbn. auto. }
  destruct (enc_encrypt X "Encrypt" (with_key c (Some k))) as [ct|y] eqn:EE; cbn [bind snd] in H.
  2: { injection H as <-. destruct (made_refused _ _ _ _ HTy (wrapped_key _ _ _ ES) HB HH EE) as [HX|HX]; auto. }
  cbn [e_core e_rcpts with_key uhdr] in H. destruct rs' as [|r1 rs1]; [inversion HL|]. change (get_attr (with_key c (Some k)) Algorithm) with (get_attr c Algorithm) in H. rewrite HA in H.
  destruct (all_err (fun r => wrap_refusal X (r_core r)) (r1 :: rs1) n') as [H4 H5]; [eapply Forall_impl; [|exact HF']; intros q HQ j; apply wrap_err; exact HQ|].
  destruct (rcpts_encode X n' (r1 :: rs1)) as [[n2 rs2] [vs|y]]; cbn [snd] in H, H4, H5.
  - apply HO. eapply only_never_err; [|exact H]. apply send_emit. destruct HH as [_ HU]. cbn [app forallb sendable] in HU |- *. rewrite HU, (H5 vs eq_refl). reflexivity.
  - injection H as <-. destruct (H4 y eq_refl) as [HX|(q & HI & HX)]; [auto|]. right. right. eapply HW; eassumption.
Qed.

Lemma macm_direct_refused : forall n m rs tag x, typed_key (mm_core m) -> sendable_headers (mm_core m) -> mm_rcpts m = Some rs ->
  Forall (plain_recipient RDirect) rs -> snd (macm_encode X n m tag true) = Err x -> is_cose_exception x = true \/ mac_refusal (mm_core m) x.
Proof.
  intros n [c tg o] rs tag x HT HH HR HF H. cbn [mm_core mm_rcpts mm_tag] in *. subst o. unfold macm_encode in H. cbn [mm_core mm_rcpts mm_tag] in H.
  assert (HO : forall y, y = OverflowError -> is_cose_exception y = true \/ mac_refusal c y) by (intros y ->; right; right; right; reflexivity).
  destruct (phdr_encoded c) as [p|y] eqn:EP; [|cbn [snd] in H; injection H as <-; apply HO; eapply only_never_err; [apply send_phdr; exact HH|exact EP]].
  unfold macm_compute_tag in H. cbn [mm_core mm_rcpts mm_tag] in H. cbv zeta in H.
  destruct (get_attr c Algorithm) as [a|y] eqn:EA; cbn [bind snd] in H; [|injection H as <-; apply get_attr_err in EA; subst y; auto].
  destruct (verify_recipients rs) as [u|y] eqn:EV; cbn [bind snd] in H.
  2: { injection H as <-. left. unfold verify_recipients in EV.
       repeat match type of EV with (if ?b then _ else _) = _ => destruct b end; congruence || (injection EV as <-; reflexivity). }
  destruct rs as [|r rs]; [cbn in H; injection H as <-; auto|].
  assert (ED : has_class RDirect (r :: rs) = true) by (apply Forall_cons_iff in HF as [(HC & _) _]; unfold has_class; cbn [existsb]; rewrite HC; reflexivity).
  rewrite ED in H. unfold mac_super_compute in H. cbn [mm_core mm_rcpts mm_tag] in H.
  destruct (mac_compute X "MAC" c) as [b|y] eqn:EM; cbn [bind snd] in H; [|injection H as <-; eapply mac_refused; eassumption].
  cbn [mm_core mm_rcpts mm_tag] in H. rewrite EA in H. destruct HH as [HPh HU].
  destruct (all_err (fun _ y => y = OverflowError) (r :: rs) n) as [H1 H2]; [eapply Forall_impl; [|exact HF]; intros q HQ k; apply direct_err; exact HQ|].
  destruct (rcpts_encode X n (r :: rs)) as [[n2 rs'] [vs|y]]; cbn [snd] in H, H1, H2.
  - apply HO. eapply only_never_err; [|exact H]. apply send_emit. cbn [app forallb sendable] in HU |- *. rewrite HU, sendable_vopt, (H2 vs eq_refl). reflexivity.
  - injection H as <-. destruct (H1 y eq_refl) as [HX|(_ & _ & HX)]; [auto|apply HO; exact HX].
Qed.
End Inc.
