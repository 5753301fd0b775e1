(** Proofs for C105: signatures, and the exceptions of [encode]. *)
From Coq Require Import NArith ZArith Bool String Lia.
From Coq Require Import Init.Byte List.
From Verif Require Import Bytes Value Registry Crypto Keys Algorithms Headers Messages Recipients SpecKeys SpecStruct SpecAlg SpecAccept SpecCheck SpecSend SpecRcpt SpecIncomplete
  ValueProofs KeyProofs2 KeyProofs3 MsgTrip AcceptProofs CheckProofs SendProofs IncProofs.
Import ListNotations.
Local Open Scope result_scope.

Definition decided (P : Prop) : Prop := P \/ ~ P.

Lemma filled_decided : forall k p, decided (filled k p).
Proof.
  intros k p. unfold decided, filled. destruct (param k p) as [v|]; [|right; intros (b & H & _); discriminate].
  destruct v as [| | | | | | |l| | | | | | | |]; try (right; intros (w & H & HN); discriminate H).
  destruct l as [|x l]; [right; intros (w & H & HN); congruence|].
  left. exists (x :: l). split; [reflexivity|discriminate].
Qed.
Lemma sig_decided : forall t z, decided (sig_algorithm t z).
Proof.
  intros t z. unfold decided. destruct t; cbn [sig_algorithm]; [tauto| | |].
  - destruct (Z.eq_dec z (-8)); auto.
  - destruct (in_dec Z.eq_dec z [-7; -35; -36]%Z); auto.
  - destruct (in_dec Z.eq_dec z (map (fun e => fst (fst e)) rsa_schemes)); auto.
Qed.
Lemma forall_decided : forall (P : cls -> Prop) l, (forall p, decided (P p)) -> decided (forall p, In p l -> P p).
Proof.
  intros P l H. induction l as [|a l [IH|IH]]; [left; intros p []| |].
  - destruct (H a) as [HA|HA]; [left; intros p [<-|HI]; auto|right; intros HN; apply HA, HN; left; reflexivity].
  - right. intros HN. apply IH. intros p HI. apply HN. right. exact HI.
Qed.
Lemma can_sign_decided : forall k, decided (can_sign k).
Proof.
  intros k. unfold can_sign. destruct (k_cls k); [right; tauto| | |].
  - destruct (filled_decided k OKPKpD) as [HD|HD]; [|right; tauto].
    assert (HE : decided (exists z, In z [6; 7]%Z /\ param k OKPKpCurve = Some (VClass (Cls FCrv z)))); [|destruct HE; [left|right]; tauto].
    destruct (param k OKPKpCurve) as [v|]; [|right; intros (z & _ & H); discriminate].
    destruct v as [| | | | | | | | | | | | | |[f z]|]; try (right; intros (w & _ & H); discriminate).
    destruct f; try (right; intros (w & _ & H); discriminate). destruct (in_dec Z.eq_dec z [6; 7]%Z) as [HI|HI]; [left; eauto|]. right. intros (y & HY & H). injection H as ->. auto.
  - apply filled_decided.
  - apply forall_decided. apply filled_decided.
Qed.

Section Inc.
Variable X : crypto.

Definition odd (x : exn) : Prop := In x [AttributeError; ValueError; TypeError; CryptoError].
Definition plain (x : exn) : Prop := is_cose_exception x = true \/ odd x.

Lemma prop_get_plain : forall k p x, prop_get k p = Err x -> plain x.
Proof.
  intros k p x H. rewrite prop_get_place in H. destruct (place (k_cls k) p) as [q|].
  - destruct (param k q); [discriminate|]. destruct p; cbn in H; try discriminate; injection H as <-; left; reflexivity.
  - apply extra_get_err in H. subst x. right. left. reflexivity.
Qed.
Lemma as_bytes_plain : forall v x, as_bytes v = Err x -> plain x.
Proof. intros v x H. apply as_bytes_err in H as [-> _]. right. cbn. auto. Qed.
Lemma attr_bytes_plain : forall k p x, attr_bytes k p = Err x -> plain x.
Proof. intros k p x H. unfold attr_bytes in H. apply bind_err_inv in H as [H|(v & _ & H)]; [eapply prop_get_plain|eapply as_bytes_plain]; eassumption. Qed.
Lemma attr_int_plain : forall k p x, attr_int k p = Err x -> plain x.
Proof.
  intros k p x H. unfold attr_int in H. apply bind_err_inv in H as [H|(v & _ & H)]; [eapply prop_get_plain; eassumption|].
  apply bind_err_inv in H as [H|(b & _ & H)]; [eapply as_bytes_plain; eassumption|discriminate].
Qed.
Lemma attr_hex_plain : forall k p x, attr_hex k p = Err x -> plain x.
Proof.
  intros k p x H. unfold attr_hex in H. apply bind_err_inv in H as [H|(v & _ & H)]; [eapply prop_get_plain; eassumption|].
  apply bind_err_inv in H as [H|(b & _ & H)]; [eapply as_bytes_plain; eassumption|]. destruct b; [|discriminate]. injection H as <-. right. cbn. auto.
Qed.
Lemma private_plain : forall k x, rsa_private_numbers k = Err x -> plain x.
Proof.
  intros k x H. unfold rsa_private_numbers, rsa_public_numbers in H. apply bind_err_inv in H as [H|(? & _ & H)].
  - apply bind_err_inv in H as [H|(? & _ & H)]; [eapply attr_int_plain; eassumption|]. apply bind_err_inv in H as [H|(? & _ & H)]; [eapply attr_int_plain; eassumption|discriminate].
  - repeat (apply bind_err_inv in H as [H|(? & _ & H)]; [eapply attr_int_plain; eassumption|]). discriminate.
Qed.

Lemma alg_sign_plain : forall seed a k t x u, has_sign a = Ok u -> alg_sign X seed a k t = Err x -> is_cose_exception x = true \/ sign_failure X x \/ odd x.
Proof.
  intros seed a k t x u HH H. assert (HP : forall y, plain y -> is_cose_exception y = true \/ sign_failure X y \/ odd y) by (unfold plain; tauto).
  unfold has_sign in HH. unfold alg_sign in H. destruct (alg_kind a) as [[]|]; try discriminate.
  - apply bind_err_inv in H as [H|(q & _ & H)]; [apply HP; eapply private_plain; eassumption|]. right. left. left. eauto 8.
  - apply bind_err_inv in H as [H|(q & _ & H)]; [apply HP; eapply private_plain; eassumption|]. injection H as <-. right. right. cbn. auto 6.
  - apply bind_err_inv in H as [H|(q & _ & H)]; [apply HP; eapply attr_hex_plain; eassumption|]. right. left. right. left. eauto 8.
  - apply bind_err_inv in H as [H|(q & _ & H)].
    + unfold ed_curve in H. apply bind_err_inv in H as [H|(v & _ & H)]; [apply HP; eapply prop_get_plain; eassumption|].
      destruct v; try (injection H as <-; right; right; cbn; auto; fail). destruct (bytes_eqb _ _); [discriminate|]. destruct (bytes_eqb _ _); [discriminate|]. injection H as <-. left. reflexivity.
    + apply bind_err_inv in H as [H|(d & _ & H)]; [apply HP; eapply attr_bytes_plain; eassumption|]. right. left. right. right. eauto 8.
Qed.

Lemma compute_refused : forall seed c st x, typed_key c -> (forall y, st = Err y -> is_cose_exception y = true \/ y = OverflowError) ->
  compute_signature X seed c st = Err x -> is_cose_exception x = true \/ sig_refusal X c x.
Proof.
  intros seed c st x HT HS H. unfold compute_signature in H. apply bind_err_inv in H as [H|(a & HA & H)]; [apply get_attr_err in H; subst x; auto|].
  apply bind_err_inv in H as [H|(k & HV & H)].
  { destruct (ckey c) as [k|] eqn:EK; [|unfold key_verification in H; rewrite EK in H; injection H as <-; auto].
    destruct (key_verification_err c k a (Cls FOps 1) x EK (HT k EK) H) as [HX|[-> HX]]; [auto|]. right. right. left. split; [left; reflexivity|].
    intros (k' & _ & (z & HZ & _) & _). rewrite HA in HZ. injection HZ as ->. exact (HX _ eq_refl). }
  apply bind_err_inv in H as [H|(u & HH & H)].
  { right. right. left. pose proof (has_sign_err KOKP a x H) as [-> _]. split; [left; reflexivity|].
    intros (k' & _ & (z & HZ & HP) & _). rewrite HA in HZ. injection HZ as ->. destruct (has_sign_err (k_cls k') _ _ H) as [_ HN]. exact (HN z eq_refl HP). }
  apply bind_err_inv in H as [H|(data & _ & H)]; [destruct (HS x H) as [HX|HX]; [auto|right; right; right; exact HX]|].
  assert (HK : ckey c = Some k).
  { unfold key_verification in HV. destruct (ckey c) as [k'|]; [|discriminate]. destruct (k_cls k'); [discriminate| | |]; apply bind_ok in HV as (? & _ & HV); injection HV as <-; reflexivity. }
  destruct (alg_sign_plain seed a k data x u HH H) as [HX|[HX|HX]]; [auto|right; left; exact HX|].
  assert (HZ : exists z, a = alg z) by (unfold has_sign in HH; destruct (alg_kind a) as [q|] eqn:EK; [|discriminate]; destruct (kind_in a q EK) as (z & -> & _); eauto).
  destruct HZ as [z ->]. right.
  destruct (sig_decided (k_cls k) z) as [HZ|HZ]; [destruct (can_sign_decided k) as [HC|HC]|].
  - pose proof (send_alg_sign X seed z k data (HT k HK) HZ HC) as HO. rewrite H in HO. destruct HO as [HO|HO]; [right; right; exact HO|left; exact HO].
  - right. left. split; [exact HX|]. intros (k' & HK' & _ & HC'). rewrite HK in HK'. injection HK' as <-. exact (HC HC').
  - right. left. split; [exact HX|]. intros (k' & HK' & (z' & HZ' & HP) & _). rewrite HK in HK'. injection HK' as <-. rewrite HA in HZ'. injection HZ' as <-. exact (HZ HP).
Qed.

Lemma only_never_err : forall A (r : result A) x, only never r -> r = Err x -> x = OverflowError.
Proof. intros A r x H ->. destruct H as [H|[]]. exact H. Qed.

Lemma sign1_st_refused : forall c d x, sendable_headers c -> sign1_structure c (vopt d) = Err x -> is_cose_exception x = true \/ x = OverflowError.
Proof.
  intros c d x HH H. unfold sign1_structure in H. apply bind_err_inv in H as [H|(p & _ & H)]; [right; eapply only_never_err; [apply send_base; exact HH|exact H]|].
  destruct (sig_payload_cases c d) as [(l & HL & _)|HL]; rewrite HL in H; cbn [bind] in H; [|injection H as <-; auto].
  right. eapply only_never_err; [apply (send_plain "Signature1" [p; aad c; l])|exact H].
Qed.
Lemma signer_st_refused : forall m s d x, sendable_headers m -> sendable_headers s -> signer_structure (Some m) s (vopt d) = Err x -> is_cose_exception x = true \/ x = OverflowError.
Proof.
  intros m s d x HM HS H. unfold signer_structure in H. apply bind_err_inv in H as [H|(p & _ & H)]; [right; eapply only_never_err; [apply send_phdr; exact HM|exact H]|].
  apply bind_err_inv in H as [H|(sp & HSP & H)].
  { right. destruct (phdr s); [discriminate|]. apply bind_err_inv in H as [H|(? & _ & H)]; [|discriminate]. eapply only_never_err; [apply send_phdr; exact HS|exact H]. }
  destruct (sig_payload_cases m d) as [(l & HL & _)|HL]; rewrite HL in H; cbn [bind] in H; [|injection H as <-; auto]. right.
  assert (HE : exists q, sp = map VBytes q) by (destruct (phdr s); [injection HSP as <-; exists []; reflexivity|apply bind_ok in HSP as (q & _ & HSP); injection HSP as <-; exists [q]; reflexivity]).
  destruct HE as [q ->]. eapply only_never_err; [|exact H].
  replace ([VStr (bs "Signature"); VBytes p] ++ map VBytes q ++ [VBytes (aad s); VBytes l]) with (VStr (bs "Signature") :: map VBytes (p :: q ++ [aad s; l])).
  - apply send_plain.
  - cbn [map app]. rewrite map_app. reflexivity.
Qed.

(** ** COSE_Sign1 and COSE_Sign *)

Lemma sign1_refused : forall seed m tag d x, typed_key (s1_core m) -> sendable_headers (s1_core m) -> sign1_encode X seed m tag true (vopt d) = Err x ->
  is_cose_exception x = true \/ sig_refusal X (s1_core m) x.
Proof.
  intros seed m tag d x HT HH H. unfold sign1_encode in H. cbv zeta in H.
  apply bind_err_inv in H as [H|(p & _ & H)]; [right; right; right; eapply only_never_err; [apply send_phdr; exact HH|exact H]|].
  apply bind_err_inv in H as [H|(items & HI & H)].
  - apply bind_err_inv in H as [H|(? & _ & H)]; [|discriminate]. eapply compute_refused; [exact HT| |exact H]. intros y HY. eapply sign1_st_refused; eassumption.
  - right. right. right. apply bind_ok in HI as (s & _ & HI). injection HI as <-. eapply only_never_err; [|exact H]. apply send_emit. destruct HH as [_ HU].
    cbn [app forallb sendable] in HU |- *. rewrite sendable_vopt, HU. reflexivity.
Qed.

Lemma sign1_sent : forall seed m tag d b, typed_key (s1_core m) -> sign1_encode X seed m tag true (vopt d) = Ok b ->
  one_payload (s1_core m) d /\ nearly_signs (s1_core m) /\
  (refuses_empty X -> (forall k, ckey (s1_core m) = Some k -> declares (s1_core m) (sig_algorithm (k_cls k))) -> signs (s1_core m)).
Proof.
  intros seed m tag d b HT H. unfold sign1_encode in H. cbv zeta in H. apply bind_ok in H as (p & _ & H). apply bind_ok in H as (items & HI & _).
  apply bind_ok in HI as (s & HS & _). apply signature_sent in HS as (HN & (st & HST) & HW); [|exact HT]. split; [|auto].
  unfold sign1_structure in HST. apply bind_ok in HST as (q & _ & HST). apply bind_ok in HST as (pl & HPL & _). eapply payload_sent. exact HPL.
Qed.

Lemma signers_sent : forall parent l seed d vs, Forall typed_key l -> signers_encode X seed (Some parent) l (vopt d) = Ok vs ->
  (l <> [] -> one_payload parent d) /\ Forall nearly_signs l /\
  (refuses_empty X -> Forall (fun s => forall k, ckey s = Some k -> declares s (sig_algorithm (k_cls k))) l -> Forall signs l).
Proof.
  intros parent. induction l as [|s l IH]; intros seed d vs HF H; [split; [congruence|split; constructor]|]. apply Forall_cons_iff in HF as [HT HF].
  cbn [signers_encode] in H. apply bind_ok in H as (v & HV & H). apply bind_ok in H as (vs' & HVS & _). destruct (IH _ _ _ HF HVS) as (_ & HN & HS).
  unfold signer_encode in HV. apply bind_ok in HV as (p & _ & HV). apply bind_ok in HV as (sg & HSG & _). apply signature_sent in HSG as (H1 & (st & HST) & H2); [|exact HT].
  split; [|split].
  - intros _. unfold signer_structure in HST. apply bind_ok in HST as (q & _ & HST). apply bind_ok in HST as (q' & _ & HST). apply bind_ok in HST as (pl & HPL & _). eapply payload_sent. exact HPL.
  - constructor; assumption.
  - intros HR HD. apply Forall_cons_iff in HD as [HD1 HD2]. constructor; auto.
Qed.

Lemma sign_sent : forall seed m tag d b, Forall typed_key (sm_signers m) -> sign_encode X seed m tag (vopt d) = Ok b ->
  (sm_signers m <> [] -> one_payload (sm_core m) d) /\ Forall nearly_signs (sm_signers m) /\
  (refuses_empty X -> Forall (fun s => forall k, ckey s = Some k -> declares s (sig_algorithm (k_cls k))) (sm_signers m) -> Forall signs (sm_signers m)).
Proof.
  intros seed m tag d b HF H. unfold sign_encode in H. cbv zeta in H. apply bind_ok in H as (p & _ & H). apply bind_ok in H as (items & HI & _).
  destruct (sm_signers m) as [|s l] eqn:E; [split; [congruence|split; constructor]|]. apply bind_ok in HI as (vs & HVS & _). eapply signers_sent; eassumption.
Qed.

Lemma sign_refused : forall seed m tag d x, Forall (fun s => typed_key s /\ sendable_headers s) (sm_signers m) -> sendable_headers (sm_core m) ->
  sign_encode X seed m tag (vopt d) = Err x -> is_cose_exception x = true \/ x = OverflowError \/ exists s, In s (sm_signers m) /\ sig_refusal X s x.
Proof.
  intros seed m tag d x HF HH H. unfold sign_encode in H. cbv zeta in H.
  apply bind_err_inv in H as [H|(p & _ & H)]; [right; left; eapply only_never_err; [apply send_phdr; exact HH|exact H]|].
  assert (HL : forall l n, Forall (fun s => typed_key s /\ sendable_headers s) l ->
    (forall y, signers_encode X n (Some (sm_core m)) l (vopt d) = Err y -> is_cose_exception y = true \/ y = OverflowError \/ exists s, In s l /\ sig_refusal X s y) /\
    (forall vs, signers_encode X n (Some (sm_core m)) l (vopt d) = Ok vs -> forallb sendable vs = true)).
  { clear H HF. induction l as [|s l IH]; intros n HF; [split; [discriminate|intros vs H; injection H as <-; reflexivity]|]. apply Forall_cons_iff in HF as [[HT HS] HF].
    destruct (IH (N.succ n) HF) as [I1 I2]. cbn [signers_encode]. split.
    - intros y H. apply bind_err_inv in H as [H|(v & _ & H)].
      + unfold signer_encode in H. apply bind_err_inv in H as [H|(q & _ & H)]; [right; left; eapply only_never_err; [apply send_phdr; exact HS|exact H]|].
        apply bind_err_inv in H as [H|(sg & _ & H)]; [|discriminate]. apply compute_refused in H as [H|H]; [auto| |exact HT|].
        * right. right. exists s. split; [left; reflexivity|exact H].
        * intros z HZ. exact (signer_st_refused _ _ _ _ HH HS HZ).
      + apply bind_err_inv in H as [H|(vs & _ & H)]; [|discriminate]. destruct (I1 y H) as [H1|[H1|(s' & HI & H1)]]; [auto|auto|]. right. right. exists s'. split; [right; exact HI|exact H1].
    - intros vs H. apply bind_ok in H as (v & HV & H). apply bind_ok in H as (vs' & HVS & H). injection H as <-. cbn [forallb]. rewrite (I2 _ HVS), andb_true_r.
      unfold signer_encode in HV. apply bind_ok in HV as (q & _ & HV). apply bind_ok in HV as (sg & _ & HV). injection HV as <-. destruct HS as [_ HU]. cbn [forallb sendable] in HU |- *. rewrite HU. reflexivity. }
  destruct (HL (sm_signers m) seed HF) as [H1 H2]. destruct HH as [_ HU]. apply bind_err_inv in H as [H|(items & HI & H)].
  - destruct (sm_signers m) as [|s l]; [discriminate|]. apply bind_err_inv in H as [H|(? & _ & H)]; [|discriminate]. exact (H1 _ H).
  - right. left. eapply only_never_err; [|exact H]. apply send_emit. destruct (sm_signers m) as [|s l].
    + injection HI as <-. cbn [forallb sendable] in HU |- *. rewrite sendable_vopt, HU. reflexivity.
    + apply bind_ok in HI as (vs & HVS & HI). injection HI as <-. cbn [app forallb sendable] in HU |- *. rewrite sendable_vopt, HU, (H2 _ HVS). reflexivity.
Qed.

(** ** COSE_Encrypt0 and COSE_Mac0 *)

Lemma enc0_refused : forall c tag x, typed_key c -> byte_iv_headers c -> sendable_headers c -> enc0_encode X c tag true = Err x ->
  is_cose_exception x = true \/ enc_refusal X c x.
Proof.
  intros c tag x HT HB HH H. unfold enc0_encode in H. apply bind_err_inv in H as [H|(p & _ & H)]; [right; right; right; right; eapply only_never_err; [apply send_phdr; exact HH|exact H]|].
  apply bind_err_inv in H as [H|(body & HBd & H)].
  2: { right. right. right. right. eapply only_never_err; [|exact H]. apply bind_ok in HBd as (e & _ & HBd). injection HBd as <-. apply send_emit.
       destruct HH as [_ HU]. cbn [forallb sendable] in HU |- *. rewrite HU. reflexivity. }
  apply bind_err_inv in H as [H|(? & _ & H)]; [|discriminate]. unfold enc_encrypt in H. destruct (ckey c) as [k|] eqn:EK; [|injection H as <-; auto].
  apply bind_err_inv in H as [H|(a & HA & H)]; [apply get_attr_err in H; subst x; auto|].
  apply bind_err_inv in H as [H|(n & HN & H)].
  { destruct (get_nonce_err c k x EK (HT k EK) HB H) as [HX|(-> & H1 & H2 & _)]; [auto|]. right. right. right. left. auto. }
  destruct (get_nonce_bytes c n HB HN) as [nb ->]. apply bind_err_inv in H as [H|(u & HV & H)].
  { apply key_verify_err in H as [H|[-> H]]; [auto| |exact (HT k EK)]. right. right. left. split; [reflexivity|]. eapply not_class; eassumption. }
  apply bind_err_inv in H as [H|(u' & HM & H)].
  { apply has_enc_err in H as [-> H]. right. right. left. split; [reflexivity|]. eapply declared; eassumption. }
  apply bind_err_inv in H as [H|(t & _ & H)].
  - right. right. right. right. unfold enc_structure in H. apply bind_err_inv in H as [H|(q & _ & H)]; [eapply only_never_err; [apply send_base; exact HH|exact H]|].
    eapply only_never_err; [apply (send_plain "Encrypt0" [q; aad c])|exact H].
  - right. apply key_verify_cls in HV. destruct (typed_secret k (HT k EK) HV) as (b & HBk & _). unfold has_enc in HM. unfold alg_encrypt in H.
    destruct (alg_kind a) as [[]|]; try discriminate; unfold attr_bytes in H; rewrite HBk in H; cbn [bind as_bytes] in H;
    (destruct (payload c) as [pl|] eqn:EP; cbn [vopt as_bytes bind] in H; [left|injection H as <-; right; right; left; split; [reflexivity|left; exact EP]]).
    + left. eauto 8.
    + right. eauto 8.
Qed.

Lemma mac0_refused : forall m tag x, typed_key (m0_core m) -> sendable_headers (m0_core m) -> snd (mac0_encode X m tag true) = Err x ->
  is_cose_exception x = true \/ mac_refusal (m0_core m) x.
Proof.
  intros [c tg] tag x HT HH H. cbn [m0_core] in *. unfold mac0_encode in H. cbn [m0_core] in H. cbv zeta in H.
  destruct (phdr_encoded c) as [p|y] eqn:EP; [|right; right; right; cbn [snd] in H; injection H as <-; eapply only_never_err; [apply send_phdr; exact HH|exact EP]].
  unfold mac0_compute_tag in H. cbn [m0_core] in H. destruct (mac_compute X "MAC0" c) as [t|y] eqn:EM; cbn [snd] in H.
  { right. right. right. eapply only_never_err; [|exact H]. apply send_emit. destruct HH as [_ HU]. cbn [app forallb sendable] in HU |- *. rewrite sendable_vopt, HU. reflexivity. }
  injection H as ->. unfold mac_compute in EM. apply bind_err_inv in EM as [H|(a & HA & H)]; [apply get_attr_err in H; subst x; auto|].
  destruct (ckey c) as [k|] eqn:EK; [|injection H as <-; auto]. apply bind_err_inv in H as [H|(u & HV & H)].
  { apply key_verify_err in H as [H|[-> H]]; [auto| |exact (HT k EK)]. right. left. split; [reflexivity|]. eapply not_class; eassumption. }
  apply bind_err_inv in H as [H|(u' & HM & H)].
  { apply has_mac_err in H as [-> H]. right. left. split; [reflexivity|]. eapply declared; eassumption. }
  apply bind_err_inv in H as [H|(t & _ & H)].
  - right. right. unfold mac_structure in H. apply bind_err_inv in H as [H|(q & _ & H)]; [right; eapply only_never_err; [apply send_base; exact HH|exact H]|].
    destruct (payload c) as [pl|] eqn:EL; [|left; split; [congruence|reflexivity]]. right. eapply only_never_err; [apply (send_plain "MAC0" [q; aad c; pl])|exact H].
  - apply key_verify_cls in HV. destruct (compute_tag_ok X a k t _ (HT k EK) HV HM) as (b & HB). rewrite HB in H. discriminate.
Qed.

Lemma mac0_sent : forall m tag b, typed_key (m0_core m) -> snd (mac0_encode X m tag true) = Ok b ->
  payload (m0_core m) <> None /\ exists z k, permitted (m0_core m) z k [Cls FOps 9] /\ k_cls k = KSym /\ mac_algorithm z.
Proof.
  intros [c tg] tag b HT H. cbn [m0_core] in *. unfold mac0_encode in H. cbn [m0_core] in H. cbv zeta in H. destruct (phdr_encoded c); [|discriminate].
  unfold mac0_compute_tag in H. cbn [m0_core] in H. destruct (mac_compute X "MAC0" c) as [t|y] eqn:EM; [|discriminate]. eapply mac_sent; eassumption.
Qed.
Lemma enc0_sent : forall c tag b, typed_key c -> byte_iv_headers c -> enc0_encode X c tag true = Ok b ->
  payload c <> None /\ exists z k, permitted c z k [Cls FOps 3] /\ k_cls k = KSym /\ enc_algorithm z /\ has_nonce c k.
Proof.
  intros c tag b HT HB H. unfold enc0_encode in H. apply bind_ok in H as (p & _ & H). apply bind_ok in H as (body & HBd & _). apply bind_ok in HBd as (e & HE & _).
  eapply enc_sent; eassumption.
Qed.
End Inc.
