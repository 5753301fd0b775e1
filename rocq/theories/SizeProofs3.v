(** Proofs for C109: messages with recipients. *)
From Coq Require Import NArith ZArith Bool String Lia.
From Coq Require Import Init.Byte List.
From Verif Require Import Bytes BytesProofs Value ValueProofs Cbor CborProofs DataProofs Registry RegistryProofs WireProofs Crypto Keys Algorithms Headers Messages Recipients
  SpecKeys SpecHdr SpecStruct SpecAlg SpecAccept SpecCheck SpecMsg SpecSend KeyProofs KeyProofs2 KeyProofs3 KeyProofs4 HdrProofs HdrProofs2 StructProofs AcceptProofs
  CheckProofs CheckProofs2 MsgTrip SpecCrypto SpecRcpt RcptProofs RcptTrip AlgProofs SendProofs SpecSize SizeProofs SizeProofs2.
Import ListNotations.
Local Open Scope result_scope.

Section Size.
Variable X : crypto.

Lemma size_kw0 : forall n c b, sendable_headers c -> phdr c = [] -> wrapping c -> payload c = Some b -> (blen b + 16 < 2 ^ 63)%N -> law_wrap_fits X -> match kw_encrypt X n c [] with Ok w => fits w = true | Err x => wrap_failure X x end.
Proof.
  intros n c b HH HE HW HB HM [F1 F2]. unfold kw_encrypt. destruct HW as [(z & len & k & s & HA & HZ & HK & HS & HL)|(z & k & HP & HZ & HC)].
  - destruct (aes_wraps_kind z len HZ) as (EK & EI & EN). rewrite HA. cbn [bind]. rewrite HE, EN, EI. cbn [length Nat.eqb negb bind].
    unfold kw_kek_encrypt. rewrite HK, HS. cbn [bind].
    assert (HLen : In (length s) [16; 24; 32]).
    { rewrite HL. cbn in HZ. repeat (destruct HZ as [HZ|HZ]; [injection HZ as _ <-; cbn; auto|]). destruct HZ. }
    rewrite (good_secret z s [WrapOp; EncryptOp] (kind_def _ _ EK)); [|cbn; auto|exact HLen]. cbn [bind].
    change [WrapOp; EncryptOp] with (map VClass [Cls FOps 5; Cls FOps 3]) at 2.
    rewrite (sym_key_verify s z [WrapOp; EncryptOp] (Cls FOps 5)); [|cbn; auto|cbn; auto]. cbn [bind].
    unfold alg_key_wrap. rewrite EK, HB. unfold kw_key. rewrite (sym_key_secret s (alg z) [WrapOp; EncryptOp]). cbn [bind py_len]. rewrite HL, Nat.eqb_refl. cbn [bind as_bytes vopt].
    match goal with |- match ?e with _ => _ end => destruct e eqn:E; [eauto|left; eauto] end.
  - pose proof (permitted_verify _ _ _ _ HP) as HV. destruct HP as (HA & HK & HT & _ & _). rewrite HA. cbn [bind]. rewrite HE. cbn [length Nat.eqb negb].
    destruct HT as (_ & _ & _ & _ & HT). rewrite HC in HT, HV. destruct HT as (bn & be & HN & HR).
    destruct (filled_int k PE RSAKpE be) as [e He]; [rewrite HC; reflexivity|exact HR|].
    destruct (filled_int k PN RSAKpN bn) as [m Hm]; [rewrite HC; reflexivity|exact HN|].
    change (map VClass [Cls FOps 5; Cls FOps 3]) with [WrapOp; EncryptOp] in HV.
    assert (EA : is_none (alg z) = false /\ alg_in (alg z) aes_kw = Ok false /\ alg_in (alg z) oaep = Ok true /\ exists h, alg_kind (alg z) = Some (AOaep h)).
    { clear - HZ. cbn in HZ. repeat (destruct HZ as [<-|HZ]; [do 3 (split; [vm_compute; reflexivity|]); eexists; vm_compute; reflexivity|]). destruct HZ. }
    destruct EA as (-> & -> & E3 & h & EK). cbn [bind]. rewrite E3. cbn [bind]. rewrite HK, HV. cbn [bind]. unfold alg_key_wrap. rewrite EK. unfold rsa_public_numbers.
    rewrite He, Hm, HB. cbn [bind as_bytes vopt]. match goal with |- match ?e with _ => _ end => destruct e eqn:E; [eauto|right; eauto 8] end.
Qed.
Lemma size_kw : forall n c b, sendable_headers c -> phdr c = [] -> wrapping c -> payload c = Some b -> (blen b + 16 < 2 ^ 63)%N -> law_wrap_fits X ->
  unless (wrap_failure X) (kw_encrypt X n c []) /\ forall w, kw_encrypt X n c [] = Ok w -> fits w = true.
Proof.
  intros n c b H1 H2 H3 H4 H5 H6. pose proof (size_kw0 n c b H1 H2 H3 H4 H5 H6) as H. destruct (kw_encrypt X n c []) as [w|e].
  - split; [exact I|]. intros w' E. injection E as <-. exact H.
  - split; [exact H|discriminate].
Qed.

Definition there (P : rcpt -> Prop) (r : rcpt) : Prop := P r /\ core_exists (r_core r).

Lemma size_direct : forall n r, there direct_recipient r -> exists v, snd (rcpt_encode X n r) = Ok v /\ item_ok v = true.
Proof.
  intros n [id rc c ctx subs] [(HR & HS & HH & z & HA & HZ) HE]. cbn [r_class r_subs r_core] in *. subst rc subs.
  cbn [rcpt_encode snd length Nat.eqb negb]. rewrite HA. cbn [bind].
  replace (veqb (alg z) (algc (-6)) && negb (Nat.eqb (length (phdr c)) 0)) with false.
  2: { destruct (veqb (alg z) (algc (-6))) eqn:E; [|reflexivity]. apply veqb_eq in E. injection E as ->. rewrite (HZ eq_refl). reflexivity. }
  change (is_none (alg z)) with false. cbv iota. destruct (size_phdr _ HH HE) as [B1 B2]. destruct (phdr_encoded c) as [p|e]; [|destruct B1]. cbn [bind].
  eexists. split; [reflexivity|]. pose proof (bytes_item p (B2 _ eq_refl)) as I1. pose proof (uhdr_item _ HH HE) as I2.
  unfold item_ok in *. apply andb_true_iff in I1 as [J1 J2], I2 as [J3 J4]. cbn [sendable exists_in_memory forallb] in *. rewrite J2, J3, J4. reflexivity.
Qed.

Lemma size_wrap : forall n r, law_wrap_fits X -> there wrap_recipient r ->
  unless (wrap_failure X) (snd (rcpt_encode X n r)) /\ forall v, snd (rcpt_encode X n r) = Ok v -> item_ok v = true.
Proof.
  intros n [id rc c ctx subs] HF [(HR & HS & HH & HE & HW & b & HB & HL) HX]; cbn [r_class r_subs r_core] in *; subst rc subs.
  rewrite encode_kw. destruct (size_phdr _ HH HX) as [B1 B2]. destruct (phdr_encoded c) as [p|e]; [|destruct B1]. cbn [bind].
  destruct (size_kw n c b HH HE HW HB (proj2 (proj2 (proj2 (proj2 (proj2 HX)))) _ HB) HF) as [K1 K2]. destruct (kw_encrypt X n c []) as [w|e]; cbn [bind]; [|split; [exact K1|discriminate]].
  unfold finish. cbn [snd]. split; [exact I|]. intros v H. injection H as <-.
  pose proof (bytes_item p (B2 _ eq_refl)) as I1. pose proof (uhdr_item _ HH HX) as I2. pose proof (bytes_item w (K2 _ eq_refl)) as I3.
  unfold item_ok in *. apply andb_true_iff in I1 as [J1 J2], I2 as [J3 J4], I3 as [J5 J6]. cbn [sendable exists_in_memory forallb] in *. rewrite J2, J3, J4, J6. reflexivity.
Qed.

(** [vs] is one item of the message for each of [l]. *)
Definition each_sent {A} (l : list A) (vs : list pyval) : Prop := length vs = length l /\ forallb item_ok vs = true.

Lemma size_directs : forall l n, Forall (there direct_recipient) l -> exists vs, snd (rcpts_encode X n l) = Ok vs /\ each_sent l vs.
Proof.
  induction l as [|r l IH]; intros n HF; [exists []; repeat split|].
  apply Forall_cons_iff in HF as [HR HF]. cbn [rcpts_encode]. destruct (size_direct n r HR) as (v & S1 & S2).
  destruct (rcpt_encode X n r) as [[n1 r'] x]. cbn [snd] in S1. subst x.
  destruct (IH n1 HF) as (vs & I1 & I2 & I3). destruct (rcpts_encode X n1 l) as [[n2 l'] x]. cbn [snd] in I1. subst x.
  exists (v :: vs). split; [reflexivity|]. split; [cbn; congruence|]. cbn [forallb]. rewrite S2, I3. reflexivity.
Qed.

Lemma size_wraps : forall l n, law_wrap_fits X -> Forall (there wrap_recipient) l -> unless (wrap_failure X) (snd (rcpts_encode X n l)) /\
  forall vs, snd (rcpts_encode X n l) = Ok vs -> each_sent l vs.
Proof.
  induction l as [|r l IH]; intros n HW HF; [split; [exact I|]; intros vs H; injection H as <-; split; reflexivity|].
  apply Forall_cons_iff in HF as [HR HF]. cbn [rcpts_encode]. destruct (size_wrap n r HW HR) as [S1 S2].
  destruct (rcpt_encode X n r) as [[n1 r'] [v|e]]; cbn [snd] in *; [|split; [exact S1|discriminate]].
  destruct (IH n1 HW HF) as [I1 I2]. destruct (rcpts_encode X n1 l) as [[n2 l'] [vs|e]]; cbn [snd] in *; [|split; [exact I1|discriminate]].
  split; [exact I|]. intros ws H. injection H as <-. destruct (I2 vs eq_refl) as [J1 J2]. split; [cbn; congruence|]. cbn [forallb]. rewrite (S2 v eq_refl), J2. reflexivity.
Qed.

Lemma there_all : forall P l, Forall (there P) l -> Forall P l.
Proof. intros P l. apply Forall_impl. intros r [H _]. exact H. Qed.

Lemma list_item : forall A (l : list A) vs, fits l = true -> each_sent l vs -> item_ok (VList vs) = true.
Proof.
  intros A l vs HF [HL HI]. apply items_ok in HI as [HS HM]. unfold item_ok. cbn [sendable exists_in_memory]. rewrite HS, HM, (fits_same _ _ _ _ HL HF). reflexivity.
Qed.

Theorem size_enc_direct : forall n m z k tag, law_seal_fits X -> sendable_headers (e_core m) -> core_exists (e_core m) -> permitted (e_core m) z k [Cls FOps 3] -> k_cls k = KSym -> enc_algorithm z ->
  has_nonce (e_core m) k -> payload (e_core m) <> None -> e_rcpts m <> [] -> fits (e_rcpts m) = true -> Forall (there direct_recipient) (e_rcpts m) ->
  unless (seal_failure X) (snd (encm_encode X n m tag true)).
Proof.
  intros n [c rs] z k tag HS HH HX HP HC HZ HN HL HR HT HF. cbn [e_core e_rcpts] in *. pose proof HP as (HA & _).
  unfold encm_encode. cbn [e_core]. destruct (size_phdr _ HH HX) as [B1 B2]. destruct (phdr_encoded c) as [p|e]; [|destruct B1].
  unfold encm_encrypt. cbn [e_core e_rcpts]. destruct (direct_classes rs HR (there_all _ _ HF)) as [HV HD]. rewrite HA, HV, HD. cbn [bind].
  destruct (size_encrypt X "Encrypt" c z k eq_refl HS HH HX HP HC HZ HN HL) as [E1 E2]. destruct (enc_encrypt X "Encrypt" c) as [ct|e]; cbn [bind]; [|exact E1].
  cbn [e_rcpts e_core]. destruct rs as [|r rs]; [elim HR; reflexivity|]. rewrite HA.
  destruct (size_directs (r :: rs) n HF) as (vs & S1 & S2). destruct (rcpts_encode X n (r :: rs)) as [[n2 rs'] x]. cbn [snd] in *. subst x.
  apply unless_never, size_emit; [reflexivity|reflexivity|]. cbn [app forallb]. rewrite (bytes_item p (B2 _ eq_refl)), (uhdr_item _ HH HX), (bytes_item ct (E2 _ eq_refl)), (list_item _ _ _ HT S2). reflexivity.
Qed.

Theorem size_mac_direct : forall n m rs z k tag, sendable_headers (mm_core m) -> core_exists (mm_core m) -> permitted (mm_core m) z k [Cls FOps 9] -> k_cls k = KSym -> mac_algorithm z ->
  payload (mm_core m) <> None -> mm_rcpts m = Some rs -> rs <> [] -> fits rs = true -> Forall (there direct_recipient) rs ->
  exists b, snd (macm_encode X n m tag true) = Ok b.
Proof.
  intros n [c t o] rs z k tag HH HX HP HC HZ HL HO HR HT HF. cbn [mm_core mm_rcpts] in *. subst o. pose proof HP as (HA & _).
  unfold macm_encode. cbn [mm_core]. destruct (size_phdr _ HH HX) as [B1 B2]. destruct (phdr_encoded c) as [p|e]; [|destruct B1].
  unfold macm_compute_tag. cbn [mm_core mm_rcpts]. destruct (direct_classes rs HR (there_all _ _ HF)) as [HV HD]. rewrite HA, HV, HD.
  unfold mac_super_compute. cbn [mm_core mm_rcpts mm_tag]. destruct (size_mac X "MAC" c z k eq_refl HH HX HP HC HZ HL) as (mt & -> & HM). cbn [bind].
  cbn [mm_rcpts mm_core]. destruct rs as [|r rs]; [elim HR; reflexivity|]. rewrite HA.
  destruct (size_directs (r :: rs) n HF) as (vs & S1 & S2). destruct (rcpts_encode X n (r :: rs)) as [[n2 rs'] x]. cbn [snd] in *. subst x.
  match goal with |- exists b, ?e = Ok b => assert (G : unless never e) end.
  { apply size_emit; [reflexivity|reflexivity|]. cbn [app forallb]. rewrite (bytes_item p (B2 _ eq_refl)), (uhdr_item _ HH HX), (payload_item _ HX), (bytes_item mt HM), (list_item _ _ _ HT S2). reflexivity. }
  match goal with |- exists b, ?e = Ok b => destruct e as [b|x]; [eauto|destruct G] end.
Qed.

(** ** Key wrap *)

Lemma small_room : forall K : bytes, In (length K) [16; 24; 32] -> (blen K + 16 < 2 ^ 63)%N.
Proof. intros K H. unfold blen. cbn [In] in H. repeat (destruct H as [<-|H]; [reflexivity|]). destruct H. Qed.

Lemma size_cek : forall l n K, law_wrap_fits X -> Forall (there wrap_recipient) l -> In (length K) [16; 24; 32] ->
  match cek_loop X n (VBytes K) l with
  | ((_, l'), Ok kb) => Forall (there wrap_recipient) l' /\ length l' = length l /\ exists b, kb = VBytes b /\ In (length b) [16; 24; 32]
  | (_, Err x) => wrap_failure X x
  end.
Proof.
  induction l as [|r l IH]; intros n K HFit HF HK; [cbn; eauto 8|]. apply Forall_cons_iff in HF as [HR HF]. cbn [cek_loop].
  destruct r as [id rc c ctx subs]. destruct HR as [(HC & HS & HH & HE & HW & b & HB & HL) HX]. cbn [r_class r_subs r_core] in *. subst rc subs.
  rewrite HB.
  assert (HG : exists K', In (length K') [16; 24; 32] /\
    match b with [] => (r_with (Rcpt id RKeyWrap c ctx []) (with_payload c (Some K)), VBytes K) | _ => (Rcpt id RKeyWrap c ctx [], vopt (Some b)) end =
    (Rcpt id RKeyWrap (with_payload c (Some K')) ctx [], VBytes K')).
  { destruct b as [|b0 b].
    - exists K. split; [exact HK|reflexivity].
    - exists (b0 :: b). split; [destruct HL as [HL|HL]; [discriminate|exact HL]|]. destruct c. cbn in HB. subst. reflexivity. }
  destruct HG as (K' & HK' & EG).
  replace (match b with [] => _ | _ => _ end) with (Rcpt id RKeyWrap (with_payload c (Some K')) ctx [], VBytes K') by (rewrite <- EG; destruct b; reflexivity).
  clear EG. cbn [rcpt_encrypt].
  assert (HR' : wrap_recipient (Rcpt id RKeyWrap (with_payload c (Some K')) ctx [])).
  { split; [reflexivity|]. split; [reflexivity|]. cbn [r_core]. destruct c. repeat split; try apply HH; try exact HE; try exact HW. exists K'. split; [reflexivity|right; exact HK']. }
  assert (HX' : core_exists (with_payload c (Some K'))).
  { destruct HX as (X1 & X2 & X3 & X4 & X5 & _). destruct c as [q1 q2 q3 q4 q5 q6 q7 q8]. cbn [with_payload phdr uhdr aad phdr_raw payload] in *. repeat (split; [assumption|]). cbn [payload]. intros q Hq. injection Hq as <-. apply small_room. exact HK'. }
  pose proof (size_kw n (with_payload c (Some K')) K') as HKW. pose proof HR' as (_ & _ & H1 & H2 & H3 & H4). cbn [r_core] in *. specialize (HKW H1 H2 H3 eq_refl (small_room _ HK') HFit). destruct HKW as [HKW _].
  destruct (kw_encrypt X n (with_payload c (Some K')) []) as [w|e]; [|exact HKW].
  specialize (IH (N.succ n) K' HFit HF HK'). destruct (cek_loop X (N.succ n) (VBytes K') l) as [[n' l'] [kb|e]]; [|exact IH].
  destruct IH as (I1 & I2 & I3). split; [|split; [cbn; congruence|exact I3]]. constructor; [|exact I1]. split; [exact HR'|exact HX'].
Qed.

Theorem size_enc_wrapped : forall n m z nc tag, law_urandom_len X -> law_seal_fits X -> law_wrap_fits X -> sendable_headers (e_core m) -> core_exists (e_core m) -> get_attr (e_core m) Algorithm = Ok (alg z) -> enc_algorithm z ->
  get_attr (e_core m) IV = Ok (VBytes nc) -> payload (e_core m) <> None -> e_rcpts m <> [] -> fits (e_rcpts m) = true -> Forall (there wrap_recipient) (e_rcpts m) ->
  unless (send_failure X) (snd (encm_encode X n m tag true)).
Proof.
  intros n [c rs] z nc tag HU HSF HWF HH HEX HA HZ HN HL HR HFT HF. cbn [e_core e_rcpts] in *.
  assert (HCL : forall rc rs, Forall wrap_recipient rs -> has_class rc rs = true -> rc = RKeyWrap).
  { intros rc l H E. apply has_class_iff in E as (r & HI & <-). rewrite Forall_forall in H. apply (H r HI). }
  unfold encm_encode. cbn [e_core]. destruct (size_phdr _ HH HEX) as [B1 B2]. destruct (phdr_encoded c) as [p|e]; [|destruct B1].
  unfold encm_encrypt. cbn [e_core e_rcpts]. rewrite HA.
  assert (HV : verify_recipients rs = Ok tt).
  { apply verify_mix. split; intros (r & HI & E); exfalso; rewrite Forall_forall in HF; destruct (HF r HI) as [(E' & _) _]; congruence. }
  rewrite HV. cbn [bind].
  replace (has_class RDirect rs) with false by (symmetry; destruct (has_class RDirect rs) eqn:E; [apply HCL in E; [discriminate|exact (there_all _ _ HF)]|reflexivity]).
  replace (has_class RAgree rs) with false by (symmetry; destruct (has_class RAgree rs) eqn:E; [apply HCL in E; [discriminate|exact (there_all _ _ HF)]|reflexivity]).
  replace (has_class RKeyWrap rs) with true.
  2: { symmetry. apply has_class_iff. destruct rs as [|r rs]; [elim HR; reflexivity|]. exists r. split; [left; reflexivity|]. apply Forall_inv in HF. apply HF. }
  cbn [orb].
  assert (HG : exists len kd, get_key_length (alg z) = Ok len /\ In len [16; 24; 32] /\ alg_kind (alg z) = Some kd).
  { clear - HZ. destruct HZ as [H|H]; each H; (eexists; eexists; split; [vm_compute; reflexivity|split; [cbn; tauto|vm_compute; reflexivity]]). }
  destruct HG as (len & kd & HG & HLen & HKD). rewrite HG.
  pose proof (size_cek rs (N.succ n) (x_urandom X n len) HWF HF) as HC. rewrite HU in HC. specialize (HC HLen).
  destruct (cek_loop X (N.succ n) (VBytes (x_urandom X n len)) rs) as [[n' rs'] [kb|e]].
  2: { cbn [bind snd]. right. exact HC. }
  destruct HC as (HF' & HLN & b & -> & HB). rewrite (good_secret z b [EncryptOp] (kind_def _ _ HKD)); [|cbn; auto|exact HB].
  set (k := sym_key b (alg z) [EncryptOp]). set (c' := with_key c (Some k)).
  assert (HP : permitted c' z k [Cls FOps 3]).
  { unfold permitted, c'. destruct c. split; [exact HA|]. split; [reflexivity|]. split; [|split].
    - split; [|split; [|split; [|split]]].
      + intros v H. injection H as <-. eexists. reflexivity.
      + intros v H. injection H as <-. eexists. reflexivity.
      + intros v H. discriminate H.
      + intros e [].
      + exists b. split; [reflexivity|exact HB].
    - right. right. exists (Cls FAlg z). split; reflexivity.
    - right. right. exists [EncryptOp], (Cls FOps 3). split; [reflexivity|]. split; cbn; auto. }
  assert (HH' : sendable_headers c') by (unfold c'; destruct c; exact HH).
  assert (HEX' : core_exists c') by (unfold c'; destruct c; exact HEX).
  assert (HX : unless (seal_failure X) (enc_encrypt X "Encrypt" c') /\ forall ct, enc_encrypt X "Encrypt" c' = Ok ct -> fits ct = true).
  { apply (size_encrypt X "Encrypt" c' z k eq_refl HSF HH' HEX' HP eq_refl HZ); [left; exists nc; unfold c'; destruct c; exact HN|unfold c'; destruct c; exact HL]. }
  destruct HX as [HX HXF]. destruct (enc_encrypt X "Encrypt" c') as [ct|e]; cbn [bind].
  2: { cbn [snd]. left. exact HX. }
  cbn [e_rcpts e_core]. destruct rs' as [|r rs']; [destruct rs; [elim HR; reflexivity|discriminate HLN]|].
  replace (get_attr c' Algorithm) with (Ok (alg z)) by (unfold c'; destruct c; symmetry; exact HA).
  assert (HT' : fits (r :: rs') = true) by (exact (fits_same _ _ _ _ HLN HFT)).
  destruct (size_wraps (r :: rs') n' HWF HF') as [S1 S2]. destruct (rcpts_encode X n' (r :: rs')) as [[n2 rs2] [vs|e]]; cbn [snd] in *.
  - apply unless_never, size_emit; [reflexivity|reflexivity|]. cbn [app forallb]. rewrite (bytes_item p (B2 _ eq_refl)), (uhdr_item _ HH' HEX'), (bytes_item ct (HXF _ eq_refl)), (list_item _ _ _ HT' (S2 vs eq_refl)). reflexivity.
  - right. exact S1.
Qed.

End Size.
