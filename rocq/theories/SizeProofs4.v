(** Proofs for C109: messages with key agreement. *)
From Coq Require Import NArith ZArith Bool String Lia.
From Coq Require Import Init.Byte List.
From Verif Require Import Bytes BytesProofs Value ValueProofs Cbor CborProofs SpecData DataProofs Registry RegistryProofs WireProofs Crypto SpecCrypto Keys Algorithms Headers Messages Recipients
  SpecRegistry SpecKeys SpecGen SpecHdr SpecTrip SpecStruct SpecAlg SpecAccept SpecCheck SpecMsg SpecRcpt SpecSend KeyProofs KeyProofs2 KeyProofs3 KeyProofs4 HdrProofs HdrProofs2 StructProofs AcceptProofs
  CheckProofs CheckProofs2 MsgTrip GenProofs RcptProofs RcptTrip SpecRcptTrip RcptTrip2 AlgProofs SendProofs SendAgree SpecSize SizeProofs SizeProofs2 SizeProofs3.
Import ListNotations.
Local Open Scope result_scope.

(** ** The key derivation context *)

Lemma memory_value : forall d h v, exists_in_memory (VDict d) = true -> dget d h = Some v -> exists_in_memory v = true.
Proof.
  intros d h v H HD. cbn [exists_in_memory] in H. apply andb_true_iff in H as [_ H]. rewrite forallb_forall in H. apply dget_In in HD as (a & HI & _).
  specialize (H _ HI). cbn beta iota in H. apply andb_true_iff in H. apply H.
Qed.
Lemma memory_attr : forall c h v, core_exists c -> get_attr c h = Ok v -> exists_in_memory v = true.
Proof.
  intros c h v (H1 & _ & H2 & _) H. apply get_attr_value in H as [->|[H|H]]; [reflexivity|exact (memory_value _ _ _ H1 H)|exact (memory_value _ _ _ H2 H)].
Qed.
Lemma memory_local : forall c h, agree_exists c -> exists_in_memory (dget_or (local c) h (VBytes [])) = true.
Proof. intros c h (_ & H & _). unfold dget_or. destruct (dget (local c) h) as [v|] eqn:E; [exact (memory_value _ _ _ H E)|reflexivity]. Qed.

Lemma size_context : forall c wz len k, derivable c -> agree_exists c -> get_key_length (alg wz) = Ok len -> (Z.abs wz < 2 ^ 63)%Z -> (len <= 64)%nat ->
  get_kdf_context c (alg wz) = Ok k -> unless never (kdf_encode k).
Proof.
  intros c wz len k HD HE HL HW HN HK. destruct (derivable_context c wz len HD HL) as (k' & HK' & _ & HO). rewrite HK in HK'. injection HK' as <-.
  apply only_unless; [exact HO|]. unfold get_kdf_context in HK.
  apply bind_ok in HK as (v1 & E1 & HK). apply bind_ok in HK as (v2 & E2 & HK). apply bind_ok in HK as (v3 & E3 & HK).
  apply bind_ok in HK as (v4 & E4 & HK). apply bind_ok in HK as (v5 & E5 & HK). apply bind_ok in HK as (v6 & E6 & HK). rewrite HL in HK. cbn [bind] in HK. injection HK as <-.
  pose proof HE as (HC & _). pose proof (memory_attr _ _ _ HC E1) as M1. pose proof (memory_attr _ _ _ HC E2) as M2. pose proof (memory_attr _ _ _ HC E3) as M3.
  pose proof (memory_attr _ _ _ HC E4) as M4. pose proof (memory_attr _ _ _ HC E5) as M5. pose proof (memory_attr _ _ _ HC E6) as M6.
  pose proof (memory_local c SuppPubOther HE) as M7. pose proof (memory_local c SuppPrivOther HE) as M8.
  unfold kdf_encode. cbn [kc_alg kc_u kc_v kc_len kc_protected kc_pub_other kc_priv]. change (identifier_of (alg wz)) with (Some wz). cbv iota.
  destruct HC as (HP & HR & _). pose proof (memory_dumps (VDict (phdr c)) HIdent HP) as HQ. pose proof (dumps_room (VDict (phdr c)) HIdent) as HRoom.
  destruct (dumps cls_fullname HIdent (VDict (phdr c))) as [p|e]; cbn [bind]; [|intros H; apply HQ; injection H as ->; reflexivity]. specialize (HRoom p eq_refl).
  unfold dumps_plain. apply memory_dumps.
  assert (MP : exists_in_memory (VBytes p) = true) by (cbn [exists_in_memory]; apply fits_lt; lia).
  assert (MI : forall z, (Z.abs z < 2 ^ 63)%Z -> exists_in_memory (VInt z) = true).
  { intros z Hz. cbn [exists_in_memory]. apply N.ltb_lt. destruct (N.eq_dec (Z.abs_N z) 0) as [E|E]; [rewrite E; reflexivity|].
    apply N.le_lt_trans with (Z.abs_N z); [pose proof (N.log2_lt_lin (Z.abs_N z)); lia|]. rewrite <- (N2Z.id (Z.abs_N z)), N2Z.inj_abs_N. change (2 ^ 63)%N with (Z.to_N (2 ^ 63)). apply Z2N.inj_lt; lia. }
  pose proof (MI _ HW) as M9. assert (M10 : exists_in_memory (VInt (Z.of_nat len * 8)) = true) by (apply MI; lia).
  assert (L : forall l, (length l < 100)%nat -> forallb exists_in_memory l = true -> exists_in_memory (VList l) = true).
  { intros l Hl HF. cbn [exists_in_memory]. rewrite HF, andb_true_r. unfold fits. apply N.ltb_lt. apply N.lt_trans with 100%N; [lia|reflexivity]. }
  assert (LU : exists_in_memory (VList [v1; v2; v3]) = true) by (apply L; [cbn [length]; lia|]; cbn [forallb]; rewrite M1, M2, M3; reflexivity).
  assert (LV : exists_in_memory (VList [v4; v5; v6]) = true) by (apply L; [cbn [length]; lia|]; cbn [forallb]; rewrite M4, M5, M6; reflexivity).
  assert (LP : forall o, In o [[]; [dget_or (local c) SuppPubOther (VBytes [])]] -> exists_in_memory (VList ([VInt (Z.of_nat len * 8); VBytes p] ++ o)) = true).
  { intros o [<-|[<-|[]]]; (apply L; [cbn [length app]; lia|]); cbn [forallb app]; rewrite M10, MP, ?M7; reflexivity. }
  cbv zeta. destruct (veqb (dget_or (local c) SuppPubOther (VBytes [])) (VBytes [])).
  - destruct (veqb (dget_or (local c) SuppPrivOther (VBytes [])) (VBytes [])); (apply L; [cbn [length app]; lia|]); cbn [forallb app] in LP |- *; rewrite M9, LU, LV, ?M8; cbn [andb];
      rewrite (LP [] (or_introl eq_refl)); reflexivity.
  - destruct (veqb (dget_or (local c) SuppPrivOther (VBytes [])) (VBytes [])); (apply L; [cbn [length app]; lia|]); cbn [forallb app] in LP |- *; rewrite M9, LU, LV, ?M8; cbn [andb];
      rewrite (LP _ (or_intror (or_introl eq_refl))); reflexivity.
Qed.

Section Agree.
Variable X : crypto.

Lemma size_kek : forall c wz len z cv p k, law_hkdf_len X -> derivable c -> agree_exists c -> (Z.abs wz < 2 ^ 63)%Z -> (len <= 64)%nat -> get_key_length (alg wz) = Ok len ->
  (exists h, kex_hash (alg z) = Ok h) -> peer_known c cv p -> own_key c k ->
  unless (agree_failure X) (agree_kek X c (alg wz) (kval p) (ckey c) (alg z)) /\
  forall b, agree_kek X c (alg wz) (kval p) (ckey c) (alg z) = Ok b -> length b = len.
Proof.
  intros c wz len z cv p k HU HD HEX HWZ HLE HL (h & HH) (HP & HPC & HCV & HC & HX & HY) (HK & HKC & HPD).
  destruct (derivable_context c wz len HD HL) as (kc & EK & EL & _). pose proof (size_context c wz len kc HD HEX HL HWZ HLE EK) as HE.
  unfold agree_kek. rewrite HH. cbn [bind]. replace (peer (kval p)) with (Ok p) by (destruct p; reflexivity). cbn [bind].
  assert (EC : prop_get p PCrv = Ok (VClass (Cls FCrv cv))) by (rewrite prop_get_place, HPC; cbn [place crv_prop]; rewrite HC; reflexivity).
  rewrite EC. cbn [bind]. rewrite EK, HK. cbn [bind]. rewrite EL. unfold derive_kek. rewrite HH. cbn [bind].
  assert (HS : unless (agree_failure X) (ecdh X (VClass (Cls FCrv cv)) k p)).
  { unfold ecdh. destruct (filled_hex k PD EC2KpD) as [d Hd]; [rewrite HKC; reflexivity|exact HPD|].
    destruct (filled_hex p PX EC2KpX) as [x Hx]; [rewrite HPC; reflexivity|exact HX|].
    destruct (filled_hex p PY EC2KpY) as [y Hy]; [rewrite HPC; reflexivity|exact HY|]. rewrite Hd, Hx, Hy. cbn [bind].
    replace (veqb (curve_key_type cv) KtyEC2) with true by (cbn in HCV; repeat (destruct HCV as [<-|HCV]; [reflexivity|]); destruct HCV).
    match goal with |- unless _ ?e => destruct e eqn:E; [exact I|left; eauto 8] end. }
  split.
  - apply unless_bind; [exact HS|]. intros s _. apply unless_bind; [apply unless_never; exact HE|]. intros i _.
    match goal with |- unless _ ?e => destruct e eqn:E; [exact I|right; eauto 8] end.
  - intros b H. apply bind_ok in H as (s & _ & H). apply bind_ok in H as (i & _ & H). eapply HU. exact H.
Qed.

Lemma ec2_store : forall c size x y d, In (c, size) ec2_curves -> x_ec_pub X c d = Ok (x, y) ->
  (x < 256 ^ N.of_nat size)%N -> (y < 256 ^ N.of_nat size)%N -> (d < 256 ^ N.of_nat size)%N ->
  exists k, ec2_from_ext X (Some c) x y (Some d) VNone = Ok k /\
    k_store k = [(VClass KpKty, kty_of KEC2); (VClass EC2KpCurve, VClass (Cls FCrv c)); (VClass EC2KpX, VBytes (to_be size x)); (VClass EC2KpY, VBytes (to_be size y)); (VClass EC2KpD, VBytes (to_be size d))].
Proof.
  intros c size x y d HC HP HX HY HD. destruct (ec2_curve_facts _ _ HC) as (HK & HS & _).
  unfold ec2_from_ext. rewrite HS, (to_bytes_in _ _ HX), (to_bytes_in _ _ HY), (to_bytes_in _ _ HD). cbn [bind add_params truthy].
  assert (HT : forall m, truthy (VBytes (to_be size m)) = true).
  { intros m. cbn [truthy]. pose proof (to_be_length size m) as HL. destruct (to_be size m); [|reflexivity].
    destruct size; [|discriminate]. repeat (destruct HC as [HC|HC]; [discriminate|]). destruct HC. }
  match goal with |- exists k, ?r = _ /\ _ =>
    assert (HE : r = ec2_init X (VClass (Cls FCrv c)) (VBytes (to_be size x)) (VBytes (to_be size y)) (VBytes (to_be size d)) (VDict []) true) by reflexivity;
    rewrite HE end.
  unfold ec2_init.
  assert (HI : common_init KEC2 (VDict []) true = Ok (Key KEC2 [(VClass KpKty, kty_of KEC2)] [])) by (vm_compute; reflexivity).
  rewrite HI. cbn [bind is_none]. unfold set_crv at 1. rewrite (ec2_curve_registered _ HK). cbn [bind c_id]. rewrite HK.
  change (veqb KtyEC2 KtyEC2) with true. cbn [bind]. rewrite !HT. cbn [negb andb].
  unfold ec2_from_private. cbn [as_bytes bind].
  assert (HCI : crv_id (store_set (Key KEC2 [(VClass KpKty, kty_of KEC2)] []) EC2KpCurve (VClass (Cls FCrv c))) = c) by reflexivity.
  rewrite HCI. rewrite (of_be_to_be_small size d HD), HP. cbn [bind]. rewrite HS, (to_bytes_in _ _ HX), (to_bytes_in _ _ HY). cbn [bind].
  rewrite !HT. assert (HV : forall v, veqb v v = true) by (intros v; apply veqb_eq; reflexivity). rewrite !HV. cbn [bind]. rewrite !HT. cbn [negb andb bind].
  assert (HSB : forall p m k, set_unless_empty p (VBytes (to_be size m)) k = Ok (store_set k p (VBytes (to_be size m)))).
  { intros p m k. unfold set_unless_empty. pose proof (HT m) as HTM. cbn [truthy] in HTM.
    destruct (veqb (VBytes (to_be size m)) (VBytes [])) eqn:E; [|reflexivity]. apply veqb_eq in E. injection E as E. rewrite E in HTM. discriminate. }
  rewrite !HSB. cbn [bind]. rewrite HSB. cbn [bind]. rewrite HSB. eexists. split; [reflexivity|]. reflexivity.
Qed.

Lemma dset_memory : forall d a b, exists_in_memory (VDict d) = true -> (N.of_nat (length d) + 1 < 2 ^ 63)%N -> exists_in_memory a = true -> exists_in_memory b = true -> exists_in_memory (VDict (dset d a b)) = true.
Proof.
  intros d a b HD HL HA HB. cbn [exists_in_memory] in *. apply andb_true_iff in HD as [_ HD]. apply andb_true_iff. split.
  - unfold fits. apply N.ltb_lt. apply N.le_lt_trans with (N.of_nat (length d) + 1)%N; [|exact HL].
    assert (G : forall e : list (pyval * pyval), length (dset e a b) <= length e + 1) by (induction e as [|[x y] e IH]; cbn [dset length]; [lia|destruct (keyeq a x); cbn [length]; lia]).
    specialize (G d). lia.
  - clear HL. induction d as [|[x y] d IH]; cbn [dset forallb]; [rewrite HA, HB; reflexivity|].
    cbn [forallb] in HD. apply andb_true_iff in HD as [H1 H2]. apply andb_true_iff in H1 as [H0 H1]. destruct (keyeq a x); cbn [forallb]; rewrite ?H0, ?H1, ?H2, ?HB, ?IH by exact H2; reflexivity.
Qed.

Lemma generated_memory : forall n cv k, law_ec_gen X -> In cv (map fst ec2_curves) -> ec2_generate X n (VClass (Cls FCrv cv)) VNone = Ok k -> exists_in_memory (VDict (ddel (k_store k) (VClass EC2KpD))) = true.
Proof.
  intros n cv k HG HCV H. unfold ec2_generate in H.
  assert (HR : exists size nm, In (cv, size) ec2_curves /\ In (Cls FCrv cv, nm) (registered FCrv) /\ size <= 66).
  { clear - HCV. cbn in HCV. repeat (destruct HCV as [<-|HCV]; [eexists; eexists; split; [cbn; eauto 8|split; [cbn; eauto 15|apply Nat.leb_le; reflexivity]]|]). destruct HCV. }
  destruct HR as (size & nm & HI & HN & HSz). assert (HSp : spells (Cls FCrv cv) nm (VClass (Cls FCrv cv))) by reflexivity. rewrite (from_id_spells _ _ _ _ _ HN HSp) in H. cbn [bind c_id] in H.
  destruct (veqb _ _); [|discriminate]. destruct (HG cv size n HI) as (HD & x & y & HP & HX & HY). rewrite HP in H. cbn [bind] in H.
  destruct (ec2_store cv size x y _ HI HP HX HY HD) as (k' & HK & HS). rewrite HK in H. injection H as <-. rewrite HS.
  assert (F : forall m, fits (to_be size m) = true) by (intros m; apply fits_lt; unfold blen; rewrite to_be_length; lia).
  change (ddel _ (VClass EC2KpD)) with [(VClass KpKty, kty_of KEC2); (VClass EC2KpCurve, VClass (Cls FCrv cv)); (VClass EC2KpX, VBytes (to_be size x)); (VClass EC2KpY, VBytes (to_be size y))].
  cbn [exists_in_memory forallb]. rewrite !F. cbn in HCV. repeat (destruct HCV as [<-|HCV]; [vm_compute; reflexivity|]). destruct HCV.
Qed.

Lemma but_exists : forall n c cv p c1, law_ec_gen X -> peer_known c cv p -> agree_exists c -> ckey c = None -> setup_ephemeral X n c (kval p) = (c1, Ok tt) -> agree_exists c1.
Proof.
  intros n c cv p c1 HG (HP & HPC & HCV & HC & _ & _) ((E1 & E2 & E3 & E4 & E5 & E6) & EL & ER) HNone HS. specialize (ER HNone). apply setup_ephemeral_ok in HS as (k & -> & _ & p' & crv & Hp & Hc & Hk).
  assert (Hpp : peer (kval p) = Ok p) by (destruct p; reflexivity). rewrite Hpp in Hp. injection Hp as <-.
  assert (EC : prop_get p PCrv = Ok (VClass (Cls FCrv cv))) by (rewrite prop_get_place, HPC; cbn [place crv_prop]; rewrite HC; reflexivity).
  rewrite EC in Hc. injection Hc as <-. pose proof (generated_memory n cv k HG HCV Hk) as HM.
  destruct c as [q1 q2 q3 q4 q5 q6 q7 q8]. cbn [with_uhdr with_key phdr phdr_raw uhdr local payload aad] in *. split; [|split; [exact EL|discriminate]].
  repeat (split; [assumption|]). cbn [uhdr]. split; [|repeat (split; [assumption|]); assumption]. apply dset_memory; [exact E3|exact ER|reflexivity|exact HM].
Qed.

(** ** Key agreement with key wrap *)

Lemma size_kakw : forall n r, law_hkdf_len X -> law_ec_gen X -> law_wrap_fits X -> agree_wrap_recipient r -> agree_exists (r_core r) ->
  match kakw_encrypt X n (r_core r) with
  | (c1, Ok w) => agree_wrap_recipient (r_with r c1) /\ payload c1 = payload (r_core r) /\ but_ephemeral (r_core r) c1 /\ agree_exists c1 /\ fits w = true
  | (_, Err x) => wrap_failure X x \/ agree_failure X x
  end.
Proof.
  intros n [id rc c ctx subs] HU HG [HWF _] (HC & HS & HH & HD & (z & cv & p & HA & HZ & HP & HK) & b & HB & HL) HEX. cbn [r_class r_subs r_core] in *. subst rc subs.
  destruct (kakw_facts z HZ) as (wz & len & EF & EK & EA & EI & _).
  unfold kakw_encrypt. pose proof HP as (HPS & _). unfold dget_or. rewrite HPS. replace (is_none (kval p)) with false by (destruct p; reflexivity).
  rewrite HA. change (is_none (alg z)) with false. cbv iota zeta beta.
  assert (HX : exists c1 k, match ckey c with Some _ => (c, Ok tt) | None => match alg_in (alg z) es_kw with Err e => (c, Err e) | Ok true => setup_ephemeral X n c (kval p) | Ok false => (c, Err CoseException) end end = (c1, Ok tt) /\
    but_ephemeral c c1 /\ own_key c1 k /\ sendable_headers c1 /\ agree_exists c1).
  { destruct HK as [(k & HK)|(HK & HZ' & HE)].
    - pose proof HK as (-> & _). exists c, k. split; [reflexivity|]. split; [apply but_refl|]. auto.
    - rewrite HK. rewrite EI. replace (existsb (Z.eqb z) es_kw) with true by (cbn in HZ'; repeat (destruct HZ' as [<-|HZ']; [reflexivity|]); destruct HZ').
      destruct (setup_total X n c cv p HG HH HP HE) as (c1 & k & HSE & Q1 & Q2 & Q3). exists c1, k. repeat (split; [assumption|]). exact (but_exists n c cv p c1 HG HP HEX HK HSE). }
  destruct HX as (c1 & k & -> & HBut & HOwn & HH1 & HEX1). cbn [bind].
  assert (HA1 : get_attr c1 Algorithm = Ok (alg z)) by (rewrite (but_get c c1 Algorithm HBut); [exact HA|reflexivity]).
  rewrite HA1. cbn [bind]. rewrite EF. cbn [bind].
  assert (ELen : get_key_length (alg wz) = Ok len) by (unfold get_key_length; rewrite EK; reflexivity).
  assert (HKH : exists h, kex_hash (alg z) = Ok h) by (unfold kex_hash; rewrite EA; eauto).
  assert (HLen : In len [16; 24; 32]).
  { clear - EK. assert (HF : forallb (fun e => match alg_kind (alg (fst e)) with Some (AKw n) => existsb (Nat.eqb n) [16; 24; 32] | _ => true end) alg_defs = true) by (vm_compute; reflexivity).
    pose proof (kind_def _ _ EK) as HX. apply existsb_exists in HX as (e & HI & HE). apply Z.eqb_eq in HE. rewrite forallb_forall in HF. specialize (HF _ HI).
    rewrite HE, EK in HF. apply existsb_exists in HF as (m & Hm & E). apply Nat.eqb_eq in E. subst m. exact Hm. }
  assert (HLE : len <= 64) by (cbn in HLen; lia).
  assert (HWZ : (Z.abs wz < 2 ^ 63)%Z).
  { clear - EK. pose proof (kind_def _ _ EK) as HX. apply existsb_exists in HX as (e & HI & HE). apply Z.eqb_eq in HE. subst wz.
    assert (HF : forallb (fun e => Z.ltb (Z.abs (fst e)) (2 ^ 63)) alg_defs = true) by (vm_compute; reflexivity). rewrite forallb_forall in HF. apply Z.ltb_lt. exact (HF _ HI). }
  destruct (size_kek c1 wz len z cv p k HU (but_derivable _ _ HBut HD) HEX1 HWZ HLE ELen HKH (but_peer _ _ _ _ HBut HP) HOwn) as [S1 S2].
  destruct (agree_kek X c1 (alg wz) (kval p) (ckey c1) (alg z)) as [kb|e]; cbn [bind]; [|right; exact S1].
  specialize (S2 kb eq_refl).
  rewrite (good_secret z kb [DeriveKeyOp] (kind_def _ _ EA)); [|cbn; auto 8|rewrite S2; exact HLen]. cbn [bind].
  assert (HPL : payload c1 = payload c) by apply HBut. unfold alg_key_wrap. rewrite EK, HPL, HB. unfold kw_key.
  rewrite (sym_key_secret kb (alg z) [DeriveKeyOp]). cbn [bind py_len]. rewrite S2, Nat.eqb_refl. cbn [bind as_bytes vopt].
  destruct (x_wrap X kb b) as [w|e] eqn:EW; [|left; left; eauto].
  split; [|split; [first [reflexivity|exact HPL|congruence]|split; [exact HBut|split; [exact HEX1|]]]].
  2: { apply (HWF _ _ _ EW). apply HEX. exact HB. }
  split; [reflexivity|]. split; [reflexivity|]. cbn [r_core r_with]. split; [exact HH1|]. split; [eapply but_derivable; eassumption|].
  split; [|exists b; split; [congruence|exact HL]]. exists z, cv, p. split; [exact HA1|]. split; [exact HZ|]. split; [eapply but_peer; eassumption|]. left. eauto.
Qed.

Definition wrapped_there (r : rcpt) : Prop := there wrap_recipient r \/ (agree_wrap_recipient r /\ agree_exists (r_core r)).
Definition agree_failed (x : exn) : Prop := wrap_failure X x \/ agree_failure X x.

Lemma triple_item : forall p d w, fits p = true -> item_ok (VDict d) = true -> fits w = true -> item_ok (VList [VBytes p; VDict d; VBytes w]) = true.
Proof.
  intros p d w HP HD HW. unfold item_ok in *. apply andb_true_iff in HD as [J3 J4]. cbn [sendable exists_in_memory forallb] in *. rewrite HP, HW, J3, J4. reflexivity.
Qed.

Lemma size_wrapped_recipient : forall n r, law_hkdf_len X -> law_ec_gen X -> law_wrap_fits X -> wrapped_there r ->
  match snd (rcpt_encode X n r) with Ok v => item_ok v = true | Err x => agree_failed x end.
Proof.
  intros n r HU HG HF [HW|[HW HEX]].
  - destruct (size_wrap X n r HF HW) as [S1 S2]. destruct (snd (rcpt_encode X n r)) as [v|x]; [apply S2; reflexivity|left; exact S1].
  - pose proof (size_kakw n r HU HG HF HW HEX) as HK. destruct r as [id rc c ctx subs].
    destruct HW as (HC & HS & HH & HD & (z & cv & p & HA & HZ & HP & _) & _). cbn [r_class r_subs r_core] in *. subst rc subs.
    rewrite encode_kakw. pose proof HEX as (HCE & _). destruct (size_phdr _ HH HCE) as [B1 B2]. destruct (phdr_encoded c) as [ph|e]; cbn [bind]; [|destruct B1].
    rewrite HA. cbn [bind]. destruct (kakw_facts z HZ) as (wz & len & EF & _). rewrite EF. cbn [bind].
    destruct (kakw_encrypt X n c) as [c1 [w|e]]; [|exact HK]. destruct HK as [(_ & _ & HH1 & _) (_ & _ & (HE1 & _) & HW)]. cbn [r_core r_with] in HH1.
    unfold finish. cbn [snd]. apply triple_item; [apply B2; reflexivity|apply uhdr_item; assumption|exact HW].
Qed.

Lemma size_wrapped_recipients : forall l n, law_hkdf_len X -> law_ec_gen X -> law_wrap_fits X -> Forall wrapped_there l ->
  match snd (rcpts_encode X n l) with Ok vs => each_sent l vs | Err x => agree_failed x end.
Proof.
  induction l as [|r l IH]; intros n HU HG HW HF; [split; reflexivity|]. apply Forall_cons_iff in HF as [HR HF]. cbn [rcpts_encode].
  pose proof (size_wrapped_recipient n r HU HG HW HR) as HS. destruct (rcpt_encode X n r) as [[n1 r'] [v|e]]; cbn [snd] in *; [|exact HS].
  specialize (IH n1 HU HG HW HF). destruct (rcpts_encode X n1 l) as [[n2 l'] [vs|e]]; cbn [snd] in *; [|exact IH]. destruct IH as [I1 I2].
  split; [cbn; congruence|]. cbn [forallb]. rewrite HS, I2. reflexivity.
Qed.

Lemma there_wrapped : forall r, wrapped_there r -> wrapped r.
Proof. intros r [[H _]|[H _]]; [left|right]; exact H. Qed.

Lemma exists_filled : forall c K, core_exists c -> In (length K) [16; 24; 32] -> core_exists (with_payload c (Some K)).
Proof.
  intros [q1 q2 q3 q4 q5 q6 q7 q8] K (X1 & X2 & X3 & X4 & X5 & _) HK. cbn [with_payload phdr uhdr aad phdr_raw payload] in *. repeat (split; [assumption|]). cbn [payload].
  intros q Hq. injection Hq as <-. apply small_room. exact HK.
Qed.

Lemma wrapped_there_filled : forall r K, wrapped_there r -> In (length K) [16; 24; 32] -> wrapped_there (r_with r (with_payload (r_core r) (Some K))).
Proof.
  intros [id rc c ctx subs] K [[HW HX]|[HW HX]] HK; cbn [r_core r_with] in *; [left|right]; (split; [|try (apply exists_filled; assumption)]).
  - destruct c. destruct HW as (H1 & H2 & H3 & H4 & H5 & _). repeat (split; [assumption|]). exists K. auto.
  - destruct c. destruct HW as (H1 & H2 & H3 & H4 & H5 & _). repeat (split; [assumption|]). exists K. auto.
  - destruct HX as (X1 & X2 & X3). cbn [r_core r_with]. split; [apply exists_filled; assumption|]. destruct c. split; assumption.
Qed.

Lemma size_encrypt_recipient : forall n r, law_hkdf_len X -> law_ec_gen X -> law_wrap_fits X -> wrapped_there r ->
  match rcpt_encrypt X n r with (r', Ok _) => wrapped_there r' | (_, Err x) => agree_failed x end.
Proof.
  intros n r HU HG HF [HW|[HW HX]].
  - destruct r as [id rc c ctx subs]. pose proof HW as [(HC & HS & HH & HE & HP & b & HB & _) HX]. cbn [r_class r_subs r_core] in *. subst rc subs. cbn [rcpt_encrypt].
    destruct (size_kw X n c b HH HE HP HB (proj2 (proj2 (proj2 (proj2 (proj2 HX)))) _ HB) HF) as [K1 _]. destruct (kw_encrypt X n c []) as [w|e]; [left; exact HW|left; exact K1].
  - pose proof (size_kakw n r HU HG HF HW HX) as HK. destruct r as [id rc c ctx subs]. pose proof HW as (HC & _). cbn [r_class r_core] in *. subst rc. cbn [rcpt_encrypt].
    destruct (kakw_encrypt X n c) as [c1 [w|e]]; [|exact HK]. right. split; apply HK.
Qed.

Lemma size_cek_wrapped : forall l n K, law_hkdf_len X -> law_ec_gen X -> law_wrap_fits X -> Forall wrapped_there l -> In (length K) [16; 24; 32] ->
  match cek_loop X n (VBytes K) l with
  | ((_, l'), Ok kb) => Forall wrapped_there l' /\ length l' = length l /\ exists b, kb = VBytes b /\ In (length b) [16; 24; 32]
  | (_, Err x) => agree_failed x
  end.
Proof.
  induction l as [|r l IH]; intros n K HU HG HWF HF HK; [cbn; eauto 8|]. apply Forall_cons_iff in HF as [HR HF]. cbn [cek_loop].
  destruct (wrapped_payload r (there_wrapped r HR)) as (b & HB & HL). rewrite HB.
  assert (HX : exists r1 K', match b with [] => (r_with r (with_payload (r_core r) (Some K)), VBytes K) | _ => (r, vopt (Some b)) end = (r1, VBytes K') /\ wrapped_there r1 /\ In (length K') [16; 24; 32]).
  { destruct b as [|b0 b]; [exists (r_with r (with_payload (r_core r) (Some K))), K; split; [reflexivity|]; split; [apply wrapped_there_filled; assumption|exact HK]|].
    exists r, (b0 :: b). split; [reflexivity|]. split; [exact HR|]. destruct HL as [HL|HL]; [discriminate|exact HL]. }
  destruct HX as (r1 & K' & EG & HR1 & HK').
  replace (match b with [] => _ | _ => _ end) with (r1, VBytes K') by (rewrite <- EG; destruct b; reflexivity). clear EG.
  pose proof (size_encrypt_recipient n r1 HU HG HWF HR1) as HE. destruct (rcpt_encrypt X n r1) as [r2 [w|e]]; [|exact HE].
  specialize (IH (N.succ n) K' HU HG HWF HF HK'). destruct (cek_loop X (N.succ n) (VBytes K') l) as [[n' l'] [kb|e]]; [|exact IH].
  destruct IH as (I1 & I2 & I3). split; [constructor; assumption|]. split; [cbn; congruence|exact I3].
Qed.

Theorem size_enc_wrapped_any : forall n m z nc tag, law_urandom_len X -> law_hkdf_len X -> law_ec_gen X -> law_seal_fits X -> law_wrap_fits X ->
  sendable_headers (e_core m) -> core_exists (e_core m) -> get_attr (e_core m) Algorithm = Ok (alg z) -> enc_algorithm z ->
  get_attr (e_core m) IV = Ok (VBytes nc) -> payload (e_core m) <> None -> e_rcpts m <> [] -> fits (e_rcpts m) = true -> Forall wrapped_there (e_rcpts m) ->
  unless (any_failure X) (snd (encm_encode X n m tag true)).
Proof.
  intros n [c rs] z nc tag HU HKL HEG HSF HWF HH HEX HA HZ HN HL HR HFT HF. cbn [e_core e_rcpts] in *.
  assert (HCL : forall r, In r rs -> r_class r = RKeyWrap \/ r_class r = RAgreeKW).
  { rewrite Forall_forall in HF. intros r HI. destruct (there_wrapped r (HF r HI)) as [(E & _)|(E & _)]; auto. }
  unfold encm_encode. cbn [e_core]. destruct (size_phdr _ HH HEX) as [B1 B2]. destruct (phdr_encoded c) as [p|e]; [|destruct B1].
  unfold encm_encrypt. cbn [e_core e_rcpts]. rewrite HA.
  assert (HV : verify_recipients rs = Ok tt).
  { apply verify_mix. split; intros (r & HI & E); exfalso; destruct (HCL r HI); congruence. }
  rewrite HV. cbn [bind].
  replace (has_class RDirect rs) with false by (symmetry; apply has_class_false; intros r HI; destruct (HCL r HI); congruence).
  replace (has_class RAgree rs) with false by (symmetry; apply has_class_false; intros r HI; destruct (HCL r HI); congruence).
  replace (has_class RKeyWrap rs || has_class RAgreeKW rs) with true.
  2: { symmetry. apply orb_true_iff. rewrite !has_class_iff. destruct rs as [|r rs]; [elim HR; reflexivity|]. destruct (HCL r (or_introl eq_refl)) as [E|E]; [left|right]; exists r; split; [left; reflexivity|exact E|left; reflexivity|exact E]. }
  assert (HG : exists len kd, get_key_length (alg z) = Ok len /\ In len [16; 24; 32] /\ alg_kind (alg z) = Some kd).
  { clear - HZ. destruct HZ as [H|H]; each H; (eexists; eexists; split; [vm_compute; reflexivity|split; [cbn; tauto|vm_compute; reflexivity]]). }
  destruct HG as (len & kd & HG & HLen & HKD). rewrite HG.
  pose proof (size_cek_wrapped rs (N.succ n) (x_urandom X n len) HKL HEG HWF HF) as HC. rewrite HU in HC. specialize (HC HLen).
  destruct (cek_loop X (N.succ n) (VBytes (x_urandom X n len)) rs) as [[n' rs'] [kb|e]].
  2: { cbn [bind snd]. right. exact HC. }
  destruct HC as (HF' & HLN & b & -> & HB). rewrite (good_secret z b [EncryptOp] (kind_def _ _ HKD)); [|cbn; auto|exact HB].
  set (k := sym_key b (alg z) [EncryptOp]). set (c' := with_key c (Some k)).
  assert (HP : permitted c' z k [Cls FOps 3]) by (apply fresh_permitted; assumption).
  assert (HH' : sendable_headers c') by (unfold c'; destruct c; exact HH).
  assert (HEX' : core_exists c') by (unfold c'; destruct c; exact HEX).
  assert (HX : unless (seal_failure X) (enc_encrypt X "Encrypt" c') /\ forall ct, enc_encrypt X "Encrypt" c' = Ok ct -> fits ct = true).
  { apply (size_encrypt X "Encrypt" c' z k eq_refl HSF HH' HEX' HP eq_refl HZ); [left; exists nc; unfold c'; destruct c; exact HN|unfold c'; destruct c; exact HL]. }
  destruct HX as [HX HXF]. destruct (enc_encrypt X "Encrypt" c') as [ct|e]; cbn [bind].
  2: { cbn [snd]. left. exact HX. }
  cbn [e_rcpts e_core]. destruct rs' as [|r rs']; [destruct rs; [elim HR; reflexivity|discriminate HLN]|].
  replace (get_attr c' Algorithm) with (Ok (alg z)) by (unfold c'; destruct c; symmetry; exact HA).
  assert (HT' : fits (r :: rs') = true) by (exact (fits_same _ _ _ _ HLN HFT)).
  pose proof (size_wrapped_recipients (r :: rs') n' HKL HEG HWF HF') as S. destruct (rcpts_encode X n' (r :: rs')) as [[n2 rs2] [vs|e]]; cbn [snd] in *.
  - apply unless_never, size_emit; [reflexivity|reflexivity|]. cbn [app forallb]. rewrite (bytes_item p (B2 _ eq_refl)), (uhdr_item _ HH' HEX'), (bytes_item ct (HXF _ eq_refl)), (list_item _ _ _ HT' S). reflexivity.
  - right. exact S.
Qed.

(** ** Direct key agreement *)

Lemma size_compute_cek : forall r zt len kd, law_hkdf_len X -> agree_recipient r -> agree_exists (r_core r) -> (Z.abs zt < 2 ^ 63)%Z -> get_key_length (alg zt) = Ok len -> alg_kind (alg zt) = Some kd -> In len [16; 24; 32] ->
  match compute_cek X r (alg zt) false with
  | Ok o => exists b, o = Some (agreed_key b zt) /\ In (length b) [16; 24; 32]
  | Err x => agree_failure X x
  end.
Proof.
  intros [id rc c ctx subs] zt len kd HU (HC & HS & HH & HD & z & cv & p & k & HA & HZ & HP & HK & _ & _ & PA & PO & KA & KO) HEX HZT HL HKD HLen. assert (HLE : len <= 64) by (cbn in HLen; lia).
  cbn [r_class r_subs r_core] in *. subst rc subs. unfold compute_cek. cbn [r_class r_core]. unfold agree_compute_cek. rewrite HA. cbn [bind].
  assert (EA : alg_in (alg z) (ss_hkdf ++ es_hkdf) = Ok true /\ exists h, kex_hash (alg z) = Ok h).
  { clear - HZ. cbn in HZ. repeat (destruct HZ as [<-|HZ]; [split; [vm_compute; reflexivity|eexists; vm_compute; reflexivity]|]). destruct HZ. }
  destruct EA as [EA EH]. rewrite EA. cbn [bind negb]. pose proof HP as (HPS & HPC & _). pose proof HK as (HKS & HKC & _).
  unfold dget_or. rewrite HPS. cbn [bind]. replace (is_none (kval p)) with false by (destruct p; reflexivity).
  replace (peer (kval p)) with (Ok p) by (destruct p; reflexivity). cbn [bind].
  change [DeriveKeyOp; DeriveBitsOp] with (map VClass [Cls FOps 7; Cls FOps 8]). pose proof (key_verify_ok p (Cls FAlg z) _ PA PO) as V1.
  pose proof (key_verify_ok k (Cls FAlg z) _ KA KO) as V2. rewrite HPC in V1. rewrite HKC in V2. change (VClass (Cls FAlg z)) with (alg z) in V1, V2.
  rewrite V1. cbn [bind]. rewrite HKS. cbn [bind]. rewrite V2. cbn [bind]. rewrite <- HKS.
  destruct (size_kek c zt len z cv p k HU HD HEX HZT HLE HL EH HP HK) as [S1 S2].
  destruct (agree_kek X c (alg zt) (kval p) (ckey c) (alg z)) as [kb|e]; cbn [bind]; [|exact S1].
  specialize (S2 kb eq_refl). rewrite (agreed_init zt kb kd HKD); [|rewrite S2; exact HLen]. cbn [bind]. exists kb. rewrite S2. auto.
Qed.

Lemma size_agree_encode : forall n r, agree_recipient r -> core_exists (r_core r) -> exists vs, snd (rcpts_encode X n [r]) = Ok vs /\ each_sent [r] vs.
Proof.
  intros n [id rc c ctx subs] (HC & HS & HH & HD & z & cv & p & k & HA & HZ & HP & HK & HE & (v & HEK) & _) HEX.
  cbn [r_class r_subs r_core] in *. subst rc subs. cbn [rcpts_encode]. pose proof HP as (HPS & _). pose proof HK as (HKS & _).
  assert (EX : exists n1 r1, rcpt_encode X n (Rcpt id RAgree c ctx []) = ((n1, r1), p <- phdr_encoded c ;; Ok (VList [VBytes p; VDict (uhdr c); VBytes []]))).
  { cbn [rcpt_encode]. rewrite HA. cbn [bind]. change (is_none (alg z)) with false. cbv iota zeta. unfold dget_or. rewrite HPS.
    replace (is_none (kval p)) with false by (destruct p; reflexivity). cbv iota. rewrite HKS. cbn [bind length Nat.ltb Nat.leb]. rewrite HEK. cbn [bind].
    assert (EV : (if is_none v then alg_in (alg z) es_hkdf else Ok false) = Ok false).
    { destruct (is_none v) eqn:EN; [|reflexivity]. destruct (Z.eq_dec z (-25)) as [->|N1]; [|destruct (Z.eq_dec z (-26)) as [->|N2]].
      - destruct HE as (w & HW & HN); [cbn; auto|]. rewrite HEK in HW. injection HW as <-. destruct v; try discriminate. elim HN. reflexivity.
      - destruct HE as (w & HW & HN); [cbn; auto|]. rewrite HEK in HW. injection HW as <-. destruct v; try discriminate. elim HN. reflexivity.
      - cbn in HZ. destruct HZ as [E|[E|[<-|[<-|[]]]]]; [congruence|congruence|vm_compute; reflexivity|vm_compute; reflexivity]. }
    rewrite EV. cbn [bind]. destruct (phdr_encoded c) as [ph|e]; cbn [bind]; eauto. }
  destruct EX as (n1 & r1 & ->). destruct (size_phdr _ HH HEX) as [B1 B2]. destruct (phdr_encoded c) as [ph|e]; cbn [bind snd]; [|destruct B1].
  eexists. split; [reflexivity|]. split; [reflexivity|]. cbn [forallb]. rewrite triple_item; [reflexivity|apply B2; reflexivity|apply uhdr_item; assumption|reflexivity].
Qed.

Theorem size_enc_agree : forall n m r z nc tag, law_hkdf_len X -> law_seal_fits X -> sendable_headers (e_core m) -> core_exists (e_core m) -> get_attr (e_core m) Algorithm = Ok (alg z) -> enc_algorithm z ->
  get_attr (e_core m) IV = Ok (VBytes nc) -> payload (e_core m) <> None -> e_rcpts m = [r] -> agree_recipient r -> agree_exists (r_core r) ->
  unless (any_failure X) (snd (encm_encode X n m tag true)).
Proof.
  intros n [c rs] r z nc tag HU HSF HH HEX HA HZ HN HL ER HR HREX. cbn [e_core e_rcpts] in *. subst rs.
  unfold encm_encode. cbn [e_core]. destruct (size_phdr _ HH HEX) as [B1 B2]. destruct (phdr_encoded c) as [p|e]; [|destruct B1].
  unfold encm_encrypt. cbn [e_core e_rcpts]. destruct (agree_class r HR) as (E1 & E2 & E3). rewrite HA, E1, E2, E3. cbn [bind].
  assert (HG : exists len kd, get_key_length (alg z) = Ok len /\ In len [16; 24; 32] /\ alg_kind (alg z) = Some kd).
  { clear - HZ. destruct HZ as [H|H]; each H; (eexists; eexists; split; [vm_compute; reflexivity|split; [cbn; tauto|vm_compute; reflexivity]]). }
  destruct HG as (len & kd & HG & HLen & HKD). assert (HZT : (Z.abs z < 2 ^ 63)%Z).
  { clear - HKD. pose proof (kind_def _ _ HKD) as HX. apply existsb_exists in HX as (e & HI & HE). apply Z.eqb_eq in HE. subst z.
    assert (HF : forallb (fun e => Z.ltb (Z.abs (fst e)) (2 ^ 63)) alg_defs = true) by (vm_compute; reflexivity). rewrite forallb_forall in HF. apply Z.ltb_lt. exact (HF _ HI). }
  pose proof (size_compute_cek r z len kd HU HR HREX HZT HG HKD HLen) as HC.
  destruct (compute_cek X r (alg z) false) as [o|e].
  2: { cbn [bind snd]. right. right. exact HC. }
  destruct HC as (b & -> & HB). set (k := agreed_key b z). set (c' := with_key c (Some k)).
  assert (HP : permitted c' z k [Cls FOps 3]) by (apply agreed_permitted; assumption).
  assert (HH' : sendable_headers c') by (unfold c'; destruct c; exact HH).
  assert (HEX' : core_exists c') by (unfold c'; destruct c; exact HEX).
  assert (HX : unless (seal_failure X) (enc_encrypt X "Encrypt" c') /\ forall ct, enc_encrypt X "Encrypt" c' = Ok ct -> fits ct = true).
  { apply (size_encrypt X "Encrypt" c' z k eq_refl HSF HH' HEX' HP eq_refl HZ); [left; exists nc; unfold c'; destruct c; exact HN|unfold c'; destruct c; exact HL]. }
  destruct HX as [HX HXF]. destruct (enc_encrypt X "Encrypt" c') as [ct|e]; cbn [bind].
  2: { cbn [snd]. left. exact HX. }
  cbn [e_rcpts e_core]. replace (get_attr c' Algorithm) with (Ok (alg z)) by (unfold c'; destruct c; symmetry; exact HA).
  destruct (size_agree_encode n r HR (proj1 HREX)) as (vs & S1 & S2). destruct (rcpts_encode X n [r]) as [[n2 rs2] x]. cbn [snd] in *. subst x.
  apply unless_never, size_emit; [reflexivity|reflexivity|]. cbn [app forallb]. rewrite (bytes_item p (B2 _ eq_refl)), (uhdr_item _ HH' HEX'), (bytes_item ct (HXF _ eq_refl)), (list_item _ [r] _ eq_refl S2). reflexivity.
Qed.

Theorem size_mac_agree : forall n m r z tag, law_hkdf_len X -> sendable_headers (mm_core m) -> core_exists (mm_core m) -> get_attr (mm_core m) Algorithm = Ok (alg z) -> In z (map fst rfc_aes_macs) ->
  payload (mm_core m) <> None -> mm_rcpts m = Some [r] -> agree_recipient r -> agree_exists (r_core r) ->
  unless (agree_failure X) (snd (macm_encode X n m tag true)).
Proof.
  intros n [c t o] r z tag HU HH HEX HA HZ HL ER HR HREX. cbn [mm_core mm_rcpts] in *. subst o.
  unfold macm_encode. cbn [mm_core]. destruct (size_phdr _ HH HEX) as [B1 B2]. destruct (phdr_encoded c) as [p|e]; [|destruct B1].
  unfold macm_compute_tag. cbn [mm_core mm_rcpts mm_tag]. destruct (agree_class r HR) as (E1 & E2 & E3). rewrite HA, E1, E2, E3.
  assert (HG : exists len kd, get_key_length (alg z) = Ok len /\ In len [16; 24; 32] /\ alg_kind (alg z) = Some kd).
  { clear - HZ. each HZ; (eexists; eexists; split; [vm_compute; reflexivity|split; [cbn; tauto|vm_compute; reflexivity]]). }
  destruct HG as (len & kd & HG & HLen & HKD). assert (HZT : (Z.abs z < 2 ^ 63)%Z).
  { clear - HKD. pose proof (kind_def _ _ HKD) as HX. apply existsb_exists in HX as (e & HI & HE). apply Z.eqb_eq in HE. subst z.
    assert (HF : forallb (fun e => Z.ltb (Z.abs (fst e)) (2 ^ 63)) alg_defs = true) by (vm_compute; reflexivity). rewrite forallb_forall in HF. apply Z.ltb_lt. exact (HF _ HI). }
  pose proof (size_compute_cek r z len kd HU HR HREX HZT HG HKD HLen) as HC.
  destruct (compute_cek X r (alg z) false) as [o|e]; [|exact HC].
  destruct HC as (b & -> & HB). set (k := agreed_key b z). set (c' := with_key c (Some k)). unfold mac_super_compute. cbn [mm_core mm_rcpts].
  assert (HP : permitted c' z k [Cls FOps 9]) by (apply agreed_permitted; assumption).
  assert (HH' : sendable_headers c') by (unfold c'; destruct c; exact HH).
  assert (HL' : payload c' <> None) by (unfold c'; destruct c; exact HL).
  assert (HEX' : core_exists c') by (unfold c'; destruct c; exact HEX).
  destruct (size_mac X "MAC" c' z k eq_refl HH' HEX' HP eq_refl (or_intror HZ) HL') as (mt & -> & HM). cbn [bind].
  cbn [mm_rcpts mm_core]. replace (get_attr c' Algorithm) with (Ok (alg z)) by (unfold c'; destruct c; symmetry; exact HA).
  destruct (size_agree_encode n r HR (proj1 HREX)) as (vs & S1 & S2). destruct (rcpts_encode X n [r]) as [[n2 rs2] x]. cbn [snd] in *. subst x.
  apply unless_never, size_emit; [reflexivity|reflexivity|]. cbn [app forallb]. rewrite (bytes_item p (B2 _ eq_refl)), (uhdr_item _ HH' HEX'), (payload_item _ HEX'), (bytes_item mt HM), (list_item _ [r] _ eq_refl S2). reflexivity.
Qed.

End Agree.
