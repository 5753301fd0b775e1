(** Complete messages with key agreement are encoded (C103). *)
From Coq Require Import NArith ZArith Bool String Lia.
From Coq Require Import Init.Byte List.
From Verif Require Import Bytes Value ValueProofs Cbor CborProofs SpecData DataProofs Registry RegistryProofs Crypto SpecCrypto Keys Algorithms Headers Messages Recipients
  SpecRegistry SpecKeys SpecGen SpecHdr SpecTrip SpecStruct SpecAlg SpecAccept SpecCheck SpecMsg SpecRcpt SpecSend KeyProofs KeyProofs2 KeyProofs3 KeyProofs4
  CheckProofs MsgTrip GenProofs RcptProofs RcptTrip SpecRcptTrip RcptTrip2 SendProofs.
Import ListNotations.
Local Open Scope result_scope.

(** ** Serialising the key derivation context *)

Lemma keyless_lower : forall cl h v, (cl = true -> h <> HNone) -> keyless cl v = true -> exists c, lower cls_fullname h v = Ok c.
Proof.
  intros cl h v HH. induction v as [|b|z|f|n| | |b|b|l HF|l HF|d HF|g v IH|g v IH|c|k s e HS HE] using pyval_ind'; intros HP; try discriminate HP; try (eexists; reflexivity).
  - cbn [keyless] in HP. assert (HX : exists cs, mapM (lower cls_fullname h) l = Ok cs).
    { induction HF as [|x l Hx HF IHl]; [exists []; reflexivity|]. cbn [forallb] in HP. apply andb_true_iff in HP as [H1 H2].
      destruct (Hx H1) as (c & Hc). destruct (IHl H2) as (cs & Hcs). exists (c :: cs). cbn [mapM]. rewrite Hc, Hcs. reflexivity. }
    destruct HX as (cs & Hcs). exists (CArr cs). cbn [lower]. rewrite Hcs. reflexivity.
  - cbn [keyless] in HP. assert (HX : exists cs, mapM (lower cls_fullname h) l = Ok cs).
    { induction HF as [|x l Hx HF IHl]; [exists []; reflexivity|]. cbn [forallb] in HP. apply andb_true_iff in HP as [H1 H2].
      destruct (Hx H1) as (c & Hc). destruct (IHl H2) as (cs & Hcs). exists (c :: cs). cbn [mapM]. rewrite Hc, Hcs. reflexivity. }
    destruct HX as (cs & Hcs). exists (CArr cs). cbn [lower]. rewrite Hcs. reflexivity.
  - cbn [keyless] in HP. assert (HX : exists cs, mapM (lower_pair cls_fullname h) d = Ok cs).
    { induction HF as [|[a b] d [Ha Hb] HF IHd]; [exists []; reflexivity|]. cbn [forallb fst snd] in *. apply andb_true_iff in HP as [H1 H2].
      apply andb_true_iff in H1 as [H0 H1]. destruct (Ha H0) as (x & HX). destruct (Hb H1) as (y & HY). destruct (IHd H2) as (cs & Hcs).
      exists ((x, y) :: cs). cbn [mapM lower_pair]. rewrite HX, HY, Hcs. reflexivity. }
    destruct HX as (cs & Hcs). exists (CMap cs). rewrite lower_dict, Hcs. reflexivity.
  - cbn [keyless] in HP. destruct (IH HP) as (c & Hc). exists (CTag g c). cbn [lower]. rewrite Hc. reflexivity.
  - cbn [keyless] in HP. destruct (IH HP) as (c & Hc). exists (CTag g c). cbn [lower]. rewrite Hc. reflexivity.
  - cbn [keyless] in HP. cbn [lower lower_class]. destruct h as [| |ts]; [elim (HH HP); reflexivity|eexists; reflexivity|cbn [lower_class]; destruct (_ && ts); eauto].
Qed.

Lemma keyless_dumps : forall cl h v, (cl = true -> h <> HNone) -> keyless cl v = true -> only never (dumps cls_fullname h v).
Proof. intros cl h v HH H. destruct (keyless_lower cl h v HH H) as (c & HC). unfold dumps. rewrite HC. cbn [bind]. destruct (wfc c); [exact I|left; reflexivity]. Qed.

Lemma derivable_context : forall c wz len, derivable c -> get_key_length (alg wz) = Ok len ->
  exists k, get_kdf_context c (alg wz) = Ok k /\ kc_len k = len /\ only never (kdf_encode k).
Proof.
  intros c wz len (HP & HS & HR) HL. unfold get_kdf_context.
  destruct (HP PartyUID) as (v1 & E1 & K1); [cbn; auto|]. destruct (HP PartyUNonce) as (v2 & E2 & K2); [cbn; auto|].
  destruct (HP PartyUOther) as (v3 & E3 & K3); [cbn; auto|]. destruct (HP PartyVID) as (v4 & E4 & K4); [cbn; auto|].
  destruct (HP PartyVNonce) as (v5 & E5 & K5); [cbn; auto 6|]. destruct (HP PartyVOther) as (v6 & E6 & K6); [cbn; auto 8|].
  rewrite E1, E2, E3, E4, E5, E6, HL. cbn [bind]. eexists. split; [reflexivity|]. split; [reflexivity|].
  unfold kdf_encode. cbn [kc_alg kc_u kc_v kc_len kc_protected kc_pub_other kc_priv]. change (identifier_of (alg wz)) with (Some wz). cbv iota.
  apply only_bind; [apply (keyless_dumps true); [discriminate|exact HR]|]. intros p _. unfold dumps_plain. apply (keyless_dumps false); [discriminate|].
  assert (HO : forall h, In h [SuppPubOther; SuppPrivOther] -> keyless false (dget_or (local c) h (VBytes [])) = true).
  { intros h Hh. unfold dget_or. destruct (dget (local c) h) as [v|] eqn:E; [eapply HS; eassumption|reflexivity]. }
  pose proof (HO SuppPubOther) as H1. pose proof (HO SuppPrivOther) as H2. specialize (H1 (or_introl eq_refl)). specialize (H2 (or_intror (or_introl eq_refl))).
  destruct (veqb (dget_or (local c) SuppPubOther (VBytes [])) (VBytes [])), (veqb (dget_or (local c) SuppPrivOther (VBytes [])) (VBytes []));
    cbn [keyless forallb app]; rewrite ?K1, ?K2, ?K3, ?K4, ?K5, ?K6, ?H1, ?H2; reflexivity.
Qed.

Section Agree.
Variable X : crypto.

(** ** The shared secret *)

Lemma send_kek : forall c wz len z cv p k, law_hkdf_len X -> derivable c -> get_key_length (alg wz) = Ok len ->
  (exists h, kex_hash (alg z) = Ok h) -> peer_known c cv p -> own_key c k ->
  only (agree_failure X) (agree_kek X c (alg wz) (kval p) (ckey c) (alg z)) /\
  forall b, agree_kek X c (alg wz) (kval p) (ckey c) (alg z) = Ok b -> length b = len.
Proof.
  intros c wz len z cv p k HU HD HL (h & HH) (HP & HPC & HCV & HC & HX & HY) (HK & HKC & HPD).
  destruct (derivable_context c wz len HD HL) as (kc & EK & EL & HE).
  unfold agree_kek. rewrite HH. cbn [bind]. replace (peer (kval p)) with (Ok p) by (destruct p; reflexivity). cbn [bind].
  assert (EC : prop_get p PCrv = Ok (VClass (Cls FCrv cv))) by (rewrite prop_get_place, HPC; cbn [place crv_prop]; rewrite HC; reflexivity).
  rewrite EC. cbn [bind]. rewrite EK, HK. cbn [bind]. rewrite EL. unfold derive_kek. rewrite HH. cbn [bind].
  assert (HS : only (agree_failure X) (ecdh X (VClass (Cls FCrv cv)) k p)).
  { unfold ecdh. destruct (filled_hex k PD EC2KpD) as [d Hd]; [rewrite HKC; reflexivity|exact HPD|].
    destruct (filled_hex p PX EC2KpX) as [x Hx]; [rewrite HPC; reflexivity|exact HX|].
    destruct (filled_hex p PY EC2KpY) as [y Hy]; [rewrite HPC; reflexivity|exact HY|]. rewrite Hd, Hx, Hy. cbn [bind].
    replace (veqb (curve_key_type cv) KtyEC2) with true by (cbn in HCV; repeat (destruct HCV as [<-|HCV]; [reflexivity|]); destruct HCV).
    match goal with |- only _ ?e => destruct e eqn:E; [exact I|right; left; eauto 8] end. }
  split.
  - apply only_bind; [exact HS|]. intros s _. apply only_bind; [apply only_never; exact HE|]. intros i _.
    match goal with |- only _ ?e => destruct e eqn:E; [exact I|right; right; eauto 8] end.
  - intros b H. apply bind_ok in H as (s & _ & H). apply bind_ok in H as (i & _ & H). eapply HU. exact H.
Qed.

(** ** Ephemeral keys *)

Lemma plain_sendable : forall v b, data_value b v = true -> sendable v = true.
Proof.
  induction v as [|b0|z0|f0|n0| | |s0|s0|l HF|l HF|d HF|g v IH|g v IH|c0|k0 s0 e0 HS0 HE0] using pyval_ind'; intros kb H; try reflexivity; try discriminate H.
  - cbn [data_value] in H. apply andb_true_iff in H as [_ H]. cbn [sendable]. induction HF as [|x l Hx HF IHl]; [reflexivity|]. cbn [forallb] in *.
    apply andb_true_iff in H as [H1 H2]. rewrite (Hx _ H1), (IHl H2). reflexivity.
  - cbn [data_value] in H. apply andb_true_iff in H as [_ H]. cbn [sendable]. induction HF as [|x l Hx HF IHl]; [reflexivity|]. cbn [forallb] in *.
    apply andb_true_iff in H as [H1 H2]. rewrite (Hx _ H1), (IHl H2). reflexivity.
  - cbn [data_value] in H. apply andb_true_iff in H as [_ H]. cbn [sendable]. induction HF as [|[x y] l [Hx Hy] HF IHl]; [reflexivity|]. cbn [forallb fst snd] in *.
    apply andb_true_iff in H as [H1 H2]. apply andb_true_iff in H1 as [H0 H1]. rewrite (Hx _ H0), (Hy _ H1), (IHl H2). reflexivity.
  - cbn [data_value] in H. apply andb_true_iff in H as [_ H]. cbn [sendable]. eapply IH. exact H.
Qed.

Lemma portable_sendable : forall k, portable X k -> sendable (VDict (k_store k)) = true.
Proof.
  intros k (_ & _ & _ & HF & _). cbn [sendable]. rewrite forallb_forall. rewrite Forall_forall in HF. intros [a b] HI. specialize (HF _ HI). cbn [fst snd] in HF.
  assert (HC : forall f l, Forall (known_class f) l -> sendable (VList l) = true).
  { intros f l H. cbn [sendable]. rewrite forallb_forall. rewrite Forall_forall in H. intros x Hx. destruct (H x Hx) as (c & n & -> & _). reflexivity. }
  inversion HF; subst; cbn [sendable andb]; try reflexivity; try (eapply plain_sendable; eassumption).
  - match goal with H : known_class _ _ |- _ => destruct H as (c & n & -> & _) end. reflexivity.
  - eapply HC. eassumption.
Qed.

Lemma dset_sendable : forall d a b, sendable (VDict d) = true -> sendable a = true -> sendable b = true -> sendable (VDict (dset d a b)) = true.
Proof.
  intros d a b HD HA HB. cbn [sendable] in *. induction d as [|[x y] d IH]; cbn [dset forallb].
  - rewrite HA, HB. reflexivity.
  - cbn [forallb] in HD. apply andb_true_iff in HD as [H1 H2]. apply andb_true_iff in H1 as [H0 H1]. destruct (keyeq a x); cbn [forallb]; rewrite ?H0, ?H1, ?H2, ?HB, ?IH by exact H2; reflexivity.
Qed.

Lemma setup_total : forall n c cv p, law_ec_gen X -> sendable_headers c -> peer_known c cv p -> get_attr c EphemeralKey = Ok VNone ->
  exists c1 k, setup_ephemeral X n c (kval p) = (c1, Ok tt) /\ but_ephemeral c c1 /\ own_key c1 k /\ sendable_headers c1.
Proof.
  intros n c cv p HG HH (HP & HPC & HCV & HC & _ & _) HE.
  assert (HR : exists size nm, In (cv, size) ec2_curves /\ In (Cls FCrv cv, nm) (registered FCrv)).
  { clear - HCV. cbn in HCV. repeat (destruct HCV as [<-|HCV]; [eexists; eexists; split; [cbn; eauto 8|cbn; eauto 15]|]). destruct HCV. }
  destruct HR as (size & nm & HI & HN).
  destruct (ec2_generate_ok X n cv size nm (VClass (Cls FCrv cv)) HG HI HN) as (k & x & y & EK & KC & _ & _ & _ & _ & _ & (bd & D1 & D2 & _)); [reflexivity|].
  assert (HS : exists c1, setup_ephemeral X n c (kval p) = (c1, Ok tt)).
  { unfold setup_ephemeral. replace (peer (kval p)) with (Ok p) by (destruct p; reflexivity). cbn [bind].
    assert (EC : prop_get p PCrv = Ok (VClass (Cls FCrv cv))) by (rewrite prop_get_place, HPC; cbn [place crv_prop]; rewrite HC; reflexivity).
    rewrite EC. cbn [bind]. rewrite EK. cbn [bind]. cbv zeta.
    replace (get_attr (with_key c (Some k)) EphemeralKey) with (get_attr c EphemeralKey) by (destruct c; reflexivity). rewrite HE. cbn [is_none negb].
    unfold dmem. unfold param in D1. rewrite D1. eauto. }
  destruct HS as (c1 & HS). exists c1. pose proof HS as HS'. apply setup_ephemeral_ok in HS' as (k' & -> & _ & p' & crv & Hp & Hc & Hk). exists k'.
  split; [exact HS|]. split; [eapply setup_but; exact HS|].
  apply generated in Hk as (cv' & bx & by_ & d & _ & HKT & HPo & HKC & _ & _ & _ & HD & _).
  split.
  - split; [reflexivity|]. split; [exact HKC|]. exists d. split; [exact HD|]. destruct HPo as (_ & _ & _ & HF & _). rewrite Forall_forall in HF.
    unfold bytes_param, param in HD. apply dget_In in HD as (a & HIN & HQ). specialize (HF _ HIN). cbn [fst snd] in HF.
    apply keyeq_class in HQ. subst a. inversion HF; subst; try assumption; try discriminate.
    all: match goal with H : KpKid = EC2KpD |- _ => discriminate H | H : KpBaseIV = EC2KpD |- _ => discriminate H | _ => idtac end.
  - split; [apply HH|]. cbn [uhdr with_uhdr with_key]. apply dset_sendable; [apply HH|reflexivity|]. apply portable_sendable. apply public_portable; assumption.
Qed.

Lemma but_derivable : forall c c1, but_ephemeral c c1 -> derivable c -> derivable c1.
Proof.
  intros c c1 HB (H1 & H2 & H3). split; [|split].
  - intros h Hh. rewrite (but_get c c1 h HB); [apply H1; exact Hh|]. cbn in Hh. repeat (destruct Hh as [<-|Hh]; [reflexivity|]). destruct Hh.
  - destruct HB as (_ & _ & -> & _). exact H2.
  - destruct HB as (-> & _). exact H3.
Qed.
Lemma but_peer : forall c c1 cv p, but_ephemeral c c1 -> peer_known c cv p -> peer_known c1 cv p.
Proof. intros c c1 cv p (_ & _ & HL & _) (H & HR). split; [rewrite HL; exact H|exact HR]. Qed.

(** ** Key agreement with key wrap *)

Lemma send_kakw : forall n r, law_hkdf_len X -> law_ec_gen X -> agree_wrap_recipient r ->
  match kakw_encrypt X n (r_core r) with
  | (c1, Ok w) => agree_wrap_recipient (r_with r c1) /\ payload c1 = payload (r_core r) /\ but_ephemeral (r_core r) c1
  | (_, Err x) => x = OverflowError \/ wrap_failure X x \/ agree_failure X x
  end.
Proof.
  intros n [id rc c ctx subs] HU HG (HC & HS & HH & HD & (z & cv & p & HA & HZ & HP & HK) & b & HB & HL). cbn [r_class r_subs r_core] in *. subst rc subs.
  destruct (kakw_facts z HZ) as (wz & len & EF & EK & EA & EI & _).
  unfold kakw_encrypt. pose proof HP as (HPS & _). unfold dget_or. rewrite HPS. replace (is_none (kval p)) with false by (destruct p; reflexivity).
  rewrite HA. change (is_none (alg z)) with false. cbv iota zeta beta.
  assert (HX : exists c1 k, match ckey c with Some _ => (c, Ok tt) | None => match alg_in (alg z) es_kw with Err e => (c, Err e) | Ok true => setup_ephemeral X n c (kval p) | Ok false => (c, Err CoseException) end end = (c1, Ok tt) /\
    but_ephemeral c c1 /\ own_key c1 k /\ sendable_headers c1).
  { destruct HK as [(k & HK)|(HK & HZ' & HE)].
    - pose proof HK as (-> & _). exists c, k. split; [reflexivity|]. split; [apply but_refl|]. auto.
    - rewrite HK. rewrite EI. replace (existsb (Z.eqb z) es_kw) with true by (cbn in HZ'; repeat (destruct HZ' as [<-|HZ']; [reflexivity|]); destruct HZ').
      eapply setup_total; eassumption. }
  destruct HX as (c1 & k & -> & HBut & HOwn & HH1). cbn [bind].
  assert (HA1 : get_attr c1 Algorithm = Ok (alg z)) by (rewrite (but_get c c1 Algorithm HBut); [exact HA|reflexivity]).
  rewrite HA1. cbn [bind]. rewrite EF. cbn [bind].
  assert (ELen : get_key_length (alg wz) = Ok len) by (unfold get_key_length; rewrite EK; reflexivity).
  assert (HKH : exists h, kex_hash (alg z) = Ok h) by (unfold kex_hash; rewrite EA; eauto).
  destruct (send_kek c1 wz len z cv p k HU (but_derivable _ _ HBut HD) ELen HKH (but_peer _ _ _ _ HBut HP) HOwn) as [S1 S2].
  destruct (agree_kek X c1 (alg wz) (kval p) (ckey c1) (alg z)) as [kb|e]; cbn [bind]; [|destruct S1 as [S1|S1]; auto].
  specialize (S2 kb eq_refl).
  assert (HLen : In len [16; 24; 32]).
  { clear - EK. assert (HF : forallb (fun e => match alg_kind (alg (fst e)) with Some (AKw n) => existsb (Nat.eqb n) [16; 24; 32] | _ => true end) alg_defs = true) by (vm_compute; reflexivity).
    pose proof (kind_def _ _ EK) as HX. apply existsb_exists in HX as (e & HI & HE). apply Z.eqb_eq in HE. rewrite forallb_forall in HF. specialize (HF _ HI).
    rewrite HE, EK in HF. apply existsb_exists in HF as (m & Hm & E). apply Nat.eqb_eq in E. subst m. exact Hm. }
  rewrite (good_secret z kb [DeriveKeyOp] (kind_def _ _ EA)); [|cbn; auto 8|rewrite S2; exact HLen]. cbn [bind].
  assert (HPL : payload c1 = payload c) by apply HBut. unfold alg_key_wrap. rewrite EK, HPL, HB. unfold kw_key.
  rewrite (sym_key_secret kb (alg z) [DeriveKeyOp]). cbn [bind py_len]. rewrite S2, Nat.eqb_refl. cbn [bind as_bytes vopt].
  destruct (x_wrap X kb b) as [w|e] eqn:EW; [|right; left; left; eauto].
  split; [|split; [first [reflexivity|exact HPL|congruence]|exact HBut]]. split; [reflexivity|]. split; [reflexivity|]. cbn [r_core r_with]. split; [exact HH1|]. split; [eapply but_derivable; eassumption|].
  split; [|exists b; split; [congruence|exact HL]]. exists z, cv, p. split; [exact HA1|]. split; [exact HZ|]. split; [eapply but_peer; eassumption|]. left. eauto.
Qed.

Definition wrapped (r : rcpt) : Prop := wrap_recipient r \/ agree_wrap_recipient r.

Lemma send_wrapped_recipient : forall n r, law_hkdf_len X -> law_ec_gen X -> wrapped r ->
  match snd (rcpt_encode X n r) with
  | Ok v => sendable v = true
  | Err x => x = OverflowError \/ wrap_failure X x \/ agree_failure X x
  end.
Proof.
  intros n r HU HG [HW|HW].
  - destruct (send_recipient X n r (or_intror HW)) as [S1 S2]. destruct (snd (rcpt_encode X n r)) as [v|x]; [apply S2; reflexivity|].
    destruct S1 as [S1|S1]; auto.
  - pose proof (send_kakw n r HU HG HW) as HK. destruct r as [id rc c ctx subs].
    destruct HW as (HC & HS & HH & HD & (z & cv & p & HA & HZ & HP & _) & _). cbn [r_class r_subs r_core] in *. subst rc subs.
    rewrite encode_kakw. pose proof (send_phdr _ HH) as H1. destruct (phdr_encoded c) as [ph|e]; cbn [bind]; [|destruct H1 as [H1|[]]; left; exact H1].
    rewrite HA. cbn [bind]. destruct (kakw_facts z HZ) as (wz & len & EF & _). rewrite EF. cbn [bind].
    destruct (kakw_encrypt X n c) as [c1 [w|e]]; [|exact HK]. destruct HK as [(_ & _ & HH1 & _) _]. cbn [r_core r_with] in HH1.
    unfold finish. cbn [snd]. destruct HH1 as [_ HU1]. cbn [sendable forallb] in HU1 |- *. rewrite HU1. reflexivity.
Qed.

Lemma send_wrapped_recipients : forall l n, law_hkdf_len X -> law_ec_gen X -> Forall wrapped l ->
  match snd (rcpts_encode X n l) with
  | Ok vs => forallb sendable vs = true
  | Err x => x = OverflowError \/ wrap_failure X x \/ agree_failure X x
  end.
Proof.
  induction l as [|r l IH]; intros n HU HG HF; [reflexivity|]. apply Forall_cons_iff in HF as [HR HF]. cbn [rcpts_encode].
  pose proof (send_wrapped_recipient n r HU HG HR) as HS. destruct (rcpt_encode X n r) as [[n1 r'] [v|e]]; cbn [snd] in *; [|exact HS].
  specialize (IH n1 HU HG HF). destruct (rcpts_encode X n1 l) as [[n2 l'] [vs|e]]; cbn [snd] in *; [|exact IH]. cbn [forallb]. rewrite HS, IH. reflexivity.
Qed.

Lemma wrapped_payload : forall r, wrapped r -> exists b, payload (r_core r) = Some b /\ (b = [] \/ In (length b) [16; 24; 32]).
Proof. intros r [(_ & _ & _ & _ & _ & H)|(_ & _ & _ & _ & _ & H)]; exact H. Qed.

Lemma wrapped_filled : forall r K, wrapped r -> In (length K) [16; 24; 32] -> wrapped (r_with r (with_payload (r_core r) (Some K))).
Proof.
  intros [id rc [p0 p1 p2 p3 p4 p5 p6 p7] ctx subs] K [HW|HW] HK; [left|right].
  - destruct HW as (H1 & H2 & H3 & H4 & H5 & _). repeat (split; [assumption|]). exists K. auto.
  - destruct HW as (H1 & H2 & H3 & H4 & H5 & _). repeat (split; [assumption|]). exists K. auto.
Qed.

Lemma send_encrypt_recipient : forall n r, law_hkdf_len X -> law_ec_gen X -> wrapped r ->
  match rcpt_encrypt X n r with
  | (r', Ok _) => wrapped r'
  | (_, Err x) => x = OverflowError \/ wrap_failure X x \/ agree_failure X x
  end.
Proof.
  intros n r HU HG [HW|HW].
  - destruct r as [id rc c ctx subs]. pose proof HW as (HC & HS & HH & HE & HP & b & HB & _). cbn [r_class r_subs r_core] in *. subst rc subs. cbn [rcpt_encrypt].
    pose proof (send_kw X n c b HH HE HP HB) as HX. destruct (kw_encrypt X n c []) as [w|e]; [left; exact HW|]. destruct HX as [HX|HX]; auto.
  - pose proof (send_kakw n r HU HG HW) as HK. destruct r as [id rc c ctx subs]. pose proof HW as (HC & _). cbn [r_class r_core] in *. subst rc. cbn [rcpt_encrypt].
    destruct (kakw_encrypt X n c) as [c1 [w|e]]; [|exact HK]. right. apply HK.
Qed.

Lemma send_cek_wrapped : forall l n K, law_hkdf_len X -> law_ec_gen X -> Forall wrapped l -> In (length K) [16; 24; 32] ->
  match cek_loop X n (VBytes K) l with
  | ((_, l'), Ok kb) => Forall wrapped l' /\ length l' = length l /\ exists b, kb = VBytes b /\ In (length b) [16; 24; 32]
  | (_, Err x) => x = OverflowError \/ wrap_failure X x \/ agree_failure X x
  end.
Proof.
  induction l as [|r l IH]; intros n K HU HG HF HK; [cbn; eauto 8|]. apply Forall_cons_iff in HF as [HR HF]. cbn [cek_loop].
  destruct (wrapped_payload r HR) as (b & HB & HL). rewrite HB.
  assert (HX : exists r1 K', match b with [] => (r_with r (with_payload (r_core r) (Some K)), VBytes K) | _ => (r, vopt (Some b)) end = (r1, VBytes K') /\ wrapped r1 /\ In (length K') [16; 24; 32]).
  { destruct b as [|b0 b]; [exists (r_with r (with_payload (r_core r) (Some K))), K; split; [reflexivity|]; split; [apply wrapped_filled; assumption|exact HK]|].
    exists r, (b0 :: b). split; [reflexivity|]. split; [exact HR|]. destruct HL as [HL|HL]; [discriminate|exact HL]. }
  destruct HX as (r1 & K' & EG & HR1 & HK').
  replace (match b with [] => _ | _ => _ end) with (r1, VBytes K') by (rewrite <- EG; destruct b; reflexivity). clear EG.
  pose proof (send_encrypt_recipient n r1 HU HG HR1) as HE. destruct (rcpt_encrypt X n r1) as [r2 [w|e]]; [|exact HE].
  specialize (IH (N.succ n) K' HU HG HF HK'). destruct (cek_loop X (N.succ n) (VBytes K') l) as [[n' l'] [kb|e]]; [|exact IH].
  destruct IH as (I1 & I2 & I3). split; [constructor; assumption|]. split; [cbn; congruence|exact I3].
Qed.

(** The key that was made for the content. *)
Lemma fresh_permitted : forall c z b, get_attr c Algorithm = Ok (alg z) -> In (length b) [16; 24; 32] ->
  permitted (with_key c (Some (sym_key b (alg z) [EncryptOp]))) z (sym_key b (alg z) [EncryptOp]) [Cls FOps 3].
Proof.
  intros [] z b HA HB. split; [exact HA|]. split; [reflexivity|]. split; [|split].
  - split; [|split; [|split; [|split]]].
    + intros v H. injection H as <-. eexists. reflexivity.
    + intros v H. injection H as <-. eexists. reflexivity.
    + intros v H. discriminate H.
    + intros e [].
    + exists b. split; [reflexivity|exact HB].
  - right. right. exists (Cls FAlg z). split; reflexivity.
  - right. right. exists [EncryptOp], (Cls FOps 3). split; [reflexivity|]. split; cbn; auto.
Qed.

Lemma send_enc_wrapped_any : forall n m z nc tag, law_urandom_len X -> law_hkdf_len X -> law_ec_gen X ->
  sendable_headers (e_core m) -> get_attr (e_core m) Algorithm = Ok (alg z) -> enc_algorithm z ->
  get_attr (e_core m) IV = Ok (VBytes nc) -> payload (e_core m) <> None -> e_rcpts m <> [] -> Forall wrapped (e_rcpts m) ->
  only (any_failure X) (snd (encm_encode X n m tag true)).
Proof.
  intros n [c rs] z nc tag HU HKL HEG HH HA HZ HN HL HR HF. cbn [e_core e_rcpts] in *.
  assert (HCL : forall r, In r rs -> r_class r = RKeyWrap \/ r_class r = RAgreeKW).
  { rewrite Forall_forall in HF. intros r HI. destruct (HF r HI) as [(E & _)|(E & _)]; auto. }
  unfold encm_encode. cbn [e_core]. pose proof (send_phdr _ HH) as H1. destruct (phdr_encoded c) as [p|e]; [|exact (only_never _ _ (Err e : result bytes) H1)].
  unfold encm_encrypt. cbn [e_core e_rcpts]. rewrite HA.
  assert (HV : verify_recipients rs = Ok tt).
  { apply verify_mix. split; intros (r & HI & E); exfalso; destruct (HCL r HI); congruence. }
  rewrite HV. cbn [bind].
  replace (has_class RDirect rs) with false by (symmetry; apply has_class_false; intros r HI; destruct (HCL r HI); congruence).
  replace (has_class RAgree rs) with false by (symmetry; apply has_class_false; intros r HI; destruct (HCL r HI); congruence).
  replace (has_class RKeyWrap rs || has_class RAgreeKW rs) with true.
  2: { symmetry. apply orb_true_iff. rewrite !has_class_iff. destruct rs as [|r rs]; [elim HR; reflexivity|]. destruct (HCL r (or_introl eq_refl)) as [E|E]; [left|right]; exists r; split; [left; reflexivity|exact E|left; reflexivity|exact E]. }
  assert (HG : exists len kd, get_key_length (alg z) = Ok len /\ In len [16; 24; 32] /\ alg_kind (alg z) = Some kd).
  { clear - HZ. destruct HZ as [H|H]; each H; (eexists; eexists; split; [vm_compute; reflexivity|split; [cbn; tauto|vm_compute; reflexivity]]). }
  destruct HG as (len & kd & HG & HLen & HKD). rewrite HG.
  pose proof (send_cek_wrapped rs (N.succ n) (x_urandom X n len) HKL HEG HF) as HC. rewrite HU in HC. specialize (HC HLen).
  destruct (cek_loop X (N.succ n) (VBytes (x_urandom X n len)) rs) as [[n' rs'] [kb|e]].
  2: { cbn [bind snd]. destruct HC as [HC|[HC|HC]]; [left; exact HC|right; right; left; exact HC|right; right; right; exact HC]. }
  destruct HC as (HF' & HLN & b & -> & HB). rewrite (good_secret z b [EncryptOp] (kind_def _ _ HKD)); [|cbn; auto|exact HB].
  set (k := sym_key b (alg z) [EncryptOp]). set (c' := with_key c (Some k)).
  assert (HP : permitted c' z k [Cls FOps 3]) by (apply fresh_permitted; assumption).
  assert (HH' : sendable_headers c') by (unfold c'; destruct c; exact HH).
  assert (HX : only (seal_failure X) (enc_encrypt X "Encrypt" c')).
  { apply (send_encrypt X "Encrypt" c' z k HH' HP eq_refl HZ); [left; exists nc; unfold c'; destruct c; exact HN|unfold c'; destruct c; exact HL]. }
  destruct (enc_encrypt X "Encrypt" c') as [ct|e]; cbn [bind].
  2: { cbn [snd]. destruct HX as [HX|HX]; [left; exact HX|right; left; exact HX]. }
  cbn [e_rcpts e_core]. destruct rs' as [|r rs']; [destruct rs; [elim HR; reflexivity|discriminate HLN]|].
  replace (get_attr c' Algorithm) with (Ok (alg z)) by (unfold c'; destruct c; symmetry; exact HA).
  pose proof (send_wrapped_recipients (r :: rs') n' HKL HEG HF') as S. destruct (rcpts_encode X n' (r :: rs')) as [[n2 rs2] [vs|e]]; cbn [snd] in *.
  - apply only_never, send_emit. destruct HH' as [_ HU']. cbn [app forallb sendable] in HU' |- *. rewrite HU', S. reflexivity.
  - destruct S as [S|[S|S]]; [left; exact S|right; right; left; exact S|right; right; right; exact S].
Qed.

(** ** Direct key agreement *)

Definition agreed_key (b : bytes) (z : Z) : key := Key KSym [(VClass KpKty, KtySymmetric); (VClass KpAlg, alg z); (VClass SymKpK, VBytes b)] [].

Lemma agreed_common : forall z, existsb (fun e => Z.eqb (fst e) z) alg_defs = true ->
  common_init KSym (VDict [(VClass KpAlg, alg z)]) true = Ok (Key KSym [(VClass KpKty, KtySymmetric); (VClass KpAlg, alg z)] []).
Proof.
  assert (H : forallb (fun e => match common_init KSym (VDict [(VClass KpAlg, alg (fst e))]) true with
      | Ok (Key KSym s []) => veqb (VDict s) (VDict [(VClass KpKty, KtySymmetric); (VClass KpAlg, alg (fst e))])
      | _ => false end) alg_defs = true) by (vm_compute; reflexivity).
  intros z HZ. apply existsb_exists in HZ as (e & HI & E). apply Z.eqb_eq in E. subst z. rewrite forallb_forall in H. specialize (H _ HI). cbv beta in H.
  destruct (common_init _ _ _) as [[kc s ex]|]; [|discriminate]. destruct kc; try discriminate. destruct ex; [|discriminate]. apply veqb_eq in H. injection H as ->. reflexivity.
Qed.

Lemma agreed_init : forall z b kd, alg_kind (alg z) = Some kd -> In (length b) [16; 24; 32] ->
  sym_init (VBytes b) (VDict [(VClass KpAlg, alg z)]) true = Ok (agreed_key b z).
Proof.
  intros z b kd HK HL. unfold sym_init. rewrite (agreed_common z (kind_def _ _ HK)). cbn [bind].
  replace (veqb (VBytes b) (VBytes [])) with false by (destruct b; [cbn in HL; repeat (destruct HL as [HL|HL]; [discriminate|]); destruct HL|reflexivity]).
  unfold set_k. replace (existsb (Nat.eqb (length b)) [16; 24; 32]) with true; [reflexivity|]. symmetry. apply existsb_exists. exists (length b). split; [exact HL|apply Nat.eqb_refl].
Qed.

Lemma agreed_permitted : forall c z b ops, get_attr c Algorithm = Ok (alg z) -> In (length b) [16; 24; 32] ->
  permitted (with_key c (Some (agreed_key b z))) z (agreed_key b z) ops.
Proof.
  intros [] z b ops HA HB. split; [exact HA|]. split; [reflexivity|]. split; [|split].
  - split; [|split; [|split; [|split]]].
    + intros v H. injection H as <-. eexists. reflexivity.
    + intros v H. discriminate H.
    + intros v H. discriminate H.
    + intros e [].
    + exists b. split; [reflexivity|exact HB].
  - right. right. exists (Cls FAlg z). split; reflexivity.
  - left. reflexivity.
Qed.

Lemma send_compute_cek : forall r zt len kd, law_hkdf_len X -> agree_recipient r -> get_key_length (alg zt) = Ok len -> alg_kind (alg zt) = Some kd -> In len [16; 24; 32] ->
  match compute_cek X r (alg zt) false with
  | Ok o => exists b, o = Some (agreed_key b zt) /\ In (length b) [16; 24; 32]
  | Err x => x = OverflowError \/ agree_failure X x
  end.
Proof.
  intros [id rc c ctx subs] zt len kd HU (HC & HS & HH & HD & z & cv & p & k & HA & HZ & HP & HK & _ & _ & PA & PO & KA & KO) HL HKD HLen.
  cbn [r_class r_subs r_core] in *. subst rc subs. unfold compute_cek. cbn [r_class r_core]. unfold agree_compute_cek. rewrite HA. cbn [bind].
  assert (EA : alg_in (alg z) (ss_hkdf ++ es_hkdf) = Ok true /\ exists h, kex_hash (alg z) = Ok h).
  { clear - HZ. cbn in HZ. repeat (destruct HZ as [<-|HZ]; [split; [vm_compute; reflexivity|eexists; vm_compute; reflexivity]|]). destruct HZ. }
  destruct EA as [EA EH]. rewrite EA. cbn [bind negb]. pose proof HP as (HPS & HPC & _). pose proof HK as (HKS & HKC & _).
  unfold dget_or. rewrite HPS. cbn [bind]. replace (is_none (kval p)) with false by (destruct p; reflexivity).
  replace (peer (kval p)) with (Ok p) by (destruct p; reflexivity). cbn [bind].
  change [DeriveKeyOp; DeriveBitsOp] with (map VClass [Cls FOps 7; Cls FOps 8]). pose proof (key_verify_ok p (Cls FAlg z) _ PA PO) as V1.
  pose proof (key_verify_ok k (Cls FAlg z) _ KA KO) as V2. rewrite HPC in V1. rewrite HKC in V2. change (VClass (Cls FAlg z)) with (alg z) in V1, V2.
  rewrite V1. cbn [bind]. rewrite HKS. cbn [bind]. rewrite V2. cbn [bind]. rewrite <- HKS.
  destruct (send_kek c zt len z cv p k HU HD HL EH HP HK) as [S1 S2].
  destruct (agree_kek X c (alg zt) (kval p) (ckey c) (alg z)) as [kb|e]; cbn [bind]; [|exact S1].
  specialize (S2 kb eq_refl). rewrite (agreed_init zt kb kd HKD); [|rewrite S2; exact HLen]. cbn [bind]. exists kb. rewrite S2. auto.
Qed.

Lemma send_agree_encode : forall n r, agree_recipient r -> only never (snd (rcpts_encode X n [r])) /\
  forall vs, snd (rcpts_encode X n [r]) = Ok vs -> forallb sendable vs = true.
Proof.
  intros n [id rc c ctx subs] (HC & HS & HH & HD & z & cv & p & k & HA & HZ & HP & HK & HE & (v & HEK) & _).
  cbn [r_class r_subs r_core] in *. subst rc subs. cbn [rcpts_encode]. pose proof HP as (HPS & _). pose proof HK as (HKS & _).
  assert (EX : exists n1 r1, rcpt_encode X n (Rcpt id RAgree c ctx []) = ((n1, r1), p <- phdr_encoded c ;; Ok (VList [VBytes p; VDict (uhdr c); VBytes []]))).
  { cbn [rcpt_encode]. rewrite HA. cbn [bind]. change (is_none (alg z)) with false. cbv iota zeta. unfold dget_or. rewrite HPS.
    replace (is_none (kval p)) with false by (destruct p; reflexivity). cbv iota. rewrite HKS. cbn [bind length Nat.ltb Nat.leb]. rewrite HEK. cbn [bind].
    assert (EV : (if is_none v then alg_in (alg z) es_hkdf else Ok false) = Ok false).
    { destruct (is_none v) eqn:EN; [|reflexivity]. destruct (Z.eq_dec z (-25)) as [->|N1]; [|destruct (Z.eq_dec z (-26)) as [->|N2]].
      - destruct HE as (w & HW & HN); [cbn; auto|]. rewrite HEK in HW. injection HW as <-. destruct v; try discriminate. elim HN. reflexivity.
      - destruct HE as (w & HW & HN); [cbn; auto|]. rewrite HEK in HW. injection HW as <-. destruct v; try discriminate. elim HN. reflexivity.
      - cbn in HZ. destruct HZ as [E|[E|[<-|[<-|[]]]]]; [congruence|congruence|vm_compute; reflexivity|vm_compute; reflexivity]. }
    rewrite EV. cbn [bind]. destruct (phdr_encoded c) as [ph|e]; cbn [bind]; eauto. }
  destruct EX as (n1 & r1 & ->). pose proof (send_phdr _ HH) as H1. destruct (phdr_encoded c) as [ph|e]; cbn [bind snd]; [|split; [exact H1|discriminate]].
  split; [exact I|]. intros vs H. injection H as <-. destruct HH as [_ HU]. cbn [forallb sendable] in HU |- *. rewrite HU. reflexivity.
Qed.

Lemma agree_class : forall r, agree_recipient r -> verify_recipients [r] = Ok tt /\ has_class RDirect [r] = false /\ has_class RAgree [r] = true.
Proof.
  intros r (HC & _). split; [|split].
  - apply verify_mix. split; [|reflexivity]. intros (x & [<-|[]] & E). congruence.
  - apply has_class_false. intros x [<-|[]]. congruence.
  - apply has_class_iff. exists r. split; [left; reflexivity|exact HC].
Qed.

Lemma send_enc_agree : forall n m r z nc tag, law_hkdf_len X -> sendable_headers (e_core m) -> get_attr (e_core m) Algorithm = Ok (alg z) -> enc_algorithm z ->
  get_attr (e_core m) IV = Ok (VBytes nc) -> payload (e_core m) <> None -> e_rcpts m = [r] -> agree_recipient r ->
  only (any_failure X) (snd (encm_encode X n m tag true)).
Proof.
  intros n [c rs] r z nc tag HU HH HA HZ HN HL ER HR. cbn [e_core e_rcpts] in *. subst rs.
  unfold encm_encode. cbn [e_core]. pose proof (send_phdr _ HH) as H1. destruct (phdr_encoded c) as [p|e]; [|exact (only_never _ _ (Err e : result bytes) H1)].
  unfold encm_encrypt. cbn [e_core e_rcpts]. destruct (agree_class r HR) as (E1 & E2 & E3). rewrite HA, E1, E2, E3. cbn [bind].
  assert (HG : exists len kd, get_key_length (alg z) = Ok len /\ In len [16; 24; 32] /\ alg_kind (alg z) = Some kd).
  { clear - HZ. destruct HZ as [H|H]; each H; (eexists; eexists; split; [vm_compute; reflexivity|split; [cbn; tauto|vm_compute; reflexivity]]). }
  destruct HG as (len & kd & HG & HLen & HKD). pose proof (send_compute_cek r z len kd HU HR HG HKD HLen) as HC.
  destruct (compute_cek X r (alg z) false) as [o|e].
  2: { cbn [bind snd]. destruct HC as [HC|HC]; [left; exact HC|right; right; right; exact HC]. }
  destruct HC as (b & -> & HB). set (k := agreed_key b z). set (c' := with_key c (Some k)).
  assert (HP : permitted c' z k [Cls FOps 3]) by (apply agreed_permitted; assumption).
  assert (HH' : sendable_headers c') by (unfold c'; destruct c; exact HH).
  assert (HX : only (seal_failure X) (enc_encrypt X "Encrypt" c')).
  { apply (send_encrypt X "Encrypt" c' z k HH' HP eq_refl HZ); [left; exists nc; unfold c'; destruct c; exact HN|unfold c'; destruct c; exact HL]. }
  destruct (enc_encrypt X "Encrypt" c') as [ct|e]; cbn [bind].
  2: { cbn [snd]. destruct HX as [HX|HX]; [left; exact HX|right; left; exact HX]. }
  cbn [e_rcpts e_core]. replace (get_attr c' Algorithm) with (Ok (alg z)) by (unfold c'; destruct c; symmetry; exact HA).
  destruct (send_agree_encode n r HR) as [S1 S2]. destruct (rcpts_encode X n [r]) as [[n2 rs2] [vs|e]]; cbn [snd] in *.
  - apply only_never, send_emit. destruct HH' as [_ HU']. cbn [app forallb sendable] in HU' |- *. rewrite HU', (S2 vs eq_refl). reflexivity.
  - destruct S1 as [S1|[]]. left. exact S1.
Qed.

Lemma send_mac_agree : forall n m r z tag, law_hkdf_len X -> sendable_headers (mm_core m) -> get_attr (mm_core m) Algorithm = Ok (alg z) -> In z (map fst rfc_aes_macs) ->
  payload (mm_core m) <> None -> mm_rcpts m = Some [r] -> agree_recipient r ->
  only (agree_failure X) (snd (macm_encode X n m tag true)).
Proof.
  intros n [c t o] r z tag HU HH HA HZ HL ER HR. cbn [mm_core mm_rcpts] in *. subst o.
  unfold macm_encode. cbn [mm_core]. pose proof (send_phdr _ HH) as H1. destruct (phdr_encoded c) as [p|e]; [|exact (only_never _ _ (Err e : result bytes) H1)].
  unfold macm_compute_tag. cbn [mm_core mm_rcpts mm_tag]. destruct (agree_class r HR) as (E1 & E2 & E3). rewrite HA, E1, E2, E3.
  assert (HG : exists len kd, get_key_length (alg z) = Ok len /\ In len [16; 24; 32] /\ alg_kind (alg z) = Some kd).
  { clear - HZ. each HZ; (eexists; eexists; split; [vm_compute; reflexivity|split; [cbn; tauto|vm_compute; reflexivity]]). }
  destruct HG as (len & kd & HG & HLen & HKD). pose proof (send_compute_cek r z len kd HU HR HG HKD HLen) as HC.
  destruct (compute_cek X r (alg z) false) as [o|e]; [|exact HC].
  destruct HC as (b & -> & HB). set (k := agreed_key b z). set (c' := with_key c (Some k)). unfold mac_super_compute. cbn [mm_core mm_rcpts].
  assert (HP : permitted c' z k [Cls FOps 9]) by (apply agreed_permitted; assumption).
  assert (HH' : sendable_headers c') by (unfold c'; destruct c; exact HH).
  assert (HL' : payload c' <> None) by (unfold c'; destruct c; exact HL).
  pose proof (send_mac X "MAC" c' z k HH' HP eq_refl (or_intror HZ) HL') as HX. destruct (mac_compute X "MAC" c') as [mt|e]; cbn [bind]; [|exact (only_never _ _ (Err e : result bytes) HX)].
  cbn [mm_rcpts mm_core]. replace (get_attr c' Algorithm) with (Ok (alg z)) by (unfold c'; destruct c; symmetry; exact HA).
  destruct (send_agree_encode n r HR) as [S1 S2]. destruct (rcpts_encode X n [r]) as [[n2 rs2] [vs|e]]; cbn [snd] in *.
  - apply only_never, send_emit. destruct HH' as [_ HU']. cbn [app forallb sendable] in HU' |- *. rewrite sendable_vopt, HU', (S2 vs eq_refl). reflexivity.
  - destruct S1 as [S1|[]]. left. exact S1.
Qed.

End Agree.
