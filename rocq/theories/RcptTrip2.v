(** Key agreement on both sides, and the recipients of a key-wrapped message. *)
From Coq Require Import NArith ZArith Bool String Lia.
From Coq Require Import Init.Byte List.
From Verif Require Import Bytes BytesProofs Value ValueProofs Cbor CborProofs SpecData DataProofs Registry
  RegistryProofs Crypto SpecCrypto Keys Algorithms Headers Messages Recipients SpecRegistry SpecKeys SpecHdr HdrProofs HdrProofs2 MiscProofs
  SpecTrip KeyTrip KeyTrip2 SpecAlg KeyProofs KeyProofs2 AlgProofs SpecMsg HdrTrip MsgTrip MsgTrip2 SpecRcpt RcptProofs RcptProofs2
  SpecRcptTrip RcptTrip.
Import ListNotations.
Local Open Scope result_scope.

Section Trip.
Variable X : crypto.

Definition same_params (k k' : key) : Prop := k_cls k' = k_cls k /\ forall a, dget (k_store k') a = dget (k_store k) a.

Lemma get_attr_arrived : forall c c' a, arrived c c' -> keyeq a EphemeralKey = false -> keyeq a StaticKey = false ->
  get_attr c' a = get_attr c a.
Proof.
  intros c c' a HA H1 H2. destruct (arrived_value c c' a HA H1 H2) as [E1 E2].
  unfold get_attr, get_attr_default, dget_or. rewrite E1, E2. reflexivity.
Qed.

Lemma phdr_arrived : forall c c', arrived c c' -> no_protected_keys c -> phdr c' = phdr c.
Proof.
  intros c c' (HS & _) [H1 H2]. revert H1 H2. induction HS as [|[a v] [a' w] h h' [E HV] HS IH]; intros H1 H2; [reflexivity|].
  cbn [fst snd] in *. subst a'. cbn [dget] in H1, H2. destruct (keyeq EphemeralKey a) eqn:E1; [discriminate|].
  destruct (keyeq StaticKey a) eqn:E2; [discriminate|]. rewrite (IH H1 H2). f_equal. f_equal.
  destruct HV as [HV|([->| ->] & _)]; [exact HV| |].
  - rewrite keyeq_refl in E1. discriminate.
  - rewrite keyeq_refl in E2. discriminate.
Qed.

Lemma kdf_trip : forall c c' k lo t, arrived c c' -> no_protected_keys c -> same_supplements c lo ->
  get_kdf_context (with_local (with_key c' k) lo) t = get_kdf_context c t.
Proof.
  intros c c' k lo t HA HN [HS1 HS2]. unfold get_kdf_context.
  assert (HG : forall a, keyeq a EphemeralKey = false -> keyeq a StaticKey = false ->
    get_attr (with_local (with_key c' k) lo) a = get_attr c a).
  { intros a H1 H2. exact (get_attr_arrived c c' a HA H1 H2). }
  rewrite !HG by reflexivity. cbn [with_local with_key phdr local]. rewrite (phdr_arrived c c' HA HN). unfold dget_or. rewrite HS1, HS2. reflexivity.
Qed.

Lemma dh_hex : forall k p q b, k_cls k = KEC2 -> bytes_param k q b -> bytes_prop KEC2 p = Some q -> p <> PCrv -> p <> PK ->
  p <> PKty -> p <> PAlg -> p <> PKeyOps -> attr_hex k p = match b with [] => Err ValueError | _ => Ok (of_be b) end.
Proof.
  intros k p q b HC HB HP N1 N2 N3 N4 N5. unfold attr_hex.
  assert (HG : prop_get k p = Ok (VBytes b)).
  { unfold prop_get. destruct p; try congruence; rewrite HC, HP; unfold dget_or; unfold bytes_param, param in HB; rewrite HB; reflexivity. }
  rewrite HG. reflexivity.
Qed.

Lemma ecdh_trip : forall cv ks p p' k peer s, law_ecdh X -> dh_pair X cv k peer -> dh_pair X cv ks p -> same_params p p' ->
  ecdh X (VClass (Cls FCrv cv)) ks peer = Ok s -> ecdh X (VClass (Cls FCrv cv)) k p' = Ok s.
Proof.
  intros cv ks p p' k peer s LE (d1 & x1 & y1 & A1 & A2 & A3 & A4 & A5 & A6 & A7 & A8 & A9 & A10)
    (d2 & x2 & y2 & B1 & B2 & B3 & B4 & B5 & B6 & B7 & B8 & B9 & B10) (S1 & S3) H.
  unfold ecdh in *.
  assert (HX : forall k0 q r b, k_cls k0 = KEC2 -> bytes_param k0 r b -> b <> [] -> In (q, r) [(PD, EC2KpD); (PX, EC2KpX); (PY, EC2KpY)] ->
    attr_hex k0 q = Ok (of_be b)).
  { intros k0 q r b HC HB HN HI. rewrite (dh_hex k0 q r b); try assumption; [destruct b; congruence|..];
      cbn [In] in HI; destruct HI as [E|[E|[E|[]]]]; injection E as <- <-; (reflexivity || discriminate). }
  assert (P1 : bytes_param p' EC2KpX x2) by (unfold bytes_param, param in *; rewrite S3; exact B5).
  assert (P2 : bytes_param p' EC2KpY y2) by (unfold bytes_param, param in *; rewrite S3; exact B6).
  rewrite (HX ks PD EC2KpD d2), (HX peer PX EC2KpX x1), (HX peer PY EC2KpY y1) in H; try assumption; try (cbn; auto; fail).
  rewrite (HX k PD EC2KpD d1), (HX p' PX EC2KpX x2), (HX p' PY EC2KpY y2); try assumption; try (cbn; auto; fail); try congruence.
  cbn [bind] in *. destruct (veqb _ _); [|discriminate]. rewrite <- H. eapply LE; eassumption.
Qed.

Lemma dh_crv : forall cv k p, dh_pair X cv k p -> prop_get p PCrv = Ok (VClass (Cls FCrv cv)).
Proof.
  intros cv k p (d & x & y & _ & HC & HP & _). unfold prop_get. rewrite HC. cbn [crv_prop]. unfold param in HP. rewrite HP. reflexivity.
Qed.

Lemma peer_kval : forall k, peer (kval k) = Ok k.
Proof. intros []. reflexivity. Qed.

Lemma agree_kek_trip : forall c c' k lo t cv ks p p' pr a kb, law_ecdh X -> arrived c c' -> no_protected_keys c -> same_supplements c lo ->
  dh_pair X cv k pr -> dh_pair X cv ks p -> same_params p p' ->
  agree_kek X c t (kval pr) (Some ks) a = Ok kb ->
  agree_kek X (with_local (with_key c' (Some k)) lo) t (kval p') (Some k) a = Ok kb.
Proof.
  intros c c' k lo t cv ks p p' pr a kb LE HA HN HS H1 H2 HK H. unfold agree_kek in *.
  apply bind_ok in H as (h & HH & H). rewrite HH. cbn [bind]. rewrite peer_kval in *. cbn [bind] in *.
  rewrite (dh_crv _ _ _ H1) in H.
  assert (HC : prop_get p' PCrv = Ok (VClass (Cls FCrv cv))).
  { pose proof (dh_crv _ _ _ H2) as HC. destruct HK as (S1 & S3). unfold prop_get in *. rewrite S1.
    destruct H2 as (? & ? & ? & _ & HC2 & _). rewrite HC2 in *. cbn [crv_prop] in *. rewrite S3. exact HC. }
  rewrite HC. cbn [bind] in *. apply bind_ok in H as (kc & HKC & H). rewrite (kdf_trip c c' (Some k) lo t HA HN HS), HKC. cbn [bind] in *.
  unfold derive_kek in *. apply bind_ok in H as (h' & HH' & H). rewrite HH'. cbn [bind]. apply bind_ok in H as (s & HE & H).
  rewrite (ecdh_trip cv ks p p' k pr s LE H1 H2 HK HE). exact H.
Qed.

Lemma kval_inj : forall k k', kval k = kval k' -> k = k'.
Proof. intros [a b c] [a' b' c'] H. injection H as <- <- <-. reflexivity. Qed.

(** The sender's public key as it arrives. *)
Lemma public_arrives : forall cv z c c' ks p v, get_attr c (sender_header z) = Ok v -> v = kval p \/ v = VDict (k_store p) -> portable X p ->
  dh_pair X cv ks p -> arrived c c' -> key_headers (phdr c') -> key_headers (uhdr c') ->
  exists p', same_params p p' /\ get_attr c' (sender_header z) = Ok (kval p').
Proof.
  intros cv z c c' ks p v HG HV HPo HD (HP & HU & _) K1 K2.
  destruct (get_attr_same c c' _ _ HP HU HG) as (w & bb & HW & HS).
  assert (HKw : exists k0, w = kval k0 /\ param k0 KpKty = Some (kty_of (k_cls k0))).
  { assert (HN : is_none w = false).
    { rewrite (same_value_none _ _ _ HS). destruct HV as [->| ->]; [destruct p; reflexivity|reflexivity]. }
    assert (HL : exists y, In y [-1; -2]%Z /\ sender_header z = hdr y).
    { unfold sender_header. destruct (existsb _ _); [exists (-1)%Z|exists (-2)%Z]; (split; [cbn; auto|reflexivity]). }
    destruct HL as (y & HY & EY). rewrite EY in HW. unfold get_attr, get_attr_default in HW.
    destruct (negb (is_none _) && negb (is_none _)) eqn:E; [discriminate|].
    destruct (negb (is_none (dget_or (phdr c') (hdr y) VNone))); injection HW as <-; unfold dget_or in *.
    - destruct (dget (phdr c') (hdr y)) eqn:EG; [|discriminate]. exact (K1 y _ HY EG).
    - destruct (dget (uhdr c') (hdr y)) eqn:EG; [|discriminate]. exact (K2 y _ HY EG). }
  destruct HKw as (k0 & -> & HT).
  assert (HC : k_cls p = KEC2) by (destruct HD as (? & ? & ? & _ & HC & _); exact HC).
  assert (HPT : param p KpKty = Some KtyEC2).
  { destruct HPo as (_ & _ & HAS & HF & _). rewrite HC in HF. unfold has in HAS. destruct (param p KpKty) as [t|] eqn:ET; [|congruence].
    unfold param in ET. f_equal. apply dget_In in ET as (a' & HI & HE). rewrite Forall_forall in HF. specialize (HF _ HI). cbn [fst snd] in HF.
    apply keyeq_class in HE. subst a'. apply (param_ok_kty KEC2) in HF. exact HF. }
  assert (HSK : same_params p k0).
  { destruct HS as [E|(_ & k1 & k2 & HV' & E & HSK)].
    - destruct HV as [->| ->]; [|destruct k0; discriminate].
      assert (k0 = p) by (apply kval_inj; exact E). subst k0. split; reflexivity.
    - assert (k2 = k0) by (apply kval_inj; congruence). subst k2.
      assert (HST : k_store k1 = k_store p).
      { destruct HV as [->| ->], HV' as [E'|E']; destruct p as [pa pb pc], k1 as [qa qb qc]; unfold kval in E'; cbn [k_cls k_store k_extra] in *; congruence. }
      destruct HSK as (S1 & S2 & S3). rewrite HST in S3.
      assert (HC0 : k_cls k0 = KEC2).
      { unfold param in HT, HPT. rewrite S3, HPT in HT. destruct (k_cls k0); try reflexivity; injection HT as HT; discriminate. }
      split; [congruence|exact S3]. }
  exists k0. split; [assumption|]. exact HW.
Qed.

Lemma sender_arrives : forall cv z c c', sender_key X cv z c -> arrived c c' -> key_headers (phdr c') -> key_headers (uhdr c') ->
  exists ks p p', ckey c = Some ks /\ dh_pair X cv ks p /\ portable X p /\ same_params p p' /\ get_attr c' (sender_header z) = Ok (kval p').
Proof.
  intros cv z c c' (ks & p & v & HK & HG & HV & HPo & HD) HA K1 K2.
  destruct (public_arrives cv z c c' ks p v HG HV HPo HD HA K1 K2) as (p' & HS & HG').
  exists ks, p, p'. repeat (split; [assumption|]). exact HG'.
Qed.

(** ** Key agreement with key wrap *)

Definition kakw_algs : list Z := [-29; -30; -31; -32; -33; -34]%Z.

Lemma kakw_facts : forall z, In z kakw_algs -> exists wz len, get_key_wrap_func (alg z) = Ok (alg wz) /\
  alg_kind (alg wz) = Some (AKw len) /\ alg_kind (alg z) = Some (AEcdhKW wz) /\
  alg_in (alg z) es_kw = Ok (existsb (Z.eqb z) es_kw) /\
  (existsb (Z.eqb z) es_kw = false -> alg_in (alg z) ss_kw = Ok true) /\
  sender_header z = if existsb (Z.eqb z) es_kw then EphemeralKey else StaticKey.
Proof.
  intros z H. cbn [kakw_algs In] in H.
  repeat (destruct H as [<-|H]; [eexists; eexists; do 4 (split; [reflexivity|]); split; [|reflexivity];
    intros E; first [reflexivity | discriminate E]|]). destruct H.
Qed.

(** What the generation of an ephemeral key leaves unchanged. *)
Definition but_ephemeral (c c1 : core) : Prop :=
  phdr c1 = phdr c /\ phdr_raw c1 = phdr_raw c /\ local c1 = local c /\ tstr c1 = tstr c /\ payload c1 = payload c /\ aad c1 = aad c /\
  forall a, keyeq a EphemeralKey = false -> dget (uhdr c1) a = dget (uhdr c) a.

Lemma but_refl : forall c, but_ephemeral c c.
Proof. intros c. repeat (split; [reflexivity|]). reflexivity. Qed.

Lemma but_get : forall c c1 a, but_ephemeral c c1 -> keyeq a EphemeralKey = false -> get_attr c1 a = get_attr c a.
Proof.
  intros c c1 a (HP & _ & _ & _ & _ & _ & HU) H. unfold get_attr, get_attr_default, dget_or. rewrite HP, (HU _ H). reflexivity.
Qed.

Lemma setup_but : forall n c pk c1, setup_ephemeral X n c pk = (c1, Ok tt) -> but_ephemeral c c1.
Proof.
  intros n c pk c1 H. apply setup_ephemeral_ok in H as (k & -> & _). repeat (split; [reflexivity|]). intros a Ha.
  cbn [uhdr with_uhdr with_key]. apply dget_dset_other. exact Ha.
Qed.

Lemma but_encoded : forall c c1, but_ephemeral c c1 -> phdr_encoded c1 = phdr_encoded c.
Proof.
  intros c c1 (HP & HR & _ & HT & _). unfold phdr_encoded, dumps_msg. rewrite HP, HR, HT. reflexivity.
Qed.

Lemma kakw_state : forall n c c1 w, kakw_encrypt X n c = (c1, Ok w) ->
  (ckey c <> None /\ c1 = c) \/
  (ckey c = None /\ setup_ephemeral X n c (dget_or (local c) StaticKey VNone) = (c1, Ok tt) /\
   exists a, get_attr c Algorithm = Ok a /\ alg_in a es_kw = Ok true).
Proof.
  intros n c c1 w H. unfold kakw_encrypt in H. destruct (is_none _); [discriminate|].
  destruct (get_attr c Algorithm) as [a|e]; [|discriminate]. destruct (is_none a); [discriminate|].
  destruct (ckey c) as [k|].
  - injection H as <- _. left. split; [discriminate|reflexivity].
  - right. split; [reflexivity|]. destruct (alg_in a es_kw) as [[]|e] eqn:EA.
    + destruct (setup_ephemeral X n c _) as [c2 r] eqn:ES. injection H as <- H.
      split; [destruct r as [[]|e]; [reflexivity|discriminate]|]. eauto.
    + injection H as _ H. discriminate.
    + injection H as _ H. discriminate.
Qed.

Lemma kakw_but : forall n c c1 w, kakw_encrypt X n c = (c1, Ok w) -> but_ephemeral c c1 /\ ckey c1 <> None.
Proof.
  intros n c c1 w H. destruct (kakw_state n c c1 w H) as [[HK ->]|(_ & HS & _)]; [split; [apply but_refl|assumption]|].
  split; [eapply setup_but; exact HS|]. apply setup_ephemeral_ok in HS as (k & -> & _). discriminate.
Qed.

Lemma kakw_wraps : forall n c c1 w z, In z kakw_algs -> get_attr c Algorithm = Ok (alg z) ->
  kakw_encrypt X n c = (c1, Ok w) ->
  exists wz len kb kek, get_key_wrap_func (alg z) = Ok (alg wz) /\ alg_kind (alg wz) = Some (AKw len) /\
    agree_kek X c1 (alg wz) (dget_or (local c1) StaticKey VNone) (ckey c1) (alg z) = Ok kb /\
    sym_with (VBytes kb) (alg z) [DeriveKeyOp] = Ok kek /\ alg_key_wrap X n (alg wz) kek (vopt (payload c1)) = Ok w.
Proof.
  intros n c c1 w z HZ HG H. destruct (kakw_facts z HZ) as (wz & len & HW & HL & _).
  destruct (kakw_but n c c1 w H) as [HB _]. pose proof (but_get c c1 Algorithm HB eq_refl) as HG1. rewrite HG in HG1.
  destruct HB as (_ & _ & HLo & _).
  unfold kakw_encrypt in H. destruct (is_none _); [discriminate|]. rewrite HG in H. cbn [alg is_none] in H. fold (alg z) in H.
  match type of H with (let '(_, _) := ?t in _) = _ => destruct t as [c2 r] end. apply pair_equal_spec in H as [<- H].
  apply bind_ok in H as (u & _ & H). rewrite HG1 in H. cbn [bind] in H. rewrite HW in H. cbn [bind] in H. apply bind_ok in H as (kb & HKB & H).
  apply bind_ok in H as (kek & HKEK & H). exists wz, len, kb, kek. rewrite HLo. repeat (split; [assumption|]). exact H.
Qed.

Lemma kakw_some : forall n c c1 w z, law_wrap_some X -> In z kakw_algs -> get_attr c Algorithm = Ok (alg z) ->
  kakw_encrypt X n c = (c1, Ok w) -> w <> [].
Proof.
  intros n c c1 w z LS HZ HG H. destruct (kakw_wraps n c c1 w z HZ HG H) as (wz & len & kb & kek & _ & HL & _ & _ & HW).
  unfold alg_key_wrap in HW. rewrite HL in HW. apply bind_ok in HW as (? & _ & HW). apply bind_ok in HW as (? & _ & HW). eauto.
Qed.

Lemma kakw_trip : forall n c c1 w c' id ctx k lo z cv pr, law_ecdh X -> law_wrap X -> law_wrap_some X ->
  In z kakw_algs -> get_attr c Algorithm = Ok (alg z) -> dget (local c) StaticKey = Some (kval pr) -> dh_pair X cv k pr ->
  sender_key X cv z c1 -> no_protected_keys c -> same_supplements c lo ->
  kakw_encrypt X n c = (c1, Ok w) -> arrived c1 c' -> payload c' = Some w -> key_headers (phdr c') -> key_headers (uhdr c') ->
  exists d, payload c = Some d /\ rcpt_decrypt X (equip_rcpt (Rcpt id RAgreeKW c' ctx []) k lo) = Ok d.
Proof.
  intros n c c1 w c' id ctx k lo z cv pr LE LW LS HZ HG HPR HD HSK HNP HSS H HA HP K1 K2.
  destruct (sender_arrives cv z c1 c' HSK HA K1 K2) as (ks & p & p' & HKS & HDS & _ & HSP & HGP).
  destruct (kakw_but n c c1 w H) as [HB _]. pose proof (but_get c c1 Algorithm HB eq_refl) as HG1. rewrite HG in HG1.
  pose proof HB as (HBP & _ & HBL & _ & HBPl & _ & _).
  assert (HNP1 : no_protected_keys c1) by (unfold no_protected_keys in *; rewrite HBP; exact HNP).
  assert (HSS1 : same_supplements c1 lo) by (unfold same_supplements in *; rewrite HBL; exact HSS).
  destruct (kakw_wraps n c c1 w z HZ HG H) as (wz & len & kb & kek & HWF & HL & HKB & HKEK & HW).
  destruct (kakw_facts z HZ) as (wz' & len' & _ & _ & HKZ & HES & HSS' & HSH).
  unfold dget_or in HKB. rewrite HBL, HPR, HKS in HKB. rewrite HBPl in HW.
  pose proof (agree_kek_trip c1 c' k lo _ cv ks p p' pr _ kb LE HA HNP1 HSS1 HD HDS HSP HKB) as HKB'.
  pose proof (sym_with_again kb z z [DeriveKeyOp] [UnwrapOp; DecryptOp] _ _ _ HKEK HKZ ltac:(cbn; tauto) HKZ ltac:(cbn; tauto)) as HR.
  apply sym_with_is with (kd := AEcdhKW wz') in HKEK as (b' & E & ->); [|exact HKZ|cbn; tauto]. injection E as <-.
  destruct (kw_wrap_trip X len n wz _ (sym_key kb (alg z) [UnwrapOp; DecryptOp]) kb (payload c) w HL LW LS (sym_key_secret _ _ _) (sym_key_secret _ _ _) HW)
    as (d & HDd & HU & _).
  exists d. split; [exact HDd|]. unfold equip_rcpt. cbn [r_with r_core rcpt_decrypt]. unfold kakw_decrypt.
  set (c2 := with_local (with_key c' (Some k)) lo) in *.
  change (get_attr c2 Algorithm) with (get_attr c' Algorithm). rewrite (alg_trip c1 c' z HA HG1). cbn [bind]. rewrite HES. cbn [bind].
  assert (HPK : (if existsb (Z.eqb z) es_kw then get_attr c2 EphemeralKey
     else bind (alg_in (alg z) ss_kw) (fun ss => if ss : bool then get_attr c2 StaticKey else Err AttributeError)) = Ok (kval p')).
  { change (get_attr c2 EphemeralKey) with (get_attr c' EphemeralKey). change (get_attr c2 StaticKey) with (get_attr c' StaticKey).
    rewrite HSH in HGP. destruct (existsb (Z.eqb z) es_kw); [exact HGP|]. rewrite (HSS' eq_refl). exact HGP. }
  rewrite HPK. cbn [bind]. rewrite HWF. cbn [bind]. change (ckey c2) with (Some k). rewrite HKB'. cbn [bind]. rewrite HR. cbn [bind].
  rewrite sym_key_unwrap by (cbn; auto). cbn [bind]. change (payload c2) with (payload c'). rewrite HP. exact HU.
Qed.

(** A generated key becomes a sender key whose public part is in the header. *)
Lemma generated_sender : forall n c c1 z cv k pr, existsb (Z.eqb z) [-25; -26; -29; -30; -31]%Z = true ->
  dh_pair X cv k pr -> setup_ephemeral X n c (kval pr) = (c1, Ok tt) -> sender_key X cv z c1.
Proof.
  intros n c c1 z cv k pr HZ HD H. apply setup_ephemeral_ok in H as (ks & -> & HA & p & crv & HP & HC & HG).
  rewrite peer_kval in HP. injection HP as <-. rewrite (dh_crv _ _ _ HD) in HC. injection HC as <-.
  pose proof HG as HG'. apply generated in HG' as (c0 & x & y & d & HF & HT & HPo & HCl & P1 & P2 & P3 & P4 & HPub).
  assert (E : c0 = cv).
  { destruct (from_id_cases _ _ _ _ HF) as [(c2 & n2 & HI & HS & E)|[(E & _)|(l & l' & E & _)]]; try discriminate.
    cbn [spells] in HS. injection E as <-. cbn [c_id] in HS. congruence. }
  subst c0. exists ks, (public_part ks), (VDict (k_store (public_part ks))). split; [reflexivity|].
  assert (HPP : portable X (public_part ks)) by (apply public_portable; assumption).
  assert (HNE : forall q b, In q (byte_params KEC2) -> bytes_param ks q b -> b <> []).
  { intros q b HQ HB. destruct HPo as (_ & _ & _ & HFo & _). unfold bytes_param, param in HB. apply dget_In in HB as (a' & HI & HE).
    rewrite Forall_forall in HFo. specialize (HFo _ HI). cbn [fst snd] in HFo. apply keyeq_class in HE. subst a'.
    rewrite HCl in HFo. inversion HFo; subst; try assumption; exfalso; cbn [byte_params In] in HQ; destruct HQ as [HQ|[HQ|[HQ|[]]]]; discriminate HQ. }
  assert (HO : forall q, q <> EC2KpD -> param (public_part ks) q = param ks q).
  { intros q HQ. unfold param, public_part. cbn [k_store]. apply dget_ddel_other. apply keyeq_class_ne. exact HQ. }
  split; [|split; [right; reflexivity|split; [exact HPP|]]].
  - unfold sender_header. rewrite HZ. unfold get_attr, get_attr_default in *. cbn [with_uhdr with_key phdr uhdr].
    unfold dget_or at 2. unfold dget_or at 3. rewrite dget_dset_same by reflexivity. cbn [is_none negb].
    destruct (negb (is_none (dget_or (phdr c) EphemeralKey VNone))) eqn:EN; cbn [andb].
    + destruct (negb (is_none (dget_or (uhdr c) EphemeralKey VNone))); [discriminate|]. cbn [andb] in HA. injection HA as HA. rewrite HA in EN. discriminate.
    + unfold dget_or. rewrite dget_dset_same by reflexivity. reflexivity.
  - exists d, x, y. split; [exact HCl|]. split; [exact HCl|]. unfold bytes_param in *. rewrite !HO by discriminate.
    repeat (split; [assumption|]). repeat (split; [eapply HNE; [|eassumption]; cbn; tauto|]). exact HPub.
Qed.
End Trip.
