(** Forwarding received messages that have recipients (C79). *)
From Coq Require Import NArith ZArith Bool String Lia.
From Coq Require Import Init.Byte List.
From Verif Require Import Bytes Value Cbor SpecData Registry Crypto Keys Algorithms Headers Messages Recipients
  SpecRegistry SpecKeys SpecCrypto SpecAlg SpecHdr SpecTrip SpecMsg SpecRcpt SpecRcptTrip SpecLife SpecCheck SpecCheck2
  ValueProofs DataProofs HdrProofs HdrTrip MsgTrip MsgTrip2 RcptProofs RcptProofs2 RcptTrip RcptTrip2 RcptTrip3 RcptTrip4 RcptTrip5 LifeProofs CheckProofs2.
Import ListNotations.

Section Forward.
Variable X : crypto.

Lemma same_headers_length : forall h h', same_headers h h' -> length h' = length h.
Proof. intros h h' H. induction H; cbn [length]; congruence. Qed.

(** A direct recipient is encoded to what it was decoded from. *)
Lemma direct_again : forall n n0 n' r rr v r', direct r -> simple r -> no_key_headers (uhdr (r_core r)) -> lands X n0 r r rr ->
  rcpt_encode X n r = ((n', r'), Ok v) -> forall k, rcpt_encode X k rr = ((k, rr), Ok v).
Proof.
  intros n n0 n' r rr v r' HD (HS & z & HZ & HG) HN HL H k. unfold direct in HD.
  destruct HL as (_ & HC & HCC & HSS & HA & _).
  destruct r as [id rc c ctx subs]. destruct rr as [id2 rc2 c2 ctx2 subs2]. cbn [r_class r_core r_subs] in *. subst rc subs.
  rewrite HCC, HSS in *.
  cbn [rcpt_encode] in *. apply pair_equal_spec in H as [_ H].
  pose proof (get_attr_arrived _ _ Algorithm HA eq_refl eq_refl) as HG2. destruct HA as (HP & HU & HE & _).
  f_equal. rewrite <- H. rewrite HG2, HE, (same_headers_length _ _ HP), (same_uhdr _ _ HU HN). reflexivity.
Qed.

Lemma directs_again : forall l n n' l' vs ll, Forall direct l -> Forall simple l -> Forall (fun r => no_key_headers (uhdr (r_core r))) l ->
  all_land X l l ll -> rcpts_encode X n l = ((n', l'), Ok vs) -> forall k, rcpts_encode X k ll = ((k, ll), Ok vs).
Proof.
  induction l as [|r l IH]; intros n n' l' vs ll HD HS HN HL H k.
  - inversion HL; subst. cbn [rcpts_encode] in *. injection H as _ _ <-. reflexivity.
  - inversion HL as [|n0 r0 r1 rr l0 l1 ll' HR HA]; subst. cbn [rcpts_encode] in *.
    inversion_clear HD as [|? ? HD1 HD2]. inversion_clear HS as [|? ? HS1 HS2]. inversion_clear HN as [|? ? HN1 HN2].
    destruct (rcpt_encode X n r) as [[n1 r'] [v|e]] eqn:ER; [|discriminate].
    destruct (rcpts_encode X n1 l) as [[n2 l2] [vs2|e]] eqn:EL; [|discriminate]. injection H as _ _ <-.
    rewrite (direct_again n n0 n1 r rr v r' HD1 HS1 HN1 HR ER k). rewrite (IH _ _ _ _ _ HD2 HS2 HN2 HA EL k). reflexivity.
Qed.

Lemma core_from_obj_plain : forall allow obj c rest, core_from_obj X allow obj = Ok (c, rest) -> tstr c = false /\ local c = [] /\ ckey c = None.
Proof.
  intros allow obj c rest H. apply core_from_obj_inv in H as (p & u & pl & c0 & _ & HC & _ & ->).
  apply core_init_inv in HC as (pd & ud & _ & _ & _ & _ & _ & _ & _ & HK & HL & HT).
  cbn [a_tstr a_key check_key tstr local ckey with_payload] in *. repeat split; congruence.
Qed.

Lemma decoded_enc : forall e allow b m, decode X e allow b = Ok (MEnc m) -> exists obj rest, core_from_obj X allow obj = Ok (e_core m, rest).
Proof.
  intros e allow b m H. apply decode_inv in H as (b0 & obj & _ & _ & _ & H & _).
  cbn [message_tag] in H. unfold from_cose_obj in H. cbn [N.eqb Pos.eqb] in H.
  apply bind_ok in H as (x & HX & H). injection H as ->. unfold enc_from_obj in HX. apply bind_ok in HX as ([c rest] & HC & HX).
  apply bind_ok in HX as (o & _ & HX). injection HX as <-. eauto.
Qed.

Lemma decoded_mac : forall e allow b m, decode X e allow b = Ok (MMac m) -> exists obj rest, core_from_obj X allow obj = Ok (mm_core m, rest).
Proof.
  intros e allow b m H. apply decode_inv in H as (b0 & obj & _ & _ & _ & H & _).
  cbn [message_tag] in H. unfold from_cose_obj in H. cbn [N.eqb Pos.eqb] in H.
  apply bind_ok in H as (x & HX & H). injection H as ->. unfold mac_from_obj in HX. apply bind_ok in HX as ([c rest] & HC & HX).
  destruct rest as [|t rest']; [discriminate|]. apply bind_ok in HX as (o & _ & HX). injection HX as <-. eauto.
Qed.

(** ** COSE_Encrypt with direct recipients *)

Definition forwardable (r : rcpt) : Prop := headers_ok X (r_core r) /\ simple r /\ direct r /\ no_key_headers (uhdr (r_core r)).

Lemma forwardable_split : forall l, Forall forwardable l -> Forall (fun r => headers_ok X (r_core r) /\ simple r) l /\ Forall direct l /\
  Forall simple l /\ Forall (fun r => no_key_headers (uhdr (r_core r))) l.
Proof.
  intros l H. repeat split; eapply Forall_impl; try exact H; intros r (H1 & H2 & H3 & H4); auto.
Qed.

Lemma enc_forward : forall n m s b enc e, law_wrap_some X -> law_oaep_some X ->
  headers_ok X (e_core m) -> no_key_headers (uhdr (e_core m)) -> tstr (e_core m) = false -> e_rcpts m <> [] -> Forall forwardable (e_rcpts m) ->
  e = None \/ e = Some 96%N -> encm_encode X n m true enc = (s, Ok b) ->
  exists m', decode X e true (VBytes b) = Ok (MEnc m') /\ forall k, encm_encode X k m' true false = ((k, m'), Ok b).
Proof.
  intros n m s b enc e LW LO HO HN HT HNE HF He H. destruct (forwardable_split _ HF) as (HF1 & HF2 & HF3 & HF4). unfold encm_encode in H.
  destruct (phdr_encoded (e_core m)) as [p|er] eqn:EP; [|discriminate].
  assert (HB : exists n1 o, (if enc then let '(s0, x) := encm_encrypt X n m in (s0, bind x (fun b0 => Ok (VBytes b0)))
      else ((n, m), Ok (vopt (payload (e_core m))))) = ((n1, m), Ok (vopt o))).
  { destruct enc; [|eauto]. destruct (encm_encrypt X n m) as [[n1 m1] x] eqn:EE. destruct x as [ct|er]; cbn [bind] in H; [|discriminate].
    unfold encm_encrypt in EE. destruct (bind (get_attr (e_core m) Algorithm) _) as [a|er] eqn:EA; [|discriminate].
    rewrite (direct_class _ HNE HF2) in EE. apply pair_equal_spec in EE as [EE1 EE2]. injection EE1 as <- <-. exists n, (Some ct). reflexivity. }
  destruct HB as (n1 & o & HB). rewrite HB in H. clear HB.
  destruct (e_rcpts m) as [|r0 rs0] eqn:ERs; [congruence|]. rewrite <- ERs in *. clear r0 rs0 ERs.
  destruct (get_attr (e_core m) Algorithm) as [a|er] eqn:HA; [|discriminate].
  destruct (rcpts_encode X n1 (e_rcpts m)) as [[n3 rs2] [vs|er]] eqn:ER; [|discriminate]. apply pair_equal_spec in H as [_ H].
  pose proof (direct_unchanged X _ _ _ _ _ HF2 ER) as ->.
  destruct (enc_decodes X (e_core m) p o n1 _ n3 _ vs b e LW LO HO HF1 EP ER He H) as (c' & rrs & HDe & HAr & HPL & HLa).
  exists (EncMsg c' rrs). split; [exact HDe|]. intros k.
  destruct (decoded_enc _ _ _ _ HDe) as (obj & rest & HC). apply core_from_obj_plain in HC as (HT' & _). cbn [e_core] in HT'.
  unfold encm_encode. cbn [e_core e_rcpts]. pose proof (get_attr_arrived _ _ Algorithm HAr eq_refl eq_refl) as HG2.
  destruct HAr as (_ & HU & HPE & _). rewrite HPE, EP, HPL.
  pose proof (directs_again _ _ _ _ _ _ HF2 HF3 HF4 HLa ER k) as HR.
  destruct rrs as [|r1 rrs]. { inversion HLa. congruence. }
  rewrite HG2, HA, HR. f_equal. rewrite (same_uhdr _ _ HU HN), (emit_again (e_core m) c') by assumption. exact H.
Qed.

(** Without recipients. *)
Lemma enc_forward_none : forall n m s b enc e, headers_ok X (e_core m) -> no_key_headers (uhdr (e_core m)) -> tstr (e_core m) = false -> e_rcpts m = [] ->
  e = None \/ e = Some 96%N -> encm_encode X n m true enc = (s, Ok b) ->
  exists m', decode X e true (VBytes b) = Ok (MEnc m') /\ forall k, encm_encode X k m' true false = ((k, m'), Ok b).
Proof.
  intros n m s b enc e HO HN HT HR He H. unfold encm_encode in H.
  destruct (phdr_encoded (e_core m)) as [p|er] eqn:EP; [|discriminate].
  destruct enc.
  { destruct (encm_encrypt X n m) as [[n1 m1] x] eqn:EE. destruct x as [ct|er]; cbn [bind] in H; [|discriminate]. exfalso.
    unfold encm_encrypt in EE. destruct (bind (get_attr (e_core m) Algorithm) _) as [a|er]; [|discriminate]. rewrite HR in EE. discriminate. }
  rewrite HR in H. apply pair_equal_spec in H as [_ H]. pose proof H as HE. set (c := e_core m) in *.
  apply (emit_loads X) in H; [|apply HO|reflexivity|eauto|constructor].
  destruct (core_trip X c p (HMsg (tstr c)) (payload c) (vopt (payload c)) [] HO EP (vopt_check _)) as (c' & HC & (_ & HU & HPE & _) & HPL & _ & HT' & _).
  exists (EncMsg c' []). split.
  - unfold decode. change (loads (VBytes b)) with (loads_bytes b). rewrite H. unfold from_cose_obj. cbn [N.eqb Pos.eqb]. unfold enc_from_obj. cbn [map wire]. rewrite HC.
    cbn [bind]. destruct He as [-> | ->]; reflexivity.
  - intros k. unfold encm_encode. cbn [e_core e_rcpts]. rewrite HPE, EP, HPL, (same_uhdr _ _ HU HN), (emit_again c c') by assumption. f_equal. exact HE.
Qed.

(** ** Other recipients: the keys are missing *)

Lemma created_plain : forall allow ctx id v r, create_recipient X allow ctx id v = Ok r ->
  r_subs r = [] /\ local (r_core r) = [] /\ ckey (r_core r) = None.
Proof.
  intros allow ctx id v r HC.
  unfold create_recipient in HC. apply bind_ok in HC as (r0 & _ & HC). apply bind_ok in HC as (pa & _ & HC). apply bind_ok in HC as (r1 & _ & HC). apply bind_ok in HC as (d & _ & HC).
  cbv zeta in HC. destruct (is_none _); [discriminate|]. apply bind_ok in HC as (rc & _ & HC). pose proof (from_obj_subs X _ _ _ _ _ _ HC) as (HS & _ & _).
  apply rcpt_from_core in HC as (l & rest & _ & HC). apply core_from_obj_plain in HC as (_ & HL & HK). auto.
Qed.

Lemma decoded_recipients : forall e allow b,
  (forall m r, decode X e allow (VBytes b) = Ok (MEnc m) -> In r (e_rcpts m) -> r_subs r = [] /\ local (r_core r) = [] /\ ckey (r_core r) = None) /\
  (forall m rs r, decode X e allow (VBytes b) = Ok (MMac m) -> mm_rcpts m = Some rs -> In r rs -> r_subs r = [] /\ local (r_core r) = [] /\ ckey (r_core r) = None).
Proof.
  intros e allow b. destruct (all_or_none X e allow b) as [HE HM]. split.
  - intros m r H HI. specialize (HE m H ltac:(intros E; rewrite E in HI; destruct HI)). destruct HE as (_ & _ & _ & _ & _ & _ & vs & _ & HF).
    induction HF as [|v r' vs rs HV HF IH]; [destruct HI|]. destruct HI as [<-|HI]; [eapply created_plain; exact HV|exact (IH HI)].
  - intros m rs r H HR HI. specialize (HM m rs H HR). destruct HM as (_ & _ & _ & _ & _ & _ & _ & vs & _ & HF).
    clear HR. induction HF as [|v r' vs rs HV HF IH]; [destruct HI|]. destruct HI as [<-|HI]; [eapply created_plain; exact HV|exact (IH HI)].
Qed.

(** A recipient without key and local attributes is not encoded, unless it is a direct one. *)
Lemma keyless_stuck : forall n r, r_subs r = [] -> local (r_core r) = [] -> ckey (r_core r) = None -> ~ direct r ->
  exists n' r' e, rcpt_encode X n r = ((n', r'), Err e).
Proof.
  intros n [id rc c ctx subs] HS HL HK HD. unfold direct in HD. cbn [r_subs r_core r_class] in *. subst subs. cbn [rcpt_encode].
  destruct rc; [elim HD; reflexivity|..].
  - assert (HE : exists e, kw_encrypt X n c [] = Err e).
    { unfold kw_encrypt, kw_kek_encrypt. rewrite HK. destruct (get_attr c Algorithm) as [a|]; cbn [bind]; [|eauto].
      destruct (negb _); [eauto|]. destruct (is_none a); [eauto|]. destruct (alg_in a aes_kw) as [[|]|]; cbn [bind]; [eauto| |eauto].
      destruct (alg_in a oaep) as [[|]|]; cbn [bind]; eauto. }
    destruct HE as [e ->]. destruct (phdr_encoded c) as [p|]; cbn [bind]; eauto.
  - rewrite HL. change (dget_or [] StaticKey VNone) with VNone. cbn [is_none].
    destruct (get_attr c Algorithm) as [a|]; cbn [bind]; [|eauto]. destruct (is_none a); eauto.
  - destruct (phdr_encoded c) as [p|]; cbn [bind]; [|eauto]. destruct (get_attr c Algorithm) as [a|] eqn:EA; cbn [bind]; [|eauto].
    destruct (get_key_wrap_func a); cbn [bind]; [|eauto]. unfold kakw_encrypt. rewrite HL. change (dget_or [] StaticKey VNone) with VNone. cbn [is_none]. eauto.
Qed.

Lemma keyless_list : forall l n r, In r l -> (forall n, exists n' r' e, rcpt_encode X n r = ((n', r'), Err e)) ->
  exists s e, rcpts_encode X n l = (s, Err e).
Proof.
  induction l as [|x l IH]; intros n r HI HS; [destruct HI|]. cbn [rcpts_encode].
  destruct (rcpt_encode X n x) as [[n1 x'] [v|e]] eqn:E; [|eauto]. destruct HI as [->|HI].
  - destruct (HS n) as (? & ? & ? & HE). rewrite HE in E. discriminate.
  - destruct (IH n1 r HI HS) as ([n2 l2] & e & ->). eauto.
Qed.

Lemma enc_not_forwarded : forall e allow b m r n tag o, decode X e allow (VBytes b) = Ok (MEnc m) -> In r (e_rcpts m) -> ~ direct r ->
  snd (encm_encode X n m tag false) <> Ok o.
Proof.
  intros e allow b m r n tag o H HI HD HE. destruct (decoded_recipients e allow b) as [HR _]. destruct (HR m r H HI) as (HS & HL & HK).
  unfold encm_encode in HE. destruct (phdr_encoded (e_core m)) as [p|]; [|discriminate]. cbn [snd] in HE.
  destruct (keyless_list (e_rcpts m) n r HI (fun n => keyless_stuck n r HS HL HK HD)) as ([n' l'] & x & HX).
  destruct (e_rcpts m) as [|r0 rs] eqn:ER; [destruct HI|]. destruct (get_attr (e_core m) Algorithm) as [a|]; [|discriminate].
  rewrite HX in HE. discriminate.
Qed.

(** ** COSE_Mac: the tag is computed again or dropped *)

Lemma mac_keyless : forall n m, ckey (mm_core m) = None -> exists s e, mac_super_compute X n m = (s, Err e).
Proof.
  intros n m HK. unfold mac_super_compute, mac_compute. rewrite HK. destruct (get_attr (mm_core m) Algorithm) as [a|]; cbn [bind]; eauto.
Qed.

Lemma mac_not_computed : forall e allow b m n tag o, decode X e allow (VBytes b) = Ok (MMac m) -> snd (macm_encode X n m tag true) <> Ok o.
Proof.
  intros e allow b m n tag o H HE. destruct (decoded_recipients e allow b) as [_ HR]. destruct (decoded_mac _ _ _ _ H) as (obj & rest & HC).
  apply core_from_obj_plain in HC as (_ & _ & HK).
  assert (HT : exists s x, macm_compute_tag X n m = (s, Err x)).
  { unfold macm_compute_tag. destruct (get_attr (mm_core m) Algorithm) as [a|]; [|eauto]. destruct (mm_rcpts m) as [rs|] eqn:ER; [|eauto].
    destruct (verify_recipients rs) as [[]|] eqn:EV; [|eauto]. destruct (has_class RDirect rs); [apply mac_keyless; exact HK|].
    destruct (has_class RAgree rs) eqn:EA.
    - destruct rs as [|r rs]; [eauto|]. destruct (HR m (r :: rs) r H ER (or_introl eq_refl)) as (HS & HL & HKr).
      assert (HCl : r_class r = RAgree).
      { unfold verify_recipients in EV. rewrite EA in EV. destruct (_ && _) in EV; [discriminate|]. destruct rs; [|discriminate].
        unfold has_class in EA. cbn [existsb] in EA. destruct (r_class r); try discriminate. reflexivity. }
      unfold compute_cek. rewrite HCl. destruct (agree_no_key X (r_core r) a false HKr) as [x ->]. cbn [bind]. eauto.
    - destruct (_ || _); [|eauto]. destruct (get_key_length a); [|eauto].
      destruct (cek_loop X _ _ rs) as [[n' rs'] [kb|x]]; eauto. }
  destruct HT as (s & x & HT). unfold macm_encode in HE. destruct (phdr_encoded (mm_core m)) as [p|]; [|discriminate].
  rewrite HT in HE. destruct s as [n1 m1]. discriminate.
Qed.

(** Without computing it, the recipients stand where the tag was. *)
Lemma mac_dropped : forall n m rs s b e, law_wrap_some X -> law_oaep_some X -> headers_ok X (mm_core m) -> mm_rcpts m = Some rs -> rs <> [] ->
  Forall (fun r => headers_ok X (r_core r) /\ simple r) rs -> macm_encode X n m true false = (s, Ok b) -> e = None \/ e = Some 97%N ->
  exists m' l, decode X e true (VBytes b) = Ok (MMac m') /\ mm_tag m' = VList l /\ mm_rcpts m' = None /\
    arrived (mm_core m) (mm_core m') /\ payload (mm_core m') = payload (mm_core m).
Proof.
  intros n m rs s b e LW LO HO ER HNE HF H He. unfold macm_encode in H. destruct (phdr_encoded (mm_core m)) as [p|] eqn:EP; [|discriminate].
  rewrite ER in H. destruct rs as [|r0 rs0]; [congruence|]. set (rs := r0 :: rs0) in *. destruct (get_attr (mm_core m) Algorithm) as [a|]; [|discriminate].
  destruct (rcpts_encode X n rs) as [[n3 rs2] [vs|er]] eqn:ERc; [|discriminate]. apply pair_equal_spec in H as [_ H]. cbn [app] in H.
  set (c := mm_core m) in *.
  destruct (list_lands X (HMsg (tstr c)) (VStr (bs "Mac_Recipient")) rs n n3 rs2 vs 0%N LW LO HF ERc) as (HD & rrs & HC & HL).
  apply (emit_loads X) in H; [|apply HO|reflexivity|eauto|constructor; [apply list_data; exact HD|constructor]].
  destruct (core_trip X c p (HMsg (tstr c)) (payload c) (vopt (payload c)) [VList (map (wire cls_fullname (HMsg (tstr c))) vs)] HO EP (vopt_check _))
    as (c' & HCo & HA & HPL & _).
  exists (MacMsg c' (VList (map (wire cls_fullname (HMsg (tstr c))) vs)) None). eexists. split; [|split; [reflexivity|split; [reflexivity|split; [exact HA|exact HPL]]]].
  unfold decode. change (loads (VBytes b)) with (loads_bytes b). rewrite H. unfold from_cose_obj. cbn [N.eqb Pos.eqb].
  unfold mac_from_obj. cbn [map wire]. rewrite HCo. cbn [bind]. unfold recipients_from. cbn [bind is_value_error orb]. 
  destruct He as [-> | ->]; reflexivity.
Qed.
End Forward.
