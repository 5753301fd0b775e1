(** Messages whose recipients wrap the content key. *)
From Coq Require Import NArith ZArith Bool String Lia.
From Coq Require Import Init.Byte List.
From Verif Require Import Bytes BytesProofs Value ValueProofs Cbor CborProofs SpecData DataProofs Registry
  RegistryProofs Crypto SpecCrypto Keys Algorithms Headers Messages Recipients SpecRegistry SpecKeys SpecHdr HdrProofs
  SpecTrip KeyTrip KeyTrip2 SpecAlg KeyProofs KeyProofs2 AlgProofs SpecMsg HdrTrip MsgTrip MsgTrip2 SpecRcpt RcptProofs RcptProofs2
  SpecRcptTrip RcptTrip RcptTrip2 RcptTrip3.
Import ListNotations.
Local Open Scope result_scope.

Section Trip.
Variable X : crypto.

Lemma filled_core : forall r K, r_core (filled r K) = with_payload (r_core r) (Some K) /\ r_class (filled r K) = r_class r /\
  r_id (filled r K) = r_id r /\ r_subs (filled r K) = r_subs r.
Proof. intros [id rc c ctx subs] K. auto. Qed.

Lemma ready_facts : forall r K r2, ready X r K r2 -> headers_ok X (r_core r) -> simple r ->
  headers_ok X (r_core r2) /\ simple r2 /\ ckey (r_core r2) <> None /\ payload (r_core r2) = Some K /\ r_class r2 = r_class r /\ r_id r2 = r_id r.
Proof.
  intros r K r2 (HI & HC & HS & HP) HO (HSu & z & HZ & HG). destruct (filled_core r K) as (F1 & F2 & F3 & F4).
  rewrite F1 in HP. rewrite F2, F3, F4 in *.
  assert (HO' : headers_ok X (with_payload (r_core r) (Some K))) by exact HO.
  destruct HP as [[HK HP]|(_ & _ & n & a & HSt & _)].
  - unfold simple. rewrite HP, HC, HS. split; [exact HO'|]. split; [split; [exact HSu|exists z; auto]|]. auto.
  - pose proof (setup_but X _ _ _ _ HSt) as HB. pose proof (but_get _ _ Algorithm HB eq_refl) as HG'.
    split; [eapply setup_headers; eassumption|]. split; [split; [congruence|]|].
    { exists z. rewrite HC. split; [exact HZ|]. rewrite HG'. exact HG. }
    apply setup_ephemeral_ok in HSt as (k & -> & _). split; [discriminate|]. split; [reflexivity|]. auto.
Qed.

(** The addressed party recovers the content key. *)
Lemma holder_unwraps : forall n r K r2 r3 rr k lo, law_wrap X -> law_wrap_some X -> law_oaep X -> law_oaep_some X -> law_ecdh X ->
  ready X r K r2 -> lands X n r2 r3 rr -> holder X r k lo -> rcpt_decrypt X (equip_rcpt rr k lo) = Ok K.
Proof.
  intros n r K r2 r3 rr k lo LW LWS LO LOS LE HR HL HH. destruct HR as (HI & HC & HS & HP). destruct (filled_core r K) as (F1 & F2 & F3 & F4).
  rewrite F1 in HP. rewrite F2, F3, F4 in *. set (c := with_payload (r_core r) (Some K)) in *.
  destruct HL as (_ & _ & L1 & L2 & LA & _ & LK1 & LK2 & w & LP & LM).
  rewrite HC in *. destruct rr as [idr rcr c' ctxr subsr]. cbn [r_core r_class r_subs] in *. subst rcr subsr.
  assert (HD : forall d (P : result bytes), payload c = Some d -> P = Ok d -> P = Ok K) by (intros d P E1 ->; injection E1 as <-; reflexivity).
  destruct HH as [z ks b HCl HZ HG HKs HSe HSe'|z ks HCl HZ HG HKs HRs HAO HOO|z cv pr HCl HZ HG HPr HDh HSn HNp HSu].
  - rewrite HCl in *. destruct HP as [[_ HP]|(E & _)]; [|discriminate]. destruct LM as [LM LW']. rewrite LM, HP in *.
    destruct (kw_trip X n c w c' ctxr idr k lo z LW LWS HZ HG (ex_intro _ ks (ex_intro _ b (conj HKs (conj HSe HSe')))) LW' LA LP) as (d & E1 & E2).
    eapply HD; eassumption.
  - rewrite HCl in *. destruct HP as [[_ HP]|(E & _)]; [|discriminate]. destruct LM as [LM LW']. rewrite LM, HP in *.
    destruct (oaep_trip X n c w c' ctxr idr k lo z LO LOS HZ HG (ex_intro _ ks (conj HKs HRs)) HAO HOO LW' LA LP) as (d & E1 & E2).
    eapply HD; eassumption.
  - rewrite HCl in *. destruct HP as [[HKn HP]|(_ & HKn & n0 & a & HSt & HA & HIn)].
    + rewrite HP in LM. destruct HSn as [HSn|HSn]; [elim HKn; exact HSn|].
      destruct (kakw_state X n _ _ _ LM) as [[_ E]|(E & _)]; [|elim HKn; exact E]. rewrite E in *.
      destruct (kakw_trip X n c c w c' idr ctxr k lo z cv pr LE LW LWS HZ HG HPr HDh HSn HNp HSu LM LA LP LK1 LK2) as (d & E1 & E2).
      eapply HD; eassumption.
    + assert (EA : a = alg z) by (change (get_attr c Algorithm) with (get_attr (r_core r) Algorithm) in HA; congruence). subst a.
      assert (EP : dget_or (local c) StaticKey VNone = kval pr) by (unfold dget_or; change (local c) with (local (r_core r)); rewrite HPr; reflexivity).
      rewrite EP in HSt. set (c1 := r_core r2) in *.
      pose proof (setup_but X _ _ _ _ HSt) as HB. pose proof (but_get _ _ Algorithm HB eq_refl) as HG1.
      change (get_attr c Algorithm) with (get_attr (r_core r) Algorithm) in HG1. rewrite HG in HG1.
      assert (HK1 : ckey c1 <> None) by (apply setup_ephemeral_ok in HSt as (k1 & -> & _); discriminate).
      destruct (kakw_state X n _ _ _ LM) as [[_ E]|(E & _)]; [|elim HK1; exact E]. rewrite E in *.
      assert (HSn1 : sender_key X cv z c1).
      { eapply generated_sender; [|exact HDh|exact HSt].
        assert (HIe : existsb (fun y => veqb (alg z) (algc y)) es_kw = true) by (unfold alg_in in HIn; cbn [hashable alg] in HIn; congruence).
        apply existsb_exists in HIe as (y & HI1 & HI2). apply veqb_eq in HI2. injection HI2 as ->.
        cbn [es_kw In] in HI1. repeat (destruct HI1 as [<-|HI1]; [reflexivity|]). destruct HI1. }
      pose proof HB as (B1 & _ & B3 & _ & B5 & _).
      assert (HPr1 : dget (local c1) StaticKey = Some (kval pr)) by (rewrite B3; exact HPr).
      assert (HNp1 : no_protected_keys c1) by (unfold no_protected_keys in *; rewrite B1; exact HNp).
      assert (HSu1 : same_supplements c1 lo) by (unfold same_supplements in *; rewrite B3; exact HSu).
      destruct (kakw_trip X n c1 c1 w c' idr ctxr k lo z cv pr LE LW LWS HZ HG1 HPr1 HDh HSn1 HNp1 HSu1 LM LA LP LK1 LK2) as (d & E1 & E2).
      rewrite B5 in E1. eapply HD; eassumption.
Qed.

(** ** The structure of the encoded message *)

Lemma wraps_classes : forall rs, Forall wraps rs -> has_class RDirect rs = false /\ has_class RAgree rs = false.
Proof.
  intros rs H. rewrite Forall_forall in H. split; apply has_class_false; intros r HI; destruct (H r HI) as [E|E]; rewrite E; discriminate.
Qed.

Lemma key_length_alg : forall a n, get_key_length a = Ok n -> exists z kd, a = alg z /\ alg_kind a = Some kd.
Proof.
  intros a n H. unfold get_key_length in H. destruct (alg_kind a) as [kd|] eqn:E; [|discriminate]. unfold alg_kind in E.
  destruct a; try discriminate. destruct c as [f z]. destruct f; try discriminate. exists z, kd. auto.
Qed.

Lemma wrapped_structure : forall n m t n' m' b, Forall wraps (e_rcpts m) -> encm_encode X n m t true = ((n', m'), Ok b) ->
  exists p z kd len K k ct n1 rs1 rs2 vs,
    phdr_encoded (e_core m) = Ok p /\ get_attr (e_core m) Algorithm = Ok (alg z) /\ alg_kind (alg z) = Some kd /\
    get_key_length (alg z) = Ok len /\ K = last (contents (x_urandom X n len) (e_rcpts m)) (x_urandom X n len) /\
    all_ready X (e_rcpts m) (contents (x_urandom X n len) (e_rcpts m)) rs1 /\
    sym_with (VBytes K) (alg z) [EncryptOp] = Ok k /\ enc_encrypt X "Encrypt" (with_key (e_core m) (Some k)) = Ok ct /\
    rcpts_encode X n1 rs1 = ((n', rs2), Ok vs) /\ m' = EncMsg (with_key (e_core m) (Some k)) rs2 /\
    verify_recipients (e_rcpts m) = Ok tt /\ e_rcpts m <> [] /\
    emit (e_core m) 96 t [VBytes p; VDict (uhdr (e_core m)); VBytes ct; VList vs] = Ok b.
Proof.
  intros n m t n' m' b HW H. unfold encm_encode in H. destruct (phdr_encoded (e_core m)) as [p|e] eqn:EP; [|discriminate].
  destruct (encm_encrypt X n m) as [[n1 m1] x] eqn:EE. destruct x as [ct|e]; cbn [bind] in H; [|discriminate].
  unfold encm_encrypt in EE. destruct (bind (get_attr (e_core m) Algorithm) _) as [a|e] eqn:EA; [|discriminate].
  apply bind_ok in EA as (a' & HA & EA). apply bind_ok in EA as ([] & HV & EA). injection EA as ->.
  destruct (wraps_classes _ HW) as [W1 W2]. rewrite W1, W2 in EE.
  destruct (has_class RKeyWrap (e_rcpts m) || has_class RAgreeKW (e_rcpts m)) eqn:EW; [|discriminate].
  assert (HN : e_rcpts m <> []) by (intros E; rewrite E in EW; discriminate).
  destruct (get_key_length a) as [len|e] eqn:EL; [|discriminate].
  destruct (key_length_alg a len EL) as (z & kd & -> & HKd).
  destruct (cek_loop X (N.succ n) _ (e_rcpts m)) as [[n2 rs1] [kb|e]] eqn:EC; [|discriminate].
  apply cek_ready in EC as [HR ->]; [|exact HW].
  destruct (sym_with _ (alg z) [EncryptOp]) as [k|e] eqn:ES; [|discriminate].
  apply pair_equal_spec in EE as [EE1 EE2]. injection EE1 as <- <-. cbn [e_core e_rcpts] in H.
  assert (HN1 : rs1 <> []) by (inversion HR; subst; [congruence|discriminate]).
  destruct rs1 as [|r0 rs1']; [congruence|]. set (rs1 := r0 :: rs1') in *.
  change (get_attr (with_key (e_core m) (Some k)) Algorithm) with (get_attr (e_core m) Algorithm) in H. rewrite HA in H.
  destruct (rcpts_encode X n2 rs1) as [[n3 rs2] [vs|e]] eqn:ER; [|discriminate]. apply pair_equal_spec in H as [H1 H]. injection H1 as <- <-.
  exists p, z, kd, len, (last (contents (x_urandom X n len) (e_rcpts m)) (x_urandom X n len)), k, ct, n2, rs1, rs2, vs.
  repeat (split; [first [reflexivity|assumption]|]). exact H.
Qed.

(** ** Decoding *)

Lemma all_ready_lands : forall l ks l1, all_ready X l ks l1 -> Forall (fun r => headers_ok X (r_core r) /\ simple r) l ->
  Forall (fun r => headers_ok X (r_core r) /\ simple r) l1 /\ map r_class l1 = map r_class l /\
  forall i r, nth_error l i = Some r -> exists K r1, nth_error ks i = Some K /\ nth_error l1 i = Some r1 /\ ready X r K r1.
Proof.
  intros l ks l1 H. induction H as [|r k r2 l ks l2 HR HA IH]; intros HF.
  - split; [constructor|]. split; [reflexivity|]. intros i r HI. destruct i; discriminate.
  - inversion_clear HF as [|? ? [HO HS] HF']. destruct (IH HF') as (I1 & I2 & I3). destruct (ready_facts r k r2 HR HO HS) as (R1 & R2 & _ & _ & R5 & _).
    split; [constructor; [split; assumption|exact I1]|]. split; [cbn [map]; rewrite I2, R5; reflexivity|].
    intros i r' HI. destruct i as [|i]; [injection HI as <-; exists k, r2; auto|]. apply I3 in HI. exact HI.
Qed.

Lemma wire_items : forall c p ct vs, map (wire cls_fullname (HMsg (tstr c))) [VBytes p; VDict (uhdr c); VBytes ct; VList vs] =
  [VBytes p; VDict (W (HMsg (tstr c)) (uhdr c)); VBytes ct; VList (map (wire cls_fullname (HMsg (tstr c))) vs)].
Proof. intros. cbn [map]. rewrite wire_dict. reflexivity. Qed.

Lemma list_data : forall h vs, Forall (fun v => data_value false (wire cls_fullname h v) = true) vs ->
  data_value false (wire cls_fullname h (VList vs)) = true.
Proof.
  intros h vs H. cbn [wire data_value negb andb]. apply forallb_forall. intros v HI. apply in_map_iff in HI as (w & <- & HI).
  rewrite Forall_forall in H. auto.
Qed.

(** What a receiver decodes from a message with recipients. *)
Lemma enc_decodes : forall c p pl n1 rs1 n2 rs2 vs b e, law_wrap_some X -> law_oaep_some X -> headers_ok X c ->
  Forall (fun r => headers_ok X (r_core r) /\ simple r) rs1 -> phdr_encoded c = Ok p ->
  rcpts_encode X n1 rs1 = ((n2, rs2), Ok vs) -> e = None \/ e = Some 96%N ->
  emit c 96 true [VBytes p; VDict (uhdr c); vopt pl; VList vs] = Ok b ->
  exists c' rrs, decode X e true (VBytes b) = Ok (MEnc (EncMsg c' rrs)) /\ arrived c c' /\ payload c' = pl /\ all_land X rs1 rs2 rrs.
Proof.
  intros c p pl n1 rs1 n2 rs2 vs b e LW LO HO HF HP HR He H.
  destruct (list_lands X (HMsg (tstr c)) (VStr (bs "Enc_Recipient")) rs1 n1 n2 rs2 vs 0%N LW LO HF HR) as (HD & rrs & HC & HL).
  apply (emit_loads X) in H; [|apply HO|reflexivity|eauto|constructor; [apply list_data; exact HD|constructor]].
  destruct (core_trip X c p (HMsg (tstr c)) pl (vopt pl) [VList (map (wire cls_fullname (HMsg (tstr c))) vs)] HO HP (vopt_check _))
    as (c' & HCo & HA & HPL & _).
  exists c', rrs. split; [|auto]. unfold decode. change (loads (VBytes b)) with (loads_bytes b). rewrite H. unfold from_cose_obj. cbn [N.eqb Pos.eqb].
  unfold enc_from_obj. cbn [map wire]. rewrite HCo. cbn [bind]. unfold recipients_from. cbn [py_iter bind]. rewrite HC. cbn [bind].
  destruct He as [-> | ->]; reflexivity.
Qed.

Lemma has_class_map : forall rc l l', map r_class l = map r_class l' -> has_class rc l = has_class rc l'.
Proof.
  intros rc l. induction l as [|r l IH]; intros [|r' l'] H; try discriminate; [reflexivity|]. injection H as H1 H2.
  unfold has_class in *. cbn [existsb]. rewrite H1, (IH _ H2). reflexivity.
Qed.
Lemma verify_map : forall l l', map r_class l = map r_class l' -> verify_recipients l = verify_recipients l'.
Proof.
  intros l l' H. unfold verify_recipients, n_classes. rewrite !(has_class_map _ _ _ H).
  assert (E : forall cs, filter (fun rc => has_class rc l) cs = filter (fun rc => has_class rc l') cs).
  { intros cs. apply filter_ext. intros rc. apply has_class_map. exact H. }
  rewrite E. replace (length l') with (length l) by (rewrite <- (map_length r_class l), H; apply map_length). reflexivity.
Qed.

Lemma replace_classes : forall l i rr r, nth_error l i = Some rr -> r_class r = r_class rr ->
  map r_class (firstn i l ++ r :: skipn (S i) l) = map r_class l.
Proof.
  induction l as [|x l IH]; intros i rr r H HC; [destruct i; discriminate|]. destruct i as [|i].
  - injection H as ->. cbn [firstn skipn app map]. rewrite HC. reflexivity.
  - cbn [firstn skipn app map nth_error] in *. f_equal. eapply IH; eassumption.
Qed.

Lemma equip_facts : forall r k lo, r_class (equip_rcpt r k lo) = r_class r /\ r_id (equip_rcpt r k lo) = r_id r.
Proof. intros [id rc c ctx subs] k lo. auto. Qed.

Lemma replaced_has : forall l i r, has_recipient (r_id r) (firstn i l ++ r :: skipn (S i) l) = true.
Proof.
  intros l i r. rewrite has_recipient_search. eapply search_top; [|reflexivity]. apply in_or_app. right. left. reflexivity.
Qed.

Theorem wrapped_trip : forall n m n' m2 b e, law_gcm X -> law_ccm X -> law_wrap X -> law_wrap_some X -> law_oaep X -> law_oaep_some X ->
  law_ecdh X -> headers_ok X (e_core m) -> Forall (fun r => headers_ok X (r_core r) /\ simple r) (e_rcpts m) ->
  Forall wraps (e_rcpts m) -> one_content_key (e_rcpts m) -> e = None \/ e = Some 96%N ->
  encm_encode X n m true true = ((n', m2), Ok b) ->
  exists m', decode X e true (VBytes b) = Ok (MEnc m') /\ arrived (e_core m) (e_core m') /\
    length (e_rcpts m') = length (e_rcpts m) /\ recipients_arrive (e_rcpts m2) (e_rcpts m') /\
    forall i r k lo, nth_error (e_rcpts m) i = Some r -> holder X r k lo ->
      exists r' pl, nth_error (e_rcpts m') i = Some r' /\ payload (e_core m) = Some pl /\
        snd (encm_decrypt X (equip_msg m' (aad (e_core m)) i (equip_rcpt r' k lo)) (equip_rcpt r' k lo)) = Ok pl.
Proof.
  intros n m n' m2 b e LG LC LW LWS LO LOS LE HO HF HWr H1 He H.
  destruct (wrapped_structure n m true n' m2 b HWr H) as (p & z & kd & len & K & ke & ct & n1 & rs1 & rs2 & vs & HP & HG & HKd & HL & EK & HR & HSy & HEn & HEc & Em2 & HV & HN & HEm).
  set (c := e_core m) in *. set (rs := e_rcpts m) in *.
  destruct (all_ready_lands _ _ _ HR HF) as (HF1 & HC1 & HN1).
  destruct (enc_decodes c p (Some ct) n1 rs1 n' rs2 vs b e LWS LOS HO HF1 HP HEc He HEm) as (c' & rrs & HD & HA & HPL & HLa).
  exists (EncMsg c' rrs). split; [exact HD|]. split; [exact HA|]. cbn [e_core e_rcpts].
  destruct (all_land_classes X _ _ _ HLa) as [HCl HLen].
  split. { rewrite HLen, <- (map_length r_class rs1), HC1. apply map_length. }
  split. { rewrite Em2. eapply all_land_arrive. exact HLa. }
  intros i r k lo HI HH. destruct (HN1 i r HI) as (Ki & r1 & HKi & HI1 & HRi).
  destruct (all_land_nth X _ _ _ i r1 HLa HI1) as (n0 & r2 & rr & _ & HIr & HLr).
  assert (EKi : Ki = K).
  { destruct (one_key_contents (x_urandom X n len) rs H1) as (K' & E1 & E2). rewrite EK, E1. rewrite Forall_forall in E2.
    apply E2. eapply nth_error_In. exact HKi. }
  subst Ki. clear EK.
  pose proof (holder_unwraps n0 r K r1 r2 rr k lo LW LWS LO LOS LE HRi HLr HH) as HU.
  pose proof (sym_with_again K z z [EncryptOp] [DecryptOp] _ _ _ HSy HKd ltac:(cbn; auto) HKd ltac:(cbn; auto)) as HSd.
  apply sym_with_is with (kd := kd) in HSy as (b' & E & ->); [|exact HKd|cbn; auto]. injection E as <-.
  set (kr := sym_key K (alg z) [DecryptOp]) in *.
  assert (HSh : shares (with_key c (Some (sym_key K (alg z) [EncryptOp]))) (Cls FOps 4) kr).
  { exists z, (sym_key K (alg z) [EncryptOp]), K. split; [exact HG|]. do 5 (split; [reflexivity|]).
    split; [right; right; exists (Cls FAlg z); split; reflexivity|]. right. right. exists [DecryptOp], (Cls FOps 4). split; [reflexivity|]. split; left; reflexivity. }
  assert (HA' : arrived (with_key c (Some (sym_key K (alg z) [EncryptOp]))) c') by exact HA.
  destruct (enc_trip X "Encrypt" _ c' kr ct LG LC HA' HPL HSh HEn) as (pl & HPp & HDe).
  exists rr, pl. split; [exact HIr|]. split; [exact HPp|].
  destruct (equip_facts rr k lo) as [Q1 Q2]. set (rq := equip_rcpt rr k lo) in *.
  unfold equip_msg. cbn [e_core e_rcpts]. unfold encm_decrypt. cbn [e_core e_rcpts]. set (l := firstn i rrs ++ rq :: skipn (S i) rrs) in *.
  assert (HCL : map r_class l = map r_class rs).
  { unfold l. rewrite (replace_classes rrs i rr rq HIr Q1), HCl. exact HC1. }
  change (get_attr (with_aad c' (aad c)) Algorithm) with (get_attr c' Algorithm). rewrite (alg_trip c c' z HA HG).
  unfold l at 1. rewrite replaced_has. cbn [negb]. rewrite (verify_map _ _ HCL), HV, !(has_class_map _ _ _ HCL).
  destruct (wraps_classes rs HWr) as [W1 W2]. rewrite W1, W2. cbn [orb].
  assert (HWR : has_class RKeyWrap rs || has_class RAgreeKW rs = true).
  { rewrite Forall_forall in HWr. specialize (HWr r (nth_error_In _ _ HI)). apply orb_true_iff.
    destruct HWr as [E|E]; [left|right]; apply has_class_iff; exists r; (split; [eapply nth_error_In; exact HI|exact E]). }
  rewrite HWR. unfold compute_cek.
  assert (HCR : r_class rq = r_class r).
  { rewrite Q1. destruct HLr as (_ & _ & L1 & _). rewrite L1. pose proof HRi as (_ & HC & _). rewrite HC. apply filled_core. }
  rewrite HCR. rewrite Forall_forall in HWr. destruct (HWr r (nth_error_In _ _ HI)) as [E|E]; rewrite E; rewrite HU; cbn [bind]; rewrite HSd; cbn [bind snd];
    exact HDe.
Qed.
End Trip.
