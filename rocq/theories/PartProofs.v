(** What recipients and signers are on the wire, and what arrives (C28, C30, C56, C94). *)
From Coq Require Import NArith ZArith Bool String Lia.
From Coq Require Import Init.Byte List.
From Verif Require Import Bytes Value Cbor SpecData Registry RegistryProofs Crypto Keys Algorithms Headers Messages Recipients
  SpecRegistry SpecKeys SpecCrypto SpecAlg SpecHdr SpecTrip SpecMsg SpecRcpt SpecRcptTrip SpecLife SpecParts
  ValueProofs DataProofs HdrProofs KeyTrip HdrTrip MsgTrip MsgTrip2 RcptProofs RcptProofs2 RcptTrip RcptTrip2 RcptTrip3 RcptTrip4 RcptTrip5 ForwardProofs.
Import ListNotations.

Section Parts.
Variable X : crypto.

Definition good (r : rcpt) : Prop := headers_ok X (r_core r) /\ simple r.

(** [r2] has the class of [r], its headers except an ephemeral key, and writes them in the
    same way. *)
Definition kin (c c' : core) : Prop :=
  phdr c' = phdr c /\ phdr_raw c' = phdr_raw c /\ tstr c' = tstr c /\
  forall k, keyeq k EphemeralKey = false -> dget (uhdr c') k = dget (uhdr c) k.
Definition rkin (r r2 : rcpt) : Prop := r_class r2 = r_class r /\ kin (r_core r) (r_core r2).

Lemma but_kin : forall c c', but_ephemeral c c' -> kin c c'.
Proof. intros c c' (H1 & H2 & _ & H4 & _ & _ & H7). unfold kin. auto. Qed.
Lemma kin_refl : forall c, kin c c.
Proof. unfold kin. auto. Qed.
Lemma kin_trans : forall a b c, kin a b -> kin b c -> kin a c.
Proof.
  unfold kin. intros a b c (A1 & A2 & A3 & A4) (B1 & B2 & B3 & B4). repeat (split; [congruence|]).
  intros k HK. rewrite (B4 k HK). apply A4. exact HK.
Qed.

Lemma ready_kin : forall r K r2, ready X r K r2 -> rkin r r2.
Proof.
  intros r K r2 (_ & HC & _ & H). destruct r as [id rc c ctx subs]. cbn [filled r_with r_core r_class] in *. split; [exact HC|].
  destruct H as [[_ ->]|(_ & _ & n & a & H & _)]; [repeat split|]. apply setup_but in H. apply but_kin in H. exact H.
Qed.

Lemma readies_kin : forall l ks l2, all_ready X l ks l2 -> Forall2 rkin l l2.
Proof. intros l ks l2 H. induction H as [|r k r2 l ks l2 HR HA IH]; constructor; [eapply ready_kin; exact HR|exact IH]. Qed.

Lemma lands_kin : forall n r r' rr, lands X n r r' rr -> rkin r r'.
Proof.
  intros n r r' rr (_ & HC & _ & _ & _ & _ & _ & _ & w & _ & H). split; [exact HC|]. destruct (r_class r).
  - subst. apply kin_refl.
  - destruct H as [-> _]. apply kin_refl.
  - apply but_kin. apply H.
  - apply kakw_but in H as [H _]. apply but_kin. exact H.
Qed.

Lemma rkin_refls : forall l, Forall2 rkin l l.
Proof. induction l; constructor; [split; [reflexivity|apply kin_refl]|assumption]. Qed.

(** Sent and received. *)
Lemma kin_arrived : forall c c1 c', kin c c1 -> arrived c1 c' -> kept c c'.
Proof.
  intros c c1 c' (E1 & _ & _ & E4) HA k N1 N2. destruct (arrived_value _ _ k HA N1 N2) as [-> ->]. rewrite E1, (E4 k N1). auto.
Qed.

Lemma lands_keep : forall l l1 l2 ll, Forall2 rkin l l1 -> all_land X l1 l2 ll -> recipients_kept l ll.
Proof.
  intros l l1 l2 ll HK HL. revert l HK. induction HL as [|n r r' rr l1 l2 ll HR HL IH]; intros l HK; inversion HK; subst; constructor; [|apply IH; assumption].
  pose proof (lands_kin _ _ _ _ HR) as [_ HK2]. destruct HR as (_ & _ & HC & HS & HA & _).
  match goal with H : rkin _ _ |- _ => destruct H as [HC1 HK1] end. split; [congruence|].
  eapply kin_arrived; [|exact HA]. eapply kin_trans; eassumption.
Qed.

(** ** One recipient *)

Lemma wire_part : forall c p h rest, headers_ok X c -> phdr_encoded c = Ok p ->
  part_on_wire (tstr c) h c (VList (VBytes p :: VDict (W (HMsg h) (uhdr c)) :: rest)).
Proof.
  intros c p h rest HO HP. exists p, (W (HMsg h) (uhdr c)), rest. split; [reflexivity|]. split.
  - intros a n HI HR HG. destruct HO as [HO _]. unfold protected_ok in HO. rewrite HR in HO. exact (alg_on_wire X c p a n HR HO HP HG HI).
  - intros a n HI HG. destruct (hdr_known 1) as [m Hm]; [reflexivity|]. change 1%Z with (c_id (Cls FHdr 1)).
    rewrite (dget_W_hdr _ (uhdr c) (Cls FHdr 1) m (hdrs_labels _ _ (proj2 (proj2 HO))) Hm).
    change (VClass (Cls FHdr 1)) with Algorithm. rewrite HG. cbn [option_map]. rewrite (wire_alg _ _ _ HI). reflexivity.
Qed.

Lemma kin_part : forall c c' pt ut w, kin c c' -> part_on_wire pt ut c' w -> part_on_wire pt ut c w.
Proof.
  intros c c' pt ut w (E1 & E2 & E3 & E4) (p & d & rest & -> & HP & HU). rewrite E1, E2 in HP. rewrite (E4 Algorithm eq_refl) in HU.
  exists p, d, rest. auto.
Qed.

Lemma encode_part : forall n r n' r' v h, good r -> rcpt_encode X n r = ((n', r'), Ok v) ->
  part_on_wire (tstr (r_core r)) h (r_core r) (wire cls_fullname (HMsg h) v).
Proof.
  intros n r n' r' v h (HO & HS & z & HZ & HG) H. apply encode_emits in H as (p & w & tail & -> & HP & HI & HC & HT & HM).
  rewrite (HT HS). clear HT.
  assert (HB : but_ephemeral (r_core r) (r_core r') /\ headers_ok X (r_core r')).
  { destruct (r_class r) eqn:ER.
    - destruct HM as (-> & _). split; [apply but_refl|exact HO].
    - destruct HM as (-> & _). split; [apply but_refl|exact HO].
    - destruct HM as (_ & _ & [[_ ->]|(_ & pk & HM)]); [split; [apply but_refl|exact HO]|].
      split; [eapply setup_but; exact HM|eapply setup_headers; [exact HM|exact HO]].
    - pose proof (kakw_but X n _ _ _ HM) as [HB _]. split; [exact HB|].
      destruct (kakw_state X n _ _ _ HM) as [[_ ->]|(_ & HSt & _)]; [exact HO|eapply setup_headers; [exact HSt|exact HO]]. }
  destruct HB as (HB & HO'). pose proof (but_encoded _ _ HB) as HP'. rewrite HP in HP'. pose proof (but_kin _ _ HB) as HK.
  eapply kin_part; [exact HK|]. destruct HK as (_ & _ & <- & _).
  change (wire cls_fullname (HMsg h) (VList [VBytes p; VDict (uhdr (r_core r')); VBytes w]))
    with (VList [VBytes p; wire cls_fullname (HMsg h) (VDict (uhdr (r_core r'))); VBytes w]).
  rewrite wire_dict. apply wire_part; assumption.
Qed.

Lemma encode_parts : forall l n n' l' vs h, Forall good l -> rcpts_encode X n l = ((n', l'), Ok vs) ->
  Forall2 (fun r w => part_on_wire (tstr (r_core r)) h (r_core r) w) l (map (wire cls_fullname (HMsg h)) vs).
Proof.
  induction l as [|r l IH]; intros n n' l' vs h HF H; cbn [rcpts_encode] in H.
  - injection H as _ _ <-. constructor.
  - inversion_clear HF as [|? ? HG HF'].
    destruct (rcpt_encode X n r) as [[n1 r'] [v|e]] eqn:ER; [|discriminate].
    destruct (rcpts_encode X n1 l) as [[n2 l2] [vs2|e]] eqn:EL; [|discriminate]. injection H as _ _ <-.
    cbn [map]. constructor; [eapply encode_part; eassumption|eapply IH; eassumption].
Qed.

Lemma kin_parts : forall l l2 h ws, Forall2 rkin l l2 ->
  Forall2 (fun r w => part_on_wire (tstr (r_core r)) h (r_core r) w) l2 ws -> Forall2 (fun r w => part_on_wire (tstr (r_core r)) h (r_core r) w) l ws.
Proof.
  intros l l2 h ws H. revert ws. induction H as [|r r2 l l2 [_ HK] H IH]; intros ws HW; inversion_clear HW; constructor; [|auto].
  eapply kin_part; [exact HK|]. destruct HK as (_ & _ & <- & _). assumption.
Qed.

(** ** The message *)

(** What [encode] does, whatever the recipients. *)
Lemma enc_encoded : forall n m enc n' m2 b, Forall good (e_rcpts m) -> e_rcpts m <> [] -> encm_encode X n m true enc = ((n', m2), Ok b) ->
  exists p o n1 rs1 vs, phdr_encoded (e_core m) = Ok p /\ (enc = false -> o = payload (e_core m)) /\ Forall good rs1 /\
    Forall2 rkin (e_rcpts m) rs1 /\
    rcpts_encode X n1 rs1 = ((n', e_rcpts m2), Ok vs) /\
    emit (e_core m) 96 true [VBytes p; VDict (uhdr (e_core m)); vopt o; VList vs] = Ok b.
Proof.
  intros n m enc n' m2 b HF HN H.
  pose proof (rkin_refls (e_rcpts m)) as HK.
  destruct enc.
  - destruct (has_class RDirect (e_rcpts m) || has_class RAgree (e_rcpts m)) eqn:EC.
    + unfold encm_encode in H. destruct (phdr_encoded (e_core m)) as [p|er] eqn:EP; [|discriminate].
      destruct (encm_encrypt X n m) as [[n1 m1] x] eqn:EE. destruct x as [ct|er]; cbn [bind] in H; [|discriminate].
      assert (HM : n1 = n /\ exists k, m1 = EncMsg (with_key (e_core m) k) (e_rcpts m)).
      { unfold encm_encrypt in EE. destruct (bind (get_attr (e_core m) Algorithm) _) as [a|er]; [|discriminate].
        destruct (has_class RDirect (e_rcpts m)).
        - apply pair_equal_spec in EE as [EE1 _]. injection EE1 as <- <-. split; [reflexivity|]. exists (ckey (e_core m)). destruct m as [[] ?]. reflexivity.
        - cbn [orb] in EC. rewrite EC in EE. destruct (e_rcpts m) as [|r rs]; [congruence|].
          destruct (compute_cek X r a false) as [k|]; [|discriminate]. apply pair_equal_spec in EE as [EE1 _]. injection EE1 as <- <-.
          split; [reflexivity|]. exists k. reflexivity. }
      destruct HM as (-> & k & ->). cbn [e_core e_rcpts] in H. destruct (e_rcpts m) as [|r0 rs0] eqn:ERs; [congruence|]. rewrite <- ERs in *.
      change (get_attr (with_key (e_core m) k) Algorithm) with (get_attr (e_core m) Algorithm) in H.
      destruct (get_attr (e_core m) Algorithm) as [a|]; [|discriminate].
      destruct (rcpts_encode X n (e_rcpts m)) as [[n3 rs2] [vs|er]] eqn:ER; [|discriminate].
      apply pair_equal_spec in H as [H1 H]. injection H1 as <- <-.
      exists p, (Some ct), n, (e_rcpts m), vs. cbn [e_rcpts]. repeat (split; [first [reflexivity|assumption|discriminate]|]). exact H.
    + assert (HW : Forall wraps (e_rcpts m)).
      { apply orb_false_iff in EC as [E1 E2]. apply Forall_forall. intros r HI. unfold wraps. unfold has_class in E1, E2.
        destruct (r_class r) eqn:ER; auto; exfalso; [rewrite <- not_true_iff_false in E1; apply E1|rewrite <- not_true_iff_false in E2; apply E2];
        apply existsb_exists; exists r; (split; [exact HI|]); rewrite ER; reflexivity. }
      destruct (wrapped_structure X n m true n' m2 b HW H) as (p & z & kd & len & K & ke & ct & n1 & rs1 & rs2 & vs & HP & HG & HKd & HL & EK & HR & HSy & HEn & HEc & Em2 & HV & _ & HEm).
      destruct (all_ready_lands X _ _ _ HR HF) as (HF1 & _). exists p, (Some ct), n1, rs1, vs. rewrite Em2. cbn [e_rcpts].
      split; [exact HP|]. split; [discriminate|]. split; [exact HF1|]. split; [eapply readies_kin; exact HR|]. split; [exact HEc|]. exact HEm.
  - unfold encm_encode in H. destruct (phdr_encoded (e_core m)) as [p|er] eqn:EP; [|discriminate].
    destruct (e_rcpts m) as [|r0 rs0] eqn:ERs; [congruence|]. rewrite <- ERs in *.
    destruct (get_attr (e_core m) Algorithm) as [a|]; [|discriminate].
    destruct (rcpts_encode X n (e_rcpts m)) as [[n3 rs2] [vs|er]] eqn:ER; [|discriminate].
    apply pair_equal_spec in H as [H1 H]. injection H1 as <- <-.
    exists p, (payload (e_core m)), n, (e_rcpts m), vs. cbn [e_rcpts]. repeat (split; [first [reflexivity|assumption|auto]|]). exact H.
Qed.

(** A COSE_Mac message computes its tag for direct recipients or one key agreement only, and
    these do not change. *)
Lemma mac_encoded : forall n m rs n' m2 b, mm_rcpts m = Some rs -> rs <> [] -> macm_encode X n m true true = ((n', m2), Ok b) ->
  exists p t n1 rs2 vs, phdr_encoded (mm_core m) = Ok p /\ mm_rcpts m2 = Some rs2 /\
    rcpts_encode X n1 rs = ((n', rs2), Ok vs) /\
    emit (mm_core m) 97 true [VBytes p; VDict (uhdr (mm_core m)); vopt (payload (mm_core m)); VBytes t; VList vs] = Ok b.
Proof.
  intros n m rs n' m2 b ER HN H. unfold macm_encode in H. destruct (phdr_encoded (mm_core m)) as [p|er] eqn:EP; [|discriminate].
  destruct (macm_compute_tag X n m) as [[n1 m1] x] eqn:EE. destruct x as [t|er]; cbn [bind] in H; [|discriminate].
  assert (HM : exists k, m1 = MacMsg (with_key (mm_core m) k) (VBytes t) (Some rs)).
  { assert (HS : forall m0, mm_rcpts m0 = Some rs -> mac_super_compute X n m0 = (n1, m1, Ok t) -> m1 = MacMsg (mm_core m0) (VBytes t) (Some rs)).
    { intros m0 E0 HS. unfold mac_super_compute in HS. destruct (mac_compute X "MAC" (mm_core m0)); [|discriminate]. rewrite E0 in HS. congruence. }
    unfold macm_compute_tag in EE. destruct (get_attr (mm_core m) Algorithm) as [a|]; [|discriminate]. rewrite ER in EE.
    destruct (verify_recipients rs) as [[]|]; [|discriminate].
    destruct (has_class RDirect rs).
    - apply (HS _ ER) in EE. exists (ckey (mm_core m)). rewrite EE. destruct (mm_core m). reflexivity.
    - destruct (has_class RAgree rs).
      + destruct rs as [|r rs0]; [discriminate|]. destruct (compute_cek X r a false) as [k|]; [|discriminate].
        apply HS in EE; [|reflexivity]. exists k. exact EE.
      + destruct (has_class RKeyWrap rs || has_class RAgreeKW rs); [|discriminate]. destruct (get_key_length a); [|discriminate].
        destruct (cek_loop _ _ _ _) as [[? ?] [?|?]]; discriminate. }
  destruct HM as (k & ->). cbn [mm_core mm_rcpts mm_tag] in H. destruct rs as [|r0 rs0] eqn:ERs; [congruence|]. rewrite <- ERs in *.
  destruct (get_attr _ Algorithm) as [a|]; [|discriminate].
  destruct (rcpts_encode X n1 rs) as [[n3 rs2] [vs|er]] eqn:ERc; [|discriminate].
  apply pair_equal_spec in H as [H1 H]. injection H1 as <- <-. exists p, t, n1, rs2, vs.
  split; [reflexivity|]. split; [reflexivity|]. split; [exact ERc|]. exact H.
Qed.

(** ** On the wire *)

Lemma enc_parts : forall n m enc s b, law_wrap_some X -> law_oaep_some X -> headers_ok X (e_core m) -> Forall good (e_rcpts m) -> e_rcpts m <> [] ->
  encm_encode X n m true enc = (s, Ok b) ->
  exists p d body ws, loads_bytes b = Ok (VTag 96 (VList [VBytes p; VDict d; body; VList ws])) /\
    Forall2 (fun r w => part_on_wire (tstr (r_core r)) (tstr (e_core m)) (r_core r) w) (e_rcpts m) ws.
Proof.
  intros n m enc [n' m2] b LW LO HO HF HN H. apply enc_encoded in H as (p & o & n1 & rs1 & vs & HP & _ & HG & HK & HR & HE); [|assumption|assumption].
  destruct (list_lands X (HMsg (tstr (e_core m))) (VStr (bs "Enc_Recipient")) rs1 n1 n' _ vs 0%N LW LO HG HR) as (HD & _).
  apply (emit_loads X) in HE; [|apply HO|reflexivity|eauto|constructor; [apply list_data; exact HD|constructor]].
  do 4 eexists. split; [exact HE|]. eapply kin_parts; [exact HK|]. eapply encode_parts; eassumption.
Qed.

Lemma mac_parts : forall n m rs s b, law_wrap_some X -> law_oaep_some X -> headers_ok X (mm_core m) -> mm_rcpts m = Some rs -> Forall good rs -> rs <> [] ->
  macm_encode X n m true true = (s, Ok b) ->
  exists p d body t ws, loads_bytes b = Ok (VTag 97 (VList [VBytes p; VDict d; body; VBytes t; VList ws])) /\
    Forall2 (fun r w => part_on_wire (tstr (r_core r)) (tstr (mm_core m)) (r_core r) w) rs ws.
Proof.
  intros n m rs [n' m2] b LW LO HO ER HF HN H. apply (mac_encoded _ _ _ _ _ _ ER HN) in H as (p & t & n1 & rs2 & vs & HP & _ & HR & HE).
  destruct (list_lands X (HMsg (tstr (mm_core m))) (VStr (bs "Mac_Recipient")) rs n1 n' _ vs 0%N LW LO HF HR) as (HD & _).
  apply (emit_loads X) in HE; [|apply HO|reflexivity|eauto|constructor; [reflexivity|constructor; [apply list_data; exact HD|constructor]]].
  do 5 eexists. split; [exact HE|]. eapply encode_parts; eassumption.
Qed.

Lemma signers_parts : forall par h d ss seed vs, Forall (headers_ok X) ss -> signers_encode X seed par ss d = Ok vs ->
  Forall (fun v => data_value false (wire cls_fullname (HMsg h) v) = true) vs /\
  Forall2 (fun s w => part_on_wire (tstr s) h s w) ss (map (wire cls_fullname (HMsg h)) vs) /\
  exists ss', mapM (signer_from_obj X true) (map (wire cls_fullname (HMsg h)) vs) = Ok ss' /\ Forall2 arrived ss ss'.
Proof.
  intros par h d ss. induction ss as [|s ss IH]; intros seed vs HF H.
  - injection H as <-. split; [constructor|]. split; [constructor|]. exists []. split; [reflexivity|constructor].
  - inversion_clear HF as [|? ? HO HF'].
    cbn [signers_encode] in H. apply bind_ok in H as (v & H1 & H). apply bind_ok in H as (vs' & H2 & H). injection H as <-.
    destruct (IH _ _ HF' H2) as (HD & HW & ss' & HM & HR). clear IH.
    unfold signer_encode in H1. apply bind_ok in H1 as (p & HP & H1). apply bind_ok in H1 as (sg & HS & H1). injection H1 as <-.
    cbn [map].
    change (wire cls_fullname (HMsg h) (VList [VBytes p; VDict (uhdr s); VBytes sg]))
      with (VList [VBytes p; wire cls_fullname (HMsg h) (VDict (uhdr s)); VBytes sg]). rewrite wire_dict.
    split.
    + constructor; [|assumption]. cbn [wire data_value negb andb map forallb]. rewrite andb_true_r.
      apply (uhdr_data X s (HMsg h)). apply HO.
    + split; [constructor; [apply wire_part; assumption|assumption]|].
      destruct (core_trip X s p (HMsg h) (Some sg) (VBytes sg) [] HO HP eq_refl) as (s' & HC & HA & _).
      exists (s' :: ss'). split; [|constructor; assumption].
      cbn [mapM signer_from_obj]. rewrite HC. cbn [bind]. rewrite HM. reflexivity.
Qed.

Lemma sign_parts : forall seed m d b, headers_ok X (sm_core m) -> Forall (headers_ok X) (sm_signers m) -> sm_signers m <> [] ->
  sign_encode X seed m true d = Ok b ->
  (exists p u body ws, loads_bytes b = Ok (VTag 98 (VList [VBytes p; VDict u; body; VList ws])) /\
    Forall2 (fun s w => part_on_wire (tstr s) (tstr (sm_core m)) s w) (sm_signers m) ws) /\
  forall e, e = None \/ e = Some 98%N -> exists m', decode X e true (VBytes b) = Ok (MSign m') /\ arrived (sm_core m) (sm_core m') /\
    payload (sm_core m') = payload (sm_core m) /\ Forall2 arrived (sm_signers m) (sm_signers m').
Proof.
  intros seed m d b HO HF HN H. unfold sign_encode in H. apply bind_ok in H as (p & HP & H). apply bind_ok in H as (it & HI & H).
  destruct (sm_signers m) as [|s0 ss0] eqn:ES; [elim HN; reflexivity|]. rewrite <- ES in *. clear s0 ss0 ES HN.
  apply bind_ok in HI as (vs & HS & HI). injection HI as <-. set (c := sm_core m) in *. cbn [app] in H.
  destruct (signers_parts (Some c) (tstr c) d _ seed vs HF HS) as (HD & HW & ss' & HM & HR).
  apply (emit_loads X) in H; [|apply HO|reflexivity|eauto|constructor; [apply list_data; exact HD|constructor]].
  split; [do 4 eexists; split; [exact H|exact HW]|]. intros e He.
  destruct (core_trip X c p (HMsg (tstr c)) (payload c) (vopt (payload c)) [VList (map (wire cls_fullname (HMsg (tstr c))) vs)] HO HP (vopt_check _))
    as (c' & HC & HA & HPL & _).
  exists (SignMsg c' ss'). split; [|auto]. unfold decode. change (loads (VBytes b)) with (loads_bytes b). rewrite H.
  unfold from_cose_obj. cbn [N.eqb Pos.eqb]. unfold sign_from_obj. cbn [map wire]. rewrite HC. cbn [bind py_iter].
  rewrite HM. cbn [bind]. destruct He as [-> | ->]; reflexivity.
Qed.

(** ** At the receiver *)

Lemma enc_received : forall n m enc s b e, law_wrap_some X -> law_oaep_some X -> headers_ok X (e_core m) -> Forall good (e_rcpts m) -> e_rcpts m <> [] ->
  encm_encode X n m true enc = (s, Ok b) -> e = None \/ e = Some 96%N ->
  exists m', decode X e true (VBytes b) = Ok (MEnc m') /\ arrived (e_core m) (e_core m') /\ (enc = false -> payload (e_core m') = payload (e_core m)) /\
    recipients_kept (e_rcpts m) (e_rcpts m') /\ recipients_arrive (e_rcpts (snd s)) (e_rcpts m').
Proof.
  intros n m enc [n' m2] b e LW LO HO HF HN H He. apply enc_encoded in H as (p & o & n1 & rs1 & vs & HP & HPl & HG & HK & HR & HE); [|assumption|assumption].
  destruct (enc_decodes X (e_core m) p o n1 rs1 n' _ vs b e LW LO HO HG HP HR He HE) as (c' & rrs & HD & HA & HPL & HL).
  exists (EncMsg c' rrs). split; [exact HD|]. split; [exact HA|]. cbn [e_core e_rcpts snd].
  split; [intros E; rewrite HPL; auto|]. split; [eapply lands_keep; eassumption|eapply all_land_arrive; exact HL].
Qed.

Lemma mac_received : forall n m rs s b e, law_wrap_some X -> law_oaep_some X -> headers_ok X (mm_core m) -> mm_rcpts m = Some rs -> Forall good rs -> rs <> [] ->
  macm_encode X n m true true = (s, Ok b) -> e = None \/ e = Some 97%N ->
  exists m' rs2 rs', decode X e true (VBytes b) = Ok (MMac m') /\ arrived (mm_core m) (mm_core m') /\ payload (mm_core m') = payload (mm_core m) /\
    mm_rcpts (snd s) = Some rs2 /\ mm_rcpts m' = Some rs' /\ recipients_kept rs rs' /\ recipients_arrive rs2 rs'.
Proof.
  intros n m rs [n' m2] b e LW LO HO ER HF HN H He. apply (mac_encoded _ _ _ _ _ _ ER HN) in H as (p & t & n1 & rs2 & vs & HP & HR2 & HR & HE).
  destruct (mac_decodes X (mm_core m) p _ t n1 rs n' rs2 vs b e LW LO HO HF HP HR He HE) as (c' & rrs & HD & HA & HPL & HL).
  exists (MacMsg c' (VBytes t) (Some rrs)), rs2, rrs. split; [exact HD|]. split; [exact HA|]. split; [exact HPL|]. split; [exact HR2|]. split; [reflexivity|].
  split; [eapply lands_keep; [apply rkin_refls|exact HL]|eapply all_land_arrive; exact HL].
Qed.

Lemma arrived_kept : forall c c', arrived c c' -> kept c c'.
Proof. intros c c' H. eapply kin_arrived; [apply kin_refl|exact H]. Qed.
End Parts.

Lemma parts_nth : forall {A} (P : A -> pyval -> Prop) l ws i r, Forall2 P l ws -> nth_error l i = Some r -> exists w, nth_error ws i = Some w /\ P r w.
Proof.
  intros A P l ws i r H. revert i. induction H as [|x w l ws HP H IH]; intros [|i] HN; try discriminate; cbn [nth_error] in *; [|auto].
  injection HN as ->. eauto.
Qed.

Lemma alg_item_other : forall t t' a n, t <> t' -> alg_item t' a n <> alg_item t a n.
Proof. intros [] [] a n H; cbn [alg_item]; congruence. Qed.
