(** C121: signers and recipients do not disturb each other. *)
From Coq Require Import NArith ZArith Bool String.
From Coq Require Import Init.Byte List.
From Verif Require Import Bytes Value Cbor Registry Crypto Keys Algorithms Headers Messages Recipients Toy SpecAlg SpecIana SpecMsg SpecRcpt SpecAgree SpecOthers.
From Verif Require Import BytesProofs ValueProofs HdrProofs RcptProofs RcptProofs2 PropHdr PropMsg PropRcpt PropRcptTrip PropAccept.
Import ListNotations.
Local Open Scope result_scope.

Lemma Forall2_nth : forall A B (P : A -> B -> Prop) l l', Forall2 P l l' -> forall i a, nth_error l i = Some a -> exists b, nth_error l' i = Some b /\ P a b.
Proof.
  intros A B P l l' H. induction H as [|x y l l' HP _ IH]; intros [|i] a HI; cbn [nth_error] in *; try discriminate; [injection HI as <-; eauto|eauto].
Qed.

Lemma same_head : forall X allow p u pl l l' c rest c' rest', core_from_obj X allow (p :: u :: pl :: l) = Ok (c, rest) -> core_from_obj X allow (p :: u :: pl :: l') = Ok (c', rest') -> c = c' /\ rest = l /\ rest' = l'.
Proof.
  intros X allow p u pl l l' c rest c' rest' H H'. unfold core_from_obj in H, H'. apply bind_ok in H as (c0 & HC & H). rewrite HC in H'. cbn [bind] in H'.
  apply bind_ok in H as (p0 & HP & H). rewrite HP in H'. cbn [bind] in H'. injection H as <- <-. injection H' as <- <-. auto.
Qed.

(** ** Signers *)

(** Two received COSE_Sign messages with the same headers and payload, and arrays of signatures
    of any length that have one entry in common, wherever it is: every receiver comes to the same
    conclusion about that signature. *)
Theorem C121_signer : forall X allow p u pl l l' i j s m m', from_cose_obj X allow 98 [p; u; pl; VList l] = Ok (MSign m) -> from_cose_obj X allow 98 [p; u; pl; VList l'] = Ok (MSign m') ->
  nth_error l i = Some s -> nth_error l' j = Some s ->
  exists c c', nth_error (sm_signers m) i = Some c /\ nth_error (sm_signers m') j = Some c' /\
    forall k a d, signer_verify X (Some (sm_core m)) (equip c k a) d = signer_verify X (Some (sm_core m')) (equip c' k a) d.
Proof.
  intros X allow p u pl l l' i j s m m' H H' HI HJ. cbn [from_cose_obj N.eqb Pos.eqb] in H, H'. apply bind_ok in H as (m0 & H & E). injection E as ->. apply bind_ok in H' as (m0' & H' & E). injection E as ->.
  unfold sign_from_obj in H, H'. apply bind_ok in H as ([c0 rest] & HC & H). apply bind_ok in H' as ([c0' rest'] & HC' & H'). destruct (same_head _ _ _ _ _ _ _ _ _ _ _ HC HC') as (<- & -> & ->).
  cbn [py_iter bind] in H, H'. apply bind_ok in H as (ss & HS & H). injection H as <-. apply bind_ok in H' as (ss' & HS' & H'). injection H' as <-. cbn [sm_core sm_signers].
  apply mapM_Forall2 in HS. apply mapM_Forall2 in HS'. destruct (Forall2_nth _ _ _ _ _ HS _ _ HI) as (c & HN & E). destruct (Forall2_nth _ _ _ _ _ HS' _ _ HJ) as (c' & HN' & E').
  assert (c = c') as <- by congruence. exists c, c. auto.
Qed.
Print Assumptions C121_signer.

Lemma signers_app : forall X par d l l' n vs, signers_encode X n par (l ++ l') d = Ok vs ->
  exists a b, vs = a ++ b /\ signers_encode X n par l d = Ok a /\ length a = length l.
Proof.
  intros X par d l l'. induction l as [|s l IH]; intros n vs H; cbn [app signers_encode] in *.
  - exists [], vs. auto.
  - apply bind_ok in H as (v & HV & H). apply bind_ok in H as (ws & HW & H). injection H as <-. destruct (IH _ _ HW) as (a & b & -> & HA & HL).
    exists (v :: a), b. rewrite HV, HA. cbn [bind length app]. auto.
Qed.

(** Further signers appended to a message change none of the signatures already there. *)
Theorem C121_appended : forall X n c d l l' vs, signers_encode X n (Some c) (l ++ l') d = Ok vs ->
  signers_encode X n (Some c) l d = Ok (firstn (length l) vs).
Proof.
  intros X n c d l l' vs H. destruct (signers_app _ _ _ _ _ _ _ H) as (a & b & -> & HA & HL). rewrite <- HL, firstn_app, firstn_all, PeanoNat.Nat.sub_diag. cbn [firstn]. rewrite app_nil_r. exact HA.
Qed.
Print Assumptions C121_appended.

(** ** Recipients *)

Lemma direct_in : forall rs, has_class RDirect rs = true <-> exists r, In r rs /\ r_class r = RDirect.
Proof.
  intros rs. unfold has_class. rewrite existsb_exists. split; intros (r & HI & H); exists r; (split; [exact HI|]); [destruct (r_class r); (reflexivity || discriminate)|rewrite H; reflexivity].
Qed.

Lemma class_in : forall rs r, In r rs -> has_class (r_class r) rs = true.
Proof. intros rs r HI. unfold has_class. rewrite existsb_exists. exists r. split; [exact HI|]. destruct (r_class r); reflexivity. Qed.

Lemma may_direct : forall rs r, may_mix rs -> In r rs -> (has_class RDirect rs = true <-> r_class r = RDirect).
Proof.
  intros rs r [HM _] HI. rewrite direct_in. split; [intros HD; exact (HM HD r HI)|intros HR; exists r; auto].
Qed.

(** Decrypting for one recipient gives the same, whoever the other recipients are and in
    whichever order they stand, as long as RFC 8152 allows them beside each other. *)
Theorem C121_recipient : forall X c rs rs' r r', In r rs -> In r' rs' -> same_entry r r' -> may_mix rs -> may_mix rs' ->
  snd (encm_decrypt X (EncMsg c rs) r) = snd (encm_decrypt X (EncMsg c rs') r').
Proof.
  intros X c rs rs' r r' HI HI' (HC & HK & HS) HM HM'. unfold encm_decrypt. cbn [e_core e_rcpts]. destruct (get_attr c Algorithm) as [t|e]; [|reflexivity].
  rewrite (C47_top_level_partial _ _ _ HI eq_refl), (C47_top_level_partial _ _ _ HI' eq_refl). cbn [negb]. pose proof HM as HV. pose proof HM' as HV'. apply C48_mixing in HV. apply C48_mixing in HV'. rewrite HV, HV'.
  pose proof (may_direct _ _ HM HI) as HD. pose proof (may_direct _ _ HM' HI') as HD'. rewrite <- HC in HD'.
  pose proof (class_in _ _ HI) as HX. pose proof (class_in _ _ HI') as HX'. rewrite <- HC in HX'.
  assert (HE : compute_cek X r t true = compute_cek X r' t true).
  { destruct r as [id rc k x s], r' as [id' rc' k' x' s']. cbn [r_class r_core r_subs] in *. subst. reflexivity. }
  rewrite <- HE. destruct (r_class r) eqn:ER.
  1: rewrite HX, HX'; reflexivity.
  all: destruct (has_class RDirect rs) eqn:EX; [discriminate (proj1 HD eq_refl)|]; destruct (has_class RDirect rs') eqn:EY; [discriminate (proj1 HD' eq_refl)|].
  all: rewrite HX, HX', ?orb_true_r; cbn [orb]; destruct (compute_cek X r t true); reflexivity.
Qed.
Print Assumptions C121_recipient.

Lemma created_same : forall X allow ctx id id' v r r', create_recipient X allow ctx id v = Ok r -> create_recipient X allow ctx id' v = Ok r' -> same_entry r r' /\ r_ctx r = r_ctx r'.
Proof.
  intros X allow ctx id id' v r r' H H'. unfold create_recipient in H, H'. apply bind_ok in H as (r0 & E0 & H). rewrite E0 in H'. cbn [bind] in H'. apply bind_ok in H as (pa & E1 & H). rewrite E1 in H'. cbn [bind] in H'.
  apply bind_ok in H as (r1 & E2 & H). rewrite E2 in H'. cbn [bind] in H'. apply bind_ok in H as (d & E3 & H). rewrite E3 in H'. cbn [bind] in H'. destruct (is_none _); [discriminate|].
  apply bind_ok in H as (rc & E4 & H). rewrite E4 in H'. cbn [bind] in H'. unfold rcpt_from_obj in H, H'. destruct v as [|b|z|x|n| | |b|u|l|l|dd|t v|t v|c|kc ks ke]; try discriminate.
  apply bind_ok in H as ([c rest] & E5 & H). rewrite E5 in H'. cbn [bind] in H'. destruct rc.
  - destruct (negb _); [discriminate|]. apply bind_ok in H as (a & E6 & H). rewrite E6 in H'. cbn [bind] in H'. destruct (_ && _); [discriminate|]. injection H as <-. injection H' as <-. repeat split.
  - apply bind_ok in H as (a & E6 & H). rewrite E6 in H'. cbn [bind] in H'. apply bind_ok in H as (k & E7 & H). rewrite E7 in H'. cbn [bind] in H'. destruct (_ && _); [discriminate|]. destruct (match payload c with Some [] => true | _ => false end); [discriminate|].
    injection H as <-. injection H' as <-. repeat split.
  - apply bind_ok in H as (a & E6 & H). rewrite E6 in H'. cbn [bind] in H'. apply bind_ok in H as (k & E7 & H). rewrite E7 in H'. cbn [bind] in H'. apply bind_ok in H as (mi & E8 & H). rewrite E8 in H'. cbn [bind] in H'. destruct mi; [discriminate|].
    injection H as <-. injection H' as <-. repeat split.
  - destruct (match payload c with Some [] => true | _ => false end); [discriminate|]. injection H as <-. injection H' as <-. repeat split.
Qed.

Lemma in_put : forall A (l : list A) i x, In x (put l i x).
Proof. intros A l i x. unfold put. apply in_or_app. right. left. reflexivity. Qed.

Lemma given_same : forall r r' k lo, same_entry r r' -> same_entry (given r k lo) (given r' k lo).
Proof. intros [id rc c x s] [id' rc' c' x' s'] k lo (H1 & H2 & H3). cbn [r_class r_core r_subs] in *. subst. repeat split. Qed.

(** Exchanging the key and local attributes of a recipient changes nothing about who may stand
    beside whom. *)
Lemma put_class : forall rs i r k lo, nth_error rs i = Some r -> map r_class (put rs i (given r k lo)) = map r_class rs.
Proof.
  intros rs. unfold put. induction rs as [|x rs IH]; intros [|i] r k lo H; cbn [nth_error] in H; try discriminate.
  - injection H as ->. cbn [firstn skipn app map]. destruct r. reflexivity.
  - cbn [firstn app map]. change (skipn (S (S i)) (x :: rs)) with (skipn (S i) rs). f_equal. apply IH. exact H.
Qed.

Lemma mix_classes : forall rs rs', map r_class rs' = map r_class rs -> may_mix rs -> may_mix rs'.
Proof.
  intros rs rs' HE [HD HA].
  assert (HI : forall t, (exists r, In r rs' /\ r_class r = t) -> exists r, In r rs /\ r_class r = t).
  { intros t (r & HI & HT). apply (in_map r_class) in HI. rewrite HE in HI. apply in_map_iff in HI as (r0 & H0 & HI). exists r0. split; [exact HI|congruence]. }
  split.
  - intros H r HR. apply HI in H. specialize (HD H). destruct (HI (r_class r)) as (r0 & HI0 & HT); [exists r; auto|]. rewrite <- HT. auto.
  - intros H. apply HI in H. specialize (HA H). rewrite <- (map_length r_class rs'), HE, map_length. exact HA.
Qed.

(** The same for received messages: two COSE_Encrypt messages with the same headers and
    ciphertext, and arrays of recipients of any length that have one entry in common, wherever it
    is. Whatever keys the receiver has, decrypting for that recipient gives the same. *)
Theorem C121_received : forall X allow p u ct l l' i j v m m', from_cose_obj X allow 96 [p; u; ct; VList l] = Ok (MEnc m) -> from_cose_obj X allow 96 [p; u; ct; VList l'] = Ok (MEnc m') ->
  e_rcpts m <> [] -> e_rcpts m' <> [] -> may_mix (e_rcpts m) -> may_mix (e_rcpts m') ->
  nth_error l i = Some v -> nth_error l' j = Some v ->
  exists r r', nth_error (e_rcpts m) i = Some r /\ nth_error (e_rcpts m') j = Some r' /\
    forall key a k lo,
      snd (encm_decrypt X (EncMsg (ready (e_core m) key a) (put (e_rcpts m) i (given r k lo))) (given r k lo)) =
      snd (encm_decrypt X (EncMsg (ready (e_core m') key a) (put (e_rcpts m') j (given r' k lo))) (given r' k lo)).
Proof.
  intros X allow p u ct l l' i j v m m' H H' HN HN' HM HM' HI HJ. cbn [from_cose_obj N.eqb Pos.eqb] in H, H'. apply bind_ok in H as (m0 & H & E). injection E as ->. apply bind_ok in H' as (m0' & H' & E). injection E as ->.
  unfold enc_from_obj in H, H'. apply bind_ok in H as ([c0 rest] & HC & H). apply bind_ok in H' as ([c0' rest'] & HC' & H'). destruct (same_head _ _ _ _ _ _ _ _ _ _ _ HC HC') as (<- & -> & ->).
  apply bind_ok in H as ([rs|] & HO & H); injection H as <-; cbn [e_rcpts e_core] in *; [|congruence]. apply bind_ok in H' as ([rs'|] & HO' & H'); injection H' as <-; cbn [e_rcpts e_core] in *; [|congruence].
  apply recipients_from_some in HO as (w & l0 & E & EI & HO). injection E as <-. injection EI as <-. apply recipients_from_some in HO' as (w & l0 & E & EI & HO'). injection E as <-. injection EI as <-.
  apply create_all_each in HO. apply create_all_each in HO'. destruct (Forall2_nth _ _ _ _ _ HO _ _ HI) as (r & HR & E). destruct (Forall2_nth _ _ _ _ _ HO' _ _ HJ) as (r' & HR' & E').
  exists r, r'. split; [exact HR|]. split; [exact HR'|]. intros key a k lo. apply C121_recipient; try apply in_put.
  - apply given_same. exact (proj1 (created_same _ _ _ _ _ _ _ _ E E')).
  - eapply mix_classes; [apply put_class; exact HR|exact HM].
  - eapply mix_classes; [apply put_class; exact HR'|exact HM'].
Qed.
Print Assumptions C121_received.

(** The tag of a received COSE_Mac does not depend on the recipients at all. *)
Theorem C121_mac : forall X allow p u pl t l l' m m', from_cose_obj X allow 97 (p :: u :: pl :: t :: l) = Ok (MMac m) -> from_cose_obj X allow 97 (p :: u :: pl :: t :: l') = Ok (MMac m') ->
  forall key a, macm_verify_tag X (MacMsg (ready (mm_core m) key a) (mm_tag m) (mm_rcpts m)) = macm_verify_tag X (MacMsg (ready (mm_core m') key a) (mm_tag m') (mm_rcpts m')).
Proof.
  intros X allow p u pl t l l' m m' H H' key a. cbn [from_cose_obj N.eqb Pos.eqb] in H, H'. apply bind_ok in H as (m0 & H & E). injection E as ->. apply bind_ok in H' as (m0' & H' & E). injection E as ->.
  unfold mac_from_obj in H, H'. apply bind_ok in H as ([c0 rest] & HC & H). apply bind_ok in H' as ([c0' rest'] & HC' & H'). destruct (same_head _ _ _ _ _ _ _ _ _ _ _ HC HC') as (<- & -> & ->).
  apply bind_ok in H as (o & _ & H). injection H as <-. apply bind_ok in H' as (o' & _ & H'). injection H' as <-. reflexivity.
Qed.
Print Assumptions C121_mac.

(** What may not stand beside a recipient does disturb: a direct recipient next to one with key
    wrap, and decrypting is refused for either of them. *)
Theorem C121_mixed : forall X c rs r, In r rs -> ~ may_mix rs -> exists e, snd (encm_decrypt X (EncMsg c rs) r) = Err e.
Proof.
  intros X c rs r HI HM. unfold encm_decrypt. cbn [e_core e_rcpts]. destruct (get_attr c Algorithm) as [t|e]; [|exists e; reflexivity]. rewrite (C47_top_level_partial _ _ _ HI eq_refl). cbn [negb].
  destruct (verify_recipients rs) as [[]|e] eqn:E; [apply C48_mixing in E; contradiction|]. exists e. reflexivity.
Qed.
Print Assumptions C121_mixed.

(** A message for two recipients with key wrap, and the same with the first one removed: both
    decode, and the recipient that stayed reads the same text in both. *)
Definition ex_two : encmsg := ex_enc [ex_kw 0 (Some ex_sym) []; ex_kw 1 (Some ex_sym) []].
Definition ex_items : list pyval :=
  match snd (encm_encode toy 0 ex_two true true) with
  | Ok b => match loads_bytes b with Ok (VTag _ (VList l)) => l | _ => [] end
  | Err _ => []
  end.
Definition ex_msg (l : list pyval) : encmsg := match from_cose_obj toy true 96 l with Ok (MEnc m) => m | _ => ex_two end.

Example C121_received_example : exists p u ct a b, ex_items = [p; u; ct; VList [a; b]] /\
  let m := ex_msg [p; u; ct; VList [a; b]] in let m' := ex_msg [p; u; ct; VList [b]] in
  from_cose_obj toy true 96 [p; u; ct; VList [a; b]] = Ok (MEnc m) /\ from_cose_obj toy true 96 [p; u; ct; VList [b]] = Ok (MEnc m') /\
  length (e_rcpts m) = 2 /\ length (e_rcpts m') = 1 /\ may_mix (e_rcpts m) /\ may_mix (e_rcpts m') /\
  exists r', nth_error (e_rcpts m') 0 = Some r' /\
    snd (encm_decrypt toy (EncMsg (ready (e_core m') None (bs "aad")) (put (e_rcpts m') 0 (given r' (Some ex_sym) []))) (given r' (Some ex_sym) [])) = Ok (bs "hello").
Proof.
  do 5 eexists. split; [vm_compute; reflexivity|]. cbv zeta. split; [vm_compute; reflexivity|]. split; [vm_compute; reflexivity|]. split; [vm_compute; reflexivity|]. split; [vm_compute; reflexivity|].
  split; [apply C48_mixing; vm_compute; reflexivity|]. split; [apply C48_mixing; vm_compute; reflexivity|]. eexists. split; [vm_compute; reflexivity|]. vm_compute; reflexivity.
Qed.

Example C121_mixed_example : In (ex_kw 1 (Some ex_sym) []) [ex_direct 0; ex_kw 1 (Some ex_sym) []] /\ ~ may_mix [ex_direct 0; ex_kw 1 (Some ex_sym) []].
Proof. split; [right; left; reflexivity|]. intros H. apply C48_mixing in H. discriminate H. Qed.

(** Two signatures; the message with the first one removed still verifies for the second. *)
Definition ex_sig (a : string) : core := Core [(Algorithm, alg (-7))] None [] [] true None (bs a) (Some ex_ec2).
Definition ex_signed : list pyval :=
  match sign_encode toy 0 (SignMsg (ex_core [(Algorithm, alg (-7))] (bs "hello") None []) [ex_sig "a"; ex_sig "b"]) true VNone with
  | Ok b => match loads_bytes b with Ok (VTag _ (VList l)) => l | _ => [] end
  | Err _ => []
  end.
Definition ex_smsg (l : list pyval) : signmsg := match from_cose_obj toy true 98 l with Ok (MSign m) => m | _ => SignMsg (ex_sig "") [] end.

Example C121_signer_example : exists p u pl a b, ex_signed = [p; u; pl; VList [a; b]] /\ a <> b /\
  let m := ex_smsg [p; u; pl; VList [a; b]] in let m' := ex_smsg [p; u; pl; VList [b]] in
  from_cose_obj toy true 98 [p; u; pl; VList [a; b]] = Ok (MSign m) /\ from_cose_obj toy true 98 [p; u; pl; VList [b]] = Ok (MSign m') /\
  length (sm_signers m) = 2 /\ exists c', nth_error (sm_signers m') 0 = Some c' /\ signer_verify toy (Some (sm_core m')) (equip c' ex_ec2 (bs "b")) VNone = Ok true.
Proof.
  do 5 eexists. split; [vm_compute; reflexivity|]. split; [discriminate|]. cbv zeta. split; [vm_compute; reflexivity|]. split; [vm_compute; reflexivity|]. split; [vm_compute; reflexivity|].
  eexists. split; [vm_compute; reflexivity|]. vm_compute; reflexivity.
Qed.

Example C121_mac_example : exists s b p u pl t l, macm_encode toy 0 (ex_mac [ex_direct 0]) true true = (s, Ok b) /\ loads_bytes b = Ok (VTag 97 (VList [p; u; pl; t; VList l])) /\ length l = 1 /\
  exists m m', from_cose_obj toy true 97 [p; u; pl; t; VList l] = Ok (MMac m) /\ from_cose_obj toy true 97 [p; u; pl; t; VList (l ++ l)] = Ok (MMac m') /\
    macm_verify_tag toy (MacMsg (ready (mm_core m') (Some ex_sym) (bs "aad")) (mm_tag m') (mm_rcpts m')) = Ok true.
Proof.
  do 7 eexists. split; [vm_compute; reflexivity|]. split; [vm_compute; reflexivity|]. split; [reflexivity|]. do 2 eexists. split; [vm_compute; reflexivity|]. split; [vm_compute; reflexivity|]. vm_compute; reflexivity.
Qed.
