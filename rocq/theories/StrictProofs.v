(** Proofs of C111. *)
From Coq Require Import NArith ZArith Bool String Lia.
From Coq Require Import Init.Byte List.
From Verif Require Import Bytes BytesProofs Value Cbor CborProofs SpecData Registry Crypto Keys Algorithms Headers Messages Recipients
  SpecRegistry SpecKeys SpecHdr SpecTrip SpecForm SpecMsg SpecRcpt SpecRcptTrip SpecStruct SpecStrict ValueProofs DataProofs Utf8Proofs FormProofs HdrProofs KeyTrip HdrTrip MsgTrip
  RcptProofs RcptProofs2 RcptTrip RcptTrip2 RcptTrip3 RcptTrip4 RcptTrip5 PartProofs.
Import ListNotations.
Local Open Scope N_scope.

(** ** Shortest heads *)

Lemma head_shortest : forall m n, n < two64 -> shortest m n (head m n).
Proof.
  intros m n Hn. split; [apply head_header; exact Hn|]. intros h' H. unfold head.
  destruct (n <? 24) eqn:E0; [destruct H; cbn [length]; rewrite ?to_be_length; lia|]. apply N.ltb_ge in E0.
  destruct (n <? 256) eqn:E1; [destruct H; cbn [length]; rewrite ?to_be_length; lia|]. apply N.ltb_ge in E1.
  destruct (n <? 65536) eqn:E2; [destruct H; cbn [length]; rewrite ?to_be_length; lia|]. apply N.ltb_ge in E2.
  destruct (n <? 4294967296) eqn:E3; [destruct H; cbn [length]; rewrite ?to_be_length; lia|]. apply N.ltb_ge in E3.
  destruct H; cbn [length]; rewrite ?to_be_length; lia.
Qed.

Lemma header_fun : forall m n h h', header m n h -> header m n h' -> length h = length h' -> h = h'.
Proof. intros m n h h' H H' E. destruct H, H'; cbn [length] in E; rewrite ?to_be_length in E; try discriminate; reflexivity. Qed.

Lemma shortest_fun : forall m n h h', shortest m n h -> shortest m n h' -> h = h'.
Proof.
  intros m n h h' [H1 H2] [H1' H2']. eapply header_fun; [exact H1|exact H1'|]. pose proof (H2 _ H1'). pose proof (H2' _ H1). lia.
Qed.

Lemma enc_strict : forall c, wfc c = true -> strict c (enc c).
Proof.
  pose proof max_len_two64 as HM.
  induction c as [n|n|b|b|l HF|l HF|t c IH|n|n|w b|] using cbor_ind'; intros HW; cbn [wfc] in HW; cbn [enc].
  - apply st_uint, head_shortest, N.ltb_lt, HW.
  - apply st_nint, head_shortest, N.ltb_lt, HW.
  - apply N.ltb_lt in HW. apply st_bytes, head_shortest. lia.
  - apply andb_true_iff in HW as [HW HU]. apply N.ltb_lt in HW. apply st_text; [apply utf8_exact; exact HU|apply head_shortest; lia].
  - apply andb_true_iff in HW as [HL HW]. apply N.ltb_lt in HL. apply st_array; [apply head_shortest; lia|]. clear HL. induction HF as [|x l HX _ IH]; [constructor|].
    cbn [forallb] in HW. apply andb_true_iff in HW as [HW1 HW2]. cbn [flat_map]. constructor; [apply HX; exact HW1|apply IH; exact HW2].
  - apply andb_true_iff in HW as [HL HW]. apply N.ltb_lt in HL. apply st_map; [apply head_shortest; lia|]. clear HL. induction HF as [|[k v] l [HK HV] _ IH]; [constructor|].
    cbn [forallb] in HW. apply andb_true_iff in HW as [HW1 HW2]. apply andb_true_iff in HW1 as [HW0 HW1]. cbn [flat_map]. rewrite <- app_assoc. constructor; [apply HK; exact HW0|apply HV; exact HW1|apply IH; exact HW2].
  - apply andb_true_iff in HW as [HL HW]. apply N.ltb_lt in HL. apply st_tag; [apply head_shortest; exact HL|apply IH; exact HW].
  - apply andb_true_iff in HW as [HL HW]. apply N.leb_le in HL. apply N.ltb_lt in HW. unfold head. replace (n <? 24) with true by (symmetry; apply N.ltb_lt; exact HW). apply st_const. split; assumption.
  - unfold head. apply orb_true_iff in HW as [HW|HW].
    + apply N.ltb_lt in HW. replace (n <? 24) with true by (symmetry; apply N.ltb_lt; lia). apply st_simple. exact HW.
    + apply andb_true_iff in HW as [HL HW]. apply N.leb_le in HL. rewrite HW. replace (n <? 24) with false by (symmetry; apply N.ltb_ge; lia). apply N.ltb_lt in HW. apply st_simple_byte. split; assumption.
  - apply N.ltb_lt in HW. rewrite <- (of_be_to_be_small _ _ HW) at 1. destruct w; [apply st_half|apply st_single|apply st_double]; apply to_be_length.
  - discriminate.
Qed.

Lemma dumps_strict : forall fullname h v b, dumps fullname h v = Ok b -> exists c, lower fullname h v = Ok c /\ strict c b.
Proof.
  intros fullname h v b H. destruct (dumps_ok _ _ _ _ H) as (c & HL & HW & ->). exists c. split; [exact HL|apply enc_strict; exact HW].
Qed.

(** ** Strict encodings are encodings, and unique *)

Scheme strict_mut := Minimality for strict Sort Prop with items_mut := Minimality for strict_items Sort Prop with pairs_mut := Minimality for strict_pairs Sort Prop.
Combined Scheme strict_all from strict_mut, items_mut, pairs_mut.

Lemma strict_encoding : (forall c b, strict c b -> encoding c b) /\ (forall l b, strict_items l b -> sequence l b) /\ (forall l b, strict_pairs l b -> pairs l b).
Proof.
  apply strict_all; intros; try (match goal with H : shortest _ _ _ |- _ => destruct H as [H _] end); constructor; assumption.
Qed.

Lemma strict_unique : (forall c b, strict c b -> forall b', strict c b' -> b' = b) /\
  (forall l b, strict_items l b -> forall b', strict_items l b' -> b' = b) /\ (forall l b, strict_pairs l b -> forall b', strict_pairs l b' -> b' = b).
Proof.
  assert (HB : forall k b b', length b = k -> length b' = k -> of_be b' = of_be b -> b' = b).
  { intros k b b' H H' E. rewrite <- (to_be_of_be b), <- (to_be_of_be b'), H, H', E. reflexivity. }
  apply strict_all.
  - intros n h H b' H'. inversion H'; subst. eapply shortest_fun; eassumption.
  - intros n h H b' H'. inversion H'; subst. eapply shortest_fun; eassumption.
  - intros s h H b' H'. inversion H'; subst. f_equal. eapply shortest_fun; eassumption.
  - intros s h _ H b' H'. inversion H'; subst. f_equal. eapply shortest_fun; eassumption.
  - intros l h b H _ IH b' H'. inversion H'; subst. f_equal; [eapply shortest_fun; eassumption|apply IH; assumption].
  - intros l h b H _ IH b' H'. inversion H'; subst. f_equal; [eapply shortest_fun; eassumption|apply IH; assumption].
  - intros t c h b H _ IH b' H'. inversion H'; subst. f_equal; [eapply shortest_fun; eassumption|apply IH; assumption].
  - intros n H b' H'. inversion H'; subst. reflexivity.
  - intros n H b' H'. inversion H'; subst; [reflexivity|lia].
  - intros n H b' H'. inversion H'; subst; [lia|reflexivity].
  - intros b H b' H'. inversion H' as [| | | | | | | | | |b1 H1 E1| |]. subst. f_equal. apply (HB 2%nat); assumption.
  - intros b H b' H'. inversion H' as [| | | | | | | | | | |b1 H1 E1|]. subst. f_equal. apply (HB 4%nat); assumption.
  - intros b H b' H'. inversion H' as [| | | | | | | | | | | |b1 H1 E1]. subst. f_equal. apply (HB 8%nat); assumption.
  - intros b' H'. inversion H'. reflexivity.
  - intros c l b b1 _ IH _ IHl b' H'. inversion H'; subst. f_equal; auto.
  - intros b' H'. inversion H'. reflexivity.
  - intros k v l bk bv b _ IHk _ IHv _ IHl b' H'. inversion H'; subst. f_equal; [auto|]. f_equal; auto.
Qed.

(** ** Labels are not repeated *)

Lemma no_repeats_arr : forall l, no_repeats (CArr l) <-> Forall no_repeats l.
Proof.
  intros l. cbn [no_repeats]. induction l as [|x l IH]; cbn [fold_right]; [split; auto|]. rewrite IH. split; [intros [H1 H2]; constructor; assumption|].
  intros H. inversion H. auto.
Qed.

Lemma no_repeats_map : forall l, no_repeats (CMap l) <-> NoDup (map fst l) /\ Forall (fun kv => no_repeats (fst kv) /\ no_repeats (snd kv)) l.
Proof.
  intros l. cbn [no_repeats]. split; intros [HN H]; (split; [exact HN|]); clear HN; induction l as [|[k v] l IH]; cbn [fold_right] in *; auto.
  - destruct H as [H1 H2]. constructor; [exact H1|auto].
  - inversion H; subst. auto.
Qed.

Lemma lower_inj : forall fullname h v w imm c, data_value imm v = true -> data_value imm w = true -> lower fullname h v = Ok c -> lower fullname h w = Ok c -> v = w.
Proof.
  intros fullname h v w imm c Hv Hw E1 E2. pose proof (lift_lower fullname v h imm c Hv E1) as L1. rewrite (lift_lower fullname w h imm c Hw E2) in L1. congruence.
Qed.

Lemma data_no_repeats : forall fullname v h imm c, data_value imm v = true -> lower fullname h v = Ok c -> no_repeats c.
Proof.
  intros fullname. induction v as [|b|z|f|n| | |b|b|l HF|l HF|d HF|t v IH|t v IH|c|k s e HS HE] using pyval_ind'; intros h imm c0 HP HL; try discriminate HP.
  - injection HL as <-. exact I.
  - injection HL as <-. exact I.
  - injection HL as <-. unfold lower_int. repeat match goal with |- context [match ?x with _ => _ end] => destruct x end; exact I.
  - injection HL as <-. unfold lower_float. repeat match goal with |- context [match ?x with _ => _ end] => destruct x end; exact I.
  - injection HL as <-. exact I.
  - injection HL as <-. exact I.
  - injection HL as <-. exact I.
  - injection HL as <-. exact I.
  - cbn [lower] in HL. apply bind_ok in HL as (cs & HL & E). injection E as <-. cbn [data_value] in HP. apply andb_true_iff in HP as [_ HP].
    apply no_repeats_arr. apply mapM_Forall2 in HL. revert HF HP. induction HL as [|x y l' cs' Hxy HL IHl]; intros HF HP; [constructor|].
    inversion HF as [|? ? Hx Hl']; subst. cbn [forallb] in HP. apply andb_true_iff in HP as [HP1 HP2]. constructor; [eapply Hx; eassumption|apply IHl; assumption].
  - cbn [lower] in HL. apply bind_ok in HL as (cs & HL & E). injection E as <-. cbn [data_value] in HP. apply andb_true_iff in HP as [_ HP].
    apply no_repeats_arr. apply mapM_Forall2 in HL. revert HF HP. induction HL as [|x y l' cs' Hxy HL IHl]; intros HF HP; [constructor|].
    inversion HF as [|? ? Hx Hl']; subst. cbn [forallb] in HP. apply andb_true_iff in HP as [HP1 HP2]. constructor; [eapply Hx; eassumption|apply IHl; assumption].
  - rewrite lower_dict in HL. apply bind_ok in HL as (cs & HL & E). injection E as <-. cbn [data_value] in HP. apply andb_true_iff in HP as [HI HP].
    apply no_repeats_map. apply mapM_Forall2 in HL. split.
    + revert HI HP. clear HF. induction HL as [|[k x] [k' x'] l' cs' Hxy HL IHl]; intros HI HP; [constructor|].
      cbn [forallb] in HP. apply andb_true_iff in HP as [HP1 HP2]. apply andb_true_iff in HP1 as [HPk HPx]. cbn [distinct_keys] in HI. apply andb_true_iff in HI as [HI1 HI2].
      cbn [lower_pair] in Hxy. apply bind_ok in Hxy as (k1 & Ek & Hxy). apply bind_ok in Hxy as (x1 & Ex & Hxy). injection Hxy as -> ->.
      cbn [map fst]. constructor; [|apply IHl; assumption]. intros HIn. apply in_map_iff in HIn as ([k2 x2] & E2 & HIn). cbn [fst] in E2. subst k2.
      assert (HX : exists k0 x0, In (k0, x0) l' /\ lower fullname h k0 = Ok k' /\ data_value true k0 = true).
      { clear IHl HI1 HI2. revert HP2. induction HL as [|[a y] [a' y'] l2 c2 H1 H2 IH2]; intros HP2; [destruct HIn|]. cbn [forallb] in HP2. apply andb_true_iff in HP2 as [HQ1 HQ2].
        destruct HIn as [HIn|HIn].
        - injection HIn as -> ->. cbn [lower_pair] in H1. apply bind_ok in H1 as (k3 & E3 & H1). apply bind_ok in H1 as (x3 & E4 & H1). injection H1 as -> ->.
          apply andb_true_iff in HQ1 as [HQ1 _]. exists a, y. split; [left; reflexivity|]. auto.
        - destruct (IH2 HIn HQ2) as (k0 & x0 & Q1 & Q2). exists k0, x0. split; [right; exact Q1|exact Q2]. }
      destruct HX as (k0 & x0 & Q1 & Q2 & Q3). pose proof (lower_inj _ _ _ _ _ _ HPk Q3 Ek Q2) as <-.
      apply negb_true_iff in HI1. rewrite <- not_true_iff_false in HI1. apply HI1. apply existsb_exists. exists (k, x0). split; [exact Q1|]. cbn [fst]. apply keyeq_refl.
    + clear HI. revert HF HP. induction HL as [|[k x] [k' x'] l' cs' Hxy HL IHl]; intros HF HP; [constructor|].
      inversion HF as [|? ? Hx Hl']; subst. destruct Hx as [Hk Hx]. cbn [fst snd] in *. cbn [forallb] in HP. apply andb_true_iff in HP as [HP1 HP2]. apply andb_true_iff in HP1 as [HPk HPx].
      cbn [lower_pair] in Hxy. apply bind_ok in Hxy as (k1 & Ek & Hxy). apply bind_ok in Hxy as (x1 & Ex & Hxy). injection Hxy as -> ->.
      constructor; [cbn [fst snd]; split; [eapply Hk; eassumption|eapply Hx; eassumption]|apply IHl; assumption].
  - cbn [lower] in HL. apply bind_ok in HL as (c & HL & E). injection E as <-. cbn [data_value] in HP. apply andb_true_iff in HP as [_ HP]. cbn [no_repeats]. eapply IH; eassumption.
Qed.

(** What is written for a value whose wire form is plain data obeys all rules. *)
Lemma wire_section14 : forall h v b, data_value false (wire cls_fullname h v) = true -> dumps cls_fullname h v = Ok b -> section14 b.
Proof.
  intros h v b HD H. destruct (dumps_strict _ _ _ _ H) as (c & HL & HS). exists c. split; [exact HS|]. apply lower_wire in HL. exact (data_no_repeats _ _ _ _ _ HD HL).
Qed.

(** ** Messages *)

Section Messages.
Variable X : crypto.

Lemma part_data : forall c t (a z : pyval) rest, headers_ok X c -> data_value false (wire cls_fullname (HMsg t) a) = true -> forallb (data_value false) (map (wire cls_fullname (HMsg t)) rest) = true ->
  data_value false (wire cls_fullname (HMsg t) (VList (a :: VDict (uhdr c) :: rest))) = true.
Proof.
  intros c t a z rest [_ HO] HA HR. change (wire cls_fullname (HMsg t) (VList (a :: VDict (uhdr c) :: rest)))
    with (VList (wire cls_fullname (HMsg t) a :: wire cls_fullname (HMsg t) (VDict (uhdr c)) :: map (wire cls_fullname (HMsg t)) rest)).
  rewrite wire_dict. cbn [data_value negb andb forallb]. rewrite HA. cbn [andb]. rewrite HR, andb_true_r. exact (sendable_data X (HMsg t) (uhdr c) HO).
Qed.

Lemma emit_section14 : forall c n tag items b, reserved_tag n = false -> data_value false (wire cls_fullname (HMsg (tstr c)) (VList items)) = true ->
  emit c n tag items = Ok b -> section14 b.
Proof.
  intros c n tag items b HT HD H. unfold emit, dumps_msg in H. eapply wire_section14; [|exact H]. destruct tag; [|exact HD].
  change (wire cls_fullname (HMsg (tstr c)) (VTag n (VList items))) with (VTag n (wire cls_fullname (HMsg (tstr c)) (VList items))).
  cbn [data_value]. rewrite HT. exact HD.
Qed.

Lemma vopt_data : forall t o, data_value false (wire cls_fullname (HMsg t) (vopt o)) = true.
Proof. intros t [b|]; reflexivity. Qed.

Lemma sign1_section14 : forall seed m tag d b, headers_ok X (s1_core m) -> sign1_encode X seed m tag true d = Ok b -> section14 b.
Proof.
  intros seed m tag d b HO H. unfold sign1_encode in H. apply bind_ok in H as (p & HP & H). apply bind_ok in H as (items & HI & H).
  apply bind_ok in HI as (s & _ & HI). injection HI as <-. eapply emit_section14; [| |exact H]; [reflexivity|]. apply part_data; [exact VNone|exact HO|reflexivity|].
  cbn [map forallb app]. rewrite vopt_data. reflexivity.
Qed.

Lemma enc0_section14 : forall c tag enc b, headers_ok X c -> enc0_encode X c tag enc = Ok b -> section14 b.
Proof.
  intros c tag enc b HO H. unfold enc0_encode in H. apply bind_ok in H as (p & HP & H). apply bind_ok in H as (body & HB & H).
  eapply emit_section14; [| |exact H]; [reflexivity|]. apply part_data; [exact VNone|exact HO|reflexivity|]. cbn [map forallb]. rewrite andb_true_r.
  destruct enc; [apply bind_ok in HB as (e & _ & HB); injection HB as <-; reflexivity|]. injection HB as <-. apply vopt_data.
Qed.

Lemma mac0_section14 : forall m tag mac b, headers_ok X (m0_core m) -> snd (mac0_encode X m tag mac) = Ok b -> section14 b.
Proof.
  intros m tag mac b HO H. unfold mac0_encode in H. destruct (phdr_encoded (m0_core m)) as [p|]; [|discriminate].
  destruct mac.
  - destruct (mac0_compute_tag X m) as [m' [t|]]; [|discriminate]. cbn [snd] in H. eapply emit_section14; [| |exact H]; [reflexivity|]. apply part_data; [exact VNone|exact HO|reflexivity|].
    cbn [map forallb app]. rewrite vopt_data. reflexivity.
  - cbn [snd] in H. eapply emit_section14; [| |exact H]; [reflexivity|]. apply part_data; [exact VNone|exact HO|reflexivity|]. cbn [map forallb]. rewrite vopt_data. reflexivity.
Qed.

Lemma signers_data : forall par t d ss seed vs, Forall (headers_ok X) ss -> signers_encode X seed par ss d = Ok vs ->
  forallb (data_value false) (map (wire cls_fullname (HMsg t)) vs) = true.
Proof.
  intros par t d ss. induction ss as [|s ss IH]; intros seed vs HF H.
  - injection H as <-. reflexivity.
  - inversion_clear HF as [|? ? HO HF']. cbn [signers_encode] in H. apply bind_ok in H as (v & H1 & H). apply bind_ok in H as (vs' & H2 & H). injection H as <-.
    cbn [map forallb]. rewrite (IH _ _ HF' H2), andb_true_r. unfold signer_encode in H1. apply bind_ok in H1 as (p & HP & H1). apply bind_ok in H1 as (sg & HS & H1). injection H1 as <-.
    apply part_data; [exact VNone|exact HO|reflexivity|reflexivity].
Qed.

Lemma sign_section14 : forall seed m tag d b, headers_ok X (sm_core m) -> Forall (headers_ok X) (sm_signers m) -> sign_encode X seed m tag d = Ok b -> section14 b.
Proof.
  intros seed m tag d b HO HS H. unfold sign_encode in H. apply bind_ok in H as (p & HP & H). apply bind_ok in H as (items & HI & H).
  eapply emit_section14; [| |exact H]; [reflexivity|]. destruct (sm_signers m) as [|s0 ss0] eqn:ES.
  - injection HI as <-. apply part_data; [exact VNone|exact HO|reflexivity|]. cbn [map forallb]. rewrite vopt_data. reflexivity.
  - rewrite <- ES in *. apply bind_ok in HI as (vs & HV & HI). injection HI as <-. apply part_data; [exact VNone|exact HO|reflexivity|].
    cbn [map forallb app]. rewrite vopt_data. cbn [andb]. rewrite andb_true_r.
    change (wire cls_fullname (HMsg (tstr (sm_core m))) (VList vs)) with (VList (map (wire cls_fullname (HMsg (tstr (sm_core m)))) vs)).
    cbn [data_value negb andb]. exact (signers_data _ _ _ _ _ _ HS HV).
Qed.

Lemma rcpt_data : forall n r n' r' v t, good X r -> rcpt_encode X n r = ((n', r'), Ok v) -> data_value false (wire cls_fullname (HMsg t) v) = true.
Proof.
  intros n r n' r' v t (HO & HS & z & HZ & HG) H. apply encode_emits in H as (p & w & tail & -> & HP & HI & HC & HT & HM). rewrite (HT HS). clear HT.
  assert (HO' : headers_ok X (r_core r')).
  { destruct (r_class r) eqn:ER.
    - destruct HM as (-> & _). exact HO.
    - destruct HM as (-> & _). exact HO.
    - destruct HM as (_ & _ & [[_ ->]|(_ & pk & HM)]); [exact HO|]. eapply setup_headers; [exact HM|exact HO].
    - destruct (kakw_state X n _ _ _ HM) as [[_ ->]|(_ & HSt & _)]; [exact HO|eapply setup_headers; [exact HSt|exact HO]]. }
  apply part_data; [exact VNone|exact HO'|reflexivity|reflexivity].
Qed.

Lemma rcpts_data : forall l n n' l' vs t, Forall (good X) l -> rcpts_encode X n l = ((n', l'), Ok vs) -> forallb (data_value false) (map (wire cls_fullname (HMsg t)) vs) = true.
Proof.
  induction l as [|r l IH]; intros n n' l' vs t HF H; cbn [rcpts_encode] in H.
  - injection H as _ _ <-. reflexivity.
  - inversion_clear HF as [|? ? HG HF']. destruct (rcpt_encode X n r) as [[n1 r'] [v|e]] eqn:ER; [|discriminate].
    destruct (rcpts_encode X n1 l) as [[n2 l2] [vs2|e]] eqn:EL; [|discriminate]. injection H as _ _ <-.
    cbn [map forallb]. rewrite (rcpt_data _ _ _ _ _ t HG ER). exact (IH _ _ _ _ t HF' EL).
Qed.

Lemma enc_section14 : forall n m enc s b, headers_ok X (e_core m) -> Forall (good X) (e_rcpts m) -> e_rcpts m <> [] -> encm_encode X n m true enc = (s, Ok b) -> section14 b.
Proof.
  intros n m enc [n' m2] b HO HF HN H. apply enc_encoded in H as (p & o & n1 & rs1 & vs & HP & _ & HG & HK & HR & HE); [|assumption|assumption].
  eapply emit_section14; [| |exact HE]; [reflexivity|]. apply part_data; [exact VNone|exact HO|reflexivity|]. cbn [map forallb]. rewrite vopt_data. cbn [andb]. rewrite andb_true_r.
  change (wire cls_fullname (HMsg (tstr (e_core m))) (VList vs)) with (VList (map (wire cls_fullname (HMsg (tstr (e_core m)))) vs)).
  cbn [data_value negb andb]. exact (rcpts_data _ _ _ _ _ _ HG HR).
Qed.

Lemma mac_section14 : forall n m rs s b, headers_ok X (mm_core m) -> mm_rcpts m = Some rs -> Forall (good X) rs -> rs <> [] -> macm_encode X n m true true = (s, Ok b) -> section14 b.
Proof.
  intros n m rs [n' m2] b HO ER HF HN H. apply (mac_encoded _ _ _ _ _ _ _ ER HN) in H as (p & t & n1 & rs2 & vs & HP & _ & HR & HE).
  eapply emit_section14; [| |exact HE]; [reflexivity|]. apply part_data; [exact VNone|exact HO|reflexivity|]. cbn [map forallb]. rewrite vopt_data.
  change (data_value false (wire cls_fullname (HMsg (tstr (mm_core m))) (VBytes t))) with true. cbn [andb]. rewrite andb_true_r.
  change (wire cls_fullname (HMsg (tstr (mm_core m))) (VList vs)) with (VList (map (wire cls_fullname (HMsg (tstr (mm_core m)))) vs)).
  cbn [data_value negb andb]. exact (rcpts_data _ _ _ _ _ _ HF HR).
Qed.

(** The protected headers of an object that is not a received one. *)
Lemma protected_section14 : forall c p, phdr_raw c = None -> sendable X (phdr c) -> phdr_encoded c = Ok p -> p = [] \/ section14 p.
Proof.
  intros c p HR HS H. unfold phdr_encoded in H. rewrite HR in H. destruct (phdr c) as [|e d] eqn:EP; [injection H as <-; left; reflexivity|]. right. rewrite <- EP in *.
  unfold dumps_msg in H. eapply wire_section14; [|exact H]. rewrite wire_dict. exact (sendable_data X _ _ HS).
Qed.

Lemma key_section14 : forall k b, portable X k -> key_encode k = Ok b -> section14 b.
Proof.
  intros k b HP H. unfold key_encode in H. eapply wire_section14; [|exact H]. rewrite wire_dict. apply (wire_store_data HIdent (k_cls k)); apply HP.
Qed.
End Messages.

(** ** A label written twice *)

Lemma twice_in : forall (f : pyval -> result cbor) (g : pyval * pyval -> result (cbor * cbor)) d cs a b, (forall e y, g e = Ok y -> f (fst e) = Ok (fst y)) ->
  Forall2 (fun e y => g e = Ok y) d cs -> In a d -> In b d -> a <> b -> f (fst a) = f (fst b) -> ~ NoDup (map fst cs).
Proof.
  intros f g d cs a b HG H. induction H as [|e y d cs HE H IH]; [intros []|]. cbn [map]. intros HA HB HN HF HD. inversion_clear HD as [|? ? H1 H2].
  assert (HIn : forall x, In x d -> f (fst x) = f (fst e) -> False).
  { intros x HX E. apply H1. clear - HG H HE HX E. induction H as [|e1 y1 d cs HE1 H IH]; [destruct HX|]. destruct HX as [->|HX].
    - left. pose proof (HG _ _ HE). pose proof (HG _ _ HE1). congruence.
    - right. apply IH. exact HX. }
  destruct HA as [->|HA]; destruct HB as [->|HB].
  - apply HN. reflexivity.
  - apply (HIn b HB). congruence.
  - apply (HIn a HA). congruence.
  - exact (IH HA HB HN HF H2).
Qed.

Lemma repeated_map : forall t d c k k' v v', k <> k' -> In (k, v) d -> In (k', v') d -> lower cls_fullname (HMsg t) k = lower cls_fullname (HMsg t) k' ->
  lower cls_fullname (HMsg t) (VDict d) = Ok c -> ~ no_repeats c.
Proof.
  intros t d c k k' v v' HN H1 H2 HE HL HR. rewrite lower_dict in HL. apply bind_ok in HL as (cs & HL & E). injection E as <-.
  apply no_repeats_map in HR as [HD _]. apply mapM_Forall2 in HL. revert HD.
  apply (twice_in (lower cls_fullname (HMsg t)) _ d cs (k, v) (k', v')) with (2 := HL); [|exact H1|exact H2|congruence|exact HE].
  intros [e x] [y z] HP. cbn [lower_pair fst] in *. apply bind_ok in HP as (q & -> & HP). apply bind_ok in HP as (q2 & _ & HP). injection HP as -> ->. reflexivity.
Qed.

(** The item of bytes that were written is known. *)
Lemma written_item : forall fullname h v b c c', dumps fullname h v = Ok b -> lower fullname h v = Ok c -> strict c' b -> blen b < max_len -> c' = c.
Proof.
  intros fullname h v b c c' HD HL HS HB. destruct (dumps_ok _ _ _ _ HD) as (c1 & HL1 & HW & ->). rewrite HL in HL1. injection HL1 as <-.
  apply (proj1 strict_encoding) in HS. pose proof (well_formed_read _ _ [] HS HB) as H1. rewrite (decode_item_enc c [] HW) in H1. congruence.
Qed.

Lemma added_entries : forall c d v w, dget d (VClass c) = Some v -> dget d (VInt (c_id c)) = None ->
  In (VClass c, v) (dupdate d [(VInt (c_id c), w)]) /\ In (VInt (c_id c), w) (dupdate d [(VInt (c_id c), w)]).
Proof.
  intros c d v w HG HN. cbn [dupdate fold_left fst snd]. rewrite (dset_fresh d (VInt (c_id c)) w) by (unfold dmem; rewrite HN; reflexivity). split; [|apply in_or_app; right; left; reflexivity].
  apply dget_In in HG as (k & HK & HK2). apply keyeq_class in HK2. subst k. apply in_or_app. left. exact HK.
Qed.

Lemma class_int_lower : forall t c, c_fam c = FHdr -> lower cls_fullname (HMsg t) (VClass c) = lower cls_fullname (HMsg t) (VInt (c_id c)).
Proof. intros t [f z] E. cbn [c_fam] in E. subst f. reflexivity. Qed.

Lemma updated_twice : forall t c d v w x, c_fam c = FHdr -> dget d (VClass c) = Some v -> dget d (VInt (c_id c)) = None ->
  lower cls_fullname (HMsg t) (VDict (dupdate d [(VInt (c_id c), w)])) = Ok x -> ~ no_repeats x.
Proof.
  intros t c d v w x HF HG HN HL. destruct (added_entries c d v w HG HN) as [H1 H2].
  apply (repeated_map t _ x (VClass c) (VInt (c_id c)) v w) with (2 := H1) (3 := H2) (5 := HL); [discriminate|apply class_int_lower; exact HF].
Qed.

Lemma protected_twice : forall c h v w p, c_fam h = FHdr -> dget (phdr c) (VClass h) = Some v -> dget (phdr c) (VInt (c_id h)) = None ->
  phdr_encoded (fst (hdr_step c (HUpdatePhdr (VDict [(VInt (c_id h), w)])))) = Ok p -> blen p < max_len -> ~ section14 p.
Proof.
  intros c h v w p HF HG HN H HB (x & HS & HR). cbn [hdr_step fst] in H. unfold phdr_encoded in H. cbn [phdr_raw phdr with_phdr] in H.
  destruct (dupdate (phdr c) [(VInt (c_id h), w)]) as [|e r] eqn:ED.
  { pose proof (proj1 (added_entries h (phdr c) v w HG HN)) as HX. rewrite ED in HX. destruct HX. }
  rewrite <- ED in H. unfold dumps_msg in H. destruct (dumps_ok _ _ _ _ H) as (y & HL & _ & _). rewrite (written_item _ _ _ _ _ _ H HL HS HB) in HR.
  cbn [tstr with_phdr] in HL. exact (updated_twice _ _ _ _ _ _ HF HG HN HL HR).
Qed.

Lemma unprotected_twice : forall X c h v w tag enc b, c_fam h = FHdr -> dget (uhdr c) (VClass h) = Some v -> dget (uhdr c) (VInt (c_id h)) = None ->
  enc0_encode X (fst (hdr_step c (HUpdateUhdr (VDict [(VInt (c_id h), w)])))) tag enc = Ok b -> blen b < max_len -> ~ section14 b.
Proof.
  intros X c h v w tag enc b HF HG HN H HB (x & HS & HR). unfold enc0_encode in H. apply bind_ok in H as (p & _ & H). apply bind_ok in H as (body & _ & H).
  cbn [hdr_step fst uhdr with_uhdr] in H. unfold emit, dumps_msg in H. destruct (dumps_ok _ _ _ _ H) as (y & HL & _ & _).
  rewrite (written_item _ _ _ _ _ _ H HL HS HB) in HR. cbn [tstr with_uhdr] in HL. clear H HS.
  assert (HA : exists z, lower cls_fullname (HMsg (tstr c)) (VList [VBytes p; VDict (dupdate (uhdr c) [(VInt (c_id h), w)]); body]) = Ok z /\ no_repeats z).
  { destruct tag; [|exists y; auto].
    change (lower cls_fullname (HMsg (tstr c)) (VTag 16 (VList [VBytes p; VDict (dupdate (uhdr c) [(VInt (c_id h), w)]); body])))
      with (bind (lower cls_fullname (HMsg (tstr c)) (VList [VBytes p; VDict (dupdate (uhdr c) [(VInt (c_id h), w)]); body])) (fun z => Ok (CTag 16 z))) in HL.
    apply bind_ok in HL as (z & HZ & E). injection E as <-. exists z. auto. }
  destruct HA as (z & HZ & HR2).
  change (lower cls_fullname (HMsg (tstr c)) (VList [VBytes p; VDict (dupdate (uhdr c) [(VInt (c_id h), w)]); body]))
    with (bind (mapM (lower cls_fullname (HMsg (tstr c))) [VBytes p; VDict (dupdate (uhdr c) [(VInt (c_id h), w)]); body]) (fun cs => Ok (CArr cs))) in HZ.
  apply bind_ok in HZ as (cs & HC & E). injection E as <-. apply mapM_Forall2 in HC. inversion HC as [|a1 b1 l1 m1 _ HC1]; subst. inversion HC1 as [|a2 q l2 m2 HQ _]; subst.
  apply no_repeats_arr in HR2. apply Forall_inv_tail in HR2. apply Forall_inv in HR2. exact (updated_twice _ _ _ _ _ _ HF HG HN HQ HR2).
Qed.

(** ** Whatever a message is encoded to was written by the encoder *)

Lemma emit_strict : forall c n tag items b, emit c n tag items = Ok b -> exists x, strict x b.
Proof. intros c n tag items b H. unfold emit, dumps_msg in H. destruct (dumps_strict _ _ _ _ H) as (x & _ & HS). exists x. exact HS. Qed.

Lemma sign1_strict : forall X seed m tag sign d b, sign1_encode X seed m tag sign d = Ok b -> exists x, strict x b.
Proof. intros X seed m tag sign d b H. unfold sign1_encode in H. apply bind_ok in H as (p & _ & H). apply bind_ok in H as (items & _ & H). exact (emit_strict _ _ _ _ _ H). Qed.
Lemma sign_strict : forall X seed m tag d b, sign_encode X seed m tag d = Ok b -> exists x, strict x b.
Proof. intros X seed m tag d b H. unfold sign_encode in H. apply bind_ok in H as (p & _ & H). apply bind_ok in H as (items & _ & H). exact (emit_strict _ _ _ _ _ H). Qed.
Lemma enc0_strict : forall X c tag enc b, enc0_encode X c tag enc = Ok b -> exists x, strict x b.
Proof. intros X c tag enc b H. unfold enc0_encode in H. apply bind_ok in H as (p & _ & H). apply bind_ok in H as (items & _ & H). exact (emit_strict _ _ _ _ _ H). Qed.
Lemma mac0_strict : forall X m tag mac b, snd (mac0_encode X m tag mac) = Ok b -> exists x, strict x b.
Proof.
  intros X m tag mac b H. unfold mac0_encode in H. destruct (phdr_encoded (m0_core m)); [|discriminate]. destruct mac; [|exact (emit_strict _ _ _ _ _ H)].
  destruct (mac0_compute_tag X m) as [m' [t|]]; [|discriminate]. exact (emit_strict _ _ _ _ _ H).
Qed.
Lemma enc_strict_message : forall X n m tag enc b, snd (encm_encode X n m tag enc) = Ok b -> exists x, strict x b.
Proof.
  intros X n m tag enc b H. unfold encm_encode in H. destruct (phdr_encoded (e_core m)) as [p|]; [|discriminate].
  destruct (if enc then let '(s, x) := encm_encrypt X n m in (s, bind x (fun b => Ok (VBytes b))) else ((n, m), Ok (vopt (payload (e_core m))))) as [[n1 m1] [bd|]]; [|discriminate].
  destruct (e_rcpts m1) as [|r rs]; [exact (emit_strict _ _ _ _ _ H)|]. destruct (get_attr (e_core m1) Algorithm); [|discriminate].
  destruct (rcpts_encode X n1 (r :: rs)) as [[n2 rs'] [vs|]]; [|discriminate]. exact (emit_strict _ _ _ _ _ H).
Qed.
Lemma mac_strict_message : forall X n m tag mac b, snd (macm_encode X n m tag mac) = Ok b -> exists x, strict x b.
Proof.
  intros X n m tag mac b H. unfold macm_encode in H. destruct (phdr_encoded (mm_core m)) as [p|]; [|discriminate].
  destruct (if mac then let '(s, x) := macm_compute_tag X n m in (s, bind x (fun b => Ok [VBytes b])) else ((n, m), Ok [])) as [[n1 m1] [bd|]]; [|discriminate].
  destruct (mm_rcpts m1) as [[|r rs]|]; [exact (emit_strict _ _ _ _ _ H)| |discriminate]. destruct (get_attr (mm_core m1) Algorithm); [|discriminate].
  destruct (rcpts_encode X n1 (r :: rs)) as [[n2 rs'] [vs|]]; [|discriminate]. exact (emit_strict _ _ _ _ _ H).
Qed.

Lemma structure_strict : forall k t, SpecStruct.authenticates k t -> exists x, strict x t.
Proof.
  assert (HP : forall v t, dumps_plain v = Ok t -> exists x, strict x t).
  { intros v t H. unfold dumps_plain in H. destruct (dumps_strict _ _ _ _ H) as (x & _ & HS). exists x. exact HS. }
  intros k t H. destruct H as [c d t H|m s d t H|c t H|c t H|c t H|c t H].
  - unfold sign1_structure in H. apply bind_ok in H as (p & _ & H). apply bind_ok in H as (q & _ & H). exact (HP _ _ H).
  - unfold signer_structure in H. destruct m as [m|]; [|discriminate]. apply bind_ok in H as (p & _ & H). apply bind_ok in H as (q & _ & H). apply bind_ok in H as (r & _ & H). exact (HP _ _ H).
  - unfold enc_structure in H. apply bind_ok in H as (p & _ & H). exact (HP _ _ H).
  - unfold enc_structure in H. apply bind_ok in H as (p & _ & H). exact (HP _ _ H).
  - unfold mac_structure in H. apply bind_ok in H as (p & _ & H). destruct (payload c); [|discriminate]. exact (HP _ _ H).
  - unfold mac_structure in H. apply bind_ok in H as (p & _ & H). destruct (payload c); [|discriminate]. exact (HP _ _ H).
Qed.

Lemma kdf_strict : forall k t, kdf_encode k = Ok t -> exists x, strict x t.
Proof.
  intros k t H. unfold kdf_encode in H. repeat (match type of H with bind _ _ = _ => apply bind_ok in H as (? & _ & H) | (if ?b then _ else _) = _ => destruct b | match ?b with _ => _ end = _ => destruct b end; try discriminate).
  all: unfold dumps_plain in H; destruct (dumps_strict _ _ _ _ H) as (y & _ & HS); exists y; exact HS.
Qed.
