(** More lemmas about headers and decoding: legal values, unknown parameters, received
    bytes, tags, authorised keys. *)
From Coq Require Import NArith ZArith Bool String Lia.
From Coq Require Import Init.Byte List.
From Verif Require Import Bytes BytesProofs Value ValueProofs Cbor CborProofs SpecData DataProofs Registry
  Crypto Keys Algorithms Headers Messages Recipients SpecRegistry RegistryProofs SpecKeys KeyProofs KeyProofs2
  SpecRfc SpecStruct StructProofs LayoutProofs SpecHdr HdrProofs.
Import ListNotations.
Local Open Scope result_scope.

Section WithCrypto.
Variable X : crypto.

(** ** Legal values (C27) *)

Lemma parse_value_legal : forall c n v w, In (c, n) (registered FHdr) ->
  parse_value X (VClass c) v = Ok w -> legal_value c v.
Proof.
  intros c n v w HI H. pose proof (registered_fam _ _ _ HI (or_introl eq_refl)) as HF.
  destruct c as [f z]. cbn [c_fam] in HF. subst f. unfold legal_value. cbn [c_id].
  split; [|split; [|split]].
  - intros HZ. assert (HB : parse_value X (VClass (Cls FHdr z)) v = is_bstr v).
    { unfold bstr_headers in HZ. cbn [In] in HZ.
      repeat (destruct HZ as [<-|HZ]; [reflexivity|]). destruct HZ. }
    rewrite HB in H. unfold is_bstr, is_bytes in H. destruct v; try discriminate. eexists. reflexivity.
  - intros ->. cbn [parse_value] in H. unfold crit_is_array in H. destruct v; try discriminate.
    destruct (_ || _) eqn:E; [discriminate|]. apply orb_false_iff in E as [E1 E2].
    exists l. split; [reflexivity|]. split; [intros ->; discriminate|].
    apply negb_false_iff in E2. rewrite forallb_forall in E2. apply Forall_forall. intros x Hx.
    specialize (E2 _ Hx). destruct x; try discriminate; eauto.
  - intros ->. cbn [parse_value] in H. unfold content_type_is_uint_or_tstr in H.
    destruct v; try discriminate; cbn [as_int] in H.
    + right. eexists. reflexivity.
    + destruct (Z.ltb z 0) eqn:E; [discriminate|]. left. left. exists z. split; [reflexivity|].
      apply Z.ltb_ge. assumption.
    + left. right. eexists. reflexivity.
  - intros ->. cbn [parse_value] in H.
    destruct (from_id_cases _ _ _ _ H) as [(c' & n' & HI' & HS' & ->)|[(E & _)|(l & l' & -> & -> & _)]];
      [left; eauto|discriminate|right; eauto].
Qed.

Lemma parse_items_legal : forall allow d acc h, parse_items X allow d acc = Ok h ->
  forall c n k v, In (c, n) (registered FHdr) -> In (k, v) d -> spells c n k -> legal_value c v.
Proof.
  intros allow. induction d as [|[k0 v0] d IH]; intros acc h H c n k v HI HIn HS; [destruct HIn|].
  cbn [parse_items] in H. apply bind_ok in H as (a & HA & H). apply bind_ok in H as (w & HW & H).
  destruct HIn as [E|HIn]; [|eapply IH; eassumption]. injection E as -> ->.
  rewrite (from_id_spells _ _ _ _ _ HI HS) in HA. injection HA as <-. eapply parse_value_legal; eassumption.
Qed.

Lemma parse_items_parsed : forall allow c d acc h, parse_items X allow d acc = Ok h ->
  (forall w, dget acc (VClass c) = Some w -> exists v, parse_value X (VClass c) v = Ok w) ->
  forall w, dget h (VClass c) = Some w -> exists v, parse_value X (VClass c) v = Ok w.
Proof.
  intros allow c. induction d as [|[k0 v0] d IH]; intros acc h H HA; cbn [parse_items] in H.
  - injection H as <-. exact HA.
  - apply bind_ok in H as (a & Ha & H). apply bind_ok in H as (w & HW & H).
    eapply IH; [exact H|]. intros w' Hw'. rewrite dget_dset in Hw'. destruct (keyeq (VClass c) a) eqn:E.
    + apply keyeq_class in E. subst a. injection Hw' as <-. exists v0. assumption.
    + apply HA. assumption.
Qed.

Lemma parse_items_stored_legal : forall allow d h, parse_items X allow d [] = Ok h -> legal_headers h.
Proof.
  intros allow d h H.
  assert (HP : forall c w, dget h (VClass c) = Some w -> exists v, parse_value X (VClass c) v = Ok w).
  { intros c. eapply parse_items_parsed; [exact H|]. discriminate. }
  assert (HR : forall z, existsb (fun e => Z.eqb (c_id (fst e)) z) (registered FHdr) = true ->
    exists n, In (Cls FHdr z, n) (registered FHdr)).
  { intros z E. apply existsb_exists in E as ([c n] & HI & E). cbn [fst] in E. apply Z.eqb_eq in E.
    pose proof (registered_fam _ _ _ HI (or_introl eq_refl)) as HF. destruct c as [f z']. cbn [c_fam c_id] in *.
    subst. eauto. }
  assert (HG : forall z w, existsb (fun e => Z.eqb (c_id (fst e)) z) (registered FHdr) = true ->
    dget h (hdr z) = Some w -> exists v n, In (Cls FHdr z, n) (registered FHdr) /\
      parse_value X (hdr z) v = Ok w /\ legal_value (Cls FHdr z) v /\ header_value X (Cls FHdr z) v w).
  { intros z w E HD. destruct (HR _ E) as [n HI]. destruct (HP _ _ HD) as [v HV]. exists v, n.
    split; [assumption|]. split; [assumption|]. split; [eapply parse_value_legal; eassumption|].
    eapply parse_value_hdr; eassumption. }
  split; [|split; [|split]].
  - intros z v HZ HD. assert (E : existsb (fun e => Z.eqb (c_id (fst e)) z) (registered FHdr) = true).
    { unfold bstr_headers in HZ. cbn [In] in HZ.
      repeat (destruct HZ as [<-|HZ]; [vm_compute; reflexivity|]). destruct HZ. }
    destruct (HG _ _ E HD) as (u & n & HI & _ & (HL & _) & HV). unfold header_value in HV. cbn [c_id] in *.
    assert (EV : v = u).
    { revert HV. unfold bstr_headers in HZ. cbn [In] in HZ.
      repeat (destruct HZ as [<-|HZ]; [cbn; intros HV; exact HV|]). destruct HZ. }
    subst v. apply HL. assumption.
  - intros v HD. destruct (HG 2%Z v eq_refl HD) as (u & n & HI & _ & (_ & HL & _) & HV). cbn in HV. subst v.
    apply HL. reflexivity.
  - intros v HD. destruct (HG 3%Z v eq_refl HD) as (u & n & HI & _ & (_ & _ & HL & _) & HV). cbn in HV. subst v.
    apply HL. reflexivity.
  - intros v HD. destruct (HG 1%Z v eq_refl HD) as (u & n & HI & _ & _ & HV). cbn in HV.
    inversion HV as [? c' n' HI' HS' E1 E2|l l' HF]; [left; exists c', n'; split; [reflexivity|assumption]|right; eauto].
Qed.

(** ** Unknown parameters (C28) *)

Lemma parse_items_strict : forall d acc h, parse_items X false d acc = Ok h -> all_registered d.
Proof.
  induction d as [|[k0 v0] d IH]; intros acc h H k v HIn HU; [destruct HIn|].
  cbn [parse_items] in H. apply bind_ok in H as (a & Ha & H). apply bind_ok in H as (w & HW & H).
  destruct HIn as [E|HIn]; [|eapply IH; eassumption]. injection E as -> ->.
  destruct (from_id_unknown _ _ HU) as [_ HE]. congruence.
Qed.

Lemma unknown_keyeq : forall f k k' a, unknown_attr f k -> keyeq k k' = false -> from_id f true k' = Ok a ->
  keyeq k a = false.
Proof.
  intros f k k' a HU HK H.
  destruct (from_id_cases _ _ _ _ H) as [(c & n & HI & HS & ->)|[(_ & _ & ->)|(l & l' & -> & -> & _)]].
  - destruct (keyeq k (VClass c)) eqn:E; [|reflexivity]. rewrite keyeq_sym in E. apply keyeq_class in E. subst k.
    elim (unknown_not_spelled _ _ _ _ HU HI). reflexivity.
  - assumption.
  - destruct (keyeq k (VList l')) eqn:E; [|reflexivity]. apply keyeq_spec in E.
    destruct k; cbn [knorm unknown_attr] in *; try discriminate; try contradiction;
      match type of E with match ?x with _ => _ end = _ => destruct x; discriminate end.
Qed.

Lemma parse_value_unknown : forall k v, unknown_attr FHdr k -> parse_value X k v = Ok v.
Proof.
  intros k v HU. destruct k as [|b|z|x|s| | |b|u|l|l|d|t w|t w|c|kc ks ke]; try reflexivity.
  assert (HN : forall z, existsb (fun e => Z.eqb (c_id (fst e)) z) (registered FHdr) = true -> c_id c <> z).
  { intros z E HZ. apply existsb_exists in E as ([c' n] & HI & E). cbn [fst] in E. apply Z.eqb_eq in E.
    eapply (HU (c_id c)); [reflexivity|exact HI|]. congruence. }
  destruct c as [f z]. cbn [c_id] in HN.
  destruct f; try reflexivity.
  pose proof (HN 1%Z eq_refl). pose proof (HN 2%Z eq_refl). pose proof (HN 3%Z eq_refl). pose proof (HN 4%Z eq_refl).
  pose proof (HN 5%Z eq_refl). pose proof (HN 6%Z eq_refl). pose proof (HN 9%Z eq_refl). pose proof (HN 10%Z eq_refl).
  pose proof (HN (-1)%Z eq_refl). pose proof (HN (-2)%Z eq_refl).
  unfold parse_value.
  repeat match goal with
  | |- match ?x with _ => _ end = _ => destruct x; try reflexivity; try congruence
  end.
Qed.

Lemma parse_items_other : forall k d acc h, parse_items X true d acc = Ok h -> unknown_attr FHdr k ->
  existsb (fun kv => keyeq k (fst kv)) d = false -> dget h k = dget acc k.
Proof.
  intros k. induction d as [|[k0 v0] d IH]; intros acc h H HU HE; cbn [parse_items existsb fst] in *.
  - injection H as <-. reflexivity.
  - apply orb_false_iff in HE as [HE0 HE].
    apply bind_ok in H as (a & Ha & H). apply bind_ok in H as (w & HW & H).
    rewrite (IH _ _ H HU HE). apply dget_dset_other. eapply unknown_keyeq; eassumption.
Qed.

Lemma parse_items_kept : forall k v d acc h, parse_items X true d acc = Ok h -> distinct_keys d = true ->
  In (k, v) d -> unknown_attr FHdr k -> dget h k = Some v.
Proof.
  intros k v. induction d as [|[k0 v0] d IH]; intros acc h H HD HIn HU; [destruct HIn|].
  cbn [parse_items distinct_keys] in *. apply andb_true_iff in HD as [HD0 HD].
  apply bind_ok in H as (a & Ha & H). apply bind_ok in H as (w & HW & H).
  destruct HIn as [E|HIn]; [|eapply IH; eassumption]. injection E as -> ->.
  destruct (from_id_unknown _ _ HU) as [HE _]. rewrite HE in Ha. injection Ha as <-.
  rewrite (parse_value_unknown _ _ HU) in HW. injection HW as <-.
  rewrite (parse_items_other _ _ _ _ H HU).
  - apply dget_dset_same. apply keyeq_refl.
  - apply negb_true_iff in HD0. assumption.
Qed.

(** ** Received bytes (C20) *)

Lemma core_from_obj_raw : forall allow p obj c rest,
  core_from_obj X allow (VBytes p :: obj) = Ok (c, rest) -> phdr_raw c = Some p /\ tstr c = false.
Proof.
  intros allow p obj c rest H. apply core_from_obj_inv in H as (p' & u & pl & c0 & E & HC & HP & ->).
  injection E as <- ->. apply core_init_inv in HC as (pd & ud & _ & _ & _ & _ & HR & _ & _ & _ & _ & HT).
  cbn in *. split; assumption.
Qed.

End WithCrypto.

Lemma mapM_cons_ok : forall A B (f : A -> result B) x l m, mapM f (x :: l) = Ok m ->
  exists y ys, f x = Ok y /\ mapM f l = Ok ys /\ m = y :: ys.
Proof.
  intros A B f x l m H. cbn [mapM] in H. apply bind_ok in H as (y & HY & H). apply bind_ok in H as (ys & HYS & H).
  injection H as <-. eauto.
Qed.

(** What is sent starts with the protected bytes. *)
Lemma emit_protected : forall c t tag p items b, emit c t tag (VBytes p :: items) = Ok b ->
  exists l, b = maybe_tag tag t (rfc_array (rfc_bstr p :: l)).
Proof.
  intros c t tag p items b H. apply emit_layout in H as (l & HF & ->).
  inversion HF as [|v1 x1 l1 m1 H1 HF1]; subst. apply (dumps_bytes (HMsg (tstr c))) in H1. subst x1. eauto.
Qed.

Section WithCrypto2.
Variable X : crypto.

Lemma sign1_encode_protected : forall seed m tag sign d b p, sign1_encode X seed m tag sign d = Ok b ->
  phdr_encoded (s1_core m) = Ok p -> exists l, b = maybe_tag tag 18 (rfc_array (rfc_bstr p :: l)).
Proof.
  intros seed m tag sign d b p H HP. unfold sign1_encode in H. rewrite HP in H. cbn [bind] in H.
  apply bind_ok in H as (items & HI & H). destruct sign.
  - apply bind_ok in HI as (s & _ & HI). injection HI as <-. eapply emit_protected. exact H.
  - destruct (truthy (s1_sig m)); injection HI as <-; eapply emit_protected; exact H.
Qed.

Lemma sign_encode_protected : forall seed m tag d b p, sign_encode X seed m tag d = Ok b ->
  phdr_encoded (sm_core m) = Ok p -> exists l, b = maybe_tag tag 98 (rfc_array (rfc_bstr p :: l)).
Proof.
  intros seed m tag d b p H HP. unfold sign_encode in H. rewrite HP in H. cbn [bind] in H.
  apply bind_ok in H as (items & HI & H). destruct (sm_signers m).
  - injection HI as <-. eapply emit_protected. exact H.
  - apply bind_ok in HI as (vs & _ & HI). injection HI as <-. eapply emit_protected. exact H.
Qed.

Lemma enc0_encode_protected : forall c tag encrypt b p, enc0_encode X c tag encrypt = Ok b ->
  phdr_encoded c = Ok p -> exists l, b = maybe_tag tag 16 (rfc_array (rfc_bstr p :: l)).
Proof.
  intros c tag encrypt b p H HP. unfold enc0_encode in H. rewrite HP in H. cbn [bind] in H.
  apply bind_ok in H as (body & HI & H). eapply emit_protected. exact H.
Qed.

Lemma mac0_encode_protected : forall m tag mac b p, snd (mac0_encode X m tag mac) = Ok b ->
  phdr_encoded (m0_core m) = Ok p -> exists l, b = maybe_tag tag 17 (rfc_array (rfc_bstr p :: l)).
Proof.
  intros m tag mac b p H HP. unfold mac0_encode in H. rewrite HP in H. destruct mac.
  - destruct (mac0_compute_tag X m) as [m' [t|e]]; cbn [snd] in H; [|discriminate]. eapply emit_protected. exact H.
  - cbn [snd] in H. eapply emit_protected. exact H.
Qed.

Lemma encm_encode_protected : forall n m tag encrypt b p, snd (encm_encode X n m tag encrypt) = Ok b ->
  phdr_encoded (e_core m) = Ok p -> exists l, b = maybe_tag tag 96 (rfc_array (rfc_bstr p :: l)).
Proof.
  intros n m tag encrypt b p H HP. unfold encm_encode in H. rewrite HP in H.
  destruct (if encrypt then _ else _) as [[n1 m1] [body|e]]; [|discriminate].
  destruct (e_rcpts m1) as [|r rs]; [cbn [snd] in H; eapply emit_protected; exact H|].
  destruct (get_attr (e_core m1) Algorithm); [|discriminate].
  destruct (rcpts_encode X n1 (r :: rs)) as [[n2 rs'] [vs|e]]; [|discriminate].
  cbn [snd app] in H. eapply emit_protected. exact H.
Qed.

Lemma macm_encode_protected : forall n m tag mac b p, snd (macm_encode X n m tag mac) = Ok b ->
  phdr_encoded (mm_core m) = Ok p -> exists l, b = maybe_tag tag 97 (rfc_array (rfc_bstr p :: l)).
Proof.
  intros n m tag mac b p H HP. unfold macm_encode in H. rewrite HP in H.
  destruct (if mac then _ else _) as [[n1 m1] [tl|e]]; [|discriminate].
  destruct (mm_rcpts m1) as [[|r rs]|]; [cbn [snd app] in H; eapply emit_protected; exact H| |discriminate].
  destruct (get_attr (mm_core m1) Algorithm); [|discriminate].
  destruct (rcpts_encode X n1 (r :: rs)) as [[n2 rs'] [vs|e]]; [|discriminate].
  cbn [snd app] in H. eapply emit_protected. exact H.
Qed.

Lemma decode_protected : forall e allow b t p obj m,
  loads_bytes b = Ok (VTag t (VList (VBytes p :: obj))) -> decode X e allow (VBytes b) = Ok m ->
  phdr_raw (message_core m) = Some p /\ phdr_encoded (message_core m) = Ok p /\
  protected_field (message_core m) (match phdr (message_core m) with [] => [] | _ => p end).
Proof.
  intros e allow b t p obj m HB H. apply decode_inv in H as (b' & obj' & E & HL & _ & _ & rest & HC).
  injection E as <-. rewrite HB in HL. injection HL as -> <-. apply core_from_obj_raw in HC as [HR HT].
  assert (HP : phdr_encoded (message_core m) = Ok p) by (unfold phdr_encoded; rewrite HR; reflexivity).
  split; [assumption|]. split; [assumption|]. unfold protected_field.
  destruct (phdr (message_core m)); split; intros Q; try congruence.
Qed.

Lemma decode_signers_protected : forall e allow b p u pl ss rest m,
  loads_bytes b = Ok (VTag 98 (VList (p :: u :: pl :: VList ss :: rest))) ->
  decode X e allow (VBytes b) = Ok (MSign m) ->
  Forall2 (fun r s => forall q r', r = VList (VBytes q :: r') -> phdr_raw s = Some q /\ phdr_encoded s = Ok q)
    ss (sm_signers m).
Proof.
  intros e allow b p u pl ss rest m HB H. apply decode_inv in H as (b' & obj' & E & HL & _ & HF & _).
  injection E as <-. rewrite HB in HL. injection HL as <-. cbn [message_tag] in HF.
  unfold from_cose_obj in HF. cbn [N.eqb Pos.eqb] in HF. apply bind_ok in HF as (x & HX & HF). injection HF as ->.
  unfold sign_from_obj in HX. apply bind_ok in HX as ([c r] & HC & HX).
  apply core_from_obj_inv in HC as (p' & u' & pl' & c0 & E & _). injection E as <- <- <- <-.
  apply bind_ok in HX as (l & HL & HX). cbn [py_iter] in HL. injection HL as <-.
  apply bind_ok in HX as (sg & HS & HX). injection HX as <-. cbn [sm_signers].
  apply mapM_Forall2 in HS. clear HB. induction HS as [|r s ss' sg' HRS HS IH]; constructor; [|apply IH].
  intros q r' ->. cbn [signer_from_obj] in HRS. apply bind_ok in HRS as ([c' rest'] & HC & HR). injection HR as <-.
  apply core_from_obj_raw in HC as [HR _]. split; [assumption|]. unfold phdr_encoded. rewrite HR. reflexivity.
Qed.

End WithCrypto2.

(** ** Header histories (C21) *)

Lemma hdr_step_tstr : forall c o, tstr (fst (hdr_step c o)) = tstr c.
Proof.
  intros c o. destruct o as [v|v|v|v|k v|k|k v|k]; cbn [hdr_step]; try (destruct v; reflexivity);
    try (destruct (hashable k); reflexivity).
Qed.

Lemma hdr_step_fresh : forall c o, phdr_raw c = None -> phdr_raw (fst (hdr_step c o)) = None.
Proof.
  intros c o H. destruct o as [v|v|v|v|k v|k|k v|k]; cbn [hdr_step]; try (destruct v; assumption || reflexivity);
    try (destruct (hashable k); assumption).
Qed.

Lemma hdr_run_fresh : forall l c, phdr_raw c = None -> phdr_raw (hdr_run c l) = None.
Proof.
  induction l as [|o l IH]; intros c H; [assumption|]. unfold hdr_run. cbn [fold_left]. apply IH.
  apply hdr_step_fresh. assumption.
Qed.

Lemma fresh_encoding : forall c, phdr_raw c = None -> phdr_encoded c = map_encoding c.
Proof. intros c H. unfold phdr_encoded. rewrite H. reflexivity. Qed.

Lemma hdr_step_not_in_place : forall c o, ~ in_place o ->
  phdr_raw (fst (hdr_step c o)) = None \/
  (phdr_raw (fst (hdr_step c o)) = phdr_raw c /\ phdr (fst (hdr_step c o)) = phdr c).
Proof.
  intros c o H. destruct o as [v|v|v|v|k v|k|k v|k]; cbn [hdr_step in_place] in *; try contradiction;
    try (destruct v; auto; left; reflexivity); try (destruct (hashable k); right; split; reflexivity).
Qed.

Lemma hdr_run_not_in_place : forall l c, Forall (fun o => ~ in_place o) l ->
  phdr_raw (hdr_run c l) = None \/
  (phdr_raw (hdr_run c l) = phdr_raw c /\ phdr (hdr_run c l) = phdr c /\ tstr (hdr_run c l) = tstr c).
Proof.
  induction l as [|o l IH]; intros c HF; [right; auto|]. inversion HF as [|? ? Ho HF']; subst.
  unfold hdr_run. cbn [fold_left]. fold (hdr_run (fst (hdr_step c o)) l).
  destruct (hdr_step_not_in_place c o Ho) as [HN|[HR HP]].
  - left. apply hdr_run_fresh. assumption.
  - destruct (IH (fst (hdr_step c o)) HF') as [H|[H1 [H2 H3]]]; [left; assumption|].
    right. rewrite H1, H2, H3, HR, HP, hdr_step_tstr. auto.
Qed.

(** ** Authorised keys (C32) *)

Lemma key_verify_authorised : forall c k types op alg kc u,
  ops_listed c -> ckey c = Some k -> get_attr c Algorithm = Ok alg -> (exists a, alg = VClass a) ->
  In kc types -> key_verify k kc alg [VClass op] = Ok u -> authorised c types op.
Proof.
  intros c k types op alg kc u HL HK HA (a & ->) HT HV.
  destruct (key_verify_cases k kc a [op]) as [[H1 _] _].
  { intros v Hv. exact (HL k v HK Hv). }
  cbn [map] in H1. destruct u. destruct (H1 HV) as (HT1 & HA1 & HO1).
  exists k, a. split; [assumption|]. split; [assumption|]. split; [rewrite HT1; assumption|]. split; assumption.
Qed.

Lemma alg_kind_class : forall alg k, alg_kind alg = Some k -> exists a, alg = VClass a.
Proof. intros alg k H. destruct alg; try discriminate. eauto. Qed.

Lemma has_sign_class : forall alg u, has_sign alg = Ok u -> exists a, alg = VClass a.
Proof.
  intros alg u H. unfold has_sign in H. destruct (alg_kind alg) as [k|] eqn:E; [|discriminate].
  eapply alg_kind_class; eassumption.
Qed.
Lemma has_mac_class : forall alg u, has_mac alg = Ok u -> exists a, alg = VClass a.
Proof.
  intros alg u H. unfold has_mac in H. destruct (alg_kind alg) as [k|] eqn:E; [|discriminate].
  eapply alg_kind_class; eassumption.
Qed.
Lemma has_enc_class : forall alg u, has_enc alg = Ok u -> exists a, alg = VClass a.
Proof.
  intros alg u H. unfold has_enc in H. destruct (alg_kind alg) as [k|] eqn:E; [|discriminate].
  eapply alg_kind_class; eassumption.
Qed.

Lemma same_failure_err : forall A e, same_failure (@Err A e) (Err e).
Proof. intros A e. split; [reflexivity|eauto]. Qed.

Lemma same_failure_bind : forall A B (r r' : result A) (k : A -> result B),
  same_failure r r' -> same_failure (bind r k) (bind r' k).
Proof. intros A B r r' k [<- [e ->]]. apply same_failure_err. Qed.

Definition asymmetric : list kclass := [KEC2; KOKP; KRSA].

Lemma key_verification_authorised : forall c alg op k u,
  ops_listed c -> get_attr c Algorithm = Ok alg -> has_sign alg = Ok u ->
  key_verification c alg (VClass op) = Ok k -> authorised c asymmetric op.
Proof.
  intros c alg op k u HL HA HS H. unfold key_verification in H. destruct (ckey c) as [k'|] eqn:HK; [|discriminate].
  destruct (k_cls k') eqn:HC; try discriminate; apply bind_ok in H as (w & HV & _);
    (eapply key_verify_authorised; [exact HL|exact HK|exact HA|eapply has_sign_class; exact HS| |exact HV]);
    unfold asymmetric; cbn [In]; auto.
Qed.

Lemma compute_signature_unauthorised : forall X X' seed c st, ops_listed c ->
  ~ authorised c asymmetric (Cls FOps 1) ->
  same_failure (compute_signature X seed c st) (compute_signature X' seed c st).
Proof.
  intros X X' seed c st HL HN. unfold compute_signature.
  destruct (get_attr c Algorithm) as [alg|e] eqn:HA; [|apply same_failure_err]. cbn [bind].
  destruct (key_verification c alg SignOp) as [k|e] eqn:HK; [|apply same_failure_err]. cbn [bind].
  destruct (has_sign alg) as [u|e] eqn:HS; [|apply same_failure_err].
  elim HN. eapply key_verification_authorised; eassumption.
Qed.

Lemma verify_signature_unauthorised : forall X X' c st sig, ops_listed c ->
  ~ authorised c asymmetric (Cls FOps 2) ->
  same_failure (verify_signature X c st sig) (verify_signature X' c st sig).
Proof.
  intros X X' c st sig HL HN. unfold verify_signature.
  destruct (get_attr c Algorithm) as [alg|e] eqn:HA; [|apply same_failure_err]. cbn [bind].
  destruct (key_verification c alg VerifyOp) as [k|e] eqn:HK; [|apply same_failure_err]. cbn [bind].
  destruct (has_sign alg) as [u|e] eqn:HS; [|apply same_failure_err].
  elim HN. eapply key_verification_authorised; eassumption.
Qed.

Lemma sign1_encode_unauthorised : forall X X' seed m tag d, ops_listed (s1_core m) ->
  ~ authorised (s1_core m) asymmetric (Cls FOps 1) ->
  same_failure (sign1_encode X seed m tag true d) (sign1_encode X' seed m tag true d).
Proof.
  intros X X' seed m tag d HL HN. unfold sign1_encode.
  destruct (phdr_encoded (s1_core m)) as [p|e]; [|apply same_failure_err]. cbn [bind].
  apply same_failure_bind. apply same_failure_bind. apply compute_signature_unauthorised; assumption.
Qed.

Lemma signer_encode_unauthorised : forall X X' seed parent s d, ops_listed s ->
  ~ authorised s asymmetric (Cls FOps 1) ->
  same_failure (signer_encode X seed parent s d) (signer_encode X' seed parent s d).
Proof.
  intros X X' seed parent s d HL HN. unfold signer_encode.
  destruct (phdr_encoded s) as [p|e]; [|apply same_failure_err]. cbn [bind].
  apply same_failure_bind. apply compute_signature_unauthorised; assumption.
Qed.

Lemma enc_encrypt_unauthorised : forall X X' ctx c, ops_listed c -> ~ authorised c [KSym] (Cls FOps 3) ->
  same_failure (enc_encrypt X ctx c) (enc_encrypt X' ctx c).
Proof.
  intros X X' ctx c HL HN. unfold enc_encrypt.
  destruct (ckey c) as [k|] eqn:HK; [|apply same_failure_err].
  destruct (get_attr c Algorithm) as [alg|e] eqn:HA; [|apply same_failure_err]. cbn [bind].
  destruct (get_nonce c) as [nonce|e]; [|apply same_failure_err]. cbn [bind].
  destruct (key_verify k KSym alg [EncryptOp]) as [u|e] eqn:HV; [|apply same_failure_err]. cbn [bind].
  destruct (has_enc alg) as [w|e] eqn:HS; [|apply same_failure_err].
  elim HN. eapply key_verify_authorised; try eassumption; [eapply has_enc_class; exact HS|left; reflexivity].
Qed.

Lemma enc_decrypt_unauthorised : forall X X' ctx c, ops_listed c -> ~ authorised c [KSym] (Cls FOps 4) ->
  same_failure (enc_decrypt X ctx c) (enc_decrypt X' ctx c).
Proof.
  intros X X' ctx c HL HN. unfold enc_decrypt.
  destruct (get_attr c Algorithm) as [alg|e] eqn:HA; [|apply same_failure_err]. cbn [bind].
  destruct (get_nonce c) as [nonce|e]; [|apply same_failure_err]. cbn [bind].
  destruct (ckey c) as [k|] eqn:HK; [|apply same_failure_err].
  destruct (key_verify k KSym alg [DecryptOp]) as [u|e] eqn:HV; [|apply same_failure_err]. cbn [bind].
  destruct (has_enc alg) as [w|e] eqn:HS; [|apply same_failure_err].
  elim HN. eapply key_verify_authorised; try eassumption; [eapply has_enc_class; exact HS|left; reflexivity].
Qed.

Lemma mac_compute_unauthorised : forall X X' ctx c, ops_listed c -> ~ authorised c [KSym] (Cls FOps 9) ->
  same_failure (mac_compute X ctx c) (mac_compute X' ctx c).
Proof.
  intros X X' ctx c HL HN. unfold mac_compute.
  destruct (get_attr c Algorithm) as [alg|e] eqn:HA; [|apply same_failure_err]. cbn [bind].
  destruct (ckey c) as [k|] eqn:HK; [|apply same_failure_err].
  destruct (key_verify k KSym alg [MacCreateOp]) as [u|e] eqn:HV; [|apply same_failure_err]. cbn [bind].
  destruct (has_mac alg) as [w|e] eqn:HS; [|apply same_failure_err].
  elim HN. eapply key_verify_authorised; try eassumption; [eapply has_mac_class; exact HS|left; reflexivity].
Qed.

Lemma mac_verify_unauthorised : forall X X' ctx c t, ops_listed c -> ~ authorised c [KSym] (Cls FOps 10) ->
  same_failure (mac_verify X ctx c t) (mac_verify X' ctx c t).
Proof.
  intros X X' ctx c t HL HN. unfold mac_verify.
  destruct (get_attr c Algorithm) as [alg|e] eqn:HA; [|apply same_failure_err]. cbn [bind].
  destruct (ckey c) as [k|] eqn:HK; [|apply same_failure_err].
  destruct (key_verify k KSym alg [MacVerifyOp]) as [u|e] eqn:HV; [|apply same_failure_err]. cbn [bind].
  destruct (has_mac alg) as [w|e] eqn:HS; [|apply same_failure_err].
  elim HN. eapply key_verify_authorised; try eassumption; [eapply has_mac_class; exact HS|left; reflexivity].
Qed.

(** ** Trailing bytes (C23) *)

Lemma loads_bytes_ext : forall b v s, loads_bytes b = Ok v -> loads_bytes (b ++ s) = Ok v.
Proof.
  intros b v s H. unfold loads_bytes in *. apply bind_ok in H as ([c r] & HD & H).
  rewrite (decode_item_ext _ _ _ s HD). exact H.
Qed.

Lemma decode_ext : forall X e allow b m s, decode X e allow (VBytes b) = Ok m ->
  decode X e allow (VBytes (b ++ s)) = Ok m.
Proof.
  intros X e allow b m s H. unfold decode in *. cbn [loads] in *.
  destruct (loads_bytes b) as [v|x] eqn:E; [|discriminate]. rewrite (loads_bytes_ext _ _ s E). exact H.
Qed.

Lemma decode_one_item : forall X e allow b m, decode X e allow (VBytes b) = Ok m ->
  exists c q rest, b = q ++ rest /\ decode_item q = Ok (c, []) /\ decode X e allow (VBytes q) = Ok m.
Proof.
  intros X e allow b m H. unfold decode in *. cbn [loads] in *.
  destruct (loads_bytes b) as [v|x] eqn:E; [|discriminate]. unfold loads_bytes in E.
  apply bind_ok in E as ([c r] & HD & E). destruct (decode_item_split _ _ _ HD) as (q & -> & _ & HQ).
  exists c, q, r. split; [reflexivity|]. specialize (HQ []). rewrite app_nil_r in HQ. split; [assumption|].
  unfold loads_bytes. rewrite HQ. cbn [bind]. rewrite E. exact H.
Qed.
