(** Round trip between Python values and CBOR data items. *)
From Coq Require Import NArith ZArith Bool Lia.
From Coq Require Import Init.Byte List.
From Verif Require Import Bytes BytesProofs Value ValueProofs Cbor CborProofs SpecData.
Import ListNotations.
Local Open Scope N_scope.
Local Open Scope result_scope.

Lemma dmem_existsb : forall d k, dmem d k = existsb (fun kv => keyeq k (fst kv)) d.
Proof.
  induction d as [|[k0 v0] d IH]; intros k; cbn [existsb fst]; [reflexivity|].
  unfold dmem in *. cbn [dget]. destruct (keyeq k k0); [reflexivity|]. apply IH.
Qed.

Lemma distinct_keys_dnodup : forall d, distinct_keys d = dnodup d.
Proof.
  induction d as [|[k0 v0] d IH]; [reflexivity|]. cbn [distinct_keys dnodup].
  rewrite dmem_existsb, IH. reflexivity.
Qed.

Lemma nan_pattern_is_nan : forall b, nan_pattern b = is_nan b.
Proof.
  intros b. unfold nan_pattern, is_nan.
  rewrite N.land_ones. rewrite N.shiftr_div_pow2.
  change 2047 with (N.ones 11) at 2. rewrite N.land_ones. reflexivity.
Qed.

Lemma reserved_tag_false : forall t, reserved_tag t = false ->
  (t =? 2) = false /\ (t =? 3) = false /\ (t =? 55799) = false /\ is_special_tag t = false.
Proof.
  intros t H. unfold reserved_tag in H. unfold is_special_tag, special_tags.
  cbn [existsb] in *. repeat rewrite orb_false_iff in *. intuition.
Qed.

Lemma lift_lower_int : forall imm z, lift imm (lower_int z) = Ok (VInt z).
Proof.
  intros imm z. unfold lower_int.
  destruct z as [|p|p].
  - reflexivity.
  - destruct (Z.to_N (Z.pos p) <? two64) eqn:E; cbn [lift mapM bind].
    + rewrite Z2N.id by lia. reflexivity.
    + cbn [N.eqb Pos.eqb]. rewrite of_be_min_be. rewrite Z2N.id by lia. reflexivity.
  - destruct (Z.to_N (-1 - Z.neg p) <? two64) eqn:E; cbn [lift mapM bind].
    + rewrite Z2N.id by lia. f_equal. f_equal. lia.
    + cbn [N.eqb Pos.eqb]. rewrite of_be_min_be. rewrite Z2N.id by lia.
      f_equal. f_equal. lia.
Qed.

Lemma lift_lower_float : forall imm f, data_value imm (VFloat f) = true ->
  lift imm (lower_float f) = Ok (VFloat f).
Proof.
  intros imm f H. cbn [data_value] in H. unfold lower_float.
  rewrite nan_pattern_is_nan in H. destruct (is_nan f) eqn:E.
  - cbn [negb orb] in H. apply N.eqb_eq in H. subst f. reflexivity.
  - destruct (f =? f64_inf) eqn:E1; [apply N.eqb_eq in E1; subst f; reflexivity|].
    destruct (f =? f64_ninf) eqn:E2; [apply N.eqb_eq in E2; subst f; reflexivity|].
    reflexivity.
Qed.

Section WithNames.
Variable fullname : cls -> bytes.

(** Entries of a dictionary, as in the local [lower_pairs] of [lower]. *)
Definition lower_pair (h : hook) (kv : pyval * pyval) : result (cbor * cbor) :=
  match kv with (k, x) => k' <- lower fullname h k ;; x' <- lower fullname h x ;; Ok (k', x') end.

Lemma lower_pairs_mapM : forall h d,
  (fix lower_pairs (d : list (pyval * pyval)) : result (list (cbor * cbor)) :=
      match d with
      | [] => Ok []
      | (k, x) :: r =>
        k' <- lower fullname h k ;; x' <- lower fullname h x ;; r' <- lower_pairs r ;; Ok ((k', x') :: r')
      end) d = mapM (lower_pair h) d.
Proof.
  induction d as [|[k x] d IH]; [reflexivity|]. cbn [mapM lower_pair]. rewrite IH.
  destruct (lower fullname h k); cbn [bind]; [|reflexivity].
  destruct (lower fullname h x); cbn [bind]; [|reflexivity].
  reflexivity.
Qed.

Lemma lower_dict : forall h d,
  lower fullname h (VDict d) = (cs <- mapM (lower_pair h) d ;; Ok (CMap cs)).
Proof. intros h d. rewrite <- lower_pairs_mapM. reflexivity. Qed.

Definition lift_pair (imm : bool) (kv : cbor * cbor) : result (pyval * pyval) :=
  match kv with (k, v) => k' <- lift true k ;; v' <- lift imm v ;; Ok (k', v') end.

Lemma lift_map : forall imm l,
  lift imm (CMap l) = (kvs <- mapM (lift_pair imm) l ;; Ok (VDict (dict_of_pairs kvs))).
Proof. reflexivity. Qed.

Lemma lift_lower : forall v h imm c,
  data_value imm v = true -> lower fullname h v = Ok c -> lift imm c = Ok v.
Proof.
  induction v as [|b|z|f|n| | |b|b|l HF|l HF|d HF|t v IH|t v IH|c|k s e HS HE] using pyval_ind';
    intros h imm c0 HP HL; try discriminate HP.
  - injection HL as <-. reflexivity.
  - injection HL as <-. destruct b; reflexivity.
  - injection HL as <-. apply lift_lower_int.
  - injection HL as <-. apply lift_lower_float. assumption.
  - injection HL as <-. reflexivity.
  - injection HL as <-. reflexivity.
  - injection HL as <-. reflexivity.
  - injection HL as <-. reflexivity.
  - cbn [lower] in HL. apply bind_ok in HL as (cs & HL & E). injection E as <-.
    cbn [data_value] in HP. apply andb_true_iff in HP as [HI HP].
    destruct imm; [discriminate|]. cbn [lift].
    assert (HX : mapM (lift false) cs = Ok l).
    { apply mapM_Forall2. apply mapM_Forall2 in HL. clear HI.
      revert HF HP. induction HL as [|x y l' cs' Hxy HL IHl]; intros HF HP; [constructor|].
      inversion HF as [|? ? Hx Hl']; subst. cbn [forallb] in HP. apply andb_true_iff in HP as [HP1 HP2].
      constructor; [eapply Hx; eassumption|]. apply IHl; assumption. }
    rewrite HX. reflexivity.
  - cbn [lower] in HL. apply bind_ok in HL as (cs & HL & E). injection E as <-.
    cbn [data_value] in HP. apply andb_true_iff in HP as [HI HP].
    destruct imm; [|discriminate]. cbn [lift].
    assert (HX : mapM (lift true) cs = Ok l).
    { apply mapM_Forall2. apply mapM_Forall2 in HL. clear HI.
      revert HF HP. induction HL as [|x y l' cs' Hxy HL IHl]; intros HF HP; [constructor|].
      inversion HF as [|? ? Hx Hl']; subst. cbn [forallb] in HP. apply andb_true_iff in HP as [HP1 HP2].
      constructor; [eapply Hx; eassumption|]. apply IHl; assumption. }
    rewrite HX. reflexivity.
  - rewrite lower_dict in HL. apply bind_ok in HL as (cs & HL & E). injection E as <-.
    cbn [data_value] in HP. apply andb_true_iff in HP as [HI HP].
    rewrite lift_map.
    assert (HX : mapM (lift_pair imm) cs = Ok d).
    { apply mapM_Forall2. apply mapM_Forall2 in HL. clear HI.
      revert HF HP. induction HL as [|[k x] [k' x'] l' cs' Hxy HL IHl]; intros HF HP; [constructor|].
      inversion HF as [|? ? Hx Hl']; subst. destruct Hx as [Hk Hx]. cbn [fst snd] in *.
      cbn [forallb] in HP. apply andb_true_iff in HP as [HP1 HP2].
      apply andb_true_iff in HP1 as [HPk HPx].
      cbn [lower_pair] in Hxy. apply bind_ok in Hxy as (k1 & Ek & Hxy).
      apply bind_ok in Hxy as (x1 & Ex & Hxy). injection Hxy as -> ->.
      constructor; [|apply IHl; assumption].
      cbn [lift_pair]. rewrite (Hk _ _ _ HPk Ek). cbn [bind]. rewrite (Hx _ _ _ HPx Ex). reflexivity. }
    rewrite HX. cbn [bind]. rewrite distinct_keys_dnodup in HI.
    rewrite dict_of_pairs_nodup by assumption. reflexivity.
  - cbn [lower] in HL. apply bind_ok in HL as (c & HL & E). injection E as <-.
    cbn [data_value] in HP. apply andb_true_iff in HP as [HT HP]. apply negb_true_iff in HT.
    destruct (reserved_tag_false t HT) as (H2 & H3 & H5 & HS).
    cbn [lift]. rewrite (IH _ _ _ HP HL). cbn [bind]. rewrite H2, H3, H5, HS. reflexivity.
Qed.

(** Data values can always be lowered, whatever the hook. *)
Lemma lower_data : forall v imm, data_value imm v = true ->
  exists c, forall h, lower fullname h v = Ok c.
Proof.
  induction v as [|b|z|f|n| | |b|b|l HF|l HF|d HF|t v IH|t v IH|c|k s e HS HE] using pyval_ind';
    intros imm HP; try discriminate HP; try (eexists; intros h; reflexivity).
  - cbn [data_value] in HP. apply andb_true_iff in HP as [HI HP].
    assert (HX : exists cs, forall h, mapM (lower fullname h) l = Ok cs).
    { clear HI. induction HF as [|x l Hx HF IHl]; [exists []; reflexivity|].
      cbn [forallb] in HP. apply andb_true_iff in HP as [HP1 HP2].
      destruct (Hx _ HP1) as (c & Hc). destruct (IHl HP2) as (cs & Hcs).
      exists (c :: cs). intros h. cbn [mapM]. rewrite Hc, Hcs. reflexivity. }
    destruct HX as (cs & Hcs). exists (CArr cs). intros h. cbn [lower]. rewrite Hcs. reflexivity.
  - cbn [data_value] in HP. apply andb_true_iff in HP as [HI HP].
    assert (HX : exists cs, forall h, mapM (lower fullname h) l = Ok cs).
    { clear HI. induction HF as [|x l Hx HF IHl]; [exists []; reflexivity|].
      cbn [forallb] in HP. apply andb_true_iff in HP as [HP1 HP2].
      destruct (Hx _ HP1) as (c & Hc). destruct (IHl HP2) as (cs & Hcs).
      exists (c :: cs). intros h. cbn [mapM]. rewrite Hc, Hcs. reflexivity. }
    destruct HX as (cs & Hcs). exists (CArr cs). intros h. cbn [lower]. rewrite Hcs. reflexivity.
  - cbn [data_value] in HP. apply andb_true_iff in HP as [HI HP].
    assert (HX : exists cs, forall h, mapM (lower_pair h) d = Ok cs).
    { clear HI. induction HF as [|[k x] l Hx HF IHl]; [exists []; reflexivity|].
      cbn [forallb] in HP. apply andb_true_iff in HP as [HP1 HP2].
      apply andb_true_iff in HP1 as [HPk HPx]. destruct Hx as [Hk Hx]. cbn [fst snd] in *.
      destruct (Hk _ HPk) as (ck & Hck). destruct (Hx _ HPx) as (cx & Hcx).
      destruct (IHl HP2) as (cs & Hcs).
      exists ((ck, cx) :: cs). intros h. cbn [mapM lower_pair]. rewrite Hck, Hcx, Hcs. reflexivity. }
    destruct HX as (cs & Hcs). exists (CMap cs). intros h. rewrite lower_dict, Hcs. reflexivity.
  - cbn [data_value] in HP. apply andb_true_iff in HP as [HT HP].
    destruct (IH _ HP) as (c & Hc). exists (CTag t c). intros h. cbn [lower]. rewrite Hc. reflexivity.
Qed.

(** ** [dumps] and [loads] *)

Lemma dumps_ok : forall h v b, dumps fullname h v = Ok b ->
  exists c, lower fullname h v = Ok c /\ wfc c = true /\ b = enc c.
Proof.
  intros h v b H. unfold dumps in H. apply bind_ok in H as (c & HL & H).
  destruct (wfc c) eqn:E; [|discriminate]. injection H as <-. exists c. auto.
Qed.

Theorem loads_dumps : forall h v b rest, data_value false v = true -> dumps fullname h v = Ok b ->
  exists c, decode_item (b ++ rest) = Ok (c, rest) /\ lift false c = Ok v.
Proof.
  intros h v b rest HP H. destruct (dumps_ok _ _ _ H) as (c & HL & HW & ->).
  exists c. split; [apply decode_item_enc; assumption|]. eapply lift_lower; eassumption.
Qed.

Corollary loads_bytes_dumps : forall h v b rest, data_value false v = true ->
  dumps fullname h v = Ok b -> loads_bytes (b ++ rest) = Ok v.
Proof.
  intros h v b rest HP H. destruct (loads_dumps h v b rest HP H) as (c & HD & HL).
  unfold loads_bytes. rewrite HD. cbn [bind]. assumption.
Qed.

(** ** Wire form: what the receiver of [dumps h v] sees *)

(** [v] with attribute classes replaced by what is put on the wire, and keys by
    their map. *)
Fixpoint wire (h : hook) (v : pyval) : pyval :=
  let wire_pairs := fix wire_pairs (d : list (pyval * pyval)) : list (pyval * pyval) :=
    match d with [] => [] | (k, x) :: r => (wire h k, wire h x) :: wire_pairs r end in
  let wire_store := fix wire_store (d : list (pyval * pyval)) : list (pyval * pyval) :=
    match d with
    | [] => []
    | (k, x) :: r =>
      if keyeq kp_key_ops k then
        match py_len x with
        | Ok O => wire_pairs r
        | _ => (wire h k, wire h x) :: wire_pairs r
        end
      else (wire h k, wire h x) :: wire_store r
    end in
  match v with
  | VList l => VList (map (wire h) l)
  | VTuple l => VTuple (map (wire h) l)
  | VDict d => VDict (wire_pairs d)
  | VTag t x => VTag t (wire h x)
  | VOther t x => VTag t (wire h x)
  | VClass c =>
    match h with
    | HMsg true => if fam_eq_dec (c_fam c) FAlg then VStr (fullname c) else VInt (c_id c)
    | _ => VInt (c_id c)
    end
  | VKey _ store _ => VDict (wire_store store)
  | _ => v
  end.

Definition wire_pair (h : hook) (kv : pyval * pyval) : pyval * pyval :=
  (wire h (fst kv), wire h (snd kv)).

Lemma wire_dict : forall h d, wire h (VDict d) = VDict (map (wire_pair h) d).
Proof.
  intros h d. cbn [wire]. f_equal. induction d as [|[k x] d IH]; [reflexivity|].
  cbn [map]. rewrite IH. reflexivity.
Qed.

(** The entries of a key that are sent. *)
Fixpoint sent_entries (d : dict) : dict :=
  match d with
  | [] => []
  | (k, x) :: r =>
    if keyeq kp_key_ops k then
      match py_len x with Ok O => r | _ => (k, x) :: r end
    else (k, x) :: sent_entries r
  end.

Lemma wire_key : forall h k s e, wire h (VKey k s e) = VDict (map (wire_pair h) (sent_entries s)).
Proof.
  intros h k s e. cbn [wire]. f_equal. induction s as [|[a x] s IH]; [reflexivity|].
  cbn [sent_entries].
  assert (HP : forall d, (fix wire_pairs (d : list (pyval * pyval)) : list (pyval * pyval) :=
    match d with [] => [] | (k, x) :: r => (wire h k, wire h x) :: wire_pairs r end) d = map (wire_pair h) d).
  { induction d as [|[k0 x0] d IHd]; [reflexivity|]. cbn [map]. rewrite IHd. reflexivity. }
  destruct (keyeq kp_key_ops a).
  - destruct (py_len x) as [[|n]|]; cbn [map]; rewrite ?HP; reflexivity.
  - cbn [map]. rewrite IH. reflexivity.
Qed.

Lemma lower_key : forall t k s e c, lower fullname (HMsg t) (VKey k s e) = Ok c ->
  exists cs, mapM (lower_pair (HMsg t)) (sent_entries s) = Ok cs /\ c = CMap cs.
Proof.
  intros t k s e c H. cbn [lower] in H. apply bind_ok in H as (cs & H & E). injection E as <-.
  exists cs. split; [|reflexivity]. revert cs H.
  induction s as [|[a x] s IH]; intros cs H; [injection H as <-; reflexivity|].
  cbn [sent_entries]. destruct (keyeq kp_key_ops a) eqn:Ek.
  - apply bind_ok in H as (n & En & H). rewrite En.
    destruct n as [|n]; cbn [Nat.eqb] in H.
    + rewrite lower_pairs_mapM in H. assumption.
    + apply bind_ok in H as (k' & E1 & H). apply bind_ok in H as (x' & E2 & H).
      apply bind_ok in H as (r' & E3 & H). injection H as <-. rewrite lower_pairs_mapM in E3.
      cbn [mapM lower_pair]. rewrite E1, E2. cbn [bind]. rewrite E3. reflexivity.
  - apply bind_ok in H as (k' & E1 & H). apply bind_ok in H as (x' & E2 & H).
    apply bind_ok in H as (r' & E3 & H). injection H as <-.
    cbn [mapM lower_pair]. rewrite E1, E2. cbn [bind]. rewrite (IH _ E3). reflexivity.
Qed.

Lemma Forall_sent : forall (Q : pyval * pyval -> Prop) d, Forall Q d -> Forall Q (sent_entries d).
Proof.
  intros Q d H. induction H as [|[a x] d Hx H IH]; [constructor|]. cbn [sent_entries].
  destruct (keyeq kp_key_ops a).
  - destruct (py_len x) as [[|n]|]; try assumption; constructor; assumption.
  - constructor; assumption.
Qed.

Lemma lower_wire : forall v h c, lower fullname h v = Ok c -> lower fullname HNone (wire h v) = Ok c.
Proof.
  induction v as [|b|z|f|n| | |b|b|l HF|l HF|d HF|t v IH|t v IH|c|k s e HS HE] using pyval_ind';
    intros h c0 HL; try exact HL.
  - cbn [lower wire] in *. apply bind_ok in HL as (cs & HL & E). injection E as <-.
    replace (mapM (lower fullname HNone) (map (wire h) l)) with (@Ok (list cbor) cs); [reflexivity|].
    symmetry. apply mapM_Forall2. apply mapM_Forall2 in HL. revert HF.
    induction HL as [|x y l' cs' Hxy HL IHl]; intros HF; [constructor|].
    inversion HF as [|? ? Hx Hl']; subst. constructor; auto.
  - cbn [lower wire] in *. apply bind_ok in HL as (cs & HL & E). injection E as <-.
    replace (mapM (lower fullname HNone) (map (wire h) l)) with (@Ok (list cbor) cs); [reflexivity|].
    symmetry. apply mapM_Forall2. apply mapM_Forall2 in HL. revert HF.
    induction HL as [|x y l' cs' Hxy HL IHl]; intros HF; [constructor|].
    inversion HF as [|? ? Hx Hl']; subst. constructor; auto.
  - rewrite wire_dict. rewrite lower_dict in *. apply bind_ok in HL as (cs & HL & E). injection E as <-.
    replace (mapM (lower_pair HNone) (map (wire_pair h) d)) with (@Ok (list (cbor * cbor)) cs); [reflexivity|].
    symmetry. apply mapM_Forall2. apply mapM_Forall2 in HL. revert HF.
    induction HL as [|[k x] [k' x'] l' cs' Hxy HL IHl]; intros HF; [constructor|].
    inversion HF as [|? ? Hx Hl']; subst. destruct Hx as [Hk Hx].
    cbn [map]. constructor; [|auto]. cbn [wire_pair fst snd lower_pair] in *.
    apply bind_ok in Hxy as (k1 & E1 & Hxy). apply bind_ok in Hxy as (x1 & E2 & Hxy).
    injection Hxy as -> ->. rewrite (Hk _ _ E1). cbn [bind]. rewrite (Hx _ _ E2). reflexivity.
  - cbn [lower wire] in *. apply bind_ok in HL as (c & HL & E). injection E as <-.
    rewrite (IH _ _ HL). reflexivity.
  - cbn [lower wire] in *. apply bind_ok in HL as (c & HL & E). injection E as <-.
    rewrite (IH _ _ HL). reflexivity.
  - cbn [lower] in HL. destruct h as [| |tstr]; cbn [lower_class] in HL; [discriminate|exact HL|].
    cbn [wire]. destruct tstr.
    + rewrite andb_true_r in HL. destruct (fam_eq_dec (c_fam c) FAlg); exact HL.
    + rewrite andb_false_r in HL. exact HL.
  - destruct h as [| |tstr]; try discriminate HL. rewrite wire_key, lower_dict.
    destruct (lower_key _ _ _ _ _ HL) as (cs & HC & ->).
    replace (mapM (lower_pair HNone) (map (wire_pair (HMsg tstr)) (sent_entries s)))
      with (@Ok (list (cbor * cbor)) cs); [reflexivity|].
    symmetry. apply mapM_Forall2. apply mapM_Forall2 in HC.
    pose proof (Forall_sent _ _ HS) as HF. clear HL. revert HF.
    induction HC as [|[k0 x] [k' x'] l' cs' Hxy HC IHl]; intros HF; [constructor|].
    inversion HF as [|? ? Hx Hl']; subst. destruct Hx as [Hk Hx].
    cbn [map]. constructor; [|auto]. cbn [wire_pair fst snd lower_pair] in *.
    apply bind_ok in Hxy as (k1 & E1 & Hxy). apply bind_ok in Hxy as (x1 & E2 & Hxy).
    injection Hxy as -> ->. rewrite (Hk _ _ E1). cbn [bind]. rewrite (Hx _ _ E2). reflexivity.
Qed.

Lemma dumps_wire : forall h v b, dumps fullname h v = Ok b -> dumps fullname HNone (wire h v) = Ok b.
Proof.
  intros h v b H. destruct (dumps_ok _ _ _ H) as (c & HL & HW & ->).
  unfold dumps. rewrite (lower_wire _ _ _ HL). cbn [bind]. rewrite HW. reflexivity.
Qed.

Lemma loads_dumps_wire : forall h v b rest, data_value false (wire h v) = true ->
  dumps fullname h v = Ok b -> loads_bytes (b ++ rest) = Ok (wire h v).
Proof.
  intros h v b rest HP H. eapply loads_bytes_dumps; [eassumption|]. apply dumps_wire. eassumption.
Qed.

(** Equal serialisations have equal wire items. *)
Lemma dumps_inj_items : forall h h' v w b, dumps fullname h v = Ok b -> dumps fullname h' w = Ok b ->
  exists c, lower fullname h v = Ok c /\ lower fullname h' w = Ok c.
Proof.
  intros h h' v w b H1 H2.
  destruct (dumps_ok _ _ _ H1) as (c1 & HL1 & HW1 & ->).
  destruct (dumps_ok _ _ _ H2) as (c2 & HL2 & HW2 & E).
  apply enc_inj in E; [|assumption|assumption]. subst c2. eauto.
Qed.

Theorem dumps_prefix_free : forall h h' v w bv bw rv rw,
  data_value false v = true -> data_value false w = true ->
  dumps fullname h v = Ok bv -> dumps fullname h' w = Ok bw -> bv ++ rv = bw ++ rw -> v = w /\ rv = rw.
Proof.
  intros h h' v w bv bw rv rw HPv HPw Hv Hw E.
  destruct (loads_dumps h v bv rv HPv Hv) as (c1 & HD1 & HL1).
  destruct (loads_dumps h' w bw rw HPw Hw) as (c2 & HD2 & HL2).
  rewrite E in HD1. rewrite HD1 in HD2. injection HD2 as <- <-.
  rewrite HL1 in HL2. injection HL2 as <-. auto.
Qed.
End WithNames.
