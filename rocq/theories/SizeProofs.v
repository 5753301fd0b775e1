(** Proofs for C109. *)
From Coq Require Import NArith ZArith Bool String Lia.
From Coq Require Import Init.Byte List.
From Verif Require Import Bytes BytesProofs Value ValueProofs Cbor CborProofs SpecData DataProofs Registry RegistryProofs WireProofs CheckProofs CheckProofs2 StructProofs SpecSize.
Import ListNotations.
Local Open Scope result_scope.

Lemma fits_len : forall A (l : list A), fits l = true -> N.ltb (N.of_nat (length l)) max_len = true.
Proof. intros A l H. rewrite max_len_pow. exact H. Qed.

Lemma small_bytes : forall n, (N.log2 n < 2 ^ 63)%N -> N.ltb (N.of_nat (length (min_be n))) max_len = true.
Proof.
  intros n H. rewrite min_be_length, max_len_pow. unfold byte_len. rewrite N2Nat.id. apply N.ltb_lt.
  assert (HS : (N.size n <= N.log2 n + 1)%N) by (destruct n; [cbn; lia|rewrite N.size_log2 by discriminate; lia]).
  apply N.div_lt_upper_bound; [discriminate|]. revert H HS. generalize (N.size n) (N.log2 n). intros a b H HS.
  apply N.le_lt_trans with (b + 8)%N; [lia|]. change (8 * 2 ^ 63)%N with (2 ^ 63 * 8)%N. lia.
Qed.

Lemma int_wfc : forall z, (N.log2 (Z.abs_N z) < 2 ^ 63)%N -> wfc (lower_int z) = true.
Proof.
  intros z H. unfold lower_int.
  assert (HT : forall n, (N.log2 n < 2 ^ 63)%N -> forall t, N.ltb t two64 = true -> wfc (CTag t (CBytes (min_be n))) = true).
  { intros n HN t Ht. cbn [wfc]. rewrite Ht. apply small_bytes. exact HN. }
  destruct z as [|p|p].
  - reflexivity.
  - destruct (N.ltb (Z.to_N (Z.pos p)) two64) eqn:E; [exact E|]. apply HT; [exact H|reflexivity].
  - destruct (N.ltb (Z.to_N (-1 - Z.neg p)) two64) eqn:E; [exact E|]. apply HT; [|reflexivity].
    eapply N.le_lt_trans; [|exact H]. apply N.log2_le_mono. lia.
Qed.

Lemma fullname_wfc : forall c, wfc (CText (cls_fullname c)) = true.
Proof.
  intros c. unfold cls_fullname.
  assert (HT : forall f, forallb (fun e => wfc (CText (bs (snd e)))) (own_table f ++ match f with FHdr => unregistered_hdr_table | _ => [] end) = true) by (intros []; vm_compute; reflexivity).
  specialize (HT (c_fam c)). destruct (find _ _) as [e|] eqn:E; [|reflexivity]. apply find_some in E as [HI _]. rewrite forallb_forall in HT. apply (HT _ HI).
Qed.

Lemma pairs_wfc : forall h d cs,
  Forall (fun e => (forall c, lower cls_fullname h (fst e) = Ok c -> wfc c = true) /\ (forall c, lower cls_fullname h (snd e) = Ok c -> wfc c = true)) d ->
  fits d = true -> mapM (lower_pair cls_fullname h) d = Ok cs -> wfc (CMap cs) = true.
Proof.
  intros h d cs HF HL HM. apply mapM_Forall2 in HM. cbn [wfc]. apply andb_true_iff. split.
  - replace (length cs) with (length d); [apply fits_len; exact HL|]. clear HL HF. induction HM; cbn [length]; congruence.
  - clear HL. induction HM as [|[k x] y d cs HP HM IH]; [reflexivity|]. inversion_clear HF as [|? ? [H1 H2] HF']. cbn [fst snd] in *.
    unfold lower_pair in HP. apply bind_ok in HP as (k' & Hk & HP). apply bind_ok in HP as (x' & Hx & HP). injection HP as <-.
    cbn [forallb]. rewrite (H1 _ Hk), (H2 _ Hx). apply IH. exact HF'.
Qed.

Lemma sent_fits : forall s, fits s = true -> fits (sent_entries s) = true.
Proof.
  intros s H. unfold fits in *. apply N.ltb_lt in H. apply N.ltb_lt. eapply N.le_lt_trans; [|exact H].
  assert (HL : (length (sent_entries s) <= length s)%nat); [|lia]. clear. induction s as [|[k x] s IH]; [reflexivity|]. cbn [sent_entries].
  destruct (keyeq kp_key_ops k); [|cbn [length]; lia]. destruct (py_len x) as [n|]; [|cbn [length]; lia]. destruct n; cbn [Nat.eqb length]; lia.
Qed.

Theorem memory_wfc : forall v h c, exists_in_memory v = true -> lower cls_fullname h v = Ok c -> wfc c = true.
Proof.
  induction v as [|b|z|f|n| | |b|b|l HF|l HF|d HF|t v IH|t v IH|k|k s e HS HE] using pyval_ind'; intros h c HM H.
  - injection H as <-. reflexivity.
  - injection H as <-. destruct b; reflexivity.
  - injection H as <-. apply int_wfc. apply N.ltb_lt. exact HM.
  - injection H as <-. unfold lower_float. destruct (is_nan f); [reflexivity|]. destruct (N.eqb f f64_inf); [reflexivity|]. destruct (N.eqb f f64_ninf); [reflexivity|].
    cbn [exists_in_memory] in HM. cbn [wfc fbytes]. replace (256 ^ N.of_nat 8)%N with (2 ^ 64)%N by (vm_compute; reflexivity). exact HM.
  - injection H as <-. exact HM.
  - injection H as <-. reflexivity.
  - discriminate.
  - injection H as <-. rewrite wfc_bytes. apply (fits_len _ b HM).
  - injection H as <-. cbn [exists_in_memory] in HM. apply andb_true_iff in HM as [HL HU]. cbn [wfc]. rewrite HU, andb_true_r. apply (fits_len _ b HL).
  - cbn [lower] in H. apply bind_ok in H as (cs & HC & E). injection E as <-. apply mapM_Forall2 in HC. cbn [exists_in_memory] in HM. apply andb_true_iff in HM as [HL HM].
    rewrite wfc_arr. apply andb_true_iff. split.
    + replace (length cs) with (length l); [apply fits_len; exact HL|]. clear HL HF HM. induction HC; cbn [length]; congruence.
    + clear HL. induction HC as [|v c l cs Hv HC IH]; [reflexivity|]. inversion_clear HF as [|? ? H1 HF']. cbn [forallb] in *. apply andb_true_iff in HM as [M1 M2].
      rewrite (H1 h c M1 Hv). apply IH; assumption.
  - cbn [lower] in H. apply bind_ok in H as (cs & HC & E). injection E as <-. apply mapM_Forall2 in HC. cbn [exists_in_memory] in HM. apply andb_true_iff in HM as [HL HM].
    rewrite wfc_arr. apply andb_true_iff. split.
    + replace (length cs) with (length l); [apply fits_len; exact HL|]. clear HL HF HM. induction HC; cbn [length]; congruence.
    + clear HL. induction HC as [|v c l cs Hv HC IH]; [reflexivity|]. inversion_clear HF as [|? ? H1 HF']. cbn [forallb] in *. apply andb_true_iff in HM as [M1 M2].
      rewrite (H1 h c M1 Hv). apply IH; assumption.
  - rewrite lower_dict in H. apply bind_ok in H as (cs & HC & E). injection E as <-. cbn [exists_in_memory] in HM. apply andb_true_iff in HM as [HL HM].
    apply (pairs_wfc h d cs); [|exact HL|exact HC]. apply Forall_forall. intros [k x] HI. rewrite Forall_forall in HF. destruct (HF _ HI) as [H1 H2].
    rewrite forallb_forall in HM. specialize (HM _ HI). cbn in HM. apply andb_true_iff in HM as [M1 M2]. cbn [fst snd] in *. split; intros c Hc; [eapply H1|eapply H2]; eassumption.
  - cbn [lower] in H. apply bind_ok in H as (c' & HC & E). injection E as <-. cbn [exists_in_memory] in HM. apply andb_true_iff in HM as [HL HM].
    cbn [wfc]. rewrite (IH h c' HM HC), andb_true_r. exact HL.
  - cbn [lower] in H. apply bind_ok in H as (c' & HC & E). injection E as <-. cbn [exists_in_memory] in HM. apply andb_true_iff in HM as [HL HM].
    cbn [wfc]. rewrite (IH h c' HM HC), andb_true_r. exact HL.
  - cbn [lower exists_in_memory] in *. apply N.ltb_lt in HM. apply int_wfc in HM. destruct h as [| |t]; cbn [lower_class] in H; [discriminate|injection H as <-; exact HM|].
    destruct ((if fam_eq_dec (c_fam k) FAlg then true else false) && t); injection H as <-; [apply fullname_wfc|exact HM].
  - destruct h as [| |t]; [discriminate|discriminate|]. apply lower_key in H as (cs & HC & ->). cbn [exists_in_memory] in HM. apply andb_true_iff in HM as [HL HM].
    apply (pairs_wfc (HMsg t) (sent_entries s) cs); [|apply sent_fits; exact HL|exact HC]. apply Forall_sent.
    apply Forall_forall. intros [a x] HI. rewrite Forall_forall in HS. destruct (HS _ HI) as [H1 H2].
    rewrite forallb_forall in HM. specialize (HM _ HI). cbn in HM. apply andb_true_iff in HM as [M1 M2]. cbn [fst snd] in *. split; intros c Hc; [eapply H1|eapply H2]; eassumption.
Qed.

Lemma pairs_never : forall h d,
  Forall (fun e => lower cls_fullname h (fst e) <> Err OverflowError /\ lower cls_fullname h (snd e) <> Err OverflowError) d ->
  mapM (lower_pair cls_fullname h) d <> Err OverflowError.
Proof.
  intros h d HF H. apply mapM_err in H as ([k x] & HI & HA). rewrite Forall_forall in HF. destruct (HF _ HI) as [H1 H2]. cbn [fst snd] in *.
  unfold lower_pair in HA. apply bind_err_inv in HA as [HA|(? & _ & HA)]; [contradiction|]. apply bind_err_inv in HA as [HA|(? & _ & HA)]; [contradiction|discriminate].
Qed.

Lemma lower_never : forall v h, lower cls_fullname h v <> Err OverflowError.
Proof.
  induction v as [|b|z|f|n| | |b|b|l HF|l HF|d HF|t v IH|t v IH|k|k s e HS HE] using pyval_ind'; intros h H; try discriminate.
  - cbn [lower] in H. apply bind_err_inv in H as [H|(? & _ & H)]; [|discriminate]. apply mapM_err in H as (a & HI & HA). rewrite Forall_forall in HF. apply (HF a HI h HA).
  - cbn [lower] in H. apply bind_err_inv in H as [H|(? & _ & H)]; [|discriminate]. apply mapM_err in H as (a & HI & HA). rewrite Forall_forall in HF. apply (HF a HI h HA).
  - rewrite lower_dict in H. apply bind_err_inv in H as [H|(? & _ & H)]; [|discriminate]. revert H. apply pairs_never. eapply Forall_impl; [|exact HF]. intros e [H1 H2]. auto.
  - cbn [lower] in H. apply bind_err_inv in H as [H|(? & _ & H)]; [|discriminate]. apply (IH h H).
  - cbn [lower] in H. apply bind_err_inv in H as [H|(? & _ & H)]; [|discriminate]. apply (IH h H).
  - cbn [lower] in H. destruct h as [| |t]; cbn [lower_class] in H; try discriminate. destruct (_ && t); discriminate.
  - destruct h as [| |t]; [discriminate|discriminate|]. cbn [lower] in H. apply bind_err_inv in H as [H|(? & _ & H)]; [|discriminate].
    revert H. induction HS as [|[a x] s [H1 H2] HS IH]; intros H; [discriminate|]. cbn [fst snd] in *. cbn beta iota in H.
    destruct (keyeq kp_key_ops a).
    + apply bind_err_inv in H as [H|(n & _ & H)]; [destruct x; discriminate|]. destruct (Nat.eqb n 0).
      * rewrite lower_pairs_mapM in H. revert H. apply pairs_never. eapply Forall_impl; [|exact HS]. intros e' [Q1 Q2]. auto.
      * apply bind_err_inv in H as [H|(? & _ & H)]; [elim (H1 _ H)|]. apply bind_err_inv in H as [H|(? & _ & H)]; [elim (H2 _ H)|].
        apply bind_err_inv in H as [H|(? & _ & H)]; [|discriminate].
        rewrite lower_pairs_mapM in H. revert H. apply pairs_never. eapply Forall_impl; [|exact HS]. intros e' [Q1 Q2]. auto.
    + apply bind_err_inv in H as [H|(? & _ & H)]; [elim (H1 _ H)|]. apply bind_err_inv in H as [H|(? & _ & H)]; [elim (H2 _ H)|].
      apply bind_err_inv in H as [H|(? & _ & H)]; [|discriminate]. apply IH. exact H.
Qed.

Theorem memory_dumps : forall v h, exists_in_memory v = true -> dumps cls_fullname h v <> Err OverflowError.
Proof.
  intros v h HM H. unfold dumps in H. destruct (lower cls_fullname h v) as [c|x] eqn:E; cbn [bind] in H.
  - rewrite (memory_wfc v h c HM E) in H. discriminate.
  - injection H as ->. apply (lower_never v h E).
Qed.
