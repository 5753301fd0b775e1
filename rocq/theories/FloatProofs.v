(** Widening a float to double precision keeps the number it stands for. *)
From Coq Require Import NArith ZArith Bool Lia.
From Coq Require Import Init.Byte List.
From Verif Require Import Bytes BytesProofs Value Cbor SpecForm.
Import ListNotations.
Local Open Scope N_scope.

Lemma fields : forall s e f, s < 2 -> e < 2048 -> f < 2 ^ 52 ->
  (s * 2 ^ 63 + e * 2 ^ 52 + f) / 2 ^ 63 = s /\ (s * 2 ^ 63 + e * 2 ^ 52 + f) / 2 ^ 52 mod 2 ^ 11 = e /\ (s * 2 ^ 63 + e * 2 ^ 52 + f) mod 2 ^ 52 = f.
Proof.
  intros s e f Hs He Hf. assert (H63 : 2 ^ 63 = 2048 * 2 ^ 52) by reflexivity. assert (HP : 2 ^ 52 <> 0) by discriminate.
  set (W := 2 ^ 52) in *. change (2 ^ 11) with 2048. rewrite H63. split; [|split].
  - symmetry. apply N.div_unique with (e * W + f); [|lia]. assert (e * W <= 2047 * W) by (apply N.mul_le_mono_r; lia). lia.
  - replace (s * (2048 * W) + e * W + f) with ((s * 2048 + e) * W + f) by lia. rewrite N.div_add_l by exact HP. rewrite (N.div_small f) by exact Hf. rewrite N.add_0_r.
    symmetry. apply N.mod_unique with s; lia.
  - symmetry. apply N.mod_unique with (s * 2048 + e); lia.
Qed.

Lemma double : forall s e f, s < 2 -> e < 2048 -> f < 2 ^ 52 ->
  ieee 11 52 (s * 2 ^ 63 + e * 2 ^ 52 + f) =
    if e =? 2047 then if f =? 0 then Infinite (s =? 1) else NotANumber
    else if e =? 0 then Finite (s =? 1) f else Finite (s =? 1) ((2 ^ 52 + f) * 2 ^ (e - 1)).
Proof.
  intros s e f Hs He Hf. destruct (fields s e f Hs He Hf) as (H1 & H2 & H3). unfold ieee. change (11 + 52) with 63. rewrite H1, H2, H3.
  change (2 ^ 11 - 1) with 2047. change (2 ^ (11 - 1) - 1) with 1023. change (1 + 1074 - 1023 - 52) with 0. change (2 ^ 0) with 1. rewrite N.mul_1_r.
  destruct (e =? 2047); [reflexivity|]. destruct (N.eqb_spec e 0); [reflexivity|]. replace (e + 1074 - 1023 - 52) with (e - 1) by lia. reflexivity.
Qed.

Lemma pow_split : forall a b, 2 ^ (a + b) = 2 ^ a * 2 ^ b.
Proof. intros a b. apply N.pow_add_r. Qed.

Lemma pow_pos : forall a, 0 < 2 ^ a.
Proof. intros a. apply N.neq_0_lt_0. apply N.pow_nonzero. discriminate. Qed.

Lemma pow52 : forall m, m < 52 -> 2 ^ m * 2 ^ (52 - m) = 2 ^ 52.
Proof. intros m H. rewrite <- pow_split. replace (m + (52 - m)) with 52 by lia. reflexivity. Qed.

Lemma pow_bias : forall e, 0 < e -> 2 ^ e = 2 * (2 ^ (e - 1) - 1) + 2.
Proof. intros e H. replace e with ((e - 1) + 1) at 1 by lia. rewrite pow_split. change (2 ^ 1) with 2. pose proof (pow_pos (e - 1)). lia. Qed.

Lemma widen_number : forall e m bits, 0 < e -> m < 52 -> let bias := 2 ^ (e - 1) - 1 in
  bias + m <= 1022 -> 2 ^ e <= 1023 -> bits < 2 ^ (1 + e + m) ->
  ieee 11 52 (widen e m bits) = ieee e m bits.
Proof.
  intros e m bits He Hm bias HB HE HL. unfold widen. fold bias. cbv zeta. rewrite !N.shiftr_div_pow2, !N.land_ones, !N.shiftl_mul_pow2, N.ones_equiv, N.pred_sub.
  unfold ieee at 2. fold bias. cbv zeta.
  set (s := bits / 2 ^ (e + m)). set (x := bits / 2 ^ m mod 2 ^ e). set (f := bits mod 2 ^ m).
  assert (Hs : s < 2). { unfold s. apply N.div_lt_upper_bound; [apply N.pow_nonzero; discriminate|]. replace (1 + e + m) with ((e + m) + 1) in HL by lia. rewrite pow_split in HL. exact HL. }
  assert (Hx : x < 2 ^ e) by (apply N.mod_lt, N.pow_nonzero; discriminate).
  assert (Hf : f < 2 ^ m) by (apply N.mod_lt, N.pow_nonzero; discriminate).
  assert (HBE : 2 ^ e = 2 * bias + 2) by (apply pow_bias; exact He). clearbody s x f bias. clear HL.
  assert (HW : 2 ^ m * 2 ^ (52 - m) = 2 ^ 52) by (apply pow52; lia).
  assert (Hg : f * 2 ^ (52 - m) < 2 ^ 52) by (rewrite <- HW; apply N.mul_lt_mono_pos_r; [apply pow_pos|exact Hf]).
  assert (Hgz : (f * 2 ^ (52 - m) =? 0) = (f =? 0)).
  { destruct (N.eqb_spec f 0) as [->|HN]; [reflexivity|]. apply N.eqb_neq. intros HZ. apply N.mul_eq_0 in HZ as [HZ|HZ]; [contradiction|]. pose proof (pow_pos (52 - m)). lia. }
  destruct (N.eqb_spec x (2 ^ e - 1)) as [HX|HX].
  { rewrite double by (exact Hs || exact Hg || reflexivity). change (2047 =? 2047) with true. cbv iota. rewrite Hgz. reflexivity. }
  destruct (N.eqb_spec x 0) as [HX0|HX0].
  - destruct (N.eqb_spec f 0) as [HF0|HF0].
    + replace (s * 2 ^ 63) with (s * 2 ^ 63 + 0 * 2 ^ 52 + 0) by lia. rewrite double by (exact Hs || reflexivity). rewrite HF0. reflexivity.
    + set (k := N.log2 f). destruct (N.log2_spec f ltac:(lia)) as [HK1 HK2]. fold k in HK1, HK2.
      assert (HKM : k < m). { apply (N.pow_lt_mono_r_iff 2); [reflexivity|]. lia. }
      assert (H52 : 2 ^ k * 2 ^ (52 - k) = 2 ^ 52) by (apply pow52; lia).
      assert (HG : (f - 2 ^ k) * 2 ^ (52 - k) < 2 ^ 52). { rewrite <- H52. apply N.mul_lt_mono_pos_r; [apply pow_pos|]. rewrite N.pow_succ_r' in HK2. lia. }
      rewrite double by (exact Hs || exact HG || lia).
      replace (k + 1024 - bias - m =? 2047) with false by (symmetry; apply N.eqb_neq; lia). replace (k + 1024 - bias - m =? 0) with false by (symmetry; apply N.eqb_neq; lia).
      f_equal. rewrite <- H52, <- N.mul_add_distr_r. replace (2 ^ k + (f - 2 ^ k)) with f by lia. rewrite <- N.mul_assoc, <- pow_split. f_equal. f_equal. lia.
  - rewrite double by (exact Hs || exact Hg || lia).
    replace (x + 1023 - bias =? 2047) with false by (symmetry; apply N.eqb_neq; lia). replace (x + 1023 - bias =? 0) with false by (symmetry; apply N.eqb_neq; lia).
    f_equal. rewrite <- HW, <- N.mul_add_distr_r. rewrite <- N.mul_assoc, <- pow_split. f_equal. f_equal. lia.
Qed.

Theorem widened : forall w bits, bits < 256 ^ N.of_nat (fbytes w) -> number F64 (widen_w w bits) = number w bits.
Proof.
  intros w bits HB. destruct w; [| |reflexivity]; cbn [widen_w number].
  - apply widen_number; try reflexivity; try discriminate. exact HB.
  - apply widen_number; try reflexivity; try discriminate. exact HB.
Qed.
