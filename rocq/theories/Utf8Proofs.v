(** UTF-8: the decoder accepts exactly the encodings of sequences of scalar values. *)
From Coq Require Import NArith ZArith Bool Lia.
From Coq Require Import Init.Byte List.
From Verif Require Import Bytes BytesProofs Value Cbor SpecForm.
Import ListNotations.
Local Open Scope N_scope.

Lemma in_range_iff : forall lo hi b, in_range lo hi b = true <-> lo <= b2N b <= hi.
Proof. intros lo hi b. unfold in_range. rewrite andb_true_iff, !N.leb_le. reflexivity. Qed.

Lemma digits : forall u, exists a b c d, u = a * 262144 + b * 4096 + c * 64 + d /\ b < 64 /\ c < 64 /\ d < 64 /\
  u mod 64 = d /\ u / 64 mod 64 = c /\ u / 4096 mod 64 = b /\ u / 262144 = a /\ u / 4096 = a * 64 + b /\ u / 64 = a * 4096 + b * 64 + c.
Proof.
  intros u. exists (u / 262144), (u / 4096 mod 64), (u / 64 mod 64), (u mod 64).
  assert (H1 : u / 4096 = u / 64 / 64) by (rewrite N.div_div by discriminate; reflexivity).
  assert (H2 : u / 262144 = u / 64 / 64 / 64) by (rewrite !N.div_div by discriminate; reflexivity).
  rewrite H1, H2. pose proof (N.div_mod' u 64). pose proof (N.div_mod' (u / 64) 64). pose proof (N.div_mod' (u / 64 / 64) 64).
  pose proof (N.mod_lt u 64 ltac:(discriminate)). pose proof (N.mod_lt (u / 64) 64 ltac:(discriminate)). pose proof (N.mod_lt (u / 64 / 64) 64 ltac:(discriminate)).
  repeat split; try assumption; lia.
Qed.

Lemma small_byte : forall n, n < 256 -> b2N (byte_of_N n) = n.
Proof. intros n H. rewrite b2N_of_N. apply N.mod_small. exact H. Qed.

Lemma range_true : forall lo hi b, lo <= b2N b -> b2N b <= hi -> in_range lo hi b = true.
Proof. intros. apply in_range_iff. split; assumption. Qed.
Lemma range_false : forall lo hi b, b2N b < lo \/ hi < b2N b -> in_range lo hi b = false.
Proof. intros lo hi b H. unfold in_range. destruct H; [apply andb_false_intro1|apply andb_false_intro2]; apply N.leb_gt; lia. Qed.

Ltac decide_range := first [rewrite range_true by lia | rewrite range_false by lia].

Lemma utf8_step : forall u r, scalar u -> utf8_valid (utf8 u ++ r) = utf8_valid r.
Proof.
  intros u r HS. unfold scalar in HS. destruct (digits u) as (a & b & c & d & E & Hb & Hc & Hd & E1 & E2 & E3 & E4 & E5 & E6).
  unfold utf8. rewrite E1, E2, E3, E4, E5, E6. clear E1 E2 E3 E4 E5 E6.
  destruct (u <? 0x80) eqn:C1; [|destruct (u <? 0x800) eqn:C2; [|destruct (u <? 0x10000) eqn:C3]];
    repeat match goal with H : (_ <? _) = true |- _ => apply N.ltb_lt in H | H : (_ <? _) = false |- _ => apply N.ltb_ge in H end; cbn [app].
  - cbn [utf8_valid]. rewrite small_byte by lia. replace (u <? 128) with true by (symmetry; apply N.ltb_lt; lia). reflexivity.
  - assert (Ha : a = 0) by lia. assert (Hb0 : b = 0) by lia. subst a b. assert (B0 := small_byte (192 + (0 * 4096 + 0 * 64 + c)) ltac:(lia)). assert (B1 := small_byte (128 + d) ltac:(lia)).
    set (b0 := byte_of_N (192 + _)) in *. set (b1 := byte_of_N (128 + d)) in *. cbn [utf8_valid]. replace (b2N b0 <? 128) with false by (symmetry; apply N.ltb_ge; lia).
    rewrite (range_true 194 223 b0) by lia. rewrite range_true by lia. reflexivity.
  - assert (Ha : a = 0) by lia. subst a. assert (B0 := small_byte (224 + (0 * 64 + b)) ltac:(lia)). assert (B1 := small_byte (128 + c) ltac:(lia)). assert (B2 := small_byte (128 + d) ltac:(lia)).
    set (b0 := byte_of_N (224 + _)) in *. set (b1 := byte_of_N (128 + c)) in *. set (b2 := byte_of_N (128 + d)) in *. cbn [utf8_valid]. replace (b2N b0 <? 128) with false by (symmetry; apply N.ltb_ge; lia).
    rewrite (range_false 194 223 b0) by lia. rewrite (range_true 224 239 b0) by lia. rewrite (range_true 128 191 b2) by lia.
    rewrite range_true; [reflexivity| |]; destruct (N.eqb_spec (b2N b0) 224); destruct (N.eqb_spec (b2N b0) 237); lia.
  - assert (B0 := small_byte (240 + a) ltac:(lia)). assert (B1 := small_byte (128 + b) ltac:(lia)). assert (B2 := small_byte (128 + c) ltac:(lia)). assert (B3 := small_byte (128 + d) ltac:(lia)).
    set (b0 := byte_of_N (240 + _)) in *. set (b1 := byte_of_N (128 + b)) in *. set (b2 := byte_of_N (128 + c)) in *. set (b3 := byte_of_N (128 + d)) in *. cbn [utf8_valid]. replace (b2N b0 <? 128) with false by (symmetry; apply N.ltb_ge; lia).
    rewrite (range_false 194 223 b0) by lia. rewrite (range_false 224 239 b0) by lia. rewrite (range_true 240 244 b0) by lia. rewrite (range_true 128 191 b2) by lia. rewrite (range_true 128 191 b3) by lia.
    rewrite range_true; [reflexivity| |]; destruct (N.eqb_spec (b2N b0) 240); destruct (N.eqb_spec (b2N b0) 244); lia.
Qed.

Lemma digits_of : forall u a b c d, u = a * 262144 + b * 4096 + c * 64 + d -> b < 64 -> c < 64 -> d < 64 ->
  u mod 64 = d /\ u / 64 mod 64 = c /\ u / 4096 mod 64 = b /\ u / 262144 = a /\ u / 4096 = a * 64 + b /\ u / 64 = a * 4096 + b * 64 + c.
Proof.
  intros u a b c d E Hb Hc Hd. destruct (digits u) as (a' & b' & c' & d' & E' & Hb' & Hc' & Hd' & E1 & E2 & E3 & E4 & E5 & E6).
  assert (D : d' = d) by lia. assert (C : c' = c) by lia. assert (B : b' = b) by lia. assert (A : a' = a) by lia.
  rewrite E1, E2, E3, E4, E5, E6, A, B, C, D. repeat split.
Qed.

Lemma byte_back : forall b n, b2N b = n -> byte_of_N n = b.
Proof. intros b n <-. apply byte_of_b2N. Qed.

Lemma utf8_text : forall n b, (length b < n)%nat -> utf8_valid b = true -> text b.
Proof.
  induction n as [|n IH]; intros b HL HV; [lia|]. destruct b as [|b0 r0]; [exists []; split; [constructor|reflexivity]|].
  assert (GO : forall u r, scalar u -> b0 :: r0 = utf8 u ++ r -> (length r < n)%nat -> utf8_valid r = true -> text (b0 :: r0)).
  { intros u r HS HE HL' HV'. destruct (IH r HL' HV') as (us & HU & ->). exists (u :: us). split; [constructor; assumption|]. exact HE. }
  pose proof (b2N_bound b0) as HB0. cbn [utf8_valid] in HV. cbn [length] in HL.
  destruct (b2N b0 <? 128) eqn:C1.
  { apply N.ltb_lt in C1. apply (GO (b2N b0) r0); [left; lia| |lia|exact HV].
    unfold utf8. replace (b2N b0 <? 128) with true by (symmetry; apply N.ltb_lt; exact C1). rewrite byte_of_b2N. reflexivity. }
  apply N.ltb_ge in C1. destruct (in_range 194 223 b0) eqn:C2.
  { apply in_range_iff in C2. destruct r0 as [|b1 r1]; [discriminate|]. apply andb_true_iff in HV as [R1 HV]. apply in_range_iff in R1.
    assert (EU := digits_of ((b2N b0 - 192) * 64 + (b2N b1 - 128)) 0 0 (b2N b0 - 192) (b2N b1 - 128) ltac:(lia) ltac:(lia) ltac:(lia) ltac:(lia)).
    set (u := (b2N b0 - 192) * 64 + (b2N b1 - 128)) in *. destruct EU as (E1 & E2 & E3 & E4 & E5 & E6).
    apply (GO u r1); [left; lia| |cbn [length] in HL; lia|exact HV]. unfold utf8.
    replace (u <? 128) with false by (symmetry; apply N.ltb_ge; lia). replace (u <? 2048) with true by (symmetry; apply N.ltb_lt; lia).
    rewrite E1, E6. cbn [app]. f_equal; [symmetry; apply byte_back; lia|]. f_equal. symmetry. apply byte_back. lia. }
  destruct (in_range 224 239 b0) eqn:C3.
  { apply in_range_iff in C3. destruct r0 as [|b1 [|b2 r2]]; try discriminate. apply andb_true_iff in HV as [HV' HV]. apply andb_true_iff in HV' as [R1 R2].
    apply in_range_iff in R1, R2. pose proof (b2N_bound b1) as HB1.
    assert (R1' : 128 <= b2N b1 <= 191) by (destruct (b2N b0 =? 224), (b2N b0 =? 237); lia).
    assert (L1 : b2N b0 = 224 -> 160 <= b2N b1) by (intros E; rewrite E in R1; exact (proj1 R1)).
    assert (L2 : b2N b0 = 237 -> b2N b1 <= 159) by (intros E; rewrite E in R1; exact (proj2 R1)). clear R1.
    assert (EU := digits_of ((b2N b0 - 224) * 4096 + (b2N b1 - 128) * 64 + (b2N b2 - 128)) 0 (b2N b0 - 224) (b2N b1 - 128) (b2N b2 - 128) ltac:(lia) ltac:(lia) ltac:(lia) ltac:(lia)).
    set (u := (b2N b0 - 224) * 4096 + _ + _) in *. destruct EU as (E1 & E2 & E3 & E4 & E5 & E6).
    apply (GO u r2); [unfold scalar; lia| |cbn [length] in HL; lia|exact HV]. unfold utf8.
    replace (u <? 128) with false by (symmetry; apply N.ltb_ge; lia). replace (u <? 2048) with false by (symmetry; apply N.ltb_ge; lia). replace (u <? 65536) with true by (symmetry; apply N.ltb_lt; lia).
    rewrite E1, E2, E5. cbn [app]. f_equal; [symmetry; apply byte_back; lia|]. f_equal; [symmetry; apply byte_back; lia|]. f_equal. symmetry. apply byte_back. lia. }
  destruct (in_range 240 244 b0) eqn:C4; [|discriminate].
  apply in_range_iff in C4. destruct r0 as [|b1 [|b2 [|b3 r3]]]; try discriminate. apply andb_true_iff in HV as [HV' HV]. apply andb_true_iff in HV' as [HV' R3]. apply andb_true_iff in HV' as [R1 R2].
  apply in_range_iff in R1, R2, R3. pose proof (b2N_bound b1) as HB1.
  assert (R1' : 128 <= b2N b1 <= 191) by (destruct (b2N b0 =? 240), (b2N b0 =? 244); lia).
  assert (L1 : b2N b0 = 240 -> 144 <= b2N b1) by (intros E; rewrite E in R1; exact (proj1 R1)).
  assert (L2 : b2N b0 = 244 -> b2N b1 <= 143) by (intros E; rewrite E in R1; exact (proj2 R1)). clear R1.
  assert (EU := digits_of ((b2N b0 - 240) * 262144 + (b2N b1 - 128) * 4096 + (b2N b2 - 128) * 64 + (b2N b3 - 128)) (b2N b0 - 240) (b2N b1 - 128) (b2N b2 - 128) (b2N b3 - 128) ltac:(lia) ltac:(lia) ltac:(lia) ltac:(lia)).
  set (u := (b2N b0 - 240) * 262144 + _ + _ + _) in *. destruct EU as (E1 & E2 & E3 & E4 & E5 & E6).
  apply (GO u r3); [unfold scalar; lia| |cbn [length] in HL; lia|exact HV]. unfold utf8.
  replace (u <? 128) with false by (symmetry; apply N.ltb_ge; lia). replace (u <? 2048) with false by (symmetry; apply N.ltb_ge; lia). replace (u <? 65536) with false by (symmetry; apply N.ltb_ge; lia).
  rewrite E1, E2, E3, E4. cbn [app]. f_equal; [symmetry; apply byte_back; lia|]. f_equal; [symmetry; apply byte_back; lia|]. f_equal; [symmetry; apply byte_back; lia|]. f_equal. symmetry. apply byte_back. lia.
Qed.

Theorem utf8_exact : forall b, utf8_valid b = true <-> text b.
Proof.
  intros b. split; [apply (utf8_text (S (length b))); lia|]. intros (us & HU & ->). induction HU as [|u us HS _ IH]; [reflexivity|].
  cbn [flat_map]. rewrite utf8_step by exact HS. exact IH.
Qed.
