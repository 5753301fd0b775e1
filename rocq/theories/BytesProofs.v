(** Lemmas about [Bytes.v]. *)
From Coq Require Import NArith ZArith Bool String Lia.
From Coq Require Import Init.Byte Strings.Byte List.
From Verif Require Import Bytes.
Import ListNotations.
Local Open Scope N_scope.

Ltac Zify.zify_post_hook ::= Z.to_euclidean_division_equations.

Lemma b2N_bound : forall b, b2N b < 256.
Proof. intros b. pose proof (Byte.to_N_bounded b). unfold b2N. lia. Qed.

Lemma b2N_of_N : forall n, b2N (byte_of_N n) = n mod 256.
Proof.
  intros n. unfold byte_of_N, b2N.
  assert (H : n mod 256 < 256) by (apply N.mod_lt; discriminate).
  destruct (Byte.of_N (n mod 256)) eqn:E.
  - apply Byte.to_of_N in E. assumption.
  - exfalso. apply Byte.of_N_None_iff in E. lia.
Qed.

Lemma byte_of_b2N : forall b, byte_of_N (b2N b) = b.
Proof.
  intros b. unfold byte_of_N, b2N. rewrite N.mod_small by apply b2N_bound.
  rewrite Byte.of_to_N. reflexivity.
Qed.

Lemma b2N_inj : forall a b, b2N a = b2N b -> a = b.
Proof. intros a b H. rewrite <- (byte_of_b2N a), <- (byte_of_b2N b), H. reflexivity. Qed.

Lemma byte_of_N_inj : forall m n, m < 256 -> n < 256 -> byte_of_N m = byte_of_N n -> m = n.
Proof.
  intros m n Hm Hn H. apply (f_equal b2N) in H. rewrite !b2N_of_N in H.
  rewrite !N.mod_small in H by assumption. assumption.
Qed.

Lemma byte_eqb_eq : forall a b, byte_eqb a b = true <-> a = b.
Proof.
  intros a b. unfold byte_eqb. split; intros H.
  - apply Byte.byte_dec_bl; assumption.
  - apply Byte.byte_dec_lb; assumption.
Qed.

Lemma byte_eqb_refl : forall a, byte_eqb a a = true.
Proof. intros a. apply byte_eqb_eq. reflexivity. Qed.

Lemma bytes_eqb_eq : forall a b, bytes_eqb a b = true <-> a = b.
Proof.
  induction a as [|x a IH]; intros [|y b]; cbn; try (split; congruence).
  rewrite andb_true_iff, byte_eqb_eq, IH. split.
  - intros [-> ->]. reflexivity.
  - intros H. injection H as -> ->. auto.
Qed.

Lemma bytes_eqb_refl : forall a, bytes_eqb a a = true.
Proof. intros a. apply bytes_eqb_eq. reflexivity. Qed.

Lemma bytes_eqb_neq : forall a b, bytes_eqb a b = false <-> a <> b.
Proof.
  intros a b. destruct (bytes_eqb a b) eqn:E.
  - apply bytes_eqb_eq in E. split; congruence.
  - split; auto. intros _ H. apply bytes_eqb_eq in H. congruence.
Qed.

Lemma bytes_eq_dec : forall a b : bytes, {a = b} + {a <> b}.
Proof.
  intros a b. destruct (bytes_eqb a b) eqn:E.
  - left. apply bytes_eqb_eq. assumption.
  - right. apply bytes_eqb_neq. assumption.
Qed.

(** ** Big-endian integers *)

Lemma to_be_length : forall k n, length (to_be k n) = k.
Proof.
  induction k as [|k IH]; intros n; cbn [to_be]; [reflexivity|].
  rewrite app_length, IH. cbn. lia.
Qed.

Lemma of_be_snoc : forall l b, of_be (l ++ [b]) = of_be l * 256 + b2N b.
Proof. intros l b. unfold of_be. rewrite fold_left_app. reflexivity. Qed.

Lemma of_be_nil : of_be [] = 0.
Proof. reflexivity. Qed.

Lemma pow256_S : forall k, 256 ^ N.of_nat (S k) = 256 * 256 ^ N.of_nat k.
Proof. intros k. rewrite Nat2N.inj_succ, N.pow_succ_r'. reflexivity. Qed.

Lemma pow256_pos : forall k, 0 < 256 ^ k.
Proof. intros k. assert (256 ^ k <> 0) by (apply N.pow_nonzero; discriminate). lia. Qed.

Lemma of_be_bound : forall l, of_be l < 256 ^ N.of_nat (length l).
Proof.
  induction l as [|b l IH] using rev_ind.
  - cbn. lia.
  - rewrite of_be_snoc, app_length. cbn [length]. rewrite Nat.add_1_r, pow256_S.
    pose proof (b2N_bound b). nia.
Qed.

Lemma of_be_to_be : forall k n, of_be (to_be k n) = n mod 256 ^ N.of_nat k.
Proof.
  induction k as [|k IH]; intros n.
  - cbn [to_be]. rewrite of_be_nil. cbn. rewrite N.mod_1_r. reflexivity.
  - cbn [to_be]. rewrite of_be_snoc, IH, b2N_of_N, pow256_S.
    pose proof (pow256_pos (N.of_nat k)).
    rewrite N.mod_mul_r by lia. lia.
Qed.

Lemma of_be_to_be_small : forall k n, n < 256 ^ N.of_nat k -> of_be (to_be k n) = n.
Proof. intros k n H. rewrite of_be_to_be. apply N.mod_small. assumption. Qed.

Lemma to_be_of_be : forall l, to_be (length l) (of_be l) = l.
Proof.
  induction l as [|b l IH] using rev_ind.
  - reflexivity.
  - rewrite app_length. cbn [length]. rewrite Nat.add_1_r. cbn [to_be].
    rewrite of_be_snoc. pose proof (b2N_bound b) as Hb.
    f_equal.
    + rewrite N.div_add_l by discriminate. rewrite N.div_small by assumption.
      rewrite N.add_0_r. exact IH.
    + f_equal. apply b2N_inj. rewrite b2N_of_N.
      rewrite N.add_comm, N.mod_add by discriminate. apply N.mod_small; assumption.
Qed.

Lemma of_be_inj : forall l1 l2, length l1 = length l2 -> of_be l1 = of_be l2 -> l1 = l2.
Proof.
  intros l1 l2 HL HO. rewrite <- (to_be_of_be l1), <- (to_be_of_be l2), HL, HO. reflexivity.
Qed.

Lemma to_be_inj : forall k m n,
  m < 256 ^ N.of_nat k -> n < 256 ^ N.of_nat k -> to_be k m = to_be k n -> m = n.
Proof.
  intros k m n Hm Hn H. apply (f_equal of_be) in H.
  rewrite !of_be_to_be_small in H by assumption. assumption.
Qed.

Lemma byte_len_ub : forall n, n < 256 ^ N.of_nat (byte_len n).
Proof.
  intros n. unfold byte_len. rewrite N2Nat.id.
  change 256 with (2 ^ 8). rewrite <- N.pow_mul_r.
  apply N.lt_le_trans with (2 ^ N.size n).
  - apply N.size_gt.
  - apply N.pow_le_mono_r; [discriminate|].
    pose proof (N.div_mod (N.size n + 7) 8). pose proof (N.mod_lt (N.size n + 7) 8). lia.
Qed.

Lemma byte_len_lb : forall n, n <> 0 ->
  (0 < byte_len n)%nat /\ 256 ^ N.of_nat (byte_len n - 1) <= n.
Proof.
  intros n Hn. unfold byte_len.
  assert (Hs : N.size n = N.succ (N.log2 n)) by (apply N.size_log2; assumption).
  assert (H1 : 1 <= (N.size n + 7) / 8) by (apply N.div_le_lower_bound; lia).
  split; [lia|].
  rewrite Nat2N.inj_sub, N2Nat.id.
  change 256 with (2 ^ 8). rewrite <- N.pow_mul_r.
  apply N.le_trans with (2 ^ N.log2 n).
  - apply N.pow_le_mono_r; [discriminate|].
    pose proof (N.div_mod (N.size n + 7) 8). pose proof (N.mod_lt (N.size n + 7) 8). lia.
  - apply N.log2_spec. lia.
Qed.

Lemma of_be_min_be : forall n, of_be (min_be n) = n.
Proof. intros n. unfold min_be. apply of_be_to_be_small, byte_len_ub. Qed.

Lemma min_be_inj : forall m n, min_be m = min_be n -> m = n.
Proof. intros m n H. rewrite <- (of_be_min_be m), <- (of_be_min_be n), H. reflexivity. Qed.

Lemma min_be_length : forall n, length (min_be n) = byte_len n.
Proof. intros n. apply to_be_length. Qed.

(** [min_be n] is the shortest big-endian form of [n]. *)
Lemma min_be_minimal : forall l, (byte_len (of_be l) <= length l)%nat.
Proof.
  intros l. destruct (N.eq_dec (of_be l) 0) as [->|Hn].
  - cbn. lia.
  - destruct (byte_len_lb _ Hn) as [Hp Hlb]. pose proof (of_be_bound l) as Hub.
    assert (256 ^ N.of_nat (byte_len (of_be l) - 1) < 256 ^ N.of_nat (length l)) as HH by lia.
    apply N.pow_lt_mono_r_iff in HH; lia.
Qed.

Lemma byte_len_le : forall n k, n < 256 ^ N.of_nat k -> (byte_len n <= k)%nat.
Proof.
  intros n k H. rewrite <- (of_be_to_be_small k n H).
  eapply Nat.le_trans; [apply min_be_minimal|]. rewrite to_be_length. apply Nat.le_refl.
Qed.

Lemma min_be_no_leading_zero : forall n, n <> 0 -> exists b r, min_be n = b :: r /\ b <> x00.
Proof.
  intros n Hn. destruct (byte_len_lb _ Hn) as [Hp Hlb].
  destruct (min_be n) as [|b r] eqn:E.
  - apply (f_equal (@length byte)) in E. rewrite min_be_length in E. cbn in E. lia.
  - exists b, r. split; [reflexivity|]. intros ->.
    assert (of_be r = n) as Hr.
    { transitivity (of_be (min_be n)); [|apply of_be_min_be]. rewrite E. reflexivity. }
    pose proof (min_be_minimal r) as HM. rewrite Hr in HM.
    apply (f_equal (@length byte)) in E. rewrite min_be_length in E. cbn in E. lia.
Qed.

Lemma of_be_cons_zero : forall r, of_be (x00 :: r) = of_be r.
Proof. reflexivity. Qed.

Lemma of_be_repeat_zero : forall k l, of_be (repeat x00 k ++ l) = of_be l.
Proof. induction k as [|k IH]; intros l; cbn [repeat app]; [reflexivity|]. rewrite of_be_cons_zero. apply IH. Qed.

(** ** Upper-casing *)

Lemma upper_byte_not_special : forall b, b2N b < 128 ->
  forall c, c = xc3 \/ c = xc4 \/ c = xc5 \/ c = xef -> byte_eqb b c = false.
Proof.
  intros b Hb c Hc. destruct (byte_eqb b c) eqn:E; [|reflexivity].
  apply byte_eqb_eq in E. subst b.
  destruct Hc as [->|[->|[->| ->]]]; vm_compute in Hb; discriminate.
Qed.

Definition ascii (l : bytes) : Prop := Forall (fun b => b2N b < 128) l.

Lemma upper_ascii : forall l, ascii l -> upper l = map upper_byte l.
Proof.
  induction l as [|b0 l IH]; intros H; [reflexivity|].
  inversion H as [|? ? Hb Hl]; subst. specialize (IH Hl).
  cbn [upper map].
  destruct l as [|b1 l1]; [reflexivity|].
  rewrite !(upper_byte_not_special b0 Hb) by auto. cbn [andb].
  destruct l1 as [|b2 l2]; rewrite IH; reflexivity.
Qed.
