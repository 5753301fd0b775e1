(** C124: what the base64 decoder makes of a text. *)
From Coq Require Import NArith ZArith Bool String Lia PeanoNat.
From Coq Require Import Init.Byte List.
From Verif Require Import Bytes Value Misc SpecB64 BytesProofs ValueProofs MiscProofs.
Import ListNotations.
Local Open Scope nat_scope.

(** ** Characters *)

Definition tr (b : byte) : byte := if byte_eqb b x2d then x2b else if byte_eqb b x5f then x2f else b.

Lemma digit_val : forall c v, digit c v -> v < 64 /\ b64_val (tr c) = Some (N.of_nat v) /\ (b2N (tr c) =? 61)%N = false /\ (b2N c <? 128)%N = true /\ (b2N (tr c) <? 128)%N = true.
Proof.
  assert (HA : forallb (fun v => match nth_error alphabet v with None => false | Some c => match b64_val (tr c) with Some n => (n =? N.of_nat v)%N | None => false end && negb (b2N (tr c) =? 61)%N && (b2N c <? 128)%N && (b2N (tr c) <? 128)%N end) (seq 0 64) = true) by (vm_compute; reflexivity).
  intros c v [H|[[-> ->]|[-> ->]]]; [|repeat split; try lia; vm_compute; reflexivity..].
  assert (HV : v < 64) by (change 64 with (length alphabet); apply nth_error_Some; congruence).
  rewrite forallb_forall in HA. specialize (HA v). rewrite in_seq, H in HA. specialize (HA ltac:(lia)).
  rewrite !andb_true_iff in HA. destruct HA as [[[H1 H2] H3] H4]. destruct (b64_val (tr c)) as [n|]; [|discriminate]. apply N.eqb_eq in H1 as ->. apply negb_true_iff in H2. auto.
Qed.

Lemma val_digit : forall c n, b64_val (tr c) = Some n -> digit c (N.to_nat n).
Proof.
  assert (HA : forallb (fun c => match b64_val (tr c) with None => true | Some n => match nth_error alphabet (N.to_nat n) with Some d => byte_eqb c d | None => false end || (byte_eqb c x2d && (n =? 62)%N) || (byte_eqb c x5f && (n =? 63)%N) end) (map (fun n => byte_of_N (N.of_nat n)) (seq 0 256)) = true) by (vm_compute; reflexivity).
  intros c n H. rewrite forallb_forall in HA. specialize (HA c). rewrite H in HA. rewrite !orb_true_iff, !andb_true_iff, !N.eqb_eq in HA.
  destruct HA as [[HA|[HA ->]]|[HA ->]].
  - apply in_map_iff. exists (N.to_nat (b2N c)). rewrite N2Nat.id. split; [apply byte_of_b2N|]. apply in_seq. pose proof (b2N_bound c). lia.
  - destruct (nth_error alphabet (N.to_nat n)) as [d|] eqn:E; [|discriminate]. apply byte_eqb_eq in HA as ->. left. exact E.
  - apply byte_eqb_eq in HA as ->. right. left. split; reflexivity.
  - apply byte_eqb_eq in HA as ->. right. right. split; reflexivity.
Qed.

Lemma foreign_val : forall c, foreign c -> b64_val (tr c) = None /\ (b2N (tr c) =? 61)%N = false /\ (b2N (tr c) <? 128)%N = true.
Proof.
  intros c (HA & HP & HD). split; [|split].
  - destruct (b64_val (tr c)) as [n|] eqn:E; [|reflexivity]. exfalso. exact (HD _ (val_digit _ _ E)).
  - unfold tr. destruct (byte_eqb c x2d) eqn:E1; [reflexivity|]. destruct (byte_eqb c x5f) eqn:E2; [reflexivity|]. apply N.eqb_neq. intros E. apply HP. apply (f_equal byte_of_N) in E. rewrite byte_of_b2N in E. exact E.
  - unfold tr. destruct (byte_eqb c x2d) eqn:E1; [reflexivity|]. destruct (byte_eqb c x5f) eqn:E2; [reflexivity|]. apply N.ltb_lt. exact HA.
Qed.

(** ** The state of the decoder after some digits *)

Definition step (s : bytes * N * N) (v : nat) : bytes * N * N :=
  let '(out, pos, lf0) := s in let n := N.of_nat v in
  (if pos =? 0 then (out, 1, n)
   else if pos =? 1 then (out ++ [byte_of_N (lf0 * 4 + n / 16)], 2, n mod 16)
   else if pos =? 2 then (out ++ [byte_of_N (lf0 * 16 + n / 4)], 3, n mod 4)
   else (out ++ [byte_of_N (lf0 * 64 + n)], 0, 0))%N.

Lemma a2b_noisy : forall u l, noisy u l -> forall rest acc pos lf0,
  bind (a2b (from_urlsafe u ++ rest) pos lf0 0) (fun x => Ok (acc ++ x)) =
  let '(out, p, lf) := fold_left step l (acc, pos, lf0) in bind (a2b rest p lf 0) (fun x => Ok (out ++ x)).
Proof.
  induction 1 as [|c v u l HD _ IH|c u l HF _ IH]; intros rest acc pos left.
  - reflexivity.
  - destruct (digit_val _ _ HD) as (_ & HV & HP & _). cbn [from_urlsafe map app a2b fold_left]. fold (tr c). rewrite HP, HV. cbn [step].
    destruct (pos =? 0)%N; [apply IH|]. fold (from_urlsafe u).
    destruct (pos =? 1)%N; [|destruct (pos =? 2)%N]; rewrite <- IH; match goal with |- context [a2b ?x ?y ?z ?w] => destruct (a2b x y z w); cbn [bind]; [rewrite <- app_assoc|]; reflexivity end.
  - destruct (foreign_val _ HF) as (HV & HP & _). cbn [from_urlsafe map app a2b]. fold (tr c). rewrite HP, HV. apply IH.
Qed.

(** At the end of the text what was seen of the padding does not matter. *)
Lemma a2b_end : forall u l, noisy u l -> forall acc pos lf0 pads,
  bind (a2b (from_urlsafe u) pos lf0 pads) (fun x => Ok (acc ++ x)) =
  let '(out, p, lf) := fold_left step l (acc, pos, lf0) in if (p =? 0)%N then Ok out else Err ValueError.
Proof.
  induction 1 as [|c v u l HD HN IH|c u l HF _ IH]; intros acc pos lf0 pads.
  - cbn [from_urlsafe map a2b fold_left]. destruct (pos =? 0)%N; cbn [bind]; [rewrite app_nil_r|]; reflexivity.
  - destruct (digit_val _ _ HD) as (_ & HV & HP & _). cbn [from_urlsafe map app a2b fold_left]. fold (tr c). rewrite HP, HV. cbn [step].
    destruct (pos =? 0)%N; [apply IH|]. fold (from_urlsafe u).
    destruct (pos =? 1)%N; [|destruct (pos =? 2)%N]; rewrite <- (IH _ _ _ 0%N); match goal with |- context [a2b ?x ?y ?z ?w] => destruct (a2b x y z w); cbn [bind]; [rewrite <- app_assoc|]; reflexivity end.
  - destruct (foreign_val _ HF) as (HV & HP & _). cbn [from_urlsafe map app a2b]. fold (tr c). rewrite HP, HV. apply IH.
Qed.

Definition state (l : list nat) (s : bytes * N * N) : Prop :=
  let '(out, pos, lf0) := s in exists k,
  (pos = 0%N /\ length l = 4 * k /\ length out = 3 * k /\ number l = of_be out /\ lf0 = 0%N) \/
  (pos = 1%N /\ length l = 4 * k + 1 /\ length out = 3 * k /\ number l = (of_be out * 64 + lf0)%N /\ (lf0 < 64)%N) \/
  (pos = 2%N /\ length l = 4 * k + 2 /\ length out = 3 * k + 1 /\ number l = (of_be out * 16 + lf0)%N /\ (lf0 < 16)%N) \/
  (pos = 3%N /\ length l = 4 * k + 3 /\ length out = 3 * k + 2 /\ number l = (of_be out * 4 + lf0)%N /\ (lf0 < 4)%N).

Lemma number_snoc : forall l v, number (l ++ [v]) = (number l * 64 + N.of_nat v)%N.
Proof. intros l v. unfold number. rewrite fold_left_app. reflexivity. Qed.

Lemma split16 : forall n, n < 64 -> exists a b, (N.of_nat n / 16 = a /\ N.of_nat n mod 16 = b /\ N.of_nat n = a * 16 + b /\ a < 4 /\ b < 16)%N.
Proof. intros n H. exists (N.of_nat n / 16)%N, (N.of_nat n mod 16)%N. pose proof (N.div_mod (N.of_nat n) 16 ltac:(lia)). pose proof (N.mod_lt (N.of_nat n) 16 ltac:(lia)). repeat split; lia. Qed.
Lemma split4 : forall n, n < 64 -> exists a b, (N.of_nat n / 4 = a /\ N.of_nat n mod 4 = b /\ N.of_nat n = a * 4 + b /\ a < 16 /\ b < 4)%N.
Proof. intros n H. exists (N.of_nat n / 4)%N, (N.of_nat n mod 4)%N. pose proof (N.div_mod (N.of_nat n) 4 ltac:(lia)). pose proof (N.mod_lt (N.of_nat n) 4 ltac:(lia)). repeat split; lia. Qed.

Lemma state_step : forall l s v, v < 64 -> state l s -> state (l ++ [v]) (step s v).
Proof.
  intros l [[out pos] lf0] v HV (k & [H|[H|[H|H]]]); destruct H as (-> & HL & HO & HN & HB).
  - cbn [step N.eqb]. exists k. right. left. rewrite app_length, number_snoc, HN. cbn [length]. repeat split; lia.
  - destruct (split16 v HV) as (a & b & E1 & E2 & E3 & HA & HBB). unfold step. cbn [N.eqb Pos.eqb]. rewrite E1, E2. exists k. right. right. left.
    rewrite !app_length, number_snoc, of_be_snoc, b2N_of_N, N.mod_small, HN, E3 by lia. cbn [length]. repeat split; lia.
  - destruct (split4 v HV) as (a & b & E1 & E2 & E3 & HA & HBB). unfold step. cbn [N.eqb Pos.eqb]. rewrite E1, E2. exists k. right. right. right.
    rewrite !app_length, number_snoc, of_be_snoc, b2N_of_N, N.mod_small, HN, E3 by lia. cbn [length]. repeat split; lia.
  - unfold step. cbn [N.eqb Pos.eqb]. exists (S k). left.
    rewrite !app_length, number_snoc, of_be_snoc, b2N_of_N, N.mod_small, HN by lia. cbn [length]. repeat split; lia.
Qed.

Lemma noisy_small : forall u l, noisy u l -> Forall (fun v => v < 64) l.
Proof. induction 1 as [|c v u l HD _ IH|c u l _ _ IH]; [constructor|constructor; [apply (digit_val _ _ HD)|exact IH]|exact IH]. Qed.

Lemma state_run : forall l, Forall (fun v => v < 64) l -> state l (fold_left step l ([], 0%N, 0%N)).
Proof.
  intros l. induction l as [|v l IH] using rev_ind; intros H.
  - exists 0. left. repeat split; reflexivity.
  - rewrite fold_left_app. cbn [fold_left]. apply Forall_app in H as [H1 H2]. apply state_step; [exact (Forall_inv H2)|exact (IH H1)].
Qed.

Lemma state_stands : forall l out p lf, state l (out, p, lf) -> length l mod 4 <> 1 -> stands_for l out.
Proof.
  intros l out p lf (k & H) HM. unfold stands_for.
  destruct H as [H|[H|[H|H]]]; destruct H as (-> & HL & HO & HN & HB).
  - rewrite HL, HO, HN. replace (6 * (4 * k)) with (3 * k * 8) by lia. rewrite Nat.div_mul by lia. split; [reflexivity|]. replace (3 * k * 8 - 8 * (3 * k)) with 0 by lia. cbn [N.of_nat]. rewrite N.pow_0_r, N.div_1_r. reflexivity.
  - exfalso. apply HM. rewrite HL. rewrite Nat.add_comm, Nat.mul_comm, Nat.mod_add by lia. reflexivity.
  - rewrite HL, HO, HN. replace (6 * (4 * k + 2)) with (4 + (3 * k + 1) * 8) by lia. rewrite Nat.div_add by lia. split; [reflexivity|]. replace (4 + (3 * k + 1) * 8 - 8 * (3 * k + 1)) with 4 by lia. change (2 ^ N.of_nat 4)%N with 16%N. rewrite N.div_add_l by lia. rewrite N.div_small by exact HB. lia.
  - rewrite HL, HO, HN. replace (6 * (4 * k + 3)) with (2 + (3 * k + 2) * 8) by lia. rewrite Nat.div_add by lia. split; [reflexivity|]. replace (2 + (3 * k + 2) * 8 - 8 * (3 * k + 2)) with 2 by lia. change (2 ^ N.of_nat 2)%N with 4%N. rewrite N.div_add_l by lia. rewrite N.div_small by exact HB. lia.
Qed.

Lemma state_pos : forall l out p lf, state l (out, p, lf) -> p = N.of_nat (length l mod 4).
Proof.
  intros l out p lf (k & H). assert (HM : forall r, r < 4 -> (4 * k + r) mod 4 = r) by (intros r HR; rewrite Nat.add_comm, Nat.mul_comm, Nat.mod_add by lia; apply Nat.mod_small; exact HR).
  destruct H as [H|[H|[H|H]]]; destruct H as (-> & HL & _); rewrite HL; [rewrite <- (Nat.add_0_r (4 * k))|..]; rewrite HM by lia; reflexivity.
Qed.

(** ** ASCII *)

Lemma noisy_ascii : forall u l, noisy u l -> Forall (fun b => (b2N b < 128)%N) (from_urlsafe u).
Proof.
  induction 1 as [|c v u l HD _ IH|c u l HF _ IH]; cbn [from_urlsafe map]; [constructor|constructor; [|exact IH]..]; fold (tr c); apply N.ltb_lt; [apply (digit_val _ _ HD)|apply (foreign_val _ HF)].
Qed.
Lemma ascii_forallb : forall u, Forall (fun b => (b2N b < 128)%N) u -> forallb (fun b => N.ltb (b2N b) 128) u = true.
Proof. intros u H. apply forallb_forall. intros b HB. rewrite Forall_forall in H. apply N.ltb_lt. exact (H b HB). Qed.
Lemma urlsafe_length : forall u, length (from_urlsafe u) = length u.
Proof. intros u. apply map_length. Qed.
Lemma digits_noisy : forall u l, digits u l -> noisy u l.
Proof. induction 1; constructor; assumption. Qed.

Lemma run_noisy : forall u l, noisy u l -> exists out p lf, fold_left step l ([], 0%N, 0%N) = (out, p, lf) /\ p = N.of_nat (length l mod 4) /\ (length l mod 4 <> 1 -> stands_for l out).
Proof.
  intros u l H. pose proof (state_run l (noisy_small _ _ H)) as HS. destruct (fold_left step l ([], 0%N, 0%N)) as [[out p] lf] eqn:E.
  exists out, p, lf. split; [reflexivity|]. split; [exact (state_pos _ _ _ _ HS)|]. exact (state_stands _ _ _ _ HS).
Qed.

Lemma a2b_start : forall u l rest, noisy u l -> a2b (from_urlsafe u ++ rest) 0 0 0 = let '(out, p, lf) := fold_left step l ([], 0%N, 0%N) in bind (a2b rest p lf 0) (fun x => Ok (out ++ x)).
Proof. intros u l rest H. rewrite <- (a2b_noisy u l H). destruct (a2b _ 0 0 0); reflexivity. Qed.

Lemma mod4 : forall n, n mod 4 = 0 \/ n mod 4 = 1 \/ n mod 4 = 2 \/ n mod 4 = 3.
Proof. intros n. pose proof (Nat.mod_upper_bound n 4 ltac:(lia)). lia. Qed.

(** Characters that are in ASCII count one each. *)
Lemma base64decode_ascii : forall u, Forall (fun b => (b2N b < 128)%N) (from_urlsafe u) -> base64decode u =
  if Nat.eqb (length u mod 4) 0 then bind (a2b (from_urlsafe u) 0 0 0) (fun b => Ok (VBytes b))
  else if Nat.eqb (length u mod 4) 2 then bind (a2b (from_urlsafe u ++ [x3d; x3d]) 0 0 0) (fun b => Ok (VBytes b))
  else if Nat.eqb (length u mod 4) 3 then bind (a2b (from_urlsafe u ++ [x3d]) 0 0 0) (fun b => Ok (VBytes b)) else Ok VNone.
Proof.
  intros u H. unfold base64decode. cbv zeta. rewrite (str_len_ascii _ H), urlsafe_length. unfold b64decode. rewrite !forallb_app, (ascii_forallb _ H). reflexivity.
Qed.

(** ** The claims *)

(** What a text stands for is determined. *)
Theorem C124_determined : forall l b b', stands_for l b -> stands_for l b' -> b = b'.
Proof. intros l b b' [H1 H2] [H3 H4]. apply of_be_inj; [congruence|]. rewrite H2, H4, H1, H3. reflexivity. Qed.
Print Assumptions C124_determined.

(** A text of digits, padded or not, is decoded to the bytes it stands for: for any number of
    digits that encodes something, and whatever the bits that remain. *)
Theorem C124_value_partial : forall u l, digits u l -> length l mod 4 <> 1 -> exists b, stands_for l b /\ base64decode u = Ok (VBytes b) /\ base64decode (u ++ padding (length l)) = Ok (VBytes b).
Proof.
  intros u l HD HM. pose proof (digits_noisy _ _ HD) as HN. destruct (run_noisy _ _ HN) as (out & p & lf & HR & -> & HS). exists out. split; [exact (HS HM)|].
  assert (HL : length u = length l) by (clear -HD; induction HD; cbn [length]; congruence).
  assert (HA : forall k, Forall (fun b => (b2N b < 128)%N) (from_urlsafe (u ++ repeat x3d k))).
  { intros k. unfold from_urlsafe. rewrite map_app. apply Forall_app. split; [exact (noisy_ascii _ _ HN)|]. apply Forall_forall. intros x HX. apply in_map_iff in HX as (y & <- & HY). apply repeat_spec in HY as ->. reflexivity. }
  assert (HP : forall k, from_urlsafe (u ++ repeat x3d k) = from_urlsafe u ++ repeat x3d k).
  { intros k. unfold from_urlsafe. rewrite map_app. f_equal. induction k as [|k IH]; [reflexivity|]. cbn [repeat map]. rewrite IH. reflexivity. }
  assert (HU : base64decode u = Ok (VBytes out)).
  { rewrite (base64decode_ascii _ (noisy_ascii _ _ HN)), HL. destruct (mod4 (length l)) as [E|[E|[E|E]]]; rewrite E in *; cbn [Nat.eqb]; try congruence.
    - rewrite <- (app_nil_r (from_urlsafe u)), (a2b_start _ _ [] HN), HR. cbn [N.of_nat a2b N.eqb bind]. rewrite app_nil_r. reflexivity.
    - rewrite (a2b_start _ _ _ HN), HR. change (a2b [x3d; x3d] (N.of_nat 2) lf 0) with (@Ok bytes []). cbn [bind]. rewrite app_nil_r. reflexivity.
    - rewrite (a2b_start _ _ _ HN), HR. change (a2b [x3d] (N.of_nat 3) lf 0) with (@Ok bytes []). cbn [bind]. rewrite app_nil_r. reflexivity. }
  split; [exact HU|]. unfold padding. destruct (mod4 (length l)) as [E|[E|[E|E]]]; rewrite E in *; try congruence.
  - change ((4 - 0) mod 4) with 0. cbn [repeat]. rewrite app_nil_r. exact HU.
  - change ((4 - 2) mod 4) with 2. rewrite (base64decode_ascii _ (HA 2)), HP, app_length, HL. cbn [repeat length]. replace ((length l + 2) mod 4) with 0 by (rewrite Nat.add_mod, E by lia; reflexivity). cbn [Nat.eqb].
    rewrite (a2b_start _ _ _ HN), HR. change (a2b [x3d; x3d] (N.of_nat 2) lf 0) with (@Ok bytes []). cbn [bind]. rewrite app_nil_r. reflexivity.
  - change ((4 - 3) mod 4) with 1. rewrite (base64decode_ascii _ (HA 1)), HP, app_length, HL. cbn [repeat length]. replace ((length l + 1) mod 4) with 0 by (rewrite Nat.add_mod, E by lia; reflexivity). cbn [Nat.eqb].
    rewrite (a2b_start _ _ _ HN), HR. change (a2b [x3d] (N.of_nat 3) lf 0) with (@Ok bytes []). cbn [bind]. rewrite app_nil_r. reflexivity.
Qed.
Print Assumptions C124_value_partial.

(** Text that is not base64 is not always refused. Every text whose length leaves 1 modulo 4
    "decodes" to [None], without an exception. *)
Theorem C124_length_refuted : forall u, str_len u mod 4 = 1 -> (forall b, In b u -> (b2N b < 128)%N) -> base64decode u = Ok VNone.
Proof.
  intros u H HA. assert (HF : Forall (fun b => (b2N b < 128)%N) u) by (apply Forall_forall; exact HA). rewrite (str_len_ascii _ HF) in H. rewrite base64decode_ascii, H; [reflexivity|].
  unfold from_urlsafe. apply Forall_forall. intros x HX. apply in_map_iff in HX as (y & <- & HY). destruct (byte_eqb y x2d); [reflexivity|]. destruct (byte_eqb y x5f); [reflexivity|]. exact (HA _ HY).
Qed.
Print Assumptions C124_length_refuted.

(** Foreign characters are skipped: if their number makes the length a multiple of 4, the text is
    accepted exactly if the digits come in groups of 4. *)
Theorem C124_foreign_refuted : forall u l, noisy u l -> length u mod 4 = 0 ->
  (length l mod 4 = 0 -> exists b, stands_for l b /\ base64decode u = Ok (VBytes b)) /\ (length l mod 4 <> 0 -> base64decode u = Err ValueError).
Proof.
  intros u l HN HL. destruct (run_noisy _ _ HN) as (out & p & lf & HR & -> & HS). rewrite (base64decode_ascii _ (noisy_ascii _ _ HN)), HL. cbn [Nat.eqb].
  rewrite <- (app_nil_r (from_urlsafe u)), (a2b_start _ _ [] HN), HR. split; intros HM.
  - exists out. split; [apply HS; lia|]. rewrite HM. cbn [N.of_nat a2b N.eqb bind]. rewrite app_nil_r. reflexivity.
  - destruct (length l mod 4) as [|n]; [congruence|]. reflexivity.
Qed.
Print Assumptions C124_foreign_refuted.

(** So is a padding character that does not complete a group: the first two or three places of a
    group, unless a second one follows. *)
Theorem C124_lone_refuted : forall u1 l1 u2 l2, noisy u1 l1 -> noisy u2 l2 -> length (u1 ++ x3d :: u2) mod 4 = 0 -> length l1 mod 4 <> 3 ->
  (length (l1 ++ l2) mod 4 = 0 -> exists b, stands_for (l1 ++ l2) b /\ base64decode (u1 ++ x3d :: u2) = Ok (VBytes b)) /\
  (length (l1 ++ l2) mod 4 <> 0 -> base64decode (u1 ++ x3d :: u2) = Err ValueError).
Proof.
  intros u1 l1 u2 l2 H1 H2 HL HM.
  assert (HN : noisy (u1 ++ u2) (l1 ++ l2)) by (clear -H1 H2; induction H1; cbn [app]; [exact H2|constructor; assumption..]).
  destruct (run_noisy _ _ HN) as (out & p & lf & HR & -> & HS). destruct (run_noisy _ _ H1) as (out1 & p1 & lf1 & HR1 & -> & _).
  rewrite base64decode_ascii, HL. 2: { unfold from_urlsafe. rewrite map_app. apply Forall_app. split; [exact (noisy_ascii _ _ H1)|]. constructor; [reflexivity|exact (noisy_ascii _ _ H2)]. }
  cbn [Nat.eqb]. replace (from_urlsafe (u1 ++ x3d :: u2)) with (from_urlsafe u1 ++ x3d :: from_urlsafe u2) by (unfold from_urlsafe; rewrite map_app; reflexivity).
  rewrite (a2b_start _ _ _ H1), HR1.
  assert (HE : exists pads, a2b (x3d :: from_urlsafe u2) (N.of_nat (length l1 mod 4)) lf1 0 = a2b (from_urlsafe u2) (N.of_nat (length l1 mod 4)) lf1 pads).
  { destruct (mod4 (length l1)) as [E|[E|[E|E]]]; rewrite E in *; [exists 0%N; reflexivity|exists 0%N; reflexivity|exists 1%N; reflexivity|congruence]. }
  destruct HE as (pads & HE). rewrite HE, (a2b_end _ _ H2 out1). rewrite fold_left_app, HR1 in HR.
  unfold bytes in *. rewrite HR. split; intros H0.
  - exists out. split; [apply HS; lia|]. rewrite H0. reflexivity.
  - destruct (length (l1 ++ l2) mod 4) as [|n]; [congruence|]. reflexivity.
Qed.
Print Assumptions C124_lone_refuted.

(** A character that is not in ASCII is refused, unless the length leaves 1 modulo 4. *)
Theorem C124_ascii_partial : forall u b, In b u -> (128 <= b2N b)%N -> str_len u mod 4 <> 1 -> base64decode u = Err ValueError.
Proof.
  intros u b HI HB HM. assert (HF : forallb (fun b => N.ltb (b2N b) 128) (from_urlsafe u) = false).
  { destruct (forallb _ _) eqn:E; [|reflexivity]. exfalso. rewrite forallb_forall in E. assert (HT : tr b = b) by (unfold tr; destruct (byte_eqb b x2d) eqn:E1; [apply byte_eqb_eq in E1 as ->; cbn in HB; lia|]; destruct (byte_eqb b x5f) eqn:E2; [apply byte_eqb_eq in E2 as ->; cbn in HB; lia|reflexivity]).
    specialize (E (tr b) (in_map tr u b HI)). rewrite HT in E. apply N.ltb_lt in E. lia. }
  assert (HS : str_len (from_urlsafe u) = str_len u).
  { clear. unfold str_len, from_urlsafe. induction u as [|c u IH]; [reflexivity|]. cbn [map filter]. fold (tr c). assert (HT : in_range 128 191 (tr c) = in_range 128 191 c).
    { unfold tr. destruct (byte_eqb c x2d) eqn:E1; [apply byte_eqb_eq in E1 as ->; reflexivity|]. destruct (byte_eqb c x5f) eqn:E2; [apply byte_eqb_eq in E2 as ->; reflexivity|reflexivity]. }
    rewrite HT. destruct (negb (in_range 128 191 c)); cbn [length]; rewrite IH; reflexivity. }
  unfold base64decode, b64decode. cbv zeta. rewrite HS, !forallb_app, HF. cbn [andb bind]. destruct (mod4 (str_len u)) as [E|[E|[E|E]]]; rewrite E in *; try reflexivity. congruence.
Qed.
Print Assumptions C124_ascii_partial.

(** ** Examples *)

(** Four bits are left over: [-R] and [-Q] stand for the same byte. *)
Example C124_example : digits (bs "-R") [62; 17] /\ stands_for [62; 17] [xf9] /\ base64decode (bs "-R==") = Ok (VBytes [xf9]) /\ base64encode [xf9] = bs "+Q==".
Proof.
  split; [constructor; [right; left; split; reflexivity|]; constructor; [left; reflexivity|constructor]|]. split; [split; reflexivity|]. split; vm_compute; reflexivity.
Qed.
Example C124_length_example : base64decode (bs "QUJDR") = Ok VNone.
Proof. vm_compute. reflexivity. Qed.
Example C124_noisy_example : noisy (bs "Q !U") [16; 20] /\ foreign x21.
Proof.
  assert (HF : forall c, (b2N c <? 128)%N = true -> byte_eqb c x3d = false -> b64_val (tr c) = None -> foreign c).
  { intros c H1 H2 H3. split; [apply N.ltb_lt; exact H1|]. split; [intros ->; discriminate|]. intros v HV. apply digit_val in HV. destruct HV as (_ & HV & _). congruence. }
  split; [|apply HF; reflexivity]. apply N_digit; [left; reflexivity|]. apply N_foreign; [apply HF; reflexivity|]. apply N_foreign; [apply HF; reflexivity|]. apply N_digit; [left; reflexivity|]. apply N_nil.
Qed.
Example C124_foreign_example : base64decode (bs "QU!JD...") = Ok (VBytes (bs "ABC")) /\ base64decode (bs "QU!!") = Err ValueError /\ base64decode (bs "QQ=Q!!!!") = Err ValueError /\ base64decode (bs "QU=JD...") = Ok (VBytes (bs "ABC")).
Proof. split; [vm_compute; reflexivity|]. split; [vm_compute; reflexivity|]. split; vm_compute; reflexivity. Qed.
