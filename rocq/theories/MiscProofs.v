(** Lemmas about nonces (C40), base64 (C41) and X.509 values (C44, C68). *)
From Coq Require Import NArith ZArith Bool String Lia.
From Coq Require Import Init.Byte List.
From Verif Require Import Bytes BytesProofs Value ValueProofs Cbor DataProofs Registry RegistryProofs Crypto Keys Algorithms Headers
  Messages Recipients Misc SpecCrypto SpecAlg SpecData KeyProofs AlgProofs.
Import ListNotations.

(** ** Exclusive or of big-endian numbers *)

Local Open Scope N_scope.

Lemma testbit_split : forall a x n, x < 256 ->
  N.testbit (a * 256 + x) n = if n <? 8 then N.testbit x n else N.testbit a (n - 8).
Proof.
  intros a x n Hx. destruct (N.ltb_spec n 8) as [H|H].
  - rewrite <- (N.mod_pow2_bits_low (a * 256 + x) 8 n) by assumption.
    replace ((a * 256 + x) mod 2 ^ 8) with x; [reflexivity|].
    change (2 ^ 8) with 256. rewrite N.add_comm, N.mod_add by lia. symmetry. apply N.mod_small. assumption.
  - replace a with ((a * 256 + x) / 2 ^ 8) at 2.
    + rewrite N.div_pow2_bits. f_equal. lia.
    + change (2 ^ 8) with 256. rewrite N.div_add_l by lia. rewrite N.div_small by assumption. lia.
Qed.

Lemma lxor_split : forall a c x y, x < 256 -> y < 256 ->
  N.lxor (a * 256 + x) (c * 256 + y) = N.lxor a c * 256 + N.lxor x y.
Proof.
  intros a c x y Hx Hy.
  assert (HB : N.lxor x y < 256).
  { destruct (N.eq_dec (N.lxor x y) 0) as [->|HN]; [lia|]. change 256 with (2 ^ 8).
    apply N.log2_lt_pow2; [lia|]. eapply N.le_lt_trans; [apply N.log2_lxor|].
    apply N.max_lub_lt.
    - destruct (N.eq_dec x 0) as [->|]; [reflexivity|]. apply N.log2_lt_pow2; [lia|]. assumption.
    - destruct (N.eq_dec y 0) as [->|]; [reflexivity|]. apply N.log2_lt_pow2; [lia|]. assumption. }
  apply N.bits_inj. intros n. rewrite N.lxor_spec, !testbit_split by assumption.
  destruct (n <? 8); rewrite N.lxor_spec; reflexivity.
Qed.

Lemma lxor_bound : forall x y, x < 256 -> y < 256 -> N.lxor x y < 256.
Proof.
  intros x y Hx Hy. destruct (N.eq_dec (N.lxor x y) 0) as [->|HN]; [lia|]. change 256 with (2 ^ 8).
  apply N.log2_lt_pow2; [lia|]. eapply N.le_lt_trans; [apply N.log2_lxor|].
  apply N.max_lub_lt.
  - destruct (N.eq_dec x 0) as [->|]; [reflexivity|]. apply N.log2_lt_pow2; [lia|]. assumption.
  - destruct (N.eq_dec y 0) as [->|]; [reflexivity|]. apply N.log2_lt_pow2; [lia|]. assumption.
Qed.

Lemma b2N_byte_xor : forall x y, b2N (byte_xor x y) = N.lxor (b2N x) (b2N y).
Proof.
  intros x y. unfold byte_xor. rewrite b2N_of_N. apply N.mod_small. apply lxor_bound; apply b2N_bound.
Qed.

Lemma xor_snoc : forall a b x y, length a = length b -> xor (a ++ [x]) (b ++ [y]) = xor a b ++ [byte_xor x y].
Proof.
  induction a as [|u a IH]; intros [|v b] x y H; try discriminate; [reflexivity|].
  cbn [app xor]. rewrite IH by (injection H; auto). reflexivity.
Qed.

Lemma of_be_xor : forall a b, length a = length b -> of_be (xor a b) = N.lxor (of_be a) (of_be b).
Proof.
  induction a as [|x a IH] using rev_ind; intros b H.
  - destruct b; [reflexivity|discriminate].
  - destruct b as [|y b _] using rev_ind.
    + rewrite app_length in H. cbn [length] in H. lia.
    + rewrite !app_length in H. cbn [length] in H. rewrite xor_snoc by lia.
      rewrite !of_be_snoc, IH by lia. rewrite lxor_split by apply b2N_bound. rewrite b2N_byte_xor. reflexivity.
Qed.

Lemma of_be_app : forall b a, of_be (a ++ b) = of_be a * 256 ^ N.of_nat (length b) + of_be b.
Proof.
  induction b as [|x b IH] using rev_ind; intros a.
  - rewrite app_nil_r. cbn [length N.of_nat]. rewrite N.pow_0_r, of_be_nil. lia.
  - rewrite app_assoc, !of_be_snoc, IH, app_length. cbn [length].
    rewrite Nat.add_1_r, pow256_S. lia.
Qed.

(** The shortest form is unique. *)
Lemma min_be_of_be : forall l, hd x01 l <> x00 -> min_be (of_be l) = l.
Proof.
  intros l H. destruct l as [|b r]; [vm_compute; reflexivity|]. cbn [hd] in H.
  apply of_be_inj; [|apply of_be_min_be]. rewrite min_be_length.
  apply Nat.le_antisymm; [apply min_be_minimal|].
  destruct (le_lt_dec (length (b :: r)) (byte_len (of_be (b :: r)))) as [HL|HL]; [assumption|exfalso].
  pose proof (of_be_min_be (of_be (b :: r))) as HE.
  pose proof (of_be_bound (min_be (of_be (b :: r)))) as HB. rewrite HE, min_be_length in HB.
  assert (HG : 256 ^ N.of_nat (length r) <= of_be (b :: r)).
  { change (b :: r) with ([b] ++ r). rewrite of_be_app. cbn [app].
    assert (HP : 1 <= of_be [b]).
    { unfold of_be. cbn [fold_left]. assert (b2N b <> 0); [|lia]. intros HZ. apply H.
      change 0 with (b2N x00) in HZ. apply b2N_inj in HZ. assumption. }
    pose proof (N.mul_le_mono_r 1 (of_be [b]) (256 ^ N.of_nat (length r)) HP). lia. }
  assert (HM : 256 ^ N.of_nat (byte_len (of_be (b :: r))) <= 256 ^ N.of_nat (length r)).
  { apply N.pow_le_mono_r; [lia|]. cbn [length] in HL. lia. }
  lia.
Qed.

Lemma of_be_left_pad : forall n p, of_be (left_pad n p) = of_be p.
Proof. intros n p. unfold left_pad. apply of_be_repeat_zero. Qed.

Lemma left_pad_length : forall n p, (length p <= n)%nat -> length (left_pad n p) = n.
Proof. intros n p H. unfold left_pad. rewrite app_length, repeat_length. lia. Qed.

Lemma get_attr_header : forall c h v, header c h v -> get_attr c h = Ok v.
Proof.
  intros c h v [[H1 H2]|[H1 H2]]; unfold get_attr, get_attr_default, dget_or; rewrite H1, H2; cbn [is_none negb andb].
  - rewrite andb_false_r. destruct v; reflexivity.
  - reflexivity.
Qed.

Lemma get_attr_none : forall c h, no_header c h -> get_attr c h = Ok VNone.
Proof. intros c h [H1 H2]. unfold get_attr, get_attr_default, dget_or. rewrite H1, H2. reflexivity. Qed.

Lemma nonce_iv : forall c iv, header c IV iv -> iv <> VNone -> get_nonce c = Ok iv.
Proof.
  intros c iv H HN. unfold get_nonce. rewrite (get_attr_header _ _ _ H). cbn [bind].
  destruct iv; try reflexivity. elim HN. reflexivity.
Qed.

Lemma nonce_missing : forall c k, no_header c IV -> ckey c = Some k -> prop_get k PBaseIV = Ok (VBytes []) ->
  get_nonce c = Err CoseException.
Proof.
  intros c k H HK HB. unfold get_nonce. rewrite (get_attr_none _ _ H). cbn [bind is_none].
  rewrite HK, HB. reflexivity.
Qed.

(** What the code computes, in all cases with a base IV. *)
Lemma nonce_exact : forall c k base piv, no_header c IV -> ckey c = Some k ->
  prop_get k PBaseIV = Ok (VBytes base) -> base <> [] -> header c PartialIV (VBytes piv) ->
  exists n, get_nonce c = Ok (VBytes n) /\ of_be n = N.lxor (of_be piv) (of_be base) /\ hd x01 n <> x00.
Proof.
  intros c k base piv H HK HB HN HP. unfold get_nonce. rewrite (get_attr_none _ _ H). cbn [bind is_none].
  rewrite HK, HB. cbn [bind]. destruct base as [|b base]; [elim HN; reflexivity|].
  change (veqb (VBytes (b :: base)) (VBytes [])) with false. cbv iota.
  rewrite (get_attr_header _ _ _ HP). cbn [bind as_bytes].
  eexists. split; [reflexivity|]. split; [apply of_be_min_be|].
  destruct (N.eq_dec (N.lxor (of_be piv) (of_be (b :: base))) 0) as [E|E].
  - rewrite E. vm_compute. discriminate.
  - destruct (min_be_no_leading_zero _ E) as (x & r & -> & HX). assumption.
Qed.

Lemma nonce_xor : forall c k base piv, no_header c IV -> ckey c = Some k ->
  prop_get k PBaseIV = Ok (VBytes base) -> base <> [] -> header c PartialIV (VBytes piv) ->
  (length piv <= length base)%nat ->
  hd x01 (xor (left_pad (length base) piv) base) <> x00 ->
  get_nonce c = Ok (VBytes (xor (left_pad (length base) piv) base)).
Proof.
  intros c k base piv H HK HB HN HP HL HH.
  destruct (nonce_exact c k base piv H HK HB HN HP) as (n & HG & HO & HD). rewrite HG.
  do 2 f_equal. rewrite <- (min_be_of_be n HD), <- (min_be_of_be _ HH). f_equal.
  rewrite HO, of_be_xor by (apply left_pad_length; assumption). rewrite of_be_left_pad. reflexivity.
Qed.

(** ** Base64 *)

Lemma N_upto : forall (P : N -> bool) m, forallb P (map N.of_nat (seq 0 m)) = true ->
  forall n, n < N.of_nat m -> P n = true.
Proof.
  intros P m H n Hn. rewrite forallb_forall in H. apply H. apply in_map_iff. exists (N.to_nat n).
  split; [apply N2Nat.id|]. apply in_seq. lia.
Qed.

Definition char_ok (n : N) : bool :=
  match b64_val (b64_char n) with Some m => m =? n | None => false end
  && negb (b2N (b64_char n) =? 61) && (b2N (b64_char n) <? 128)
  && negb (b2N (b64_char n) =? 45) && negb (b2N (b64_char n) =? 95).

Lemma char_ok_all : forall n, n < 64 -> char_ok n = true.
Proof. apply (N_upto char_ok 64). vm_compute. reflexivity. Qed.

Lemma b64_char_val : forall n, n < 64 -> b64_val (b64_char n) = Some n /\
  (b2N (b64_char n) =? 61) = false /\ b2N (b64_char n) < 128.
Proof.
  intros n H. apply char_ok_all in H. unfold char_ok in H. rewrite !andb_true_iff in H.
  destruct H as [[[[H1 H2] H3] _] _]. destruct (b64_val (b64_char n)) as [m|]; [|discriminate].
  apply N.eqb_eq in H1. subst m. apply negb_true_iff in H2. apply N.ltb_lt in H3. auto.
Qed.

Lemma b64_char_url : forall n, n < 64 -> b64_char n <> x2d /\ b64_char n <> x5f /\ b64_char n <> x3d.
Proof.
  intros n H. apply char_ok_all in H. unfold char_ok in H. rewrite !andb_true_iff in H.
  destruct H as [[[[H1 H2] H3] H4] H5]. apply negb_true_iff in H2, H4, H5.
  repeat split; intros E; rewrite E in *; vm_compute in H2, H4, H5; discriminate.
Qed.

(** Characters of the alphabet. *)
Definition b64c (b : byte) : Prop := exists n, n < 64 /\ b = b64_char n.

Lemma b2N_q : forall a, b2N a / 4 < 64.
Proof. intros a. pose proof (b2N_bound a). apply N.div_lt_upper_bound; lia. Qed.

Lemma list_ind3 : forall (P : bytes -> Prop), P [] -> (forall a, P [a]) -> (forall a b, P [a; b]) ->
  (forall a b c r, P r -> P (a :: b :: c :: r)) -> forall l, P l.
Proof.
  intros P H0 H1 H2 H3 l. assert (HH : P l /\ (forall a, P (a :: l)) /\ (forall a b, P (a :: b :: l))).
  { induction l as [|x l (I1 & I2 & I3)]; [auto|]. split; [apply I2|]. split; [intros; apply I3|].
    intros. apply H3. assumption. }
  apply HH.
Qed.

Ltac num x := pose proof (b2N_bound x).

Lemma mod_lt : forall n m k, m <> 0 -> m <= k -> n mod m < k.
Proof. intros n m k H H'. pose proof (N.mod_lt n m H). lia. Qed.

Lemma s1 : forall n, n < 256 -> n mod 4 * 16 < 64.
Proof. intros n H. pose proof (N.mod_lt n 4). lia. Qed.
Lemma s2 : forall n m, n < 256 -> m < 256 -> n mod 4 * 16 + m / 16 < 64.
Proof. intros n m H H'. pose proof (N.mod_lt n 4). assert (m / 16 < 16) by (apply N.div_lt_upper_bound; lia). lia. Qed.
Lemma s3 : forall m, m mod 16 * 4 < 64.
Proof. intros m. pose proof (N.mod_lt m 16). lia. Qed.
Lemma s4 : forall m o, o < 256 -> m mod 16 * 4 + o / 64 < 64.
Proof. intros m o H. pose proof (N.mod_lt m 16). assert (o / 64 < 4) by (apply N.div_lt_upper_bound; lia). lia. Qed.
Lemma s5 : forall o, o mod 64 < 64.
Proof. intros o. apply N.mod_lt. lia. Qed.

(** The encoding is alphabet characters followed by 0, 1 or 2 [=]. *)
Lemma base64_shape : forall l, exists core k, base64encode l = core ++ repeat x3d k /\ Forall b64c core /\
  ((k = 0 /\ length core mod 4 = 0) \/ (k = 1 /\ length core mod 4 = 3) \/ (k = 2 /\ length core mod 4 = 2))%nat.
Proof.
  apply list_ind3.
  - exists [], 0%nat. split; [reflexivity|]. split; [constructor|]. left. auto.
  - intros a. num a. eexists [_; _], 2%nat. split; [reflexivity|]. split; [|right; right; auto].
    repeat constructor; eexists; (split; [|reflexivity]); [apply b2N_q|apply s1; assumption].
  - intros a b. num a. num b. eexists [_; _; _], 1%nat. split; [reflexivity|]. split; [|right; left; auto].
    repeat constructor; eexists; (split; [|reflexivity]); [apply b2N_q|apply s2; assumption|apply s3].
  - intros a b c r (core & k & HE & HF & HK). num a. num b. num c.
    cbn [base64encode]. rewrite HE.
    eexists (_ :: _ :: _ :: _ :: core), k. split; [reflexivity|]. split.
    + repeat (apply Forall_cons; [eexists; (split; [|reflexivity])|]);
        [apply b2N_q|apply s2; assumption|apply s4; assumption|apply s5|assumption].
    + cbn [length]. replace (S (S (S (S (length core)))))%nat with (length core + 1 * 4)%nat by lia.
      rewrite Nat.mod_add by lia. assumption.
Qed.

Lemma a2b_char : forall n r pos left pads, n < 64 ->
  a2b (b64_char n :: r) pos left pads =
    if pos =? 0 then a2b r 1 n 0
    else if pos =? 1 then bind (a2b r 2 (n mod 16) 0) (fun rest => Ok (byte_of_N (left * 4 + n / 16) :: rest))
    else if pos =? 2 then bind (a2b r 3 (n mod 4) 0) (fun rest => Ok (byte_of_N (left * 16 + n / 4) :: rest))
    else bind (a2b r 0 0 0) (fun rest => Ok (byte_of_N (left * 64 + n) :: rest)).
Proof.
  intros n r pos left pads H. destruct (b64_char_val n H) as (H1 & H2 & _).
  cbn [a2b]. rewrite H2, H1. reflexivity.
Qed.

Lemma byte_back : forall b n, n = b2N b -> byte_of_N n = b.
Proof. intros b n ->. apply byte_of_b2N. Qed.

Lemma divmod_bits : forall n d, d <> 0 -> n / d * d + n mod d = n.
Proof. intros n d H. rewrite N.mul_comm. symmetry. apply N.div_mod. assumption. Qed.

Lemma r1 : forall n k, n / 4 * 4 + (n mod 4 * 16 + k) / 16 = n + k / 16.
Proof.
  intros n k. rewrite N.div_add_l by lia. pose proof (divmod_bits n 4 ltac:(lia)). lia.
Qed.
Lemma r2 : forall n m, m < 256 -> (n mod 4 * 16 + m / 16) mod 16 = m / 16.
Proof.
  intros n m H. rewrite N.add_comm, N.mod_add by lia. apply N.mod_small. apply N.div_lt_upper_bound; lia.
Qed.
Lemma r3 : forall m k, m / 16 * 16 + (m mod 16 * 4 + k) / 4 = m + k / 4.
Proof. intros m k. rewrite N.div_add_l by lia. pose proof (divmod_bits m 16 ltac:(lia)). lia. Qed.
Lemma r4 : forall m o, o < 256 -> (m mod 16 * 4 + o / 64) mod 4 = o / 64.
Proof.
  intros m o H. rewrite N.add_comm, N.mod_add by lia. apply N.mod_small. apply N.div_lt_upper_bound; lia.
Qed.

Lemma a2b_encode : forall l, a2b (base64encode l) 0 0 0 = Ok l.
Proof.
  apply list_ind3.
  - reflexivity.
  - intros a. num a. cbn [base64encode]. rewrite a2b_char by apply b2N_q. cbn [N.eqb Pos.eqb].
    rewrite a2b_char by (apply s1; assumption). cbn [N.eqb Pos.eqb].
    replace (a2b [x3d; x3d] 2 ((b2N a mod 4 * 16) mod 16) 0) with (@Ok bytes []) by reflexivity.
    cbn [bind]. do 2 f_equal. apply byte_back. pose proof (r1 (b2N a) 0) as HR. rewrite N.add_0_r in HR.
    rewrite HR. rewrite N.div_0_l by lia. lia.
  - intros a b. num a. num b. cbn [base64encode]. rewrite a2b_char by apply b2N_q. cbn [N.eqb Pos.eqb].
    rewrite a2b_char by (apply s2; assumption). cbn [N.eqb Pos.eqb].
    rewrite a2b_char by apply s3. cbn [N.eqb Pos.eqb].
    replace (a2b [x3d] 3 ((b2N b mod 16 * 4) mod 4) 0) with (@Ok bytes []) by reflexivity.
    cbn [bind]. f_equal. f_equal; [|f_equal]; apply byte_back.
    + rewrite r1. rewrite N.div_div by lia. rewrite (N.div_small (b2N b)) by lia. lia.
    + rewrite r2 by assumption. pose proof (r3 (b2N b) 0) as HR. rewrite N.add_0_r in HR. rewrite HR.
      rewrite N.div_0_l by lia. lia.
  - intros a b c r IH. num a. num b. num c. cbn [base64encode]. rewrite a2b_char by apply b2N_q. cbn [N.eqb Pos.eqb].
    rewrite a2b_char by (apply s2; assumption). cbn [N.eqb Pos.eqb].
    rewrite a2b_char by (apply s4; assumption). cbn [N.eqb Pos.eqb].
    rewrite a2b_char by apply s5. cbn [N.eqb Pos.eqb]. rewrite IH. cbn [bind].
    f_equal. f_equal; [|f_equal; [|f_equal]]; apply byte_back.
    + rewrite r1. rewrite N.div_div by lia. rewrite (N.div_small (b2N b)) by lia. lia.
    + rewrite r2 by assumption. rewrite r3. rewrite N.div_div by lia. rewrite (N.div_small (b2N c)) by lia. lia.
    + rewrite r4 by assumption. apply divmod_bits. lia.
Qed.

Lemma b64c_ascii : forall b, b64c b -> b2N b < 128.
Proof. intros b (n & Hn & ->). apply (b64_char_val n Hn). Qed.

Lemma str_len_ascii : forall u, Forall (fun b => b2N b < 128) u -> str_len u = length u.
Proof.
  intros u H. unfold str_len. induction H as [|b u Hb H IH]; [reflexivity|]. cbn [filter].
  assert (in_range 128 191 b = false) as ->.
  { unfold in_range. apply andb_false_iff. left. apply N.leb_gt. assumption. }
  cbn [negb length]. rewrite IH. reflexivity.
Qed.

Lemma encode_ascii : forall l, Forall (fun b => b2N b < 128) (base64encode l).
Proof.
  intros l. destruct (base64_shape l) as (core & k & -> & HF & _). apply Forall_app. split.
  - eapply Forall_impl; [|exact HF]. apply b64c_ascii.
  - apply Forall_forall. intros x HX. apply repeat_spec in HX. subst x. reflexivity.
Qed.

Lemma b64decode_encode : forall l, b64decode (base64encode l) = Ok l.
Proof.
  intros l. unfold b64decode. replace (forallb _ _) with true; [apply a2b_encode|].
  symmetry. apply forallb_forall. intros x HX. apply N.ltb_lt. pose proof (encode_ascii l) as HF.
  rewrite Forall_forall in HF. auto.
Qed.

Lemma byte_eqb_ne : forall a b, a <> b -> byte_eqb a b = false.
Proof. intros a b H. destruct (byte_eqb a b) eqn:E; [|reflexivity]. apply byte_eqb_eq in E. contradiction. Qed.

Lemma from_urlsafe_b64 : forall b, b64c b \/ b = x3d ->
  (if byte_eqb b x2d then x2b else if byte_eqb b x5f then x2f else b) = b.
Proof.
  intros b [(n & Hn & ->)| ->]; [|reflexivity]. destruct (b64_char_url n Hn) as (H1 & H2 & _).
  rewrite !byte_eqb_ne by assumption. reflexivity.
Qed.

Lemma urlsafe_back : forall u, Forall (fun b => b64c b \/ b = x3d) u ->
  from_urlsafe u = u /\ from_urlsafe (to_urlsafe u) = u.
Proof.
  intros u H. induction H as [|b u Hb H [I1 I2]]; [split; reflexivity|].
  unfold from_urlsafe, to_urlsafe in *. cbn [map]. split.
  - rewrite from_urlsafe_b64 by assumption. f_equal. exact I1.
  - f_equal; [|exact I2].
    destruct (byte_eqb b x2b) eqn:E1; [apply byte_eqb_eq in E1; subst; reflexivity|].
    destruct (byte_eqb b x2f) eqn:E2; [apply byte_eqb_eq in E2; subst; reflexivity|].
    apply from_urlsafe_b64. assumption.
Qed.

Lemma encode_chars : forall l, Forall (fun b => b64c b \/ b = x3d) (base64encode l).
Proof.
  intros l. destruct (base64_shape l) as (core & k & -> & HF & _). apply Forall_app. split.
  - eapply Forall_impl; [|exact HF]. auto.
  - apply Forall_forall. intros x HX. apply repeat_spec in HX. auto.
Qed.

Lemma encode_len4 : forall l, (length (base64encode l) mod 4 = 0)%nat.
Proof.
  intros l. destruct (base64_shape l) as (core & k & -> & HF & HK). rewrite app_length, repeat_length.
  destruct HK as [[-> H]|[[-> H]|[-> H]]].
  - rewrite Nat.add_0_r. assumption.
  - rewrite Nat.add_mod by lia. rewrite H. reflexivity.
  - rewrite Nat.add_mod by lia. rewrite H. reflexivity.
Qed.

Lemma base64decode_of : forall u l, from_urlsafe u = base64encode l -> base64decode u = Ok (VBytes l).
Proof.
  intros u l H. unfold base64decode. rewrite H. cbv zeta. rewrite (str_len_ascii _ (encode_ascii l)).
  rewrite encode_len4. cbn [Nat.eqb]. rewrite b64decode_encode. reflexivity.
Qed.

Lemma base64_roundtrip : forall l, base64decode (base64encode l) = Ok (VBytes l).
Proof. intros l. apply base64decode_of. apply urlsafe_back. apply encode_chars. Qed.

Lemma base64_urlsafe : forall l, base64decode (to_urlsafe (base64encode l)) = Ok (VBytes l).
Proof. intros l. apply base64decode_of. apply urlsafe_back. apply encode_chars. Qed.

Lemma strip_core : forall core k, Forall b64c core -> strip (core ++ repeat x3d k) = core.
Proof.
  intros core k H. induction H as [|b core (n & Hn & ->) H IH].
  - induction k as [|k IH]; [reflexivity|]. cbn [repeat app strip] in *. rewrite IH. reflexivity.
  - cbn [app strip]. rewrite IH. destruct core; [|reflexivity].
    destruct (b64_char_url n Hn) as (_ & _ & H3). rewrite byte_eqb_ne by assumption. reflexivity.
Qed.

Lemma strip_urlsafe : forall u, strip (to_urlsafe u) = to_urlsafe (strip u).
Proof.
  unfold to_urlsafe. induction u as [|b u IH]; [reflexivity|]. cbn [map strip]. rewrite IH.
  assert (HB : byte_eqb (if byte_eqb b x2b then x2d else if byte_eqb b x2f then x5f else b) x3d = byte_eqb b x3d).
  { destruct (byte_eqb b x2b) eqn:E1; [apply byte_eqb_eq in E1; subst; reflexivity|].
    destruct (byte_eqb b x2f) eqn:E2; [apply byte_eqb_eq in E2; subst; reflexivity|]. reflexivity. }
  destruct (strip u); cbn [map]; [|reflexivity]. rewrite HB. destruct (byte_eqb b x3d); reflexivity.
Qed.

Lemma base64decode_stripped : forall u core k l, from_urlsafe u = core -> base64encode l = core ++ repeat x3d k ->
  Forall b64c core ->
  ((k = 0 /\ length core mod 4 = 0) \/ (k = 1 /\ length core mod 4 = 3) \/ (k = 2 /\ length core mod 4 = 2))%nat ->
  base64decode u = Ok (VBytes l).
Proof.
  intros u core k l HU HE HF HK. unfold base64decode. rewrite HU. cbv zeta. rewrite str_len_ascii.
  2: { eapply Forall_impl; [|exact HF]. apply b64c_ascii. }
  pose proof (b64decode_encode l) as HD. rewrite HE in HD.
  destruct HK as [[-> H]|[[-> H]|[-> H]]]; rewrite H; cbn [Nat.eqb].
  - cbn [repeat] in HD. rewrite app_nil_r in HD. rewrite HD. reflexivity.
  - cbn [repeat] in HD. rewrite HD. reflexivity.
  - cbn [repeat] in HD. rewrite HD. reflexivity.
Qed.

Lemma base64_stripped : forall l, base64decode (strip (base64encode l)) = Ok (VBytes l) /\
  base64decode (strip (to_urlsafe (base64encode l))) = Ok (VBytes l).
Proof.
  intros l. destruct (base64_shape l) as (core & k & HE & HF & HK).
  assert (HC : Forall (fun b => b64c b \/ b = x3d) core) by (eapply Forall_impl; [|exact HF]; auto).
  destruct (urlsafe_back core HC) as [HU1 HU2]. split.
  - rewrite HE, strip_core by assumption. eapply base64decode_stripped; eassumption.
  - rewrite strip_urlsafe, HE, strip_core by assumption. eapply base64decode_stripped; eassumption.
Qed.

(** ** X.509 *)

Lemma fullnames_table : forall f, forallb (fun e => bytes_eqb (cls_fullname (fst e)) (snd e)) (registered f) = true.
Proof. intros []; vm_compute; reflexivity. Qed.

Lemma cls_fullname_registered : forall f c n, In (c, n) (registered f) -> cls_fullname c = n.
Proof.
  intros f c n H. pose proof (fullnames_table f) as HT. rewrite forallb_forall in HT.
  apply HT in H. apply bytes_eqb_eq. exact H.
Qed.

Lemma x5t_roundtrip : forall z n p, In (Cls FAlg z, n) (registered FAlg) ->
  x5t_decode (x5t_encode (X5T (alg z) p)) = Ok (X5T (alg z) p) /\
  (forall tstr, x5t_decode (VList [wire cls_fullname (HMsg tstr) (alg z); p]) = Ok (X5T (alg z) p)).
Proof.
  intros z n p HI. destruct (from_id_registered _ _ _ HI) as (H1 & H2 & H3). unfold x5t_decode, x5t_encode, alg. split.
  - cbn [t_alg t_print py_index bind nth_error]. rewrite H3. reflexivity.
  - intros [|]; cbn [wire py_index bind nth_error].
    + cbn [c_fam]. destruct (fam_eq_dec FAlg FAlg) as [_|HN]; [|elim HN; reflexivity].
      rewrite H2; [reflexivity|]. unfold SpecRegistry.same_letters.
      rewrite (cls_fullname_registered _ _ _ HI). reflexivity.
    + rewrite H1. reflexivity.
Qed.

Section WithX.
Variable X : crypto.

Lemma x5t_self_match : forall z h n cert cborenc t, In (z, (h, n)) rfc_hashes -> law_hash_len X ->
  x5t_from_certificate X (alg z) cert cborenc = Ok t -> x5t_matches X t cert cborenc = Ok true.
Proof.
  intros z h n cert cborenc t HI HL H. unfold x5t_from_certificate in H. inv_bind H c. inv_bind H p.
  injection H as <-. unfold x5t_matches. cbn [t_print t_alg]. rewrite H0. cbn [bind]. rewrite H1. cbn [bind].
  rewrite veqb_refl. destruct p as [|x p]; [|reflexivity]. exfalso.
  unfold hash_cert in H1. destruct c; try (destruct (alg_compute_hash X (alg z) []); discriminate).
  destruct (hash_calls X z h n b HI HL) as (t & rest & HT & HN & _). rewrite HT in H1. injection H1 as ->.
  repeat (destruct HI as [HI|HI]; [injection HI as <- <- <-; discriminate|]). destruct HI.
Qed.

Lemma x5t_match_only : forall t cert cborenc, x5t_matches X t cert cborenc = Ok true ->
  exists c b, (if cborenc then loads cert else Ok cert) = Ok (VBytes c) /\
    alg_compute_hash X (t_alg t) c = Ok b /\ t_print t = VBytes b /\ b <> [].
Proof.
  intros t cert cborenc H. unfold x5t_matches in H. destruct (truthy (t_print t)) eqn:ET; [|discriminate].
  cbn [negb] in H. inv_bind H c. inv_bind H p. injection H as H. apply veqb_eq in H.
  unfold hash_cert in H1. destruct c; try (destruct (alg_compute_hash X (t_alg t) []); discriminate).
  exists b, p. split; [assumption|]. split; [assumption|]. split; [assumption|].
  intros ->. rewrite H in ET. discriminate.
Qed.

End WithX.

Lemma x5t_equal : forall a p b q,
  (x5t_eq (X5T a p) (X5T b q) = true <-> a = b /\ p = q) /\
  (forall z n y n', In (Cls FAlg z, n) (registered FAlg) -> In (Cls FAlg y, n') (registered FAlg) ->
     (x5t_eq (X5T (alg z) p) (X5T (alg y) q) = true <-> z = y /\ p = q)).
Proof.
  intros a p b q. assert (HE : forall a b, x5t_eq (X5T a p) (X5T b q) = true <-> a = b /\ p = q)
    by (intros a' b'; unfold x5t_eq; cbn [t_alg t_print]; rewrite Bool.andb_true_iff, !veqb_eq; reflexivity).
  split; [apply HE|]. intros z n y n' _ _. rewrite HE. unfold alg. split; intros [A B]; (split; [congruence|exact B]).
Qed.
