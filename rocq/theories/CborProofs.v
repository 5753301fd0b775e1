(** Lemmas about the cbor2 model: encode/decode round trip, prefix-freeness,
    properties of the decoder on arbitrary input. *)
From Coq Require Import NArith ZArith Bool Lia.
From Coq Require Import Init.Byte List.
From Verif Require Import Bytes BytesProofs Value Cbor.
Import ListNotations.
Local Open Scope N_scope.
Local Open Scope result_scope.

(** ** Induction on data items *)

Section CborInd.
Variable P : cbor -> Prop.
Hypothesis HUint : forall n, P (CUint n).
Hypothesis HNint : forall n, P (CNint n).
Hypothesis HBytes : forall b, P (CBytes b).
Hypothesis HText : forall b, P (CText b).
Hypothesis HArr : forall l, Forall P l -> P (CArr l).
Hypothesis HMap : forall l, Forall (fun kv => P (fst kv) /\ P (snd kv)) l -> P (CMap l).
Hypothesis HTag : forall t c, P c -> P (CTag t c).
Hypothesis HConst : forall n, P (CConst n).
Hypothesis HSimple : forall n, P (CSimple n).
Hypothesis HFloat : forall w b, P (CFloat w b).
Hypothesis HBreak : P CBreak.

Fixpoint cbor_ind' (c : cbor) : P c :=
  match c with
  | CUint n => HUint n
  | CNint n => HNint n
  | CBytes b => HBytes b
  | CText b => HText b
  | CArr l =>
    HArr l ((fix go (l : list cbor) : Forall P l :=
      match l with
      | [] => Forall_nil _
      | x :: r => Forall_cons _ (cbor_ind' x) (go r)
      end) l)
  | CMap l =>
    HMap l ((fix go (l : list (cbor * cbor)) : Forall (fun kv => P (fst kv) /\ P (snd kv)) l :=
      match l with
      | [] => Forall_nil _
      | (k, v) :: r =>
        Forall_cons (P := fun kv => P (fst kv) /\ P (snd kv)) (k, v)
          (conj (cbor_ind' k) (cbor_ind' v)) (go r)
      end) l)
  | CTag t c' => HTag t c' (cbor_ind' c')
  | CConst n => HConst n
  | CSimple n => HSimple n
  | CFloat w b => HFloat w b
  | CBreak => HBreak
  end.
End CborInd.

(** ** Heads *)

Lemma blen_app : forall a b, blen (a ++ b) = blen a + blen b.
Proof. intros a b. unfold blen. rewrite app_length. lia. Qed.

Lemma take_app : forall a r, take (blen a) (a ++ r) = Ok (a, r).
Proof.
  intros a r. unfold take. rewrite blen_app.
  replace (blen a + blen r <? blen a) with false by (symmetry; apply N.ltb_ge; lia).
  unfold blen. rewrite Nat2N.id. rewrite firstn_app, firstn_all, Nat.sub_diag, app_nil_r.
  rewrite skipn_app, skipn_all, Nat.sub_diag. reflexivity.
Qed.

Lemma take_to_be : forall k n r, take (N.of_nat k) (to_be k n ++ r) = Ok (to_be k n, r).
Proof.
  intros k n r. rewrite <- (to_be_length k n) at 1. apply take_app.
Qed.

Lemma head_spec : forall mt n, mt < 8 -> n < two64 ->
  exists b h, head mt n = b :: h /\ b2N b / 32 = mt /\
    (forall allow rest, arg allow (b2N b mod 32) (h ++ rest) = Ok (Some n, rest)).
Proof.
  intros mt n Hmt Hn. unfold head.
  assert (HB : forall i, i < 32 -> b2N (byte_of_N (mt * 32 + i)) / 32 = mt /\
                                   b2N (byte_of_N (mt * 32 + i)) mod 32 = i).
  { intros i Hi. rewrite b2N_of_N. rewrite N.mod_small by lia.
    split.
    - rewrite N.div_add_l by discriminate. rewrite N.div_small by assumption. lia.
    - rewrite N.add_comm, N.mod_add by discriminate. apply N.mod_small; assumption. }
  destruct (n <? 24) eqn:E1.
  { apply N.ltb_lt in E1. exists (byte_of_N (mt * 32 + n)), []. split; [reflexivity|].
    destruct (HB n) as [H1 H2]; [lia|]. split; [assumption|].
    intros allow rest. rewrite H2. unfold arg.
    replace (n <? 24) with true by (symmetry; apply N.ltb_lt; assumption). reflexivity. }
  apply N.ltb_ge in E1.
  destruct (n <? 256) eqn:E2.
  { apply N.ltb_lt in E2. eexists _, _. split; [reflexivity|].
    destruct (HB 24) as [H1 H2]; [lia|]. split; [assumption|].
    intros allow rest. rewrite H2. unfold arg.
    change (24 <? 24) with false. change (24 =? 24) with true. cbv iota.
    rewrite (take_to_be 1). cbn [bind]. rewrite of_be_to_be_small; [reflexivity|exact E2]. }
  apply N.ltb_ge in E2.
  destruct (n <? 65536) eqn:E3.
  { apply N.ltb_lt in E3. eexists _, _. split; [reflexivity|].
    destruct (HB 25) as [H1 H2]; [lia|]. split; [assumption|].
    intros allow rest. rewrite H2. unfold arg.
    change (25 <? 24) with false. change (25 =? 24) with false. change (25 =? 25) with true. cbv iota.
    rewrite (take_to_be 2). cbn [bind]. rewrite of_be_to_be_small; [reflexivity|exact E3]. }
  apply N.ltb_ge in E3.
  destruct (n <? 4294967296) eqn:E4.
  { apply N.ltb_lt in E4. eexists _, _. split; [reflexivity|].
    destruct (HB 26) as [H1 H2]; [lia|]. split; [assumption|].
    intros allow rest. rewrite H2. unfold arg.
    change (26 <? 24) with false. change (26 =? 24) with false. change (26 =? 25) with false.
    change (26 =? 26) with true. cbv iota.
    rewrite (take_to_be 4). cbn [bind]. rewrite of_be_to_be_small; [reflexivity|exact E4]. }
  apply N.ltb_ge in E4.
  { eexists _, _. split; [reflexivity|].
    destruct (HB 27) as [H1 H2]; [lia|]. split; [assumption|].
    intros allow rest. rewrite H2. unfold arg.
    change (27 <? 24) with false. change (27 =? 24) with false. change (27 =? 25) with false.
    change (27 =? 26) with false. change (27 =? 27) with true. cbv iota.
    rewrite (take_to_be 8). cbn [bind]. rewrite of_be_to_be_small; [reflexivity|exact Hn]. }
Qed.

Lemma head_nonempty : forall mt n, (1 <= length (head mt n))%nat.
Proof.
  intros mt n. unfold head.
  destruct (n <? 24); [cbn; lia|]. destruct (n <? 256); [cbn; lia|].
  destruct (n <? 65536); [cbn; lia|]. destruct (n <? 4294967296); cbn; lia.
Qed.

Lemma enc_nonempty : forall c, (1 <= length (enc c))%nat.
Proof.
  intros c. destruct c; cbn [enc]; rewrite ?app_length;
    try (match goal with |- context [head ?m ?n] => pose proof (head_nonempty m n) end; lia).
  - cbn. lia.
  - cbn. lia.
Qed.

(** ** Round trip *)

Lemma dec_string_head : forall f text n b rest h info,
  (forall allow rest, arg allow info (h ++ rest) = Ok (Some n, rest)) ->
  n = blen b -> blen b < max_len -> (text = true -> utf8_valid b = true) ->
  dec_string f text info ((h ++ b) ++ rest) = Ok (cstring text b, rest).
Proof.
  intros f text n b rest h info HA Hn HL HU. unfold dec_string.
  rewrite <- app_assoc, HA. cbn [bind]. unfold take_string.
  replace (max_len <=? n) with false by (symmetry; apply N.leb_gt; lia).
  subst n. rewrite take_app. cbn [bind].
  destruct text; cbn [andb]; [rewrite HU by reflexivity|]; reflexivity.
Qed.

Definition roundtrips (c : cbor) : Prop :=
  wfc c = true -> forall f rest, (2 * length (enc c) + 1 <= f)%nat ->
  dec f (enc c ++ rest) = Ok (c, rest).

Lemma dec_seq_roundtrip : forall l,
  Forall roundtrips l -> forallb wfc l = true ->
  forall f rest, (2 * length (flat_map enc l) + 2 <= f)%nat ->
  dec_seq f (N.of_nat (length l)) (flat_map enc l ++ rest) = Ok (l, rest).
Proof.
  induction l as [|c l IH]; intros HF HW f rest Hf.
  - destruct f; [cbn in Hf; lia|]. reflexivity.
  - inversion HF as [|? ? Hc Hl]; subst. cbn [forallb] in HW. apply andb_true_iff in HW as [HWc HWl].
    cbn [flat_map] in *. rewrite app_length in Hf.
    pose proof (enc_nonempty c) as HN.
    destruct f as [|f]; [lia|]. cbn [dec_seq length].
    replace (N.of_nat (S (length l)) =? 0) with false by (symmetry; apply N.eqb_neq; lia).
    rewrite <- app_assoc. rewrite (Hc HWc) by lia. cbn [bind].
    replace (N.of_nat (S (length l)) - 1) with (N.of_nat (length l)) by lia.
    rewrite IH by (assumption || lia). reflexivity.
Qed.

Definition enc_pair (kv : cbor * cbor) : bytes := match kv with (k, v) => enc k ++ enc v end.
Definition wfc_pair (kv : cbor * cbor) : bool := match kv with (k, v) => wfc k && wfc v end.

Lemma dec_map_roundtrip : forall l,
  Forall (fun kv => roundtrips (fst kv) /\ roundtrips (snd kv)) l -> forallb wfc_pair l = true ->
  forall f rest, (2 * length (flat_map enc_pair l) + 2 <= f)%nat ->
  dec_map f (N.of_nat (length l)) (flat_map enc_pair l ++ rest) = Ok (l, rest).
Proof.
  induction l as [|[k v] l IH]; intros HF HW f rest Hf.
  - destruct f; [cbn in Hf; lia|]. reflexivity.
  - inversion HF as [|? ? Hc Hl]; subst. destruct Hc as [Hk Hv].
    cbn [forallb wfc_pair] in HW. apply andb_true_iff in HW as [HWc HWl].
    apply andb_true_iff in HWc as [HWk HWv]. cbn [fst snd] in *.
    cbn [flat_map enc_pair] in *. rewrite !app_length in Hf.
    pose proof (enc_nonempty k) as HNk. pose proof (enc_nonempty v) as HNv.
    destruct f as [|f]; [lia|]. cbn [dec_map length].
    replace (N.of_nat (S (length l)) =? 0) with false by (symmetry; apply N.eqb_neq; lia).
    rewrite <- !app_assoc. rewrite (Hk HWk) by lia. cbn [bind].
    rewrite (Hv HWv) by lia. cbn [bind].
    replace (N.of_nat (S (length l)) - 1) with (N.of_nat (length l)) by lia.
    rewrite IH by (assumption || lia). reflexivity.
Qed.

Lemma max_len_two64 : max_len < two64.
Proof. reflexivity. Qed.

Lemma dec_enc : forall c, roundtrips c.
Proof.
  induction c as [n|n|b|b|l HF|l HF|t c IH|n|n|w b|] using cbor_ind'; intros HW f rest Hf;
    cbn [wfc] in HW; cbn [enc] in *;
    (destruct f as [|f]; [lia|]).
  - apply N.ltb_lt in HW. destruct (head_spec 0 n) as (b & h & E & H1 & H2); [lia|assumption|].
    rewrite E. cbn [dec app]. rewrite H1. change (0 =? 0) with true. cbv iota.
    unfold arg_fixed. rewrite H2. reflexivity.
  - apply N.ltb_lt in HW. destruct (head_spec 1 n) as (b & h & E & H1 & H2); [lia|assumption|].
    rewrite E. cbn [dec app]. rewrite H1. change (1 =? 0) with false. change (1 =? 1) with true. cbv iota.
    unfold arg_fixed. rewrite H2. reflexivity.
  - apply N.ltb_lt in HW. pose proof max_len_two64.
    destruct (head_spec 2 (blen b)) as (b0 & h & E & H1 & H2); [lia|lia|].
    rewrite E. cbn [dec app]. rewrite H1.
    change (2 =? 0) with false. change (2 =? 1) with false. change (2 =? 2) with true. cbv iota.
    eapply (dec_string_head f false); eauto. discriminate.
  - apply andb_true_iff in HW as [HW HU]. apply N.ltb_lt in HW. pose proof max_len_two64.
    destruct (head_spec 3 (blen b)) as (b0 & h & E & H1 & H2); [lia|lia|].
    rewrite E. cbn [dec app]. rewrite H1.
    change (3 =? 0) with false. change (3 =? 1) with false. change (3 =? 2) with false.
    change (3 =? 3) with true. cbv iota.
    eapply (dec_string_head f true); eauto.
  - apply andb_true_iff in HW as [HL HW]. apply N.ltb_lt in HL. pose proof max_len_two64.
    destruct (head_spec 4 (N.of_nat (length l))) as (b0 & h & E & H1 & H2); [lia|lia|].
    rewrite E in *. cbn [dec app]. rewrite H1.
    change (4 =? 0) with false. change (4 =? 1) with false. change (4 =? 2) with false.
    change (4 =? 3) with false. change (4 =? 4) with true. cbv iota.
    rewrite <- app_assoc, H2. cbn [bind].
    replace (max_len <=? N.of_nat (length l)) with false by (symmetry; apply N.leb_gt; lia).
    cbn [app length] in Hf. rewrite app_length in Hf.
    rewrite dec_seq_roundtrip by (assumption || lia). reflexivity.
  - apply andb_true_iff in HW as [HL HW]. apply N.ltb_lt in HL. pose proof max_len_two64.
    destruct (head_spec 5 (N.of_nat (length l))) as (b0 & h & E & H1 & H2); [lia|lia|].
    rewrite E in *. cbn [dec app]. rewrite H1.
    change (5 =? 0) with false. change (5 =? 1) with false. change (5 =? 2) with false.
    change (5 =? 3) with false. change (5 =? 4) with false. change (5 =? 5) with true. cbv iota.
    rewrite <- app_assoc, H2. cbn [bind].
    replace (max_len <=? N.of_nat (length l)) with false by (symmetry; apply N.leb_gt; lia).
    cbn [app length] in Hf. rewrite app_length in Hf.
    change (fun kv : cbor * cbor => match kv with (k, v) => enc k ++ enc v end) with enc_pair in *.
    change (fun kv : cbor * cbor => match kv with (k, v) => wfc k && wfc v end) with wfc_pair in *.
    rewrite dec_map_roundtrip by (assumption || lia). reflexivity.
  - apply andb_true_iff in HW as [HL HW]. apply N.ltb_lt in HL.
    destruct (head_spec 6 t) as (b0 & h & E & H1 & H2); [lia|lia|].
    rewrite E in *. cbn [dec app]. rewrite H1.
    change (6 =? 0) with false. change (6 =? 1) with false. change (6 =? 2) with false.
    change (6 =? 3) with false. change (6 =? 4) with false. change (6 =? 5) with false.
    change (6 =? 6) with true. cbv iota.
    unfold arg_fixed. rewrite <- app_assoc, H2. cbn [bind].
    cbn [app length] in Hf. rewrite app_length in Hf.
    rewrite (IH HW) by lia. reflexivity.
  - apply andb_true_iff in HW as [HL HW]. apply N.leb_le in HL. apply N.ltb_lt in HW.
    unfold head. replace (n <? 24) with true by (symmetry; apply N.ltb_lt; assumption).
    cbn [dec app]. rewrite b2N_of_N. rewrite (N.mod_small (7 * 32 + n)) by lia.
    replace ((7 * 32 + n) / 32) with 7 by (apply N.div_unique with n; lia).
    replace ((7 * 32 + n) mod 32) with n by (apply N.mod_unique with 7; lia).
    change (7 =? 0) with false. change (7 =? 1) with false. change (7 =? 2) with false.
    change (7 =? 3) with false. change (7 =? 4) with false. change (7 =? 5) with false.
    change (7 =? 6) with false. cbv iota. unfold dec_special.
    replace (n <? 20) with false by (symmetry; apply N.ltb_ge; lia).
    replace (n <? 24) with true by (symmetry; apply N.ltb_lt; lia). reflexivity.
  - apply orb_true_iff in HW as [HW|HW].
    + apply N.ltb_lt in HW.
      unfold head. replace (n <? 24) with true by (symmetry; apply N.ltb_lt; lia).
      cbn [dec app]. rewrite b2N_of_N. rewrite (N.mod_small (7 * 32 + n)) by lia.
      replace ((7 * 32 + n) / 32) with 7 by (apply N.div_unique with n; lia).
      replace ((7 * 32 + n) mod 32) with n by (apply N.mod_unique with 7; lia).
      change (7 =? 0) with false. change (7 =? 1) with false. change (7 =? 2) with false.
      change (7 =? 3) with false. change (7 =? 4) with false. change (7 =? 5) with false.
      change (7 =? 6) with false. cbv iota. unfold dec_special.
      replace (n <? 20) with true by (symmetry; apply N.ltb_lt; lia). reflexivity.
    + apply andb_true_iff in HW as [HL HW]. apply N.leb_le in HL. apply N.ltb_lt in HW.
      unfold head. replace (n <? 24) with false by (symmetry; apply N.ltb_ge; lia).
      replace (n <? 256) with true by (symmetry; apply N.ltb_lt; lia).
      cbn [dec app]. change (b2N (byte_of_N (7 * 32 + 24))) with 248.
      change (248 / 32) with 7. change (248 mod 32) with 24.
      change (7 =? 0) with false. change (7 =? 1) with false. change (7 =? 2) with false.
      change (7 =? 3) with false. change (7 =? 4) with false. change (7 =? 5) with false.
      change (7 =? 6) with false. cbv iota. unfold dec_special.
      change (24 <? 20) with false. change (24 <? 24) with false. change (24 =? 24) with true. cbv iota.
      rewrite (take_to_be 1). cbn [bind]. rewrite of_be_to_be_small by exact HW.
      replace (n <? 32) with false by (symmetry; apply N.ltb_ge; lia).
      rewrite andb_false_r. reflexivity.
  - apply N.ltb_lt in HW. destruct w; cbn [finfo fbytes] in *; cbn [dec app].
    + change (b2N (byte_of_N (7 * 32 + 25))) with 249. change (249 / 32) with 7.
      change (249 mod 32) with 25. cbn [N.eqb Pos.eqb]. unfold dec_special.
      cbn [N.eqb Pos.eqb N.ltb N.compare Pos.compare Pos.compare_cont].
      rewrite (take_to_be 2). cbn [bind]. rewrite of_be_to_be_small by exact HW. reflexivity.
    + change (b2N (byte_of_N (7 * 32 + 26))) with 250. change (250 / 32) with 7.
      change (250 mod 32) with 26. cbn [N.eqb Pos.eqb]. unfold dec_special.
      cbn [N.eqb Pos.eqb N.ltb N.compare Pos.compare Pos.compare_cont].
      rewrite (take_to_be 4). cbn [bind]. rewrite of_be_to_be_small by exact HW. reflexivity.
    + change (b2N (byte_of_N (7 * 32 + 27))) with 251. change (251 / 32) with 7.
      change (251 mod 32) with 27. cbn [N.eqb Pos.eqb]. unfold dec_special.
      cbn [N.eqb Pos.eqb N.ltb N.compare Pos.compare Pos.compare_cont].
      rewrite (take_to_be 8). cbn [bind]. rewrite of_be_to_be_small by exact HW. reflexivity.
  - discriminate.
Qed.

Theorem decode_item_enc : forall c rest, wfc c = true ->
  decode_item (enc c ++ rest) = Ok (c, rest).
Proof.
  intros c rest H. unfold decode_item, fuel_for. apply dec_enc; [assumption|].
  rewrite app_length. lia.
Qed.

Theorem enc_prefix_free : forall a b ra rb, wfc a = true -> wfc b = true ->
  enc a ++ ra = enc b ++ rb -> a = b /\ ra = rb.
Proof.
  intros a b ra rb Ha Hb H.
  pose proof (decode_item_enc a ra Ha) as H1. pose proof (decode_item_enc b rb Hb) as H2.
  rewrite H in H1. rewrite H1 in H2. injection H2 as -> ->. auto.
Qed.

Theorem enc_inj : forall a b, wfc a = true -> wfc b = true -> enc a = enc b -> a = b.
Proof.
  intros a b Ha Hb H. apply (enc_prefix_free a b [] []); auto. rewrite H. reflexivity.
Qed.

Lemma cbor_of_enc_zeros : forall a b ra rb, wfc a = true -> wfc b = true ->
  enc a ++ ra = enc b ++ rb -> a = b.
Proof. intros a b ra rb Ha Hb H. apply (enc_prefix_free a b ra rb Ha Hb H). Qed.

(** ** The decoder on arbitrary input

    A reader is local when the outcome depends only on the bytes it consumes. *)
Definition local {A} (p : bytes -> result (A * bytes)) : Prop :=
  forall l a r, p l = Ok (a, r) -> exists q, l = q ++ r /\ forall s, p (q ++ s) = Ok (a, s).

Lemma local_ret : forall A (a : A), local (fun l => Ok (a, l)).
Proof. intros A a l x r H. injection H as <- <-. exists []. split; reflexivity. Qed.

Lemma local_err : forall A e, local (fun l => @Err (A * bytes) e).
Proof. intros A e l x r H. discriminate. Qed.

Lemma local_bind : forall A B (p : bytes -> result (A * bytes)) (k : A -> bytes -> result (B * bytes)),
  local p -> (forall a, local (k a)) ->
  local (fun l => bind (p l) (fun ar => match ar with (a, r) => k a r end)).
Proof.
  intros A B p k Hp Hk l b r H. cbv beta in H.
  destruct (p l) as [[a r1]|e] eqn:E; [|discriminate]. cbn [bind] in H.
  destruct (Hp _ _ _ E) as (q1 & -> & H1). destruct (Hk a _ _ _ H) as (q2 & -> & H2).
  exists (q1 ++ q2). split; [apply app_assoc|]. intros s. cbv beta.
  rewrite <- app_assoc, H1. cbn [bind]. apply H2.
Qed.

Lemma local_take : forall n, local (take n).
Proof.
  intros n l a r H. unfold take in H. destruct (blen l <? n) eqn:E; [discriminate|].
  apply N.ltb_ge in E. injection H as <- <-. exists (firstn (N.to_nat n) l).
  split; [symmetry; apply firstn_skipn|]. intros s. unfold take.
  assert (L : length (firstn (N.to_nat n) l) = N.to_nat n).
  { apply firstn_length_le. unfold blen in E. lia. }
  replace (blen (firstn (N.to_nat n) l ++ s) <? n) with false
    by (symmetry; apply N.ltb_ge; rewrite blen_app; unfold blen; rewrite L; lia).
  rewrite firstn_app, L, Nat.sub_diag, firstn_O, app_nil_r.
  rewrite skipn_app, L, Nat.sub_diag, skipn_O.
  rewrite firstn_firstn, Nat.min_id. rewrite skipn_all2 by lia. reflexivity.
Qed.

Lemma local_if : forall A (c : bool) (p q : bytes -> result (A * bytes)),
  local p -> local q -> local (fun l => if c then p l else q l).
Proof. intros A c p q Hp Hq. destruct c; assumption. Qed.

Lemma local_arg : forall allow info, local (arg allow info).
Proof.
  intros allow info. unfold arg.
  repeat (apply local_if; [first [apply local_ret | apply local_bind; [apply local_take|intros a; apply local_ret]]|]).
  apply local_err.
Qed.

Lemma local_arg_fixed : forall info, local (arg_fixed info).
Proof.
  intros info. unfold arg_fixed. apply local_bind; [apply local_arg|].
  intros [n|]; [apply local_ret|apply local_err].
Qed.

Lemma local_take_string : forall text n, local (take_string text n).
Proof.
  intros text n. unfold take_string. apply local_if; [apply local_err|].
  apply local_bind; [apply local_take|]. intros b.
  apply local_if; [apply local_err|apply local_ret].
Qed.

Lemma local_dec_special : forall info, local (dec_special info).
Proof.
  intros info. unfold dec_special.
  apply local_if; [apply local_ret|]. apply local_if; [apply local_ret|].
  apply local_if.
  { apply local_bind; [apply local_take|]. intros a. apply local_if; [apply local_err|apply local_ret]. }
  apply local_if; [apply local_bind; [apply local_take|intros a; apply local_ret]|].
  apply local_if; [apply local_bind; [apply local_take|intros a; apply local_ret]|].
  apply local_if; [apply local_bind; [apply local_take|intros a; apply local_ret]|].
  apply local_if; [apply local_ret|apply local_err].
Qed.

(** Readers with fuel: more fuel does not change a success. *)
Definition flocal {A} (f : nat) (p : nat -> bytes -> result (A * bytes)) : Prop :=
  forall l a r, p f l = Ok (a, r) ->
  exists q, l = q ++ r /\ forall g s, (f <= g)%nat -> p g (q ++ s) = Ok (a, s).

Lemma flocal_of_local : forall A f (p : bytes -> result (A * bytes)), local p -> flocal f (fun _ => p).
Proof.
  intros A f p H l a r E. destruct (H _ _ _ E) as (q & -> & Hq). exists q. split; [reflexivity|].
  intros g s _. apply Hq.
Qed.

Lemma flocal_bind : forall A B f (p : nat -> bytes -> result (A * bytes))
    (k : A -> nat -> bytes -> result (B * bytes)),
  flocal f p -> (forall a, flocal f (k a)) ->
  flocal f (fun f l => bind (p f l) (fun ar => match ar with (a, r) => k a f r end)).
Proof.
  intros A B f p k Hp Hk l b r H. cbv beta in H.
  destruct (p f l) as [[a r1]|e] eqn:E; [|discriminate]. cbn [bind] in H.
  destruct (Hp _ _ _ E) as (q1 & -> & H1). destruct (Hk a _ _ _ H) as (q2 & -> & H2).
  exists (q1 ++ q2). split; [apply app_assoc|]. intros g s Hg. cbv beta.
  rewrite <- app_assoc, H1 by assumption. cbn [bind]. apply H2. assumption.
Qed.

Lemma flocal_if : forall A f (c : bool) (p q : nat -> bytes -> result (A * bytes)),
  flocal f p -> flocal f q -> flocal f (fun f l => if c then p f l else q f l).
Proof. intros A f c p q Hp Hq. destruct c; assumption. Qed.

Lemma flocal_ret : forall A f (a : A), flocal f (fun _ l => Ok (a, l)).
Proof. intros. apply (flocal_of_local _ f (fun l => Ok (a, l))). apply local_ret. Qed.

Lemma flocal_err : forall A f e, flocal f (fun _ _ => @Err (A * bytes) e).
Proof. intros. apply (flocal_of_local _ f (fun l => Err e)). apply local_err. Qed.

(** [p] at [S f] is [q] at [f]. *)
Lemma flocal_S : forall A f (p q : nat -> bytes -> result (A * bytes)),
  (forall g l, p (S g) l = q g l) -> flocal f q -> flocal (S f) p.
Proof.
  intros A f p q Hpq Hq l a r H. rewrite Hpq in H. destruct (Hq _ _ _ H) as (w & -> & Hw).
  exists w. split; [reflexivity|]. intros g s Hg. destruct g as [|g]; [lia|].
  rewrite Hpq. apply Hw. lia.
Qed.

Lemma flocal_O : forall A (p : nat -> bytes -> result (A * bytes)) e,
  (forall l, p O l = Err e) -> flocal O p.
Proof. intros A p e H l a r E. rewrite H in E. discriminate. Qed.

(** Reading one byte and continuing. *)
Lemma flocal_byte : forall A f (k : byte -> nat -> bytes -> result (A * bytes)) e,
  (forall b, flocal f (k b)) ->
  flocal f (fun f l => match l with [] => Err e | b :: r => k b f r end).
Proof.
  intros A f k e Hk l a r H. destruct l as [|b l]; [discriminate|].
  destruct (Hk b _ _ _ H) as (q & -> & Hq). exists (b :: q). split; [reflexivity|].
  intros g s Hg. cbn [app]. apply Hq. assumption.
Qed.

Lemma dec_chunks_flocal : forall text f, flocal f (fun f => dec_chunks f text).
Proof.
  intros text. induction f as [|f IH]; [eapply flocal_O; reflexivity|].
  eapply flocal_S; [intros g l; reflexivity|].
  apply (flocal_byte _ f (fun b f r => if b2N b =? 255 then Ok ([], r)
    else if b2N b / 32 =? (if text then 3 else 2) then
      bind (arg_fixed (b2N b mod 32) r) (fun '(n, r1) =>
      bind (take_string text n r1) (fun '(s, r2) =>
      bind (dec_chunks f text r2) (fun '(s', r3) => Ok (s ++ s', r3))))
    else Err CBORDecodeValueError)).
  intros b. apply flocal_if; [apply (flocal_ret _ f [])|]. apply flocal_if; [|apply flocal_err].
  apply (flocal_bind _ _ f (fun _ => arg_fixed (b2N b mod 32))
          (fun n f r1 => bind (take_string text n r1) (fun '(s, r2) =>
            bind (dec_chunks f text r2) (fun '(s', r3) => Ok (s ++ s', r3)))));
    [apply flocal_of_local, local_arg_fixed|].
  intros n. apply (flocal_bind _ _ f (fun _ => take_string text n)
          (fun s f r2 => bind (dec_chunks f text r2) (fun '(s', r3) => Ok (s ++ s', r3))));
    [apply flocal_of_local, local_take_string|].
  intros s. apply (flocal_bind _ _ f (fun f => dec_chunks f text) (fun s' _ r3 => Ok (s ++ s', r3)));
    [assumption|]. intros s'. apply flocal_ret.
Qed.

Lemma dec_string_flocal : forall text info f, flocal f (fun f => dec_string f text info).
Proof.
  intros text info f. unfold dec_string.
  apply (flocal_bind _ _ f (fun _ => arg true info)
    (fun o f r => match o with
      | Some n => bind (take_string text n r) (fun '(b, r') => Ok (cstring text b, r'))
      | None => bind (dec_chunks f text r) (fun '(b, r') => Ok (cstring text b, r')) end));
    [apply flocal_of_local, local_arg|].
  intros [n|].
  - apply (flocal_bind _ _ f (fun _ => take_string text n) (fun b _ r' => Ok (cstring text b, r')));
      [apply flocal_of_local, local_take_string|intros b; apply flocal_ret].
  - apply (flocal_bind _ _ f (fun f => dec_chunks f text) (fun b _ r' => Ok (cstring text b, r')));
      [apply dec_chunks_flocal|intros b; apply flocal_ret].
Qed.

(** The body of [dec] after the initial byte. *)
Definition dec_body (b : byte) (f' : nat) (r : bytes) : result (cbor * bytes) :=
  let mt := b2N b / 32 in
  let info := b2N b mod 32 in
  if mt =? 0 then '(n, r') <- arg_fixed info r ;; Ok (CUint n, r')
  else if mt =? 1 then '(n, r') <- arg_fixed info r ;; Ok (CNint n, r')
  else if mt =? 2 then dec_string f' false info r
  else if mt =? 3 then dec_string f' true info r
  else if mt =? 4 then
    '(o, r') <- arg true info r ;;
    match o with
    | Some n =>
      if max_len <=? n then Err CBORDecodeValueError
      else '(cs, r2) <- dec_seq f' n r' ;; Ok (CArr cs, r2)
    | None => '(cs, r2) <- dec_seq_indef f' r' ;; Ok (CArr cs, r2)
    end
  else if mt =? 5 then
    '(o, r') <- arg true info r ;;
    match o with
    | Some n =>
      if max_len <=? n then Err CBORDecodeValueError
      else '(cs, r2) <- dec_map f' n r' ;; Ok (CMap cs, r2)
    | None => '(cs, r2) <- dec_map_indef f' r' ;; Ok (CMap cs, r2)
    end
  else if mt =? 6 then
    '(t, r') <- arg_fixed info r ;;
    '(c, r2) <- dec f' r' ;; Ok (CTag t c, r2)
  else dec_special info r.

Lemma dec_S : forall f l,
  dec (S f) l = match l with [] => Err CBORDecodeEOF | b :: r => dec_body b f r end.
Proof. intros f [|b r]; reflexivity. Qed.

Lemma dec_body_flocal : forall b f,
  flocal f dec -> (forall n, flocal f (fun f => dec_seq f n)) -> (forall n, flocal f (fun f => dec_map f n)) ->
  flocal f dec_seq_indef -> flocal f dec_map_indef -> flocal f (dec_body b).
Proof.
  intros b f Hd Hs Hm Hsi Hmi. unfold dec_body.
  set (mt := b2N b / 32). set (info := b2N b mod 32).
  apply flocal_if; [apply flocal_of_local, local_bind; [apply local_arg_fixed|intros n; apply local_ret]|].
  apply flocal_if; [apply flocal_of_local, local_bind; [apply local_arg_fixed|intros n; apply local_ret]|].
  apply flocal_if; [apply dec_string_flocal|].
  apply flocal_if; [apply dec_string_flocal|].
  apply flocal_if.
  { apply (flocal_bind _ _ f (fun _ => arg true info) (fun o f' r' => match o with
      | Some n => if max_len <=? n then Err CBORDecodeValueError
          else bind (dec_seq f' n r') (fun '(cs, r2) => Ok (CArr cs, r2))
      | None => bind (dec_seq_indef f' r') (fun '(cs, r2) => Ok (CArr cs, r2)) end));
      [apply flocal_of_local, local_arg|].
    intros [n|].
    - apply flocal_if; [apply flocal_err|].
      apply (flocal_bind _ _ f (fun f => dec_seq f n) (fun cs _ r2 => Ok (CArr cs, r2))); [apply Hs|].
      intros cs; apply flocal_ret.
    - apply (flocal_bind _ _ f dec_seq_indef (fun cs _ r2 => Ok (CArr cs, r2))); [apply Hsi|].
      intros cs; apply flocal_ret. }
  apply flocal_if.
  { apply (flocal_bind _ _ f (fun _ => arg true info) (fun o f' r' => match o with
      | Some n => if max_len <=? n then Err CBORDecodeValueError
          else bind (dec_map f' n r') (fun '(cs, r2) => Ok (CMap cs, r2))
      | None => bind (dec_map_indef f' r') (fun '(cs, r2) => Ok (CMap cs, r2)) end));
      [apply flocal_of_local, local_arg|].
    intros [n|].
    - apply flocal_if; [apply flocal_err|].
      apply (flocal_bind _ _ f (fun f => dec_map f n) (fun cs _ r2 => Ok (CMap cs, r2))); [apply Hm|].
      intros cs; apply flocal_ret.
    - apply (flocal_bind _ _ f dec_map_indef (fun cs _ r2 => Ok (CMap cs, r2))); [apply Hmi|].
      intros cs; apply flocal_ret. }
  apply flocal_if.
  { apply (flocal_bind _ _ f (fun _ => arg_fixed info) (fun t f' r' =>
      bind (dec f' r') (fun '(c, r2) => Ok (CTag t c, r2))));
      [apply flocal_of_local, local_arg_fixed|].
    intros t. apply (flocal_bind _ _ f dec (fun c _ r2 => Ok (CTag t c, r2))); [assumption|].
    intros c; apply flocal_ret. }
  apply flocal_of_local, local_dec_special.
Qed.

Lemma dec_all_flocal : forall f,
  flocal f dec /\ (forall n, flocal f (fun f => dec_seq f n)) /\ (forall n, flocal f (fun f => dec_map f n)) /\
  flocal f dec_seq_indef /\ flocal f dec_map_indef.
Proof.
  induction f as [|f (Hd & Hs & Hm & Hsi & Hmi)].
  { repeat split; intros; eapply flocal_O; reflexivity. }
  split; [|split; [|split; [|split]]].
  - eapply flocal_S; [intros g l; apply dec_S|].
    apply (flocal_byte _ f dec_body). intros b. apply dec_body_flocal; assumption.
  - intros n. eapply flocal_S; [intros g l; reflexivity|]. cbv beta.
    apply flocal_if; [apply flocal_ret|].
    apply (flocal_bind _ _ f dec (fun c f r => bind (dec_seq f (n - 1) r) (fun '(cs, r') => Ok (c :: cs, r'))));
      [assumption|].
    intros c. apply (flocal_bind _ _ f (fun f => dec_seq f (n - 1)) (fun cs _ r' => Ok (c :: cs, r'))); [apply Hs|].
    intros cs; apply flocal_ret.
  - intros n. eapply flocal_S; [intros g l; reflexivity|]. cbv beta.
    apply flocal_if; [apply flocal_ret|].
    apply (flocal_bind _ _ f dec (fun k f r => bind (dec f r) (fun '(v, r1) =>
       bind (dec_map f (n - 1) r1) (fun '(cs, r2) => Ok ((k, v) :: cs, r2)))));
      [assumption|].
    intros k. apply (flocal_bind _ _ f dec (fun v f r1 =>
       bind (dec_map f (n - 1) r1) (fun '(cs, r2) => Ok ((k, v) :: cs, r2)))); [assumption|].
    intros v. apply (flocal_bind _ _ f (fun f => dec_map f (n - 1)) (fun cs _ r2 => Ok ((k, v) :: cs, r2)));
      [apply Hm|]. intros cs; apply flocal_ret.
  - eapply flocal_S; [intros g l; reflexivity|]. cbv beta.
    apply (flocal_bind _ _ f dec (fun c f r => match c with CBreak => Ok ([], r)
        | _ => bind (dec_seq_indef f r) (fun '(cs, r') => Ok (c :: cs, r')) end)); [assumption|].
    intros c.
    assert (H : flocal f (fun f r => bind (dec_seq_indef f r) (fun '(cs, r') => Ok (c :: cs, r')))).
    { apply (flocal_bind _ _ f dec_seq_indef (fun cs _ r' => Ok (c :: cs, r'))); [assumption|].
      intros cs; apply flocal_ret. }
    destruct c; try exact H. apply (flocal_ret _ f []).
  - eapply flocal_S; [intros g l; reflexivity|]. cbv beta.
    apply (flocal_bind _ _ f dec (fun k f r => match k with CBreak => Ok ([], r)
        | _ => bind (dec f r) (fun '(v, r1) =>
               bind (dec_map_indef f r1) (fun '(cs, r2) => Ok ((k, v) :: cs, r2))) end)); [assumption|].
    intros k.
    assert (H : flocal f (fun f r => bind (dec f r) (fun '(v, r1) =>
               bind (dec_map_indef f r1) (fun '(cs, r2) => Ok ((k, v) :: cs, r2))))).
    { apply (flocal_bind _ _ f dec (fun v f r1 =>
         bind (dec_map_indef f r1) (fun '(cs, r2) => Ok ((k, v) :: cs, r2)))); [assumption|].
      intros v. apply (flocal_bind _ _ f dec_map_indef (fun cs _ r2 => Ok ((k, v) :: cs, r2))); [assumption|].
      intros cs; apply flocal_ret. }
    destruct k; try exact H. apply (flocal_ret _ f []).
Qed.

Lemma dec_flocal : forall f, flocal f dec.
Proof. intros f. apply dec_all_flocal. Qed.

(** An item occupies at least one byte. *)
Lemma dec_consumes : forall f l c r, dec f l = Ok (c, r) -> exists b q, l = b :: q ++ r.
Proof.
  intros f l c r H. destruct (dec_flocal f l c r H) as (q & -> & Hq).
  destruct q as [|b q].
  - exfalso. specialize (Hq f [] (le_n _)). cbn [app] in Hq.
    destruct f; [discriminate|]. discriminate.
  - exists b, q. reflexivity.
Qed.

Lemma decode_item_ext : forall l c r s,
  decode_item l = Ok (c, r) -> decode_item (l ++ s) = Ok (c, r ++ s).
Proof.
  intros l c r s H. unfold decode_item in *.
  destruct (dec_flocal _ _ _ _ H) as (q & -> & Hq).
  rewrite <- app_assoc. apply Hq. unfold fuel_for. rewrite !app_length. lia.
Qed.

(** *** Fuel: more fuel never changes an outcome other than exhaustion. *)
Definition fmono {A} (f : nat) (p : nat -> bytes -> result A) : Prop :=
  forall l g, (f <= g)%nat -> p f l <> Err FuelExhausted -> p g l = p f l.

Lemma fmono_const : forall A f (p : bytes -> result A), fmono f (fun _ => p).
Proof. intros A f p l g _ _. reflexivity. Qed.

Lemma fmono_bind : forall A B f (p : nat -> bytes -> result (A * bytes))
    (k : A -> nat -> bytes -> result B),
  fmono f p -> (forall a, fmono f (k a)) ->
  fmono f (fun f l => bind (p f l) (fun ar => match ar with (a, r) => k a f r end)).
Proof.
  intros A B f p k Hp Hk l g Hg H. cbv beta in *.
  destruct (p f l) as [[a r1]|e] eqn:E.
  - rewrite (Hp l g Hg) by (rewrite E; discriminate). rewrite E. cbn [bind] in *.
    apply Hk; assumption.
  - cbn [bind] in H. rewrite (Hp l g Hg) by (rewrite E; congruence). rewrite E. reflexivity.
Qed.

Lemma fmono_if : forall A f (c : bool) (p q : nat -> bytes -> result A),
  fmono f p -> fmono f q -> fmono f (fun f l => if c then p f l else q f l).
Proof. intros A f c p q Hp Hq. destruct c; assumption. Qed.

Lemma fmono_S : forall A f (p q : nat -> bytes -> result A),
  (forall g l, p (S g) l = q g l) -> fmono f q -> fmono (S f) p.
Proof.
  intros A f p q Hpq Hq l g Hg H. destruct g as [|g]; [lia|].
  rewrite !Hpq in *. apply Hq; [lia|assumption].
Qed.

Lemma fmono_O : forall A (p : nat -> bytes -> result A),
  (forall l, p O l = Err FuelExhausted) -> fmono O p.
Proof. intros A p H l g _ E. rewrite H in E. congruence. Qed.

Lemma fmono_byte : forall A f (k : byte -> nat -> bytes -> result A) e,
  (forall b, fmono f (k b)) ->
  fmono f (fun f l => match l with [] => Err e | b :: r => k b f r end).
Proof.
  intros A f k e Hk l g Hg H. destruct l as [|b l]; [reflexivity|]. apply Hk; assumption.
Qed.

Lemma dec_chunks_fmono : forall text f, fmono f (fun f => dec_chunks f text).
Proof.
  intros text. induction f as [|f IH]; [apply fmono_O; reflexivity|].
  eapply fmono_S; [intros g l; reflexivity|].
  apply (fmono_byte _ f (fun b f r => if b2N b =? 255 then Ok ([], r)
    else if b2N b / 32 =? (if text then 3 else 2) then
      bind (arg_fixed (b2N b mod 32) r) (fun '(n, r1) =>
      bind (take_string text n r1) (fun '(s, r2) =>
      bind (dec_chunks f text r2) (fun '(s', r3) => Ok (s ++ s', r3))))
    else Err CBORDecodeValueError)).
  intros b. apply fmono_if; [apply fmono_const|]. apply fmono_if; [|apply fmono_const].
  apply (fmono_bind _ _ f (fun _ => arg_fixed (b2N b mod 32))
          (fun n f r1 => bind (take_string text n r1) (fun '(s, r2) =>
            bind (dec_chunks f text r2) (fun '(s', r3) => Ok (s ++ s', r3)))));
    [apply fmono_const|].
  intros n. apply (fmono_bind _ _ f (fun _ => take_string text n)
          (fun s f r2 => bind (dec_chunks f text r2) (fun '(s', r3) => Ok (s ++ s', r3))));
    [apply fmono_const|].
  intros s. apply (fmono_bind _ _ f (fun f => dec_chunks f text) (fun s' _ r3 => Ok (s ++ s', r3)));
    [assumption|]. intros s'. apply (fmono_const _ f).
Qed.

Lemma dec_string_fmono : forall text info f, fmono f (fun f => dec_string f text info).
Proof.
  intros text info f. unfold dec_string.
  apply (fmono_bind _ _ f (fun _ => arg true info)
    (fun o f r => match o with
      | Some n => bind (take_string text n r) (fun '(b, r') => Ok (cstring text b, r'))
      | None => bind (dec_chunks f text r) (fun '(b, r') => Ok (cstring text b, r')) end));
    [apply fmono_const|].
  intros [n|]; [apply (fmono_const _ f)|].
  apply (fmono_bind _ _ f (fun f => dec_chunks f text) (fun b _ r' => Ok (cstring text b, r')));
      [apply dec_chunks_fmono|intros b; apply (fmono_const _ f)].
Qed.

Lemma dec_body_fmono : forall b f,
  fmono f dec -> (forall n, fmono f (fun f => dec_seq f n)) -> (forall n, fmono f (fun f => dec_map f n)) ->
  fmono f dec_seq_indef -> fmono f dec_map_indef -> fmono f (dec_body b).
Proof.
  intros b f Hd Hs Hm Hsi Hmi. unfold dec_body.
  set (mt := b2N b / 32). set (info := b2N b mod 32).
  apply fmono_if; [apply fmono_const|].
  apply fmono_if; [apply fmono_const|].
  apply fmono_if; [apply dec_string_fmono|].
  apply fmono_if; [apply dec_string_fmono|].
  apply fmono_if.
  { apply (fmono_bind _ _ f (fun _ => arg true info) (fun o f' r' => match o with
      | Some n => if max_len <=? n then Err CBORDecodeValueError
          else bind (dec_seq f' n r') (fun '(cs, r2) => Ok (CArr cs, r2))
      | None => bind (dec_seq_indef f' r') (fun '(cs, r2) => Ok (CArr cs, r2)) end));
      [apply fmono_const|].
    intros [n|].
    - apply fmono_if; [apply fmono_const|].
      apply (fmono_bind _ _ f (fun f => dec_seq f n) (fun cs _ r2 => Ok (CArr cs, r2))); [apply Hs|].
      intros cs; apply (fmono_const _ f).
    - apply (fmono_bind _ _ f dec_seq_indef (fun cs _ r2 => Ok (CArr cs, r2))); [apply Hsi|].
      intros cs; apply (fmono_const _ f). }
  apply fmono_if.
  { apply (fmono_bind _ _ f (fun _ => arg true info) (fun o f' r' => match o with
      | Some n => if max_len <=? n then Err CBORDecodeValueError
          else bind (dec_map f' n r') (fun '(cs, r2) => Ok (CMap cs, r2))
      | None => bind (dec_map_indef f' r') (fun '(cs, r2) => Ok (CMap cs, r2)) end));
      [apply fmono_const|].
    intros [n|].
    - apply fmono_if; [apply fmono_const|].
      apply (fmono_bind _ _ f (fun f => dec_map f n) (fun cs _ r2 => Ok (CMap cs, r2))); [apply Hm|].
      intros cs; apply (fmono_const _ f).
    - apply (fmono_bind _ _ f dec_map_indef (fun cs _ r2 => Ok (CMap cs, r2))); [apply Hmi|].
      intros cs; apply (fmono_const _ f). }
  apply fmono_if.
  { apply (fmono_bind _ _ f (fun _ => arg_fixed info) (fun t f' r' =>
      bind (dec f' r') (fun '(c, r2) => Ok (CTag t c, r2))));
      [apply fmono_const|].
    intros t. apply (fmono_bind _ _ f dec (fun c _ r2 => Ok (CTag t c, r2))); [assumption|].
    intros c; apply (fmono_const _ f). }
  apply fmono_const.
Qed.

Lemma dec_all_fmono : forall f,
  fmono f dec /\ (forall n, fmono f (fun f => dec_seq f n)) /\ (forall n, fmono f (fun f => dec_map f n)) /\
  fmono f dec_seq_indef /\ fmono f dec_map_indef.
Proof.
  induction f as [|f (Hd & Hs & Hm & Hsi & Hmi)].
  { repeat split; intros; apply fmono_O; reflexivity. }
  split; [|split; [|split; [|split]]].
  - eapply fmono_S; [intros g l; apply dec_S|].
    apply (fmono_byte _ f dec_body). intros b. apply dec_body_fmono; assumption.
  - intros n. eapply fmono_S; [intros g l; reflexivity|]. cbv beta.
    apply fmono_if; [apply fmono_const|].
    apply (fmono_bind _ _ f dec (fun c f r => bind (dec_seq f (n - 1) r) (fun '(cs, r') => Ok (c :: cs, r'))));
      [assumption|].
    intros c. apply (fmono_bind _ _ f (fun f => dec_seq f (n - 1)) (fun cs _ r' => Ok (c :: cs, r'))); [apply Hs|].
    intros cs; apply (fmono_const _ f).
  - intros n. eapply fmono_S; [intros g l; reflexivity|]. cbv beta.
    apply fmono_if; [apply fmono_const|].
    apply (fmono_bind _ _ f dec (fun k f r => bind (dec f r) (fun '(v, r1) =>
       bind (dec_map f (n - 1) r1) (fun '(cs, r2) => Ok ((k, v) :: cs, r2)))));
      [assumption|].
    intros k. apply (fmono_bind _ _ f dec (fun v f r1 =>
       bind (dec_map f (n - 1) r1) (fun '(cs, r2) => Ok ((k, v) :: cs, r2)))); [assumption|].
    intros v. apply (fmono_bind _ _ f (fun f => dec_map f (n - 1)) (fun cs _ r2 => Ok ((k, v) :: cs, r2)));
      [apply Hm|]. intros cs; apply (fmono_const _ f).
  - eapply fmono_S; [intros g l; reflexivity|]. cbv beta.
    apply (fmono_bind _ _ f dec (fun c f r => match c with CBreak => Ok ([], r)
        | _ => bind (dec_seq_indef f r) (fun '(cs, r') => Ok (c :: cs, r')) end)); [assumption|].
    intros c.
    assert (H : fmono f (fun f r => bind (dec_seq_indef f r) (fun '(cs, r') => Ok (c :: cs, r')))).
    { apply (fmono_bind _ _ f dec_seq_indef (fun cs _ r' => Ok (c :: cs, r'))); [assumption|].
      intros cs; apply (fmono_const _ f). }
    destruct c; try exact H. apply (fmono_const _ f).
  - eapply fmono_S; [intros g l; reflexivity|]. cbv beta.
    apply (fmono_bind _ _ f dec (fun k f r => match k with CBreak => Ok ([], r)
        | _ => bind (dec f r) (fun '(v, r1) =>
               bind (dec_map_indef f r1) (fun '(cs, r2) => Ok ((k, v) :: cs, r2))) end)); [assumption|].
    intros k.
    assert (H : fmono f (fun f r => bind (dec f r) (fun '(v, r1) =>
               bind (dec_map_indef f r1) (fun '(cs, r2) => Ok ((k, v) :: cs, r2))))).
    { apply (fmono_bind _ _ f dec (fun v f r1 =>
         bind (dec_map_indef f r1) (fun '(cs, r2) => Ok ((k, v) :: cs, r2)))); [assumption|].
      intros v. apply (fmono_bind _ _ f dec_map_indef (fun cs _ r2 => Ok ((k, v) :: cs, r2))); [assumption|].
      intros cs; apply (fmono_const _ f). }
    destruct k; try exact H. apply (fmono_const _ f).
Qed.

(** *** Fuel: twice the input length is always enough. *)
Definition nofuel {A} (r : result A) : Prop := r <> Err FuelExhausted.

Lemma nofuel_ok : forall A (a : A), nofuel (Ok a).
Proof. intros A a. discriminate. Qed.

Lemma nofuel_bind : forall A B (r : result A) (k : A -> result B),
  nofuel r -> (forall a, r = Ok a -> nofuel (k a)) -> nofuel (bind r k).
Proof.
  intros A B r k Hr Hk. destruct r as [a|e]; cbn [bind]; [apply Hk; reflexivity|].
  intros E. apply Hr. congruence.
Qed.

Lemma nofuel_take : forall n l, nofuel (take n l).
Proof. intros n l. unfold take. destruct (blen l <? n); discriminate. Qed.

Lemma nofuel_arg : forall allow info l, nofuel (arg allow info l).
Proof.
  intros allow info l. unfold arg.
  repeat match goal with |- nofuel (if ?c then _ else _) => destruct c end;
    try discriminate; (apply nofuel_bind; [apply nofuel_take|intros [? ?] _; discriminate]).
Qed.

Lemma nofuel_arg_fixed : forall info l, nofuel (arg_fixed info l).
Proof.
  intros info l. unfold arg_fixed. apply nofuel_bind; [apply nofuel_arg|].
  intros [[n|] r] _; discriminate.
Qed.

Lemma nofuel_take_string : forall text n l, nofuel (take_string text n l).
Proof.
  intros text n l. unfold take_string. destruct (max_len <=? n); [discriminate|].
  apply nofuel_bind; [apply nofuel_take|]. intros [b r] _.
  destruct (text && negb (utf8_valid b)); discriminate.
Qed.

Lemma nofuel_dec_special : forall info l, nofuel (dec_special info l).
Proof.
  intros info l. unfold dec_special.
  repeat match goal with |- nofuel (if ?c then _ else _) => destruct c end;
    try discriminate; (apply nofuel_bind; [apply nofuel_take|intros [? ?] _; try discriminate]).
  cbv zeta. match goal with |- nofuel (if ?c then _ else _) => destruct c end; discriminate.
Qed.

Lemma local_len : forall A (p : bytes -> result (A * bytes)) l a r,
  local p -> p l = Ok (a, r) -> (length r <= length l)%nat.
Proof.
  intros A p l a r H E. destruct (H _ _ _ E) as (q & -> & _). rewrite app_length. lia.
Qed.

Lemma nofuel_dec_chunks : forall text f l, (length l + 1 <= f)%nat -> nofuel (dec_chunks f text l).
Proof.
  intros text. induction f as [|f IH]; intros l Hf; [lia|]. cbn [dec_chunks].
  destruct l as [|b r]; [discriminate|]. cbn [length] in Hf.
  destruct (b2N b =? 255); [discriminate|].
  destruct (b2N b / 32 =? (if text then 3 else 2)); [|discriminate].
  apply nofuel_bind; [apply nofuel_arg_fixed|]. intros [n r1] E1.
  apply nofuel_bind; [apply nofuel_take_string|]. intros [s r2] E2.
  pose proof (local_len _ _ _ _ _ (local_arg_fixed _) E1).
  pose proof (local_len _ _ _ _ _ (local_take_string _ _) E2).
  apply nofuel_bind; [apply IH; lia|]. intros [s' r3] _. discriminate.
Qed.

Lemma nofuel_dec_string : forall f text info l,
  (length l + 1 <= f)%nat -> nofuel (dec_string f text info l).
Proof.
  intros f text info l Hf. unfold dec_string.
  apply nofuel_bind; [apply nofuel_arg|]. intros [[n|] r] E.
  - apply nofuel_bind; [apply nofuel_take_string|]. intros [? ?] _; discriminate.
  - pose proof (local_len _ _ _ _ _ (local_arg _ _) E).
    apply nofuel_bind; [apply nofuel_dec_chunks; lia|]. intros [? ?] _; discriminate.
Qed.

Lemma dec_len : forall f l c r, dec f l = Ok (c, r) -> (length r < length l)%nat.
Proof.
  intros f l c r H. destruct (dec_consumes _ _ _ _ H) as (b & q & ->).
  cbn [length]. rewrite app_length. lia.
Qed.

Lemma dec_all_nofuel : forall f,
  (forall l, (2 * length l + 1 <= f)%nat -> nofuel (dec f l)) /\
  (forall n l, (2 * length l + 2 <= f)%nat -> nofuel (dec_seq f n l)) /\
  (forall n l, (2 * length l + 2 <= f)%nat -> nofuel (dec_map f n l)) /\
  (forall l, (2 * length l + 2 <= f)%nat -> nofuel (dec_seq_indef f l)) /\
  (forall l, (2 * length l + 2 <= f)%nat -> nofuel (dec_map_indef f l)).
Proof.
  induction f as [|f (Hd & Hs & Hm & Hsi & Hmi)].
  { repeat split; intros; lia. }
  split; [|split; [|split; [|split]]].
  - intros l Hf. rewrite dec_S. destruct l as [|b r]; [discriminate|]. cbn [length] in Hf.
    unfold dec_body. set (mt := b2N b / 32). set (info := b2N b mod 32).
    destruct (mt =? 0); [apply nofuel_bind; [apply nofuel_arg_fixed|intros [? ?] _; discriminate]|].
    destruct (mt =? 1); [apply nofuel_bind; [apply nofuel_arg_fixed|intros [? ?] _; discriminate]|].
    destruct (mt =? 2); [apply nofuel_dec_string; lia|].
    destruct (mt =? 3); [apply nofuel_dec_string; lia|].
    destruct (mt =? 4).
    { apply nofuel_bind; [apply nofuel_arg|]. intros [[n|] r'] E;
        pose proof (local_len _ _ _ _ _ (local_arg _ _) E).
      - destruct (max_len <=? n); [discriminate|].
        apply nofuel_bind; [apply Hs; lia|intros [? ?] _; discriminate].
      - apply nofuel_bind; [apply Hsi; lia|intros [? ?] _; discriminate]. }
    destruct (mt =? 5).
    { apply nofuel_bind; [apply nofuel_arg|]. intros [[n|] r'] E;
        pose proof (local_len _ _ _ _ _ (local_arg _ _) E).
      - destruct (max_len <=? n); [discriminate|].
        apply nofuel_bind; [apply Hm; lia|intros [? ?] _; discriminate].
      - apply nofuel_bind; [apply Hmi; lia|intros [? ?] _; discriminate]. }
    destruct (mt =? 6).
    { apply nofuel_bind; [apply nofuel_arg_fixed|]. intros [t r'] E.
      pose proof (local_len _ _ _ _ _ (local_arg_fixed _) E).
      apply nofuel_bind; [apply Hd; lia|intros [? ?] _; discriminate]. }
    apply nofuel_dec_special.
  - intros n l Hf. cbn [dec_seq]. destruct (n =? 0); [discriminate|].
    apply nofuel_bind; [apply Hd; lia|]. intros [c r] E. pose proof (dec_len _ _ _ _ E).
    apply nofuel_bind; [apply Hs; lia|intros [? ?] _; discriminate].
  - intros n l Hf. cbn [dec_map]. destruct (n =? 0); [discriminate|].
    apply nofuel_bind; [apply Hd; lia|]. intros [c r] E. pose proof (dec_len _ _ _ _ E).
    apply nofuel_bind; [apply Hd; lia|]. intros [v r1] E1. pose proof (dec_len _ _ _ _ E1).
    apply nofuel_bind; [apply Hm; lia|intros [? ?] _; discriminate].
  - intros l Hf. cbn [dec_seq_indef].
    apply nofuel_bind; [apply Hd; lia|]. intros [c r] E. pose proof (dec_len _ _ _ _ E).
    assert (nofuel (bind (dec_seq_indef f r) (fun '(cs, r') => Ok (c :: cs, r')))).
    { apply nofuel_bind; [apply Hsi; lia|intros [? ?] _; discriminate]. }
    destruct c; try assumption. discriminate.
  - intros l Hf. cbn [dec_map_indef].
    apply nofuel_bind; [apply Hd; lia|]. intros [k r] E. pose proof (dec_len _ _ _ _ E).
    assert (nofuel (bind (dec f r) (fun '(v, r1) =>
        bind (dec_map_indef f r1) (fun '(cs, r2) => Ok ((k, v) :: cs, r2))))).
    { apply nofuel_bind; [apply Hd; lia|]. intros [v r1] E1. pose proof (dec_len _ _ _ _ E1).
      apply nofuel_bind; [apply Hmi; lia|intros [? ?] _; discriminate]. }
    destruct k; try assumption. discriminate.
Qed.

Theorem decode_item_nofuel : forall l, decode_item l <> Err FuelExhausted.
Proof. intros l. apply dec_all_nofuel. unfold fuel_for. lia. Qed.

Lemma dec_fuel : forall f l, (2 * length l + 1 <= f)%nat -> dec f l = decode_item l.
Proof.
  intros f l Hf. destruct (dec_all_fmono (fuel_for l)) as (H & _).
  apply H; [unfold fuel_for; lia|apply decode_item_nofuel].
Qed.

(** An item is determined by the bytes it occupies. *)
Lemma decode_item_split : forall l c r, decode_item l = Ok (c, r) ->
  exists q, l = q ++ r /\ q <> [] /\ forall s, decode_item (q ++ s) = Ok (c, s).
Proof.
  intros l c r H.
  destruct (dec_flocal _ _ _ _ H) as (q & Hl & Hq). exists q. split; [assumption|]. split.
  - intros ->. apply dec_len in H. rewrite Hl in H. cbn [app] in H. lia.
  - intros s. rewrite <- (dec_fuel (fuel_for l + fuel_for (q ++ s))) by (unfold fuel_for; lia).
    apply Hq. lia.
Qed.
