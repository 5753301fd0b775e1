(** The decoder reads every well-formed encoding, and regular items only from those. *)
From Coq Require Import NArith ZArith Bool Lia.
From Coq Require Import Init.Byte List.
From Verif Require Import Bytes BytesProofs Value ValueProofs Cbor CborProofs SpecForm Utf8Proofs.
Import ListNotations.
Local Open Scope N_scope.
Local Open Scope result_scope.

(** ** Heads *)

Lemma major_byte : forall m i, m < 8 -> i < 32 ->
  b2N (byte_of_N (m * 32 + i)) / 32 = m /\ b2N (byte_of_N (m * 32 + i)) mod 32 = i.
Proof.
  intros m i Hm Hi. rewrite b2N_of_N, N.mod_small by lia. split.
  - rewrite N.div_add_l by discriminate. rewrite N.div_small by assumption. lia.
  - rewrite N.add_comm, N.mod_add by discriminate. apply N.mod_small; assumption.
Qed.

Lemma byte_split : forall b, b = byte_of_N (b2N b / 32 * 32 + b2N b mod 32).
Proof. intros b. rewrite N.mul_comm, <- N.div_mod' . symmetry. apply byte_of_b2N. Qed.

Lemma mod32 : forall b, b2N b mod 32 < 32.
Proof. intros b. apply N.mod_lt. discriminate. Qed.

Lemma header_arg : forall m n h, header m n h -> m < 8 ->
  exists b t, h = b :: t /\ b2N b / 32 = m /\ forall allow rest, arg allow (b2N b mod 32) (t ++ rest) = Ok (Some n, rest).
Proof.
  intros m n h H Hm. destruct H as [H|H|H|H|H];
    (eexists _, _; split; [reflexivity|]; split; [apply major_byte; lia|]; intros allow rest; match goal with |- arg _ (b2N (byte_of_N (m * 32 + ?i)) mod 32) _ = _ => rewrite (proj2 (major_byte m i Hm ltac:(lia))) end; unfold arg; cbn [N.ltb N.eqb N.compare Pos.compare Pos.compare_cont Pos.eqb]).
  - apply N.ltb_lt in H. rewrite H. reflexivity.
  - rewrite (take_to_be 1). cbn [bind]. rewrite of_be_to_be_small; [reflexivity|exact H].
  - rewrite (take_to_be 2). cbn [bind]. rewrite of_be_to_be_small; [reflexivity|exact H].
  - rewrite (take_to_be 4). cbn [bind]. rewrite of_be_to_be_small; [reflexivity|exact H].
  - rewrite (take_to_be 8). cbn [bind]. rewrite of_be_to_be_small; [reflexivity|exact H].
Qed.

Lemma header_len : forall m n h, header m n h -> (1 <= length h)%nat.
Proof. intros m n h H. destruct H; cbn [length]; lia. Qed.

Lemma take_inv : forall n l a r, take n l = Ok (a, r) -> l = a ++ r /\ blen a = n.
Proof.
  intros n l a r H. unfold take in H. destruct (blen l <? n) eqn:E; [discriminate|]. injection H as <- <-. apply N.ltb_ge in E.
  split; [symmetry; apply firstn_skipn|]. unfold blen in *. rewrite firstn_length. lia.
Qed.

Lemma be_back : forall k a, blen a = N.of_nat k -> a = to_be k (of_be a) /\ of_be a < 256 ^ N.of_nat k.
Proof.
  intros k a H. unfold blen in H. apply Nat2N.inj in H. subst k. split; [symmetry; apply to_be_of_be|apply of_be_bound].
Qed.

Lemma arg_inv : forall allow m info l o r, arg allow info l = Ok (o, r) -> info < 32 ->
  match o with
  | Some n => exists t, l = t ++ r /\ header m n (byte_of_N (m * 32 + info) :: t)
  | None => info = 31 /\ r = l
  end.
Proof.
  intros allow m info l o r H Hi. unfold arg in H.
  destruct (info <? 24) eqn:E0.
  { apply N.ltb_lt in E0. injection H as <- <-. exists []. split; [reflexivity|]. apply in_first. exact E0. }
  destruct (N.eqb_spec info 24) as [->|]; [|destruct (N.eqb_spec info 25) as [->|]; [|destruct (N.eqb_spec info 26) as [->|]; [|destruct (N.eqb_spec info 27) as [->|]]]].
  1-4: apply bind_ok in H as ([a r'] & HT & H); injection H as <- <-; apply take_inv in HT as [-> HL]; exists a; split; [reflexivity|].
  - destruct (be_back 1 a HL) as [HE HB]. rewrite HE at 2. apply in_one. exact HB.
  - destruct (be_back 2 a HL) as [HE HB]. rewrite HE at 2. apply in_two. exact HB.
  - destruct (be_back 4 a HL) as [HE HB]. rewrite HE at 2. apply in_four. exact HB.
  - destruct (be_back 8 a HL) as [HE HB]. rewrite HE at 2. apply in_eight. exact HB.
  - destruct (N.eqb_spec info 31) as [->|]; [|discriminate]. destruct allow; [|discriminate]. injection H as <- <-. split; reflexivity.
Qed.

Lemma arg_fixed_inv : forall m info l n r, arg_fixed info l = Ok (n, r) -> info < 32 ->
  exists t, l = t ++ r /\ header m n (byte_of_N (m * 32 + info) :: t).
Proof.
  intros m info l n r H Hi. unfold arg_fixed in H. apply bind_ok in H as ([o r'] & HA & H). apply (arg_inv _ m) in HA; [|exact Hi].
  destruct o as [n'|]; [|discriminate]. injection H as <- <-. exact HA.
Qed.

(** ** Strings *)

Definition wanted (t : bool) : N := if t then 3 else 2.

Lemma take_string_ok : forall t s rest, blen s < max_len -> (t = true -> text s) -> take_string t (blen s) (s ++ rest) = Ok (s, rest).
Proof.
  intros t s rest HL HU. unfold take_string. replace (max_len <=? blen s) with false by (symmetry; apply N.leb_gt; exact HL).
  rewrite take_app. cbn [bind]. destruct t; [|reflexivity]. cbn [andb]. rewrite (proj2 (utf8_exact s)) by (apply HU; reflexivity). reflexivity.
Qed.

Lemma take_string_inv : forall t n l s r, take_string t n l = Ok (s, r) -> l = s ++ r /\ blen s = n /\ (t = true -> text s).
Proof.
  intros t n l s r H. unfold take_string in H. destruct (max_len <=? n); [discriminate|]. apply bind_ok in H as ([b r'] & HT & H).
  apply take_inv in HT as [-> HL]. destruct (t && negb (utf8_valid b)) eqn:E; [discriminate|]. injection H as <- <-.
  split; [reflexivity|]. split; [exact HL|]. intros ->. cbn [andb] in E. apply negb_false_iff in E. apply utf8_exact. exact E.
Qed.

Lemma chunks_read : forall t ss b, chunks (wanted t) ss b -> blen b < max_len -> (t = true -> Forall text ss) ->
  forall f rest, (length b + 1 <= f)%nat -> dec_chunks f t (b ++ xff :: rest) = Ok (concat ss, rest).
Proof.
  intros t ss b H. induction H as [|h s ss b HH HC IH]; intros HL HU f rest Hf; (destruct f as [|f]; [lia|]); [reflexivity|].
  assert (Hw : wanted t < 7) by (destruct t; reflexivity). destruct (header_arg _ _ _ HH ltac:(lia)) as (b0 & q & -> & HM & HA).
  rewrite !blen_app in HL. rewrite !app_length in Hf. cbn [length] in Hf. cbn [dec_chunks app]. replace (b2N b0 =? 255) with false.
  2: { symmetry. apply N.eqb_neq. intros E. rewrite E in HM. change (255 / 32) with 7 in HM. lia. }
  rewrite HM. change (if t then 3 else 2) with (wanted t). rewrite N.eqb_refl. unfold arg_fixed. rewrite <- !app_assoc, HA. cbn [bind].
  rewrite take_string_ok; [|lia|intros E; specialize (HU E); inversion HU; assumption]. cbn [bind].
  rewrite IH; [|lia|intros E; specialize (HU E); inversion HU; assumption|lia]. reflexivity.
Qed.

Lemma chunks_inv : forall t f l s r, dec_chunks f t l = Ok (s, r) ->
  exists ss b, l = b ++ xff :: r /\ s = concat ss /\ chunks (wanted t) ss b /\ (t = true -> Forall text ss).
Proof.
  intros t. induction f as [|f IH]; intros l s r H; [discriminate|]. cbn [dec_chunks] in H. destruct l as [|b0 l]; [discriminate|].
  destruct (N.eqb_spec (b2N b0) 255) as [E|E].
  { injection H as <- <-. exists [], []. replace b0 with xff by (symmetry; apply b2N_inj; exact E). repeat split; constructor. }
  change (if t then 3 else 2) with (wanted t) in H. destruct (N.eqb_spec (b2N b0 / 32) (wanted t)) as [EM|]; [|discriminate].
  apply bind_ok in H as ([n r1] & HA & H). apply bind_ok in H as ([s1 r2] & HT & H). apply bind_ok in H as ([s' r3] & HC & H). injection H as <- <-.
  apply (arg_fixed_inv (wanted t)) in HA as (q & -> & HH); [|apply mod32]. rewrite <- EM, <- byte_split in HH. apply take_string_inv in HT as (-> & <- & HU).
  destruct (IH _ _ _ HC) as (ss & b & -> & -> & HS & HUS). exists (s1 :: ss), ((b0 :: q) ++ s1 ++ b). split; [rewrite <- !app_assoc; reflexivity|].
  split; [reflexivity|]. split; [constructor; [rewrite <- EM; exact HH|exact HS]|]. intros ->. constructor; [apply HU; reflexivity|apply HUS; reflexivity].
Qed.

(** ** Items *)

Scheme encoding_mut := Induction for encoding Sort Prop
  with sequence_mut := Induction for sequence Sort Prop
  with pairs_mut := Induction for pairs Sort Prop.

Definition reads (c : cbor) (b : bytes) : Prop :=
  c <> CBreak /\ (1 <= length b)%nat /\
  (blen b < max_len -> forall f rest, (2 * length b + 1 <= f)%nat -> dec f (b ++ rest) = Ok (c, rest)).

Definition seq_reads (l : list cbor) (b : bytes) : Prop :=
  (length l <= length b)%nat /\
  (blen b < max_len -> forall f rest, (2 * length b + 2 <= f)%nat ->
    dec_seq f (N.of_nat (length l)) (b ++ rest) = Ok (l, rest) /\ dec_seq_indef f (b ++ xff :: rest) = Ok (l, rest)).

Definition pairs_read (l : list (cbor * cbor)) (b : bytes) : Prop :=
  (length l <= length b)%nat /\
  (blen b < max_len -> forall f rest, (2 * length b + 2 <= f)%nat ->
    dec_map f (N.of_nat (length l)) (b ++ rest) = Ok (l, rest) /\ dec_map_indef f (b ++ xff :: rest) = Ok (l, rest)).

Lemma dec_break : forall f rest, dec (S f) (xff :: rest) = Ok (CBreak, rest).
Proof. reflexivity. Qed.

Lemma body_0 : forall b f r, b2N b / 32 = 0 -> dec_body b f r = ('(n, r') <- arg_fixed (b2N b mod 32) r ;; Ok (CUint n, r')).
Proof. intros b f r H. unfold dec_body. rewrite H. reflexivity. Qed.
Lemma body_1 : forall b f r, b2N b / 32 = 1 -> dec_body b f r = ('(n, r') <- arg_fixed (b2N b mod 32) r ;; Ok (CNint n, r')).
Proof. intros b f r H. unfold dec_body. rewrite H. reflexivity. Qed.
Lemma body_s : forall t b f r, b2N b / 32 = wanted t -> dec_body b f r = dec_string f t (b2N b mod 32) r.
Proof. intros t b f r H. unfold dec_body. rewrite H. destruct t; reflexivity. Qed.
Lemma body_4 : forall b f r, b2N b / 32 = 4 -> dec_body b f r = 
    ('(o, r') <- arg true (b2N b mod 32) r ;;
    match o with
    | Some n => if max_len <=? n then Err CBORDecodeValueError else '(cs, r2) <- dec_seq f n r' ;; Ok (CArr cs, r2)
    | None => '(cs, r2) <- dec_seq_indef f r' ;; Ok (CArr cs, r2)
    end).
Proof. intros b f r H. unfold dec_body. rewrite H. reflexivity. Qed.
Lemma body_5 : forall b f r, b2N b / 32 = 5 -> dec_body b f r = 
    ('(o, r') <- arg true (b2N b mod 32) r ;;
    match o with
    | Some n => if max_len <=? n then Err CBORDecodeValueError else '(cs, r2) <- dec_map f n r' ;; Ok (CMap cs, r2)
    | None => '(cs, r2) <- dec_map_indef f r' ;; Ok (CMap cs, r2)
    end).
Proof. intros b f r H. unfold dec_body. rewrite H. reflexivity. Qed.
Lemma body_6 : forall b f r, b2N b / 32 = 6 -> dec_body b f r = ('(t, r') <- arg_fixed (b2N b mod 32) r ;; '(c, r2) <- dec f r' ;; Ok (CTag t c, r2)).
Proof. intros b f r H. unfold dec_body. rewrite H. reflexivity. Qed.
Lemma body_7 : forall b f r, b2N b / 32 = 7 -> dec_body b f r = dec_special (b2N b mod 32) r.
Proof. intros b f r H. unfold dec_body. rewrite H. reflexivity. Qed.

Lemma string_reads : forall t s h, (t = true -> text s) -> header (wanted t) (blen s) h -> reads (cstring t s) (h ++ s).
Proof.
  intros t s h HU HH. split; [destruct t; discriminate|]. pose proof (header_len _ _ _ HH) as HN. split; [rewrite app_length; lia|].
  intros HL f rest Hf. rewrite blen_app in HL. assert (Hw : wanted t < 8) by (destruct t; reflexivity).
  destruct (header_arg _ _ _ HH Hw) as (b0 & q & -> & HM & HA). destruct f as [|f]; [lia|]. cbn [app]. rewrite dec_S, (body_s t) by exact HM.
  unfold dec_string. rewrite <- app_assoc, HA. cbn [bind]. rewrite take_string_ok; [reflexivity|lia|exact HU].
Qed.

Lemma chunked_reads : forall t ss b, (t = true -> Forall text ss) -> chunks (wanted t) ss b ->
  reads (cstring t (concat ss)) (byte_of_N (wanted t * 32 + 31) :: b ++ [xff]).
Proof.
  intros t ss b HU HC. split; [destruct t; discriminate|]. split; [cbn [length]; lia|]. intros HL f rest Hf.
  destruct f as [|f]; [lia|]. cbn [app]. cbn [length] in Hf. rewrite app_length in Hf. rewrite dec_S, (body_s t) by (destruct t; reflexivity).
  replace (b2N (byte_of_N (wanted t * 32 + 31)) mod 32) with 31 by (destruct t; reflexivity). unfold dec_string, arg. cbn [N.ltb N.eqb N.compare Pos.compare Pos.compare_cont Pos.eqb andb bind].
  rewrite <- app_assoc. cbn [app]. rewrite (chunks_read t ss b HC); [reflexivity| |exact HU|lia].
  change (byte_of_N (wanted t * 32 + 31) :: b ++ [xff]) with ([byte_of_N (wanted t * 32 + 31)] ++ b ++ [xff]) in HL. rewrite !blen_app in HL. lia.
Qed.

Lemma blen_cons : forall x b, blen (x :: b) = 1 + blen b.
Proof. intros x b. unfold blen. cbn [length]. lia. Qed.

Lemma special_reads : forall i b c, i < 32 -> c <> CBreak -> (forall rest, dec_special i (b ++ rest) = Ok (c, rest)) ->
  reads c (byte_of_N (224 + i) :: b).
Proof.
  intros i b c Hi HC HD. split; [exact HC|]. split; [cbn [length]; lia|]. intros _ f rest Hf. destruct f as [|f]; [lia|]. cbn [app]. rewrite dec_S.
  change 224 with (7 * 32). destruct (major_byte 7 i ltac:(lia) Hi) as [HM HI]. rewrite body_7 by exact HM. rewrite HI. apply HD.
Qed.

Lemma item_reads : forall c b, encoding c b -> reads c b.
Proof.
  apply (encoding_mut (fun c b _ => reads c b) (fun l b _ => seq_reads l b) (fun l b _ => pairs_read l b)).
  - intros n h HH. split; [discriminate|]. split; [exact (header_len _ _ _ HH)|]. intros _ f rest Hf.
    destruct (header_arg _ _ _ HH ltac:(lia)) as (b0 & q & -> & HM & HA). destruct f as [|f]; [lia|]. cbn [app]. rewrite dec_S, body_0 by exact HM.
    unfold arg_fixed. rewrite HA. reflexivity.
  - intros n h HH. split; [discriminate|]. split; [exact (header_len _ _ _ HH)|]. intros _ f rest Hf.
    destruct (header_arg _ _ _ HH ltac:(lia)) as (b0 & q & -> & HM & HA). destruct f as [|f]; [lia|]. cbn [app]. rewrite dec_S, body_1 by exact HM.
    unfold arg_fixed. rewrite HA. reflexivity.
  - intros s h HH. apply (string_reads false); [discriminate|exact HH].
  - intros ss b HC. apply (chunked_reads false); [discriminate|exact HC].
  - intros s h HT HH. apply (string_reads true); [intros _; exact HT|exact HH].
  - intros ss b HT HC. apply (chunked_reads true); [intros _; exact HT|exact HC].
  - intros l h b HH _ [HN HR]. split; [discriminate|]. pose proof (header_len _ _ _ HH) as HP. split; [rewrite app_length; lia|]. intros HL f rest Hf.
    rewrite blen_app in HL. rewrite app_length in Hf. destruct (header_arg _ _ _ HH ltac:(lia)) as (b0 & q & -> & HM & HA). cbn [length] in Hf.
    destruct f as [|f]; [lia|]. cbn [app]. rewrite dec_S, body_4 by exact HM. rewrite <- app_assoc, HA. cbn [bind].
    replace (max_len <=? N.of_nat (length l)) with false by (symmetry; apply N.leb_gt; unfold blen in HL; lia).
    destruct (HR ltac:(lia) f rest ltac:(lia)) as [-> _]. reflexivity.
  - intros l b _ [HN HR]. split; [discriminate|]. split; [cbn [length]; lia|]. intros HL f rest Hf. rewrite blen_cons, blen_app in HL. cbn [length] in Hf. rewrite app_length in Hf. cbn [length] in Hf.
    destruct f as [|f]; [lia|]. cbn [app]. rewrite dec_S, body_4 by reflexivity. change (b2N x9f mod 32) with 31. unfold arg. cbn [N.ltb N.eqb N.compare Pos.compare Pos.compare_cont Pos.eqb andb bind].
    rewrite <- app_assoc. cbn [app]. destruct (HR ltac:(lia) f rest ltac:(lia)) as [_ ->]. reflexivity.
  - intros l h b HH _ [HN HR]. split; [discriminate|]. pose proof (header_len _ _ _ HH) as HP. split; [rewrite app_length; lia|]. intros HL f rest Hf.
    rewrite blen_app in HL. rewrite app_length in Hf. destruct (header_arg _ _ _ HH ltac:(lia)) as (b0 & q & -> & HM & HA). cbn [length] in Hf.
    destruct f as [|f]; [lia|]. cbn [app]. rewrite dec_S, body_5 by exact HM. rewrite <- app_assoc, HA. cbn [bind].
    replace (max_len <=? N.of_nat (length l)) with false by (symmetry; apply N.leb_gt; unfold blen in HL; lia).
    destruct (HR ltac:(lia) f rest ltac:(lia)) as [-> _]. reflexivity.
  - intros l b _ [HN HR]. split; [discriminate|]. split; [cbn [length]; lia|]. intros HL f rest Hf. rewrite blen_cons, blen_app in HL. cbn [length] in Hf. rewrite app_length in Hf. cbn [length] in Hf.
    destruct f as [|f]; [lia|]. cbn [app]. rewrite dec_S, body_5 by reflexivity. change (b2N xbf mod 32) with 31. unfold arg. cbn [N.ltb N.eqb N.compare Pos.compare Pos.compare_cont Pos.eqb andb bind].
    rewrite <- app_assoc. cbn [app]. destruct (HR ltac:(lia) f rest ltac:(lia)) as [_ ->]. reflexivity.
  - intros t c h b HH _ (_ & HN & HR). split; [discriminate|]. pose proof (header_len _ _ _ HH) as HP. split; [rewrite app_length; lia|]. intros HL f rest Hf.
    rewrite blen_app in HL. rewrite app_length in Hf. destruct (header_arg _ _ _ HH ltac:(lia)) as (b0 & q & -> & HM & HA). cbn [length] in Hf.
    destruct f as [|f]; [lia|]. cbn [app]. rewrite dec_S, body_6 by exact HM. unfold arg_fixed. rewrite <- app_assoc, HA. cbn [bind]. rewrite HR by lia. reflexivity.
  - intros n Hn. apply special_reads; [lia|discriminate|]. intros rest. unfold dec_special. replace (n <? 20) with false by (symmetry; apply N.ltb_ge; lia).
    replace (n <? 24) with true by (symmetry; apply N.ltb_lt; lia). reflexivity.
  - intros n Hn. apply special_reads; [lia|discriminate|]. intros rest. unfold dec_special. apply N.ltb_lt in Hn. rewrite Hn. reflexivity.
  - intros n Hn. apply (special_reads 24 [byte_of_N n]); [lia|discriminate|]. intros rest. unfold dec_special. cbn [N.ltb N.eqb N.compare Pos.compare Pos.compare_cont Pos.eqb].
    change ([byte_of_N n] ++ rest) with (to_be 1 n ++ rest). rewrite (take_to_be 1). cbn [bind]. rewrite of_be_to_be_small by (exact (proj2 Hn)). replace (n <? 32) with false by (symmetry; apply N.ltb_ge; lia). rewrite andb_false_r. reflexivity.
  - intros b Hb. apply (special_reads 25 b); [lia|discriminate|]. intros rest. unfold dec_special. cbn [N.ltb N.eqb N.compare Pos.compare Pos.compare_cont Pos.eqb].
    replace 2 with (blen b) by (unfold blen; rewrite Hb; reflexivity). rewrite take_app. reflexivity.
  - intros b Hb. apply (special_reads 26 b); [lia|discriminate|]. intros rest. unfold dec_special. cbn [N.ltb N.eqb N.compare Pos.compare Pos.compare_cont Pos.eqb].
    replace 4 with (blen b) by (unfold blen; rewrite Hb; reflexivity). rewrite take_app. reflexivity.
  - intros b Hb. apply (special_reads 27 b); [lia|discriminate|]. intros rest. unfold dec_special. cbn [N.ltb N.eqb N.compare Pos.compare Pos.compare_cont Pos.eqb].
    replace 8 with (blen b) by (unfold blen; rewrite Hb; reflexivity). rewrite take_app. reflexivity.
  - split; [reflexivity|]. intros _ f rest Hf. cbn [length] in Hf. destruct f as [|[|f]]; [lia|lia|]. split; reflexivity.
  - intros c l b b' _ (HC & HN & HR) _ [HN' HR']. split; [cbn [length]; rewrite app_length; lia|]. intros HL f rest Hf. rewrite blen_app in HL. rewrite app_length in Hf.
    destruct f as [|f]; [lia|]. cbn [dec_seq dec_seq_indef length]. replace (N.of_nat (S (length l)) =? 0) with false by (symmetry; apply N.eqb_neq; lia).
    rewrite <- !app_assoc, !HR by lia. cbn [bind]. replace (N.of_nat (S (length l)) - 1) with (N.of_nat (length l)) by lia.
    destruct (HR' ltac:(lia) f rest ltac:(lia)) as [-> ->]. cbn [bind]. split; [reflexivity|]. destruct c; try reflexivity. contradiction.
  - split; [reflexivity|]. intros _ f rest Hf. cbn [length] in Hf. destruct f as [|[|f]]; [lia|lia|]. split; reflexivity.
  - intros k v l bk bv b _ (HC & HN & HR) _ (_ & HNv & HRv) _ [HN' HR']. split; [cbn [length]; rewrite !app_length; lia|]. intros HL f rest Hf. rewrite !blen_app in HL. rewrite !app_length in Hf.
    destruct f as [|f]; [lia|]. cbn [dec_map dec_map_indef length]. replace (N.of_nat (S (length l)) =? 0) with false by (symmetry; apply N.eqb_neq; lia).
    rewrite <- !app_assoc, !HR by lia. cbn [bind]. rewrite !HRv by lia. cbn [bind]. replace (N.of_nat (S (length l)) - 1) with (N.of_nat (length l)) by lia.
    destruct (HR' ltac:(lia) f rest ltac:(lia)) as [-> ->]. cbn [bind]. split; [reflexivity|]. destruct k; try reflexivity. contradiction.
Qed.

Theorem well_formed_read : forall c b rest, encoding c b -> blen b < max_len -> decode_item (b ++ rest) = Ok (c, rest).
Proof.
  intros c b rest HE HL. destruct (item_reads c b HE) as (_ & _ & HR). apply HR; [exact HL|]. unfold fuel_for. rewrite app_length. lia.
Qed.

(** ** Only well-formed encodings *)

Lemma all_regular : forall l, regular (CArr l) <-> Forall regular l.
Proof.
  intros l. change (regular (CArr l)) with (fold_right (fun x r => regular x /\ r) True l).
  induction l as [|x l IH]; cbn [fold_right]; [split; constructor|]. rewrite IH. split; [intros []; constructor; assumption|intros H; inversion H; split; assumption].
Qed.

Lemma all_regular_pairs : forall l, regular (CMap l) <-> Forall (fun kv => regular (fst kv) /\ regular (snd kv)) l.
Proof.
  intros l. change (regular (CMap l)) with (fold_right (fun kv r => match kv with (k, v) => regular k /\ regular v end /\ r) True l).
  induction l as [|[k v] l IH]; cbn [fold_right]; [split; constructor|]. rewrite IH. split; [intros []; constructor; assumption|intros H; inversion H; split; assumption].
Qed.

Definition item_from (f : nat) : Prop := forall l c r, dec f l = Ok (c, r) -> regular c -> exists b, l = b ++ r /\ encoding c b.

Lemma break_from : forall f l r, dec f l = Ok (CBreak, r) -> l = xff :: r.
Proof.
  intros [|f] l r H; [discriminate|]. rewrite dec_S in H. destruct l as [|b l]; [discriminate|]. unfold dec_body in H.
  repeat match type of H with
  | (if ?x =? ?y then _ else _) = _ => destruct (N.eqb_spec x y)
  end;
  try (apply bind_ok in H as ([? ?] & ? & H); discriminate).
  1-2: unfold dec_string in H; apply bind_ok in H as ([[?|] ?] & ? & H); apply bind_ok in H as ([? ?] & ? & H); discriminate.
  1-2: apply bind_ok in H as ([[?|] ?] & ? & H); [destruct (max_len <=? _); [discriminate|]|]; apply bind_ok in H as ([? ?] & ? & H); discriminate.
  1: apply bind_ok in H as ([? ?] & ? & H); apply bind_ok in H as ([? ?] & ? & H); discriminate.
  unfold dec_special in H.
  repeat match type of H with
  | (if ?x then _ else _) = _ => destruct x eqn:?
  end; try discriminate; try (apply bind_ok in H as ([? ?] & ? & H); try (destruct ((24 <=? _) && (_ <? 32))); discriminate).
  injection H as <-. f_equal. apply N.eqb_eq in Heqb6. rewrite (byte_split b), Heqb6. pose proof (b2N_bound b) as HB.
  assert (b2N b / 32 < 8) by (apply N.div_lt_upper_bound; lia). replace (b2N b / 32) with 7 by lia. reflexivity.
Qed.

Lemma special_from : forall b l c r, b2N b / 32 = 7 -> dec_special (b2N b mod 32) l = Ok (c, r) -> regular c ->
  exists q, b :: l = q ++ r /\ encoding c q.
Proof.
  intros b l c r HM H HR. pose proof (byte_split b) as HB. rewrite HM in HB. change (7 * 32) with 224 in HB. unfold dec_special in H.
  destruct (b2N b mod 32 <? 20) eqn:E0.
  { apply N.ltb_lt in E0. injection H as <- <-. exists [b]. split; [reflexivity|]. rewrite HB at 2. apply e_simple. exact E0. }
  apply N.ltb_ge in E0. destruct (b2N b mod 32 <? 24) eqn:E1.
  { apply N.ltb_lt in E1. injection H as <- <-. exists [b]. split; [reflexivity|]. rewrite HB at 2. apply e_const. split; assumption. }
  destruct (N.eqb_spec (b2N b mod 32) 24) as [E|]; [|destruct (N.eqb_spec (b2N b mod 32) 25) as [E|]; [|destruct (N.eqb_spec (b2N b mod 32) 26) as [E|]; [|destruct (N.eqb_spec (b2N b mod 32) 27) as [E|]]]].
  1-4: apply bind_ok in H as ([a r'] & HT & H); apply take_inv in HT as [-> HL]; rewrite E in HB.
  - destruct ((24 <=? of_be a) && (of_be a <? 32)); [discriminate|]. injection H as <- <-. exists (b :: a). split; [reflexivity|].
    destruct (be_back 1 a HL) as [HE HBD]. rewrite HB. rewrite HE at 2. apply e_simple_byte. split; [exact HR|exact HBD].
  - injection H as <- <-. exists (b :: a). split; [reflexivity|]. rewrite HB. apply e_half. unfold blen in HL. lia.
  - injection H as <- <-. exists (b :: a). split; [reflexivity|]. rewrite HB. apply e_single. unfold blen in HL. lia.
  - injection H as <- <-. exists (b :: a). split; [reflexivity|]. rewrite HB. apply e_double. unfold blen in HL. lia.
  - destruct (_ =? 31); [|discriminate]. injection H as <- <-. destruct HR.
Qed.

Lemma string_from : forall t f b l c r, b2N b / 32 = wanted t -> dec_string f t (b2N b mod 32) l = Ok (c, r) ->
  exists q, b :: l = q ++ r /\ encoding c q.
Proof.
  intros t f b l c r HM H. pose proof (byte_split b) as HB. rewrite HM in HB. unfold dec_string in H. apply bind_ok in H as ([o r1] & HA & H).
  apply (arg_inv _ (wanted t)) in HA; [|apply mod32]. destruct o as [n|]; apply bind_ok in H as ([s r2] & HT & H); injection H as <- <-.
  - destruct HA as (q & -> & HH). rewrite <- HB in HH. apply take_string_inv in HT as (-> & <- & HU). exists ((b :: q) ++ s). split; [cbn [app]; rewrite <- app_assoc; reflexivity|].
    destruct t; [apply e_text; [apply HU; reflexivity|exact HH]|apply e_bytes; exact HH].
  - destruct HA as [HI ->]. rewrite HI in HB. apply chunks_inv in HT as (ss & q & -> & -> & HC & HU). exists (b :: q ++ [xff]). split; [cbn [app]; rewrite <- app_assoc; reflexivity|].
    rewrite HB. destruct t; [apply e_text_chunks; [apply HU; reflexivity|exact HC]|apply e_byte_chunks; exact HC].
Qed.

Definition seq_from (f : nat) : Prop := forall n l cs r, dec_seq f n l = Ok (cs, r) -> Forall regular cs ->
  exists b, l = b ++ r /\ sequence cs b /\ n = N.of_nat (length cs).
Definition open_seq_from (f : nat) : Prop := forall l cs r, dec_seq_indef f l = Ok (cs, r) -> Forall regular cs ->
  exists b, l = b ++ xff :: r /\ sequence cs b.
Definition map_from (f : nat) : Prop := forall n l cs r, dec_map f n l = Ok (cs, r) -> Forall (fun kv => regular (fst kv) /\ regular (snd kv)) cs ->
  exists b, l = b ++ r /\ pairs cs b /\ n = N.of_nat (length cs).
Definition open_map_from (f : nat) : Prop := forall l cs r, dec_map_indef f l = Ok (cs, r) -> Forall (fun kv => regular (fst kv) /\ regular (snd kv)) cs ->
  exists b, l = b ++ xff :: r /\ pairs cs b.

Lemma regular_break : forall (A : Type) c (x y : A), regular c -> match c with CBreak => x | _ => y end = y.
Proof. intros A c x y H. destruct c; try reflexivity. destruct H. Qed.

Lemma break_or : forall c, c = CBreak \/ forall (A : Type) (x y : A), match c with CBreak => x | _ => y end = y.
Proof. intros c. destruct c; try (right; intros; reflexivity). left. reflexivity. Qed.

Lemma all_from : forall f, item_from f /\ seq_from f /\ open_seq_from f /\ map_from f /\ open_map_from f.
Proof.
  induction f as [|f (HI & HS & HO & HP & HQ)]; [repeat split; intros ?; intros; discriminate|]. repeat split.
  - intros l c r H HR. rewrite dec_S in H. destruct l as [|b l]; [discriminate|]. pose proof (byte_split b) as HB. pose proof (b2N_bound b) as HBB.
    assert (H8 : b2N b / 32 < 8) by (apply N.div_lt_upper_bound; lia).
    assert (HM : b2N b / 32 = 0 \/ b2N b / 32 = 1 \/ b2N b / 32 = wanted false \/ b2N b / 32 = wanted true \/ b2N b / 32 = 4 \/ b2N b / 32 = 5 \/ b2N b / 32 = 6 \/ b2N b / 32 = 7) by (cbn [wanted]; lia).
    destruct HM as [HM|[HM|[HM|[HM|[HM|[HM|[HM|HM]]]]]]].
    + rewrite body_0 in H by exact HM. rewrite HM in HB. apply bind_ok in H as ([n r'] & HA & H). injection H as <- <-.
      apply (arg_fixed_inv 0) in HA as (q & -> & HH); [|apply mod32]. rewrite <- HB in HH. exists (b :: q). split; [reflexivity|]. apply e_uint. exact HH.
    + rewrite body_1 in H by exact HM. rewrite HM in HB. apply bind_ok in H as ([n r'] & HA & H). injection H as <- <-.
      apply (arg_fixed_inv 1) in HA as (q & -> & HH); [|apply mod32]. rewrite <- HB in HH. exists (b :: q). split; [reflexivity|]. apply e_nint. exact HH.
    + rewrite (body_s false) in H by exact HM. exact (string_from false f b l c r HM H).
    + rewrite (body_s true) in H by exact HM. exact (string_from true f b l c r HM H).
    + rewrite body_4 in H by exact HM. rewrite HM in HB. apply bind_ok in H as ([o r'] & HA & H). apply (arg_inv _ 4) in HA; [|apply mod32]. destruct o as [n|].
      * destruct HA as (q & -> & HH). rewrite <- HB in HH. destruct (max_len <=? n); [discriminate|]. apply bind_ok in H as ([cs r2] & HD & H). injection H as <- <-.
        apply all_regular in HR. destruct (HS _ _ _ _ HD HR) as (b' & -> & HSQ & ->). exists ((b :: q) ++ b'). split; [cbn [app]; rewrite <- app_assoc; reflexivity|]. apply e_array; assumption.
      * destruct HA as [HE ->]. rewrite HE in HB. apply bind_ok in H as ([cs r2] & HD & H). injection H as <- <-. apply all_regular in HR.
        destruct (HO _ _ _ HD HR) as (b' & -> & HSQ). exists (b :: b' ++ [xff]). split; [cbn [app]; rewrite <- app_assoc; reflexivity|]. rewrite HB. apply e_array_open. exact HSQ.
    + rewrite body_5 in H by exact HM. rewrite HM in HB. apply bind_ok in H as ([o r'] & HA & H). apply (arg_inv _ 5) in HA; [|apply mod32]. destruct o as [n|].
      * destruct HA as (q & -> & HH). rewrite <- HB in HH. destruct (max_len <=? n); [discriminate|]. apply bind_ok in H as ([cs r2] & HD & H). injection H as <- <-.
        apply all_regular_pairs in HR. destruct (HP _ _ _ _ HD HR) as (b' & -> & HSQ & ->). exists ((b :: q) ++ b'). split; [cbn [app]; rewrite <- app_assoc; reflexivity|]. apply e_map; assumption.
      * destruct HA as [HE ->]. rewrite HE in HB. apply bind_ok in H as ([cs r2] & HD & H). injection H as <- <-. apply all_regular_pairs in HR.
        destruct (HQ _ _ _ HD HR) as (b' & -> & HSQ). exists (b :: b' ++ [xff]). split; [cbn [app]; rewrite <- app_assoc; reflexivity|]. rewrite HB. apply e_map_open. exact HSQ.
    + rewrite body_6 in H by exact HM. rewrite HM in HB. apply bind_ok in H as ([t r'] & HA & H). apply bind_ok in H as ([c' r2] & HD & H). injection H as <- <-.
      apply (arg_fixed_inv 6) in HA as (q & -> & HH); [|apply mod32]. rewrite <- HB in HH. destruct (HI _ _ _ HD HR) as (b' & -> & HE). exists ((b :: q) ++ b').
      split; [cbn [app]; rewrite <- app_assoc; reflexivity|]. apply e_tag; assumption.
    + rewrite body_7 in H by exact HM. exact (special_from b l c r HM H HR).
  - intros n l cs r H HR. cbn [dec_seq] in H. destruct (N.eqb_spec n 0) as [->|HN].
    { injection H as <- <-. exists []. repeat split. constructor. }
    apply bind_ok in H as ([c r1] & HD & H). apply bind_ok in H as ([cs' r2] & HD' & H). injection H as <- <-. inversion HR as [|? ? HR1 HR2]; subst.
    destruct (HI _ _ _ HD HR1) as (b & -> & HE). destruct (HS _ _ _ _ HD' HR2) as (b' & -> & HE' & HL). exists (b ++ b'). split; [rewrite <- app_assoc; reflexivity|].
    split; [constructor; assumption|]. cbn [length]. lia.
  - intros l cs r H HR. cbn [dec_seq_indef] in H. apply bind_ok in H as ([c r1] & HD & H). destruct (break_or c) as [->|HB].
    { injection H as <- <-. apply break_from in HD. exists []. split; [exact HD|constructor]. }
    rewrite HB in H. apply bind_ok in H as ([cs' r2] & HD' & H). injection H as <- <-. inversion HR as [|? ? HR1 HR2]; subst.
    destruct (HI _ _ _ HD HR1) as (b & -> & HE). destruct (HO _ _ _ HD' HR2) as (b' & -> & HE'). exists (b ++ b'). split; [rewrite <- app_assoc; reflexivity|]. constructor; assumption.
  - intros n l cs r H HR. cbn [dec_map] in H. destruct (N.eqb_spec n 0) as [->|HN].
    { injection H as <- <-. exists []. repeat split. constructor. }
    apply bind_ok in H as ([k r0] & HK & H). apply bind_ok in H as ([v r1] & HD & H). apply bind_ok in H as ([cs' r2] & HD' & H). injection H as <- <-. inversion HR as [|? ? [HR0 HR1] HR2]; subst. cbn [fst snd] in *.
    destruct (HI _ _ _ HK HR0) as (bk & -> & HEK). destruct (HI _ _ _ HD HR1) as (b & -> & HE). destruct (HP _ _ _ _ HD' HR2) as (b' & -> & HE' & HL). exists (bk ++ b ++ b'). split; [rewrite <- !app_assoc; reflexivity|].
    split; [constructor; assumption|]. cbn [length]. lia.
  - intros l cs r H HR. cbn [dec_map_indef] in H. apply bind_ok in H as ([k r0] & HK & H). destruct (break_or k) as [->|HB].
    { injection H as <- <-. apply break_from in HK. exists []. split; [exact HK|constructor]. }
    rewrite HB in H. apply bind_ok in H as ([v r1] & HD & H). apply bind_ok in H as ([cs' r2] & HD' & H). injection H as <- <-. inversion HR as [|? ? [HR0 HR1] HR2]; subst. cbn [fst snd] in *.
    destruct (HI _ _ _ HK HR0) as (bk & -> & HEK). destruct (HI _ _ _ HD HR1) as (b & -> & HE). destruct (HQ _ _ _ HD' HR2) as (b' & -> & HE'). exists (bk ++ b ++ b'). split; [rewrite <- !app_assoc; reflexivity|]. constructor; assumption.
Qed.

Theorem regular_well_formed : forall l c r, decode_item l = Ok (c, r) -> regular c -> exists b, l = b ++ r /\ encoding c b.
Proof. intros l c r H HR. exact (proj1 (all_from _) l c r H HR). Qed.

(** What is written is a well-formed encoding. *)
Lemma head_header : forall m n, n < two64 -> header m n (head m n).
Proof.
  intros m n Hn. unfold head. destruct (n <? 24) eqn:E0; [apply in_first; apply N.ltb_lt; exact E0|].
  destruct (n <? 256) eqn:E1; [apply in_one; apply N.ltb_lt; exact E1|]. destruct (n <? 65536) eqn:E2; [apply in_two; apply N.ltb_lt; exact E2|].
  destruct (n <? 4294967296) eqn:E3; [apply in_four; apply N.ltb_lt; exact E3|]. apply in_eight. exact Hn.
Qed.

Lemma enc_encoding : forall c, wfc c = true -> encoding c (enc c).
Proof.
  pose proof max_len_two64 as HM.
  induction c as [n|n|b|b|l HF|l HF|t c IH|n|n|w b|] using cbor_ind'; intros HW; cbn [wfc] in HW; cbn [enc].
  - apply e_uint, head_header, N.ltb_lt, HW.
  - apply e_nint, head_header, N.ltb_lt, HW.
  - apply N.ltb_lt in HW. apply e_bytes, head_header. lia.
  - apply andb_true_iff in HW as [HW HU]. apply N.ltb_lt in HW. apply e_text; [apply utf8_exact; exact HU|apply head_header; lia].
  - apply andb_true_iff in HW as [HL HW]. apply N.ltb_lt in HL. apply e_array; [apply head_header; lia|]. clear HL. induction HF as [|x l HX _ IH]; [constructor|].
    cbn [forallb] in HW. apply andb_true_iff in HW as [HW1 HW2]. cbn [flat_map]. constructor; [apply HX; exact HW1|apply IH; exact HW2].
  - apply andb_true_iff in HW as [HL HW]. apply N.ltb_lt in HL. apply e_map; [apply head_header; lia|]. clear HL. induction HF as [|[k v] l [HK HV] _ IH]; [constructor|].
    cbn [forallb] in HW. apply andb_true_iff in HW as [HW1 HW2]. apply andb_true_iff in HW1 as [HW0 HW1]. cbn [flat_map]. rewrite <- app_assoc. constructor; [apply HK; exact HW0|apply HV; exact HW1|apply IH; exact HW2].
  - apply andb_true_iff in HW as [HL HW]. apply N.ltb_lt in HL. apply e_tag; [apply head_header; exact HL|apply IH; exact HW].
  - apply andb_true_iff in HW as [HL HW]. apply N.leb_le in HL. apply N.ltb_lt in HW. unfold head. replace (n <? 24) with true by (symmetry; apply N.ltb_lt; exact HW). apply e_const. split; assumption.
  - unfold head. apply orb_true_iff in HW as [HW|HW].
    + apply N.ltb_lt in HW. replace (n <? 24) with true by (symmetry; apply N.ltb_lt; lia). apply e_simple. exact HW.
    + apply andb_true_iff in HW as [HL HW]. apply N.leb_le in HL. rewrite HW. replace (n <? 24) with false by (symmetry; apply N.ltb_ge; lia). apply N.ltb_lt in HW. apply e_simple_byte. split; assumption.
  - apply N.ltb_lt in HW. rewrite <- (of_be_to_be_small _ _ HW) at 1. destruct w; [apply e_half|apply e_single|apply e_double]; apply to_be_length.
  - discriminate.
Qed.

Theorem written_well_formed : forall fullname h v b, dumps fullname h v = Ok b -> exists c, lower fullname h v = Ok c /\ encoding c b.
Proof.
  intros fullname h v b H. unfold dumps in H. apply bind_ok in H as (c & HL & H). destruct (wfc c) eqn:E; [|discriminate]. injection H as <-.
  exists c. split; [exact HL|]. apply enc_encoding. exact E.
Qed.
