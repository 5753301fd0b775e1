(** Lemmas about the bytes of headers, keys and messages (C66). *)
From Coq Require Import NArith ZArith Bool String Lia ZifyBool ZifyNat ZifyN.
From Coq Require Import Init.Byte List.
From Verif Require Import Bytes BytesProofs Value ValueProofs Cbor CborProofs SpecData DataProofs SpecRfc SpecStruct StructProofs
  Registry Crypto Keys SpecKeys KeyProofs Algorithms Headers Messages Recipients LayoutProofs RcptProofs SpecWire.
Import ListNotations.
Local Open Scope N_scope.
Local Open Scope result_scope.

Lemma min_be_spec : forall n, minimal_be (min_be n) n.
Proof.
  intros n. split; [apply of_be_min_be|]. destruct (N.eq_dec n 0) as [->|H]; [vm_compute; discriminate|].
  destruct (min_be_no_leading_zero n H) as (b & r & -> & HB). exact HB.
Qed.

Lemma enc_tag_rfc : forall t c, t < two64 -> enc (CTag t c) = rfc_tag t (enc c).
Proof. intros t c H. cbn [enc]. unfold rfc_tag. rewrite head_rfc by assumption. reflexivity. Qed.

Lemma bignum_item : forall n t, t < two64 -> wfc (CTag t (CBytes (min_be n))) = true ->
  enc (CTag t (CBytes (min_be n))) = rfc_tag t (rfc_bstr (min_be n)).
Proof.
  intros n t HT HW. rewrite enc_tag_rfc by assumption. rewrite enc_bytes_rfc; [reflexivity|].
  generalize dependent (min_be n). intros b HW. cbn [wfc] in HW. apply andb_true_iff in HW as [_ HW]. apply N.ltb_lt. exact HW.
Qed.

Lemma lower_int_cases : forall z,
  ((- 2 ^ 64 <= z < 2 ^ 64)%Z) \/
  ((2 ^ 64 <= z)%Z /\ lower_int z = CTag 2 (CBytes (min_be (Z.to_N z)))) \/
  ((z < - 2 ^ 64)%Z /\ lower_int z = CTag 3 (CBytes (min_be (Z.to_N (-1 - z))))).
Proof.
  intros z. destruct (Z_lt_dec z (- 2 ^ 64)) as [H1|H1]; [|destruct (Z_lt_dec z (2 ^ 64)) as [H2|H2]].
  - right. right. split; [assumption|]. destruct z as [|p|p]; [lia|lia|]. unfold lower_int.
    destruct (Z.to_N (-1 - Z.neg p) <? two64) eqn:E; [|reflexivity]. unfold two64 in E. lia.
  - left. lia.
  - right. left. split; [lia|]. destruct z as [|p|p]; [lia| |lia]. unfold lower_int.
    destruct (Z.to_N (Z.pos p) <? two64) eqn:E; [|reflexivity]. unfold two64 in E. lia.
Qed.

Lemma lower_int_item : forall names z, wfc (lower_int z) = true -> rfc_item names (VInt z) (enc (lower_int z)).
Proof.
  intros names z HW. destruct (lower_int_cases z) as [H|[[H E]|[H E]]].
  - rewrite enc_int_rfc by exact H. constructor. exact H.
  - rewrite E in *. rewrite bignum_item by (assumption || (unfold two64; lia)). apply RI_bignum; [exact H|apply min_be_spec].
  - rewrite E in *. rewrite bignum_item by (assumption || (unfold two64; lia)). apply RI_negative_bignum; [exact H|apply min_be_spec].
Qed.

Lemma is_nan_pattern : forall f, is_nan f = nan_pattern f.
Proof.
  intros f. unfold is_nan, nan_pattern. rewrite N.shiftr_div_pow2. change 2047 with (N.ones 11) at 1.
  rewrite !N.land_ones. reflexivity.
Qed.

Lemma enc_map_rfc : forall l, N.of_nat (length l) < max_len ->
  enc (CMap l) = rfc_map (map (fun e => (enc (fst e), enc (snd e))) l).
Proof.
  intros l H. unfold rfc_map. rewrite map_length, map_map. cbn [fst snd].
  change (enc (CMap l)) with (head 5 (N.of_nat (length l)) ++ flat_map (fun kv => match kv with (k, v) => enc k ++ enc v end) l).
  rewrite head_rfc by (unfold max_len, two64 in *; lia). f_equal. rewrite flat_map_concat_map. f_equal.
  apply map_ext. intros [k v]. reflexivity.
Qed.

Lemma wfc_map : forall l, wfc (CMap l) = true ->
  N.of_nat (length l) < max_len /\ Forall (fun e => wfc (fst e) = true /\ wfc (snd e) = true) l.
Proof.
  intros l H. cbn [wfc] in H. apply andb_true_iff in H as [H1 H2]. apply N.ltb_lt in H1. split; [assumption|].
  apply Forall_forall. intros [k v] HI. rewrite forallb_forall in H2. specialize (H2 _ HI). cbn beta iota in H2.
  apply andb_true_iff in H2. exact H2.
Qed.

Lemma sent_without : forall s, without_empty_ops s (sent_entries s).
Proof.
  induction s as [|[k x] s IH].
  - right. split; [reflexivity|]. intros [|a pre] v post E; discriminate.
  - cbn [sent_entries]. destruct (keyeq kp_key_ops k) eqn:EK.
    + apply keyeq_class in EK. subst k. destruct (py_len x) as [[|n]|e] eqn:EL.
      * left. exists [], x, s. repeat split; auto.
      * right. split; [reflexivity|]. intros [|a pre] v post E HN.
        -- injection E as <- <-. rewrite EL. discriminate.
        -- injection E as <- _. elim HN. left. reflexivity.
      * right. split; [reflexivity|]. intros [|a pre] v post E HN.
        -- injection E as <- <-. rewrite EL. discriminate.
        -- injection E as <- _. elim HN. left. reflexivity.
    + assert (HK : k <> VClass KpKeyOps) by (intros ->; vm_compute in EK; discriminate).
      destruct IH as [(pre & v & post & -> & E & HL & HN)|[E HN]].
      * left. exists ((k, x) :: pre), v, post. rewrite E. repeat split; auto. cbn [map fst In]. intros [Q|Q]; [congruence|contradiction].
      * right. rewrite E. split; [reflexivity|]. intros [|a pre] v post EQ HI.
        -- injection EQ as -> _ _. congruence.
        -- injection EQ as <- EQ. apply (HN pre v post EQ). intros Q. apply HI. right. exact Q.
Qed.

Lemma pairs_item : forall h names d cs,
  Forall (fun e => (forall c, lower cls_fullname h (fst e) = Ok c -> wfc c = true -> rfc_item names (fst e) (enc c)) /\
                   (forall c, lower cls_fullname h (snd e) = Ok c -> wfc c = true -> rfc_item names (snd e) (enc c))) d ->
  mapM (lower_pair cls_fullname h) d = Ok cs -> wfc (CMap cs) = true ->
  exists xs, enc (CMap cs) = rfc_map xs /\
    Forall2 (fun e x => rfc_item names (fst e) (fst x) /\ rfc_item names (snd e) (snd x)) d xs.
Proof.
  intros h names d cs HF HM HW. apply wfc_map in HW as [HL HW]. rewrite (enc_map_rfc _ HL).
  eexists. split; [reflexivity|]. apply mapM_Forall2 in HM. clear HL. revert HF HW.
  induction HM as [|[k x] [k' x'] l' cs' Hxy HC IHl]; intros HF HW; [constructor|].
  inversion_clear HF as [|? ? [Hk Hx] HF']. inversion_clear HW as [|? ? [Wk Wx] HW']. cbn [map fst snd] in *. constructor; [|auto].
  cbn [lower_pair] in Hxy. apply bind_ok in Hxy as (ka & E1 & Hxy). apply bind_ok in Hxy as (xa & E2 & Hxy).
  injection Hxy as -> ->. cbn [fst snd]. auto.
Qed.

Definition hook_names (h : hook) : bool := match h with HMsg t => t | _ => false end.

Lemma lower_item : forall v h c, lower cls_fullname h v = Ok c -> wfc c = true -> rfc_item (hook_names h) v (enc c).
Proof.
  induction v as [|b|z|f|n| | |b|b|l HF|l HF|d HF|t v IH|t v IH|k|k s e HS HE] using pyval_ind'; intros h c H HW.
  - injection H as <-. constructor.
  - injection H as <-. destruct b; [exact (RI_bool _ true)|exact (RI_bool _ false)].
  - injection H as <-. apply lower_int_item. exact HW.
  - injection H as <-. unfold lower_float in *. rewrite is_nan_pattern in *. destruct (nan_pattern f) eqn:EN; [constructor; exact EN|].
    destruct (f =? f64_inf) eqn:E1; [apply N.eqb_eq in E1; subst f; apply RI_inf|].
    destruct (f =? f64_ninf) eqn:E2; [apply N.eqb_eq in E2; subst f; apply RI_neg_inf|].
    apply N.eqb_neq in E1, E2. apply (RI_double _ f EN E1 E2).
  - injection H as <-. cbn [wfc enc] in *. rewrite head_rfc by (unfold two64; lia). constructor.
  - injection H as <-. constructor.
  - discriminate.
  - injection H as <-. rewrite enc_bytes_rfc by (rewrite wfc_bytes in HW; apply N.ltb_lt; exact HW). constructor.
  - injection H as <-. cbn [wfc] in HW. apply andb_true_iff in HW as [HW _]. apply N.ltb_lt in HW.
    cbn [enc]. rewrite head_rfc by (unfold max_len, two64 in *; lia). apply RI_text.
  - cbn [lower] in H. apply bind_ok in H as (cs & HM & E). injection E as <-. apply mapM_Forall2 in HM.
    rewrite wfc_arr in HW. apply andb_true_iff in HW as [HN HW]. apply N.ltb_lt in HN. rewrite enc_arr_rfc by assumption.
    constructor. clear HN. revert HF HW. induction HM as [|v c l cs Hv HM IH]; intros HF HW; [constructor|].
    inversion_clear HF as [|? ? Hv' HF']. cbn [forallb] in HW. apply andb_true_iff in HW as [Hc HW]. cbn [map]. constructor; auto.
  - cbn [lower] in H. apply bind_ok in H as (cs & HM & E). injection E as <-. apply mapM_Forall2 in HM.
    rewrite wfc_arr in HW. apply andb_true_iff in HW as [HN HW]. apply N.ltb_lt in HN. rewrite enc_arr_rfc by assumption.
    constructor. clear HN. revert HF HW. induction HM as [|v c l cs Hv HM IH]; intros HF HW; [constructor|].
    inversion_clear HF as [|? ? Hv' HF']. cbn [forallb] in HW. apply andb_true_iff in HW as [Hc HW]. cbn [map]. constructor; auto.
  - rewrite lower_dict in H. apply bind_ok in H as (cs & HM & E). injection E as <-.
    destruct (pairs_item h (hook_names h) d cs) as (xs & -> & HX); [|exact HM|exact HW|constructor; exact HX].
    eapply Forall_impl; [|exact HF]. intros [k x] [Hk Hx]. cbn [fst snd]. auto.
  - cbn [lower] in H. apply bind_ok in H as (c' & HM & E). injection E as <-. cbn [wfc] in HW. apply andb_true_iff in HW as [HN HW].
    apply N.ltb_lt in HN. rewrite enc_tag_rfc by assumption. apply RI_tag. auto.
  - cbn [lower] in H. apply bind_ok in H as (c' & HM & E). injection E as <-. cbn [wfc] in HW. apply andb_true_iff in HW as [HN HW].
    apply N.ltb_lt in HN. rewrite enc_tag_rfc by assumption. apply RI_other. auto.
  - cbn [lower] in H. destruct h as [| |t]; cbn [lower_class hook_names] in *; [discriminate| |].
    + injection H as <-. apply RI_attribute; [right; reflexivity|]. apply lower_int_item. exact HW.
    + unfold lower_class in H. destruct (fam_eq_dec (c_fam k) FAlg) as [HA|HA]; cbn [andb] in H.
      * destruct t.
        -- injection H as <-. cbn [wfc] in HW. apply andb_true_iff in HW as [HW _]. apply N.ltb_lt in HW.
           cbn [enc]. rewrite head_rfc by (unfold max_len, two64 in *; lia). apply RI_algorithm_name; [exact HA|reflexivity].
        -- injection H as <-. apply RI_attribute; [right; reflexivity|]. apply lower_int_item. exact HW.
      * injection H as <-. apply RI_attribute; [left; exact HA|]. apply lower_int_item. exact HW.
  - destruct h as [| |t]; [discriminate|discriminate|]. apply lower_key in H as (cs & HM & ->).
    destruct (pairs_item (HMsg t) (hook_names (HMsg t)) (sent_entries s) cs) as (xs & -> & HX); [|exact HM|exact HW|].
    + apply Forall_sent. eapply Forall_impl; [|exact HS]. intros [k' x] [Hk Hx]. cbn [fst snd]. auto.
    + eapply RI_key; [apply sent_without|exact HX].
Qed.

Lemma dumps_item : forall h v b, dumps cls_fullname h v = Ok b -> rfc_item (hook_names h) v b.
Proof. intros h v b H. apply dumps_ok in H as (c & HL & HW & ->). apply lower_item; assumption. Qed.

Lemma dumps_msg_item : forall c v b, dumps_msg c v = Ok b -> rfc_item (tstr c) v b.
Proof. intros c v b H. exact (dumps_item (HMsg (tstr c)) v b H). Qed.

Lemma phdr_bytes : forall c p, phdr_encoded c = Ok p -> protected_bytes c p.
Proof.
  intros c p H. unfold phdr_encoded in H. unfold protected_bytes. destruct (phdr_raw c) as [r|]; [congruence|].
  destruct (phdr c) as [|e d] eqn:E.
  - split; [congruence|]. intros Q. congruence.
  - split; [discriminate|]. intros _. apply dumps_msg_item. exact H.
Qed.

(** ** Recipients *)

Section Rcpts.
Variable X : crypto.

Lemma setup_phdr : forall n c pk c', setup_ephemeral X n c pk = (c', Ok tt) -> phdr_encoded c' = phdr_encoded c.
Proof. intros n c pk c' H. apply setup_ephemeral_ok in H as (k & -> & _). reflexivity. Qed.

Lemma encode_parts : forall n id rc c ctx subs n' r' v, rcpt_encode X n (Rcpt id rc c ctx subs) = ((n', r'), Ok v) ->
  exists p c1 w subs', r' = Rcpt id rc c1 ctx subs' /\ phdr_encoded c1 = Ok p /\ (rc = RDirect \/ rc = RAgree -> w = []) /\
    ((subs = [] /\ subs' = [] /\ v = VList [VBytes p; VDict (uhdr c1); VBytes w]) \/
     (subs <> [] /\ exists n1 vs, rcpts_encode X n1 subs = ((n', subs'), Ok vs) /\
       v = VList [VBytes p; VDict (uhdr c1); VBytes w; VList vs])).
Proof.
  assert (HF : forall id rc ctx subs n c p w n' r' v, finish X id rc ctx subs n c [VBytes p; VDict (uhdr c); VBytes w] = ((n', r'), Ok v) ->
    exists subs', r' = Rcpt id rc c ctx subs' /\
    ((subs = [] /\ subs' = [] /\ v = VList [VBytes p; VDict (uhdr c); VBytes w]) \/
     (subs <> [] /\ exists n1 vs, rcpts_encode X n1 subs = ((n', subs'), Ok vs) /\
       v = VList [VBytes p; VDict (uhdr c); VBytes w; VList vs]))).
  { intros id rc ctx subs n c p w n' r' v H. unfold finish in H. destruct subs as [|s subs].
    - injection H as <- <- <-. exists []. split; [reflexivity|]. left. auto.
    - destruct (rcpts_encode X n (s :: subs)) as [[n1 s'] [vs|e]] eqn:E; [|discriminate]. injection H as <- <- <-.
      exists s'. split; [reflexivity|]. right. split; [discriminate|]. exists n, vs. split; [exact E|reflexivity]. }
  intros n id rc c ctx subs n' r' v H. destruct rc.
  - cbn [rcpt_encode] in H. injection H as <- <- H. apply bind_ok in H as (a & HA & H).
    destruct (veqb a (algc (-6)) && negb (Nat.eqb (length (phdr c)) 0)) eqn:E; [discriminate|]. destruct (is_none a); [discriminate|].
    destruct subs as [|s subs]; [|discriminate]. apply bind_ok in H as (p & HP & H). injection H as <-.
    exists p, c, [], []. repeat (split; [auto|]). left. auto.
  - rewrite encode_kw in H. destruct (bind (phdr_encoded c) _) as [[p w]|e] eqn:EB; [|discriminate].
    apply bind_ok in EB as (p' & HP & EB). apply bind_ok in EB as (w' & HW & EB). injection EB as <- <-.
    apply HF in H as (s' & -> & H). exists p', c, w', s'. split; [reflexivity|]. split; [exact HP|]. split; [|exact H].
    intros [Q|Q]; discriminate.
  - cbn [rcpt_encode] in H.
    destruct (bind (get_attr c Algorithm) _) as [[a pk]|e] eqn:EB; [|discriminate].
    apply bind_ok in EB as (a' & HA & EB). destruct (is_none a'); [discriminate|]. destruct (is_none _); [discriminate|].
    injection EB as <- <-. set (pk := dget_or (local c) StaticKey VNone) in *.
    match type of H with (let '(c1, res) := ?st in _) = _ => destruct st as [c1 res] eqn:ES end.
    destruct (bind res _) as [p|e] eqn:EB; [|discriminate].
    assert (HFI : finish X id RAgree ctx subs (N.succ n) c1 [VBytes p; VDict (uhdr c1); VBytes []] = ((n', r'), Ok v)) by exact H.
    apply HF in HFI as (s' & -> & HFI). clear H.
    apply bind_ok in EB as ([] & -> & EB). destruct (Nat.ltb 1 (length subs)); [discriminate|].
    apply bind_ok in EB as (e & HE & EB). apply bind_ok in EB as (es & HEs & EB). destruct es; [discriminate|].
    exists p, c1, [], s'. split; [reflexivity|]. split; [exact EB|]. split; [auto|exact HFI].
  - rewrite encode_kakw in H. destruct (bind (phdr_encoded c) _) as [p|e] eqn:EB; [|discriminate].
    apply bind_ok in EB as (p' & HP & EB). apply bind_ok in EB as (a & HA & EB). apply bind_ok in EB as (f & HFk & EB). injection EB as <-.
    destruct (kakw_encrypt X n c) as [c1 [w|e]] eqn:EK; [|discriminate].
    apply HF in H as (s' & -> & H). exists p', c1, w, s'. split; [reflexivity|].
    split; [|split; [intros [Q|Q]; discriminate|exact H]].
    apply kakw_encrypt_state in EK as [[_ ->]|(_ & pk & EK)]; [exact HP|]. rewrite (setup_phdr _ _ _ _ EK). exact HP.
Qed.

Definition on_wire (names : bool) (v : pyval) (x : bytes) : Prop := dumps cls_fullname (HMsg names) v = Ok x.

Lemma rcpts_wire : forall names k l n n' l' vs xs, (list_sum (map rsize l) < k)%nat ->
  rcpts_encode X n l = ((n', l'), Ok vs) -> Forall2 (on_wire names) vs xs -> Forall2 (rcpt_wire names) l' xs.
Proof.
  intros names k. induction k as [|k IHk]; [lia|]. intros l. induction l as [|r l IHl]; intros n n' l' vs xs HK H HX.
  - injection H as <- <- <-. inversion HX; subst. constructor.
  - cbn [rcpts_encode] in H. destruct (rcpt_encode X n r) as [[n1 r'] [v|e]] eqn:ER; [|discriminate].
    destruct (rcpts_encode X n1 l) as [[n2 l2] [vs2|e]] eqn:EL; [|discriminate]. injection H as <- <- <-.
    inversion HX as [|v0 x vs0 xs0 Hx HX']; subst.
    assert (HS : rsize r = S (list_sum (map rsize (r_subs r)))) by (destruct r; reflexivity).
    cbn [map list_sum fold_right] in HK. change (fold_right Nat.add 0%nat (map rsize l)) with (list_sum (map rsize l)) in HK.
    constructor; [|eapply IHl; [|exact EL|exact HX']; lia].
    destruct r as [id rc c ctx subs]. cbn [r_subs] in HS.
    apply encode_parts in ER as (p & c1 & w & subs' & -> & HP & HW & HC). unfold on_wire in Hx.
    destruct HC as [(-> & -> & ->)|(HN & m1 & ws & HE & ->)].
    + apply dumps_list in Hx as (items & HF & ->).
      inversion HF as [|v1 x1 l1 m1' H1 HF1]; subst. inversion HF1 as [|v2 x2 l2' m2' H2 HF2]; subst.
      inversion HF2 as [|v3 x3 l3 m3 H3 HF3]; subst. inversion HF3; subst.
      apply dumps_bytes in H1, H3. subst. apply dumps_item in H2. cbn [hook_names] in H2.
      exact (RW names id rc c1 ctx [] p x2 w [] (phdr_bytes _ _ HP) H2 HW (Forall2_nil _)).
    + apply dumps_list in Hx as (items & HF & ->).
      inversion HF as [|v1 x1 l1 m1' H1 HF1]; subst. inversion HF1 as [|v2 x2 l2' m2' H2 HF2]; subst.
      inversion HF2 as [|v3 x3 l3 m3 H3 HF3]; subst. inversion HF3 as [|v4 x4 l4 m4 H4 HF4]; subst. inversion HF4; subst.
      apply dumps_bytes in H1, H3. subst. apply dumps_item in H2. cbn [hook_names] in H2.
      apply dumps_list in H4 as (ys & HY & ->).
      assert (HR : Forall2 (rcpt_wire names) subs' ys) by (eapply IHk; [|exact HE|exact HY]; lia).
      assert (HN' : ys <> []).
      { intros ->. inversion HR; subst. inversion HY; subst. destruct subs as [|s subs]; [congruence|]. cbn [rcpts_encode] in HE.
        destruct (rcpt_encode X m1 s) as [[a b] [e|e]]; [|discriminate]. destruct (rcpts_encode X a subs) as [[a' b'] [e'|e']]; discriminate. }
      pose proof (RW names id rc c1 ctx subs' p x2 w ys (phdr_bytes _ _ HP) H2 HW HR) as Q.
      destruct ys as [|y ys]; [congruence|]. exact Q.
Qed.

(** ** Messages *)

Lemma with_own_key : forall c, c = with_key c (ckey c).
Proof. intros []. reflexivity. Qed.

Lemma encm_encrypt_out : forall n m n1 m1 ct, encm_encrypt X n m = ((n1, m1), Ok ct) ->
  enc_encrypt X "Encrypt" (e_core m1) = Ok ct /\ exists k, e_core m1 = with_key (e_core m) k.
Proof.
  intros n m n1 m1 ct H. unfold encm_encrypt in H. destruct (bind (get_attr _ _) _) as [target|e]; [|discriminate].
  destruct (has_class RDirect (e_rcpts m)).
  { injection H as <- <- H. split; [exact H|]. exists (ckey (e_core m)). apply with_own_key. }
  destruct (has_class RAgree (e_rcpts m)).
  { destruct (e_rcpts m) as [|r rs]; [discriminate|]. destruct (compute_cek X r target false) as [k|e]; [|discriminate].
    injection H as <- <- H. cbn [e_core]. split; [exact H|]. exists k. reflexivity. }
  destruct (_ || _); [|discriminate]. destruct (get_key_length target) as [len|e]; [|discriminate].
  destruct (cek_loop _ _ _ _) as [[n' rs'] [kb|e]]; [|discriminate]. destruct (sym_with kb target _) as [k|e]; [|discriminate].
  injection H as <- <- H. cbn [e_core]. split; [exact H|]. exists (Some k). reflexivity.
Qed.

Lemma macm_compute_out : forall n m n1 m1 t, macm_compute_tag X n m = ((n1, m1), Ok t) ->
  mac_compute X "MAC" (mm_core m1) = Ok t /\ (exists k, mm_core m1 = with_key (mm_core m) k) /\ mm_tag m1 = VBytes t /\
  mm_rcpts m1 = mm_rcpts m.
Proof.
  assert (HS : forall n m n1 m1 t, mac_super_compute X n m = ((n1, m1), Ok t) ->
    mac_compute X "MAC" (mm_core m1) = Ok t /\ mm_core m1 = mm_core m /\ mm_tag m1 = VBytes t /\ mm_rcpts m1 = mm_rcpts m).
  { intros n m n1 m1 t H. unfold mac_super_compute in H. destruct (mac_compute X "MAC" (mm_core m)) as [t'|e] eqn:E; [|discriminate].
    injection H as <- <- <-. auto. }
  intros n m n1 m1 t H. unfold macm_compute_tag in H. destruct (get_attr _ _) as [target|e]; [|discriminate].
  destruct (mm_rcpts m) as [rs|] eqn:ER; [|discriminate]. destruct (verify_recipients rs) as [[]|e]; [|discriminate].
  destruct (has_class RDirect rs).
  { apply HS in H as (H1 & H2 & H3 & H4). rewrite H2 in *. split; [exact H1|]. split; [exists (ckey (mm_core m)); apply with_own_key|]. split; congruence. }
  destruct (has_class RAgree rs).
  { destruct rs as [|r rs]; [discriminate|]. destruct (compute_cek X r target false) as [k|e]; [|discriminate].
    apply HS in H as (H1 & H2 & H3 & H4). rewrite H2 in *. split; [exact H1|]. split; [exists k; reflexivity|]. split; assumption. }
  destruct (_ || _); [|discriminate]. destruct (get_key_length target) as [len|e]; [|discriminate].
  destruct (cek_loop _ _ _ _) as [[n' rs'] [kb|e]]; discriminate.
Qed.


Lemma rcpts_encode_length : forall l n n' l' vs, rcpts_encode X n l = ((n', l'), Ok vs) -> length vs = length l /\ length l' = length l.
Proof.
  induction l as [|r l IH]; intros n n' l' vs H; cbn [rcpts_encode] in H.
  - injection H as <- <- <-. auto.
  - destruct (rcpt_encode X n r) as [[n1 r'] [v|e]]; [|discriminate].
    destruct (rcpts_encode X n1 l) as [[n2 l2] [vs2|e]] eqn:E; [|discriminate]. injection H as <- <- <-. apply IH in E as [E1 E2].
    cbn [length]. split; congruence.
Qed.

Lemma emit_rcpts : forall c t tag base rs n n2 rs' vs b, rs <> [] ->
  rcpts_encode X n rs = ((n2, rs'), Ok vs) -> emit c t tag (base ++ [VList vs]) = Ok b ->
  exists items xs, Forall2 (on_wire (tstr c)) base items /\ Forall2 (rcpt_wire (tstr c)) rs' xs /\
    b = maybe_tag tag t (rfc_array (items ++ recipients_field xs)).
Proof.
  intros c t tag base rs n n2 rs' vs b HN HE H. apply emit_layout in H as (l & HF & ->).
  apply Forall2_app_inv_l in HF as (l1 & l2 & H1 & H2 & ->).
  inversion H2 as [|v x ? ? Hx H2']; subst. inversion H2'; subst. unfold dumps_msg in Hx. apply dumps_list in Hx as (xs & HX & ->).
  exists l1, xs. split; [exact H1|]. split; [eapply rcpts_wire; [|exact HE|exact HX]; apply Nat.lt_succ_diag_r|].
  destruct xs as [|x xs]; [|reflexivity]. inversion HX; subst. apply rcpts_encode_length in HE as [HE _]. destruct rs; [congruence|discriminate].
Qed.

Lemma wire_bytes : forall names b x, on_wire names (VBytes b) x -> x = rfc_bstr b.
Proof. intros names b x H. exact (dumps_bytes (HMsg names) b x H). Qed.
Lemma wire_vopt : forall names b x, on_wire names (vopt b) x -> x = rfc_opt_bstr b.
Proof. intros names b x H. exact (dumps_vopt (HMsg names) b x H). Qed.
Lemma wire_item : forall names v x, on_wire names v x -> rfc_item names v x.
Proof. intros names v x H. exact (dumps_item (HMsg names) v x H). Qed.

Lemma encm_layout : forall n m tag encrypt n2 m2 b, encm_encode X n m tag encrypt = ((n2, m2), Ok b) ->
  let c := e_core m in
  exists p u body xs, protected_bytes c p /\ rfc_item (tstr c) (VDict (uhdr c)) u /\
    (exists k, e_core m2 = with_key c k) /\
    (if encrypt then exists ct, enc_encrypt X "Encrypt" (e_core m2) = Ok ct /\ body = rfc_bstr ct
     else body = rfc_opt_bstr (payload c)) /\
    Forall2 (rcpt_wire (tstr c)) (e_rcpts m2) xs /\
    b = maybe_tag tag 96 (rfc_array ([rfc_bstr p; u; body] ++ recipients_field xs)).
Proof.
  intros n m tag encrypt n2 m2 b H c. unfold encm_encode in H. fold c in H.
  destruct (phdr_encoded c) as [p|e] eqn:HP; [|discriminate]. apply phdr_bytes in HP.
  set (step := if encrypt then _ else _) in H. destruct step as [[n1 m1] body] eqn:ES. destruct body as [bv|e]; [|discriminate].
  assert (HB : (exists k, e_core m1 = with_key c k) /\
    (if encrypt then exists ct, enc_encrypt X "Encrypt" (e_core m1) = Ok ct /\ bv = VBytes ct else bv = vopt (payload c))).
  { subst step. destruct encrypt.
    - destruct (encm_encrypt X n m) as [[n' m'] [ct|e]] eqn:EE; [|discriminate]. injection ES as <- <- <-.
      apply encm_encrypt_out in EE as [E1 E2]. split; [exact E2|]. exists ct. auto.
    - injection ES as <- <- <-. split; [|reflexivity]. exists (ckey c). apply with_own_key. }
  clear ES step. destruct HB as [[k HK] HB].
  assert (HT : tstr (e_core m1) = tstr c) by (rewrite HK; reflexivity).
  assert (HU : uhdr (e_core m1) = uhdr c) by (rewrite HK; reflexivity).
  assert (HBV : forall x, on_wire (tstr c) bv x ->
    if encrypt then exists ct, enc_encrypt X "Encrypt" (e_core m1) = Ok ct /\ x = rfc_bstr ct else x = rfc_opt_bstr (payload c)).
  { intros x Hx. destruct encrypt.
    - destruct HB as (ct & HE & ->). exists ct. split; [exact HE|]. eapply wire_bytes; exact Hx.
    - subst bv. eapply wire_vopt; exact Hx. }
  destruct (e_rcpts m1) as [|r rs] eqn:ER.
  - injection H as <- <- H. apply emit_layout in H as (items & HF & ->).
    inversion HF as [|v1 x1 l1 m1' H1 HF1]; subst. inversion HF1 as [|v2 x2 l2' m2' H2 HF2]; subst.
    inversion HF2 as [|v3 x3 l3 m3 H3 HF3]; subst. inversion HF3; subst.
    unfold dumps_msg in *. rewrite HT in *. rewrite HU in *. apply dumps_bytes in H1. subst x1.
    exists p, x2, x3, []. split; [exact HP|]. split; [exact (wire_item _ _ _ H2)|]. split; [exists k; exact HK|]. split; [exact (HBV _ H3)|].
    rewrite ER. split; [constructor|reflexivity].
  - destruct (get_attr (e_core m1) Algorithm) as [a|e]; [|discriminate].
    destruct (rcpts_encode X n1 (r :: rs)) as [[n3 rs'] [vs|e]] eqn:EE; [|discriminate].
    injection H as <- <- H.
    apply (emit_rcpts _ _ _ [VBytes p; VDict (uhdr (e_core m1)); bv] (r :: rs) _ _ _ _ _ ltac:(discriminate) EE) in H as (items & xs & HF & HX & ->).
    inversion HF as [|v1 x1 l1 m1' H1 HF1]; subst. inversion HF1 as [|v2 x2 l2' m2' H2 HF2]; subst.
    inversion HF2 as [|v3 x3 l3 m3 H3 HF3]; subst. inversion HF3; subst.
    rewrite HT in *. rewrite HU in *. apply wire_bytes in H1. subst x1. cbn [e_core e_rcpts].
    exists p, x2, x3, xs. split; [exact HP|]. split; [exact (wire_item _ _ _ H2)|]. split; [exists k; exact HK|]. split; [exact (HBV _ H3)|].
    split; [exact HX|reflexivity].
Qed.

Lemma macm_layout : forall n m tag mac n2 m2 b, macm_encode X n m tag mac = ((n2, m2), Ok b) ->
  let c := mm_core m in
  exists p u t rs xs, protected_bytes c p /\ rfc_item (tstr c) (VDict (uhdr c)) u /\
    (exists k, mm_core m2 = with_key c k) /\
    (if mac then exists b, mac_compute X "MAC" (mm_core m2) = Ok b /\ t = [rfc_bstr b] else t = []) /\
    mm_rcpts m2 = Some rs /\ Forall2 (rcpt_wire (tstr c)) rs xs /\
    b = maybe_tag tag 97 (rfc_array ([rfc_bstr p; u; rfc_opt_bstr (payload c)] ++ t ++ recipients_field xs)).
Proof.
  intros n m tag mac n2 m2 b H c. unfold macm_encode in H. fold c in H.
  destruct (phdr_encoded c) as [p|e] eqn:HP; [|discriminate]. apply phdr_bytes in HP.
  set (step := if mac then _ else _) in H. destruct step as [[n1 m1] body] eqn:ES. destruct body as [tl|e]; [|discriminate].
  assert (HB : (exists k, mm_core m1 = with_key c k) /\
    (if mac then exists b, mac_compute X "MAC" (mm_core m1) = Ok b /\ tl = [VBytes b] else tl = [])).
  { subst step. destruct mac.
    - destruct (macm_compute_tag X n m) as [[n' m'] [ct|e]] eqn:EE; [|discriminate]. injection ES as <- <- <-.
      apply macm_compute_out in EE as (E1 & E2 & _). split; [exact E2|]. exists ct. auto.
    - injection ES as <- <- <-. split; [|reflexivity]. exists (ckey c). apply with_own_key. }
  clear ES step. destruct HB as [[k HK] HB].
  assert (HT : tstr (mm_core m1) = tstr c) by (rewrite HK; reflexivity).
  assert (HU : uhdr (mm_core m1) = uhdr c) by (rewrite HK; reflexivity).
  assert (HPL : payload (mm_core m1) = payload c) by (rewrite HK; reflexivity).
  assert (HI : forall items, Forall2 (on_wire (tstr c)) ([VBytes p; VDict (uhdr c); vopt (payload c)] ++ tl) items ->
    exists u t, rfc_item (tstr c) (VDict (uhdr c)) u /\
      (if mac then exists b, mac_compute X "MAC" (mm_core m1) = Ok b /\ t = [rfc_bstr b] else t = []) /\
      items = [rfc_bstr p; u; rfc_opt_bstr (payload c)] ++ t).
  { intros items HF. inversion HF as [|v1 x1 l1 m1' H1 HF1]; subst. inversion HF1 as [|v2 x2 l2' m2' H2 HF2]; subst.
    inversion HF2 as [|v3 x3 l3 m3 H3 HF3]; subst. apply wire_bytes in H1. apply wire_vopt in H3. apply wire_item in H2. subst x1 x3.
    exists x2, m3. split; [exact H2|]. split; [|reflexivity]. destruct mac.
    - destruct HB as (tb & HM & ->). inversion HF3 as [|v4 x4 l4 m4 H4 HF4]; subst. inversion HF4; subst. apply wire_bytes in H4. subst x4.
      exists tb. auto.
    - subst tl. inversion HF3. reflexivity. }
  destruct (mm_rcpts m1) as [[|r rs]|] eqn:ER; [| |discriminate].
  - injection H as <- <- H. rewrite HU, HPL in H. apply emit_layout in H as (items & HF & ->).
    unfold dumps_msg in HF. rewrite HT in HF. apply HI in HF as (u & t & H1 & H2 & ->).
    exists p, u, t, [], []. split; [exact HP|]. split; [exact H1|]. split; [exists k; exact HK|]. split; [exact H2|].
    split; [exact ER|]. split; [constructor|]. rewrite app_nil_r. reflexivity.
  - destruct (get_attr (mm_core m1) Algorithm) as [a|e]; [|discriminate].
    destruct (rcpts_encode X n1 (r :: rs)) as [[n3 rs'] [vs|e]] eqn:EE; [|discriminate].
    injection H as <- <- H. rewrite HU, HPL in H.
    apply (emit_rcpts _ _ _ ([VBytes p; VDict (uhdr c); vopt (payload c)] ++ tl) (r :: rs) _ _ _ _ _ ltac:(discriminate) EE) in H as (items & xs & HF & HX & ->).
    rewrite HT in *. apply HI in HF as (u & t & H1 & H2 & ->). cbn [mm_core mm_rcpts].
    exists p, u, t, rs', xs. split; [exact HP|]. split; [exact H1|]. split; [exists k; exact HK|]. split; [exact H2|].
    split; [reflexivity|]. split; [exact HX|]. rewrite <- !app_assoc. reflexivity.
Qed.

Lemma signers_layout : forall names c d l seed vs xs, signers_encode X seed (Some c) l d = Ok vs -> Forall2 (on_wire names) vs xs ->
  Forall2 (fun s x => exists p u sg seed', protected_bytes s p /\ rfc_item names (VDict (uhdr s)) u /\
    compute_signature X seed' s (signer_structure (Some c) s d) = Ok sg /\ x = rfc_array [rfc_bstr p; u; rfc_bstr sg]) l xs.
Proof.
  intros names c d l. induction l as [|s l IH]; intros seed vs xs H HX; cbn [signers_encode] in H.
  - injection H as <-. inversion HX; subst. constructor.
  - apply bind_ok in H as (v & HV & H). apply bind_ok in H as (vs' & HVS & H). injection H as <-.
    inversion HX as [|? x ? xs' Hx HX']; subst. constructor; [|eapply IH; eassumption].
    unfold signer_encode in HV. apply bind_ok in HV as (p & HP & HV). apply bind_ok in HV as (sg & HS & HV). injection HV as <-.
    unfold on_wire in Hx. apply dumps_list in Hx as (items & HF & ->).
    inversion HF as [|v1 x1 l1 m1' H1 HF1]; subst. inversion HF1 as [|v2 x2 l2' m2' H2 HF2]; subst.
    inversion HF2 as [|v3 x3 l3 m3 H3 HF3]; subst. inversion HF3; subst. apply dumps_bytes in H1, H3. apply dumps_item in H2. subst.
    exists p, x2, sg, seed. split; [exact (phdr_bytes _ _ HP)|]. split; [exact H2|]. auto.
Qed.
End Rcpts.

(** ** The specification determines the bytes *)

Lemma minimal_be_unique : forall b b' n, minimal_be b n -> minimal_be b' n -> b = b'.
Proof.
  assert (W : forall b b', of_be b = of_be b' -> hd x01 b' <> x00 -> (length b < length b')%nat -> False).
  { intros b b' E H L.
    assert (E' : repeat x00 (length b' - length b) ++ b = b').
    { apply of_be_inj; [rewrite app_length, repeat_length; lia|]. rewrite of_be_repeat_zero. exact E. }
    destruct (length b' - length b)%nat as [|d] eqn:ED; [lia|]. rewrite <- E' in H. exact (H eq_refl). }
  intros b b' n [E H] [E' H']. destruct (lt_eq_lt_dec (length b) (length b')) as [[L|L]|L].
  - exfalso. apply (W b b'); congruence.
  - apply of_be_inj; congruence.
  - exfalso. apply (W b' b); congruence.
Qed.

Lemma first_split : forall (k : pyval) (pre pre' post post' : dict) v v',
  pre ++ (k, v) :: post = pre' ++ (k, v') :: post' -> ~ In k (map fst pre) -> ~ In k (map fst pre') -> pre = pre' /\ v = v' /\ post = post'.
Proof.
  intros k pre. induction pre as [|e pre IH]; intros [|e' pre'] post post' v v' H N1 N2; cbn [app map fst In] in *.
  - injection H as -> ->. auto.
  - injection H as <- H. exfalso. apply N2. left. reflexivity.
  - injection H as -> H. exfalso. apply N1. left. reflexivity.
  - injection H as <- H. destruct (IH pre' post post' v v' H) as (-> & -> & ->); auto.
Qed.

Lemma without_empty_ops_unique : forall s a b, without_empty_ops s a -> without_empty_ops s b -> a = b.
Proof.
  intros s a b [(pre & v & post & E & -> & L & N) | [-> H]] [(pre' & v' & post' & E' & -> & L' & N') | [-> H']].
  - rewrite E in E'. apply first_split in E' as (-> & _ & ->); auto.
  - exfalso. exact (H' _ _ _ E N L).
  - exfalso. exact (H _ _ _ E' N' L').
  - reflexivity.
Qed.

Lemma items_unique : forall names l, Forall (fun v => forall b b', rfc_item names v b -> rfc_item names v b' -> b = b') l ->
  forall xs ys, Forall2 (rfc_item names) l xs -> Forall2 (rfc_item names) l ys -> xs = ys.
Proof.
  intros names l HF. induction HF as [|v l HV HF IH]; intros xs ys H1 H2; inversion H1; inversion H2; subst; [reflexivity|]. f_equal; auto.
Qed.

Lemma entries_unique : forall names (d : dict),
  Forall (fun e => (forall b b', rfc_item names (fst e) b -> rfc_item names (fst e) b' -> b = b') /\
                   (forall b b', rfc_item names (snd e) b -> rfc_item names (snd e) b' -> b = b')) d ->
  forall xs ys, Forall2 (fun e x => rfc_item names (fst e) (fst x) /\ rfc_item names (snd e) (snd x)) d xs ->
    Forall2 (fun e x => rfc_item names (fst e) (fst x) /\ rfc_item names (snd e) (snd x)) d ys -> xs = ys.
Proof.
  intros names d HF. induction HF as [|e d [HK HV] HF IH]; intros xs ys H1 H2;
    inversion H1 as [|e1 x1 d1 xs1 [K1 V1] R1]; inversion H2 as [|e2 x2 d2 ys2 [K2 V2] R2]; subst; [reflexivity|].
  f_equal; [|auto]. destruct x1, x2. cbn [fst snd] in *. f_equal; auto.
Qed.

Lemma without_empty_ops_incl : forall s a, without_empty_ops s a -> incl a s.
Proof.
  intros s a [(pre & v & post & -> & -> & _) | [-> _]]; [|apply incl_refl].
  intros x H. apply in_app_iff in H. apply in_app_iff. cbn [In]. tauto.
Qed.

Lemma int_item_unique : forall names z b b', rfc_item names (VInt z) b -> rfc_item names (VInt z) b' -> b = b'.
Proof.
  intros names z b b' H H'.
  inversion H as [| | | |z1 R1|z1 b1 R1 M1|z1 b1 R1 M1| | | | | | | | | | | | | |]; subst;
  inversion H' as [| | | |z2 R2|z2 b2 R2 M2|z2 b2 R2 M2| | | | | | | | | | | | | |]; subst; try reflexivity; try (exfalso; lia);
  rewrite (minimal_be_unique _ _ _ M1 M2); reflexivity.
Qed.

Lemma rfc_item_unique : forall names v b b', rfc_item names v b -> rfc_item names v b' -> b = b'.
Proof.
  intros names.
  induction v as [|b|z|f|n| | |b|b|l HF|l HF|d HF|t v IH|t v IH|c|k s e HS HE] using pyval_ind'; intros y y' H H'.
  - inversion H; inversion H'; reflexivity.
  - inversion H; inversion H'; reflexivity.
  - eapply int_item_unique; eassumption.
  - inversion H; subst; inversion H'; subst; try reflexivity; try congruence; exfalso; vm_compute in *; congruence.
  - inversion H; inversion H'; reflexivity.
  - inversion H; inversion H'; reflexivity.
  - inversion H; inversion H'; reflexivity.
  - inversion H; inversion H'; reflexivity.
  - inversion H; inversion H'; reflexivity.
  - inversion H; subst; inversion H'; subst. f_equal. eapply items_unique; eassumption.
  - inversion H; subst; inversion H'; subst. f_equal. eapply items_unique; eassumption.
  - inversion H; subst; inversion H'; subst. f_equal. eapply (entries_unique names d HF); eassumption.
  - inversion H; subst; inversion H'; subst. f_equal. auto.
  - inversion H; subst; inversion H'; subst. f_equal. auto.
  - inversion H as [| | | | | | | | | | | | | | | | | |c1 b1 C1 I1|c1 C1 N1|]; subst;
    inversion H' as [| | | | | | | | | | | | | | | | | |c2 b2 C2 I2|c2 C2 N2|]; subst; try reflexivity.
    + eapply int_item_unique; eassumption.
    + destruct C1; congruence.
    + destruct C2; congruence.
  - inversion H as [| | | | | | | | | | | | | | | | | | | |c1 s1 s1' e1 xs1 W1 F1]; subst;
    inversion H' as [| | | | | | | | | | | | | | | | | | | |c2 s2 s2' e2 xs2 W2 F2]; subst.
    rewrite (without_empty_ops_unique _ _ _ W2 W1) in F2. f_equal. eapply entries_unique; [|eassumption|eassumption].
    apply Forall_forall. intros x Hx. apply (without_empty_ops_incl _ _ W1) in Hx. rewrite Forall_forall in HS. exact (HS x Hx).
Qed.

(** ** Layouts of messages without recipients *)

Lemma sign1_layout : forall X seed m tag sign d b, sign1_encode X seed m tag sign (vopt d) = Ok b ->
  let c := s1_core m in
  exists p u s, protected_bytes c p /\ rfc_item (tstr c) (VDict (uhdr c)) u /\
    (if sign then exists alg k tbp pl sig, get_attr c Algorithm = Ok alg /\ ckey c = Some k /\ protected_field c tbp /\
        signed_payload (payload c) d pl /\ alg_sign X seed alg k (Sig_structure1 tbp (aad c) pl) = Ok sig /\ s = [rfc_bstr sig]
     else if truthy (s1_sig m) then exists x, rfc_item (tstr c) (s1_sig m) x /\ s = [x] else s = []) /\
    b = maybe_tag tag 18 (rfc_array ([rfc_bstr p; u; rfc_opt_bstr (payload c)] ++ s)).
Proof.
  intros X seed m tag sign d b H c. destruct sign.
  - apply sign1_encode_rfc in H as (alg & k & p & tbp & pl & sig & u & HA & HK & HP & HT & HL & HS & HU & ->).
    exists p, u, [rfc_bstr sig]. split; [exact (phdr_bytes _ _ HP)|]. split; [exact (dumps_msg_item _ _ _ HU)|]. split; [|reflexivity].
    exists alg, k, tbp, pl, sig. do 5 (split; [assumption|]). reflexivity.
  - unfold sign1_encode in H. fold c in H. apply bind_ok in H as (p & HP & H). apply bind_ok in H as (items & HI & H).
    assert (HI' : items = [VBytes p; VDict (uhdr c); vopt (payload c)] ++ (if truthy (s1_sig m) then [s1_sig m] else [])).
    { destruct (truthy (s1_sig m)); injection HI as <-; reflexivity. }
    rewrite HI' in H. apply emit_base in H as (u & xs & HU & HF & ->). exists p, u, xs.
    split; [exact (phdr_bytes _ _ HP)|]. split; [exact (dumps_msg_item _ _ _ HU)|]. split; [|reflexivity].
    destruct (truthy (s1_sig m)).
    + inversion HF as [|v1 x1 l1 m1 H1 HF1]; subst. inversion HF1; subst. exists x1. split; [exact (dumps_msg_item _ _ _ H1)|reflexivity].
    + inversion HF. reflexivity.
Qed.

Lemma enc0_layout : forall X c tag encrypt b, enc0_encode X c tag encrypt = Ok b ->
  exists p u body, protected_bytes c p /\ rfc_item (tstr c) (VDict (uhdr c)) u /\
    (if encrypt then exists ct, enc_encrypt X "Encrypt0" c = Ok ct /\ body = rfc_bstr ct else body = rfc_opt_bstr (payload c)) /\
    b = maybe_tag tag 16 (rfc_array [rfc_bstr p; u; body]).
Proof.
  intros X c tag encrypt b H. unfold enc0_encode in H. apply bind_ok in H as (p & HP & H). apply bind_ok in H as (body & HB & H).
  apply emit_layout in H as (items & HF & ->).
  inversion HF as [|v1 x1 l1 m1 H1 HF1]; subst. inversion HF1 as [|v2 x2 l2 m2 H2 HF2]; subst. inversion HF2 as [|v3 x3 l3 m3 H3 HF3]; subst.
  inversion HF3; subst. apply (dumps_bytes (HMsg (tstr c))) in H1. subst. exists p, x2, x3.
  split; [exact (phdr_bytes _ _ HP)|]. split; [exact (dumps_msg_item _ _ _ H2)|]. split; [|reflexivity].
  destruct encrypt.
  - apply bind_ok in HB as (ct & HE & E). injection E as <-. exists ct. split; [exact HE|]. exact (wire_bytes _ _ _ H3).
  - injection HB as <-. exact (wire_vopt _ _ _ H3).
Qed.

Lemma mac0_layout : forall X m tag mac b, snd (mac0_encode X m tag mac) = Ok b ->
  let c := m0_core m in
  exists p u t, protected_bytes c p /\ rfc_item (tstr c) (VDict (uhdr c)) u /\
    (if mac then exists x, mac_compute X "MAC0" c = Ok x /\ t = [rfc_bstr x] else t = []) /\
    b = maybe_tag tag 17 (rfc_array ([rfc_bstr p; u; rfc_opt_bstr (payload c)] ++ t)).
Proof.
  intros X m tag mac b H c. destruct mac.
  - apply mac0_encode_rfc in H as (p & u & t & HP & HU & HM & ->). exists p, u, [rfc_bstr t].
    split; [exact (phdr_bytes _ _ HP)|]. split; [exact (dumps_msg_item _ _ _ HU)|]. split; [|reflexivity]. exists t. auto.
  - unfold mac0_encode in H. fold c in H. destruct (phdr_encoded c) as [p|e] eqn:HP; [|discriminate]. cbn [snd] in H.
    change [VBytes p; VDict (uhdr c); vopt (payload c)] with ([VBytes p; VDict (uhdr c); vopt (payload c)] ++ []) in H.
    apply emit_base in H as (u & xs & HU & HF & ->). inversion HF; subst. exists p, u, [].
    split; [exact (phdr_bytes _ _ HP)|]. split; [exact (dumps_msg_item _ _ _ HU)|]. auto.
Qed.

Lemma sign_layout : forall X seed m tag d b, sign_encode X seed m tag d = Ok b ->
  let c := sm_core m in
  exists p u xs, protected_bytes c p /\ rfc_item (tstr c) (VDict (uhdr c)) u /\
    Forall2 (fun s x => exists sp su sg seed', protected_bytes s sp /\ rfc_item (tstr c) (VDict (uhdr s)) su /\
      compute_signature X seed' s (signer_structure (Some c) s d) = Ok sg /\ x = rfc_array [rfc_bstr sp; su; rfc_bstr sg]) (sm_signers m) xs /\
    b = maybe_tag tag 98 (rfc_array ([rfc_bstr p; u; rfc_opt_bstr (payload c)] ++ recipients_field xs)).
Proof.
  intros X seed m tag d b H c. destruct (sm_signers m) as [|s0 sr] eqn:ES.
  - unfold sign_encode in H. fold c in H. apply bind_ok in H as (p & HP & H). rewrite ES in H. cbn [bind] in H.
    change [VBytes p; VDict (uhdr c); vopt (payload c)] with ([VBytes p; VDict (uhdr c); vopt (payload c)] ++ []) in H.
    apply emit_base in H as (u & xs & HU & HF & ->). inversion HF; subst. exists p, u, [].
    split; [exact (phdr_bytes _ _ HP)|]. split; [exact (dumps_msg_item _ _ _ HU)|]. auto.
  - apply sign_encode_rfc in H as (p & u & vs & ss & HP & HU & HV & HF & ->); [|rewrite ES; discriminate].
    exists p, u, ss. split; [exact (phdr_bytes _ _ HP)|]. split; [exact (dumps_msg_item _ _ _ HU)|].
    rewrite ES in HV. assert (HL := signers_layout _ (tstr c) _ _ _ _ _ _ HV HF). split; [exact HL|].
    destruct ss; [inversion HL|reflexivity].
Qed.
