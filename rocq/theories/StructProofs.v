(** Lemmas about the authenticated structures. *)
From Coq Require Import NArith ZArith Bool String Lia ZifyBool ZifyNat ZifyN.
From Coq Require Import Init.Byte List.
From Verif Require Import Bytes BytesProofs Value Cbor CborProofs ValueProofs SpecData DataProofs
  Registry Crypto Keys Algorithms Headers Messages Recipients SpecRfc SpecStruct.
Import ListNotations.
Local Open Scope N_scope.
Local Open Scope result_scope.

(** ** The independent byte-level encodings agree with the encoder *)

Lemma byte_of_N_mod : forall n, byte_of_N (n mod 256) = byte_of_N n.
Proof. intros n. unfold byte_of_N. rewrite N.mod_mod by lia. reflexivity. Qed.

Lemma head_rfc : forall mt n, n < two64 -> head mt n = rfc_head mt n.
Proof.
  intros mt n H. unfold head, rfc_head.
  rewrite (N.mul_comm mt 32).
  change (2 ^ 8) with 256. change (2 ^ 16) with 65536. change (2 ^ 32) with 4294967296.
  destruct (n <? 24); [reflexivity|].
  destruct (n <? 256).
  { cbn [to_be map app]. reflexivity. }
  destruct (n <? 65536); [reflexivity|].
  destruct (n <? 4294967296); cbn [to_be map app]; repeat rewrite N.div_div by lia; reflexivity.
Qed.

Lemma enc_bytes_rfc : forall b, blen b < max_len -> enc (CBytes b) = rfc_bstr b.
Proof.
  intros b H. cbn [enc]. unfold rfc_bstr. rewrite head_rfc; [reflexivity|].
  unfold max_len, two64 in *. lia.
Qed.

Lemma enc_text_rfc : forall s, blen (bs s) < max_len -> enc (CText (bs s)) = rfc_tstr s.
Proof.
  intros b H. cbn [enc]. unfold rfc_tstr. rewrite head_rfc; [reflexivity|].
  unfold max_len, two64 in *. lia.
Qed.

Lemma enc_arr_rfc : forall l, N.of_nat (length l) < max_len ->
  enc (CArr l) = rfc_array (map enc l).
Proof.
  intros l H. cbn [enc]. unfold rfc_array. rewrite map_length, flat_map_concat_map.
  rewrite head_rfc; [reflexivity|]. unfold max_len, two64 in *. lia.
Qed.

Lemma enc_int_rfc : forall z, (- 2 ^ 64 <= z < 2 ^ 64)%Z -> enc (lower_int z) = rfc_int z.
Proof.
  intros z H. unfold lower_int, rfc_int.
  destruct z as [|p|p].
  - reflexivity.
  - replace (Z.to_N (Z.pos p) <? two64) with true by (symmetry; unfold two64; lia).
    cbn [enc]. rewrite head_rfc by (unfold two64; lia). reflexivity.
  - replace (Z.to_N (-1 - Z.neg p) <? two64) with true by (symmetry; unfold two64; lia).
    cbn [enc]. rewrite head_rfc by (unfold two64; lia). reflexivity.
Qed.

(** ** Structures as data items *)

Lemma base_protected_spec : forall c p, base_protected c = Ok p <-> protected_field c p.
Proof.
  intros c p. unfold base_protected, protected_field. destruct (phdr c) as [|e l]; split.
  - intros H. injection H as <-. split; [reflexivity|]. intros E. elim E. reflexivity.
  - intros [H _]. rewrite H; reflexivity.
  - intros H. split; [discriminate|]. intros _. assumption.
  - intros [_ H]. apply H. discriminate.
Qed.

Lemma protected_field_unique : forall c p q, protected_field c p -> protected_field c q -> p = q.
Proof.
  intros c p q Hp Hq. apply base_protected_spec in Hp, Hq. congruence.
Qed.

Lemma sig_payload_spec : forall a d v, sig_payload a (vopt d) = Ok v ->
  exists p, v = VBytes p /\ signed_payload a d p.
Proof.
  intros a d v H. destruct d as [d|], a as [a|]; cbn in H; try discriminate;
    injection H as <-; eexists; (split; [reflexivity|]); [right|left]; auto.
Qed.

Lemma signed_payload_sig : forall a d p, signed_payload a d p -> sig_payload a (vopt d) = Ok (VBytes p).
Proof. intros a d p [[-> ->]|[-> ->]]; reflexivity. Qed.

Lemma lower_bytes_list : forall h l,
  mapM (lower cls_fullname h) (map VBytes l) = Ok (map CBytes l).
Proof.
  intros h l. induction l as [|b l IH]; [reflexivity|]. cbn [map mapM]. rewrite IH. reflexivity.
Qed.

(** A context string followed by byte strings. *)
Definition ctx_item (ctx : string) (l : list bytes) : cbor := CArr (CText (bs ctx) :: map CBytes l).

Lemma dumps_ctx : forall ctx l t,
  dumps_plain (VList (VStr (bs ctx) :: map VBytes l)) = Ok t ->
  wfc (ctx_item ctx l) = true /\ t = enc (ctx_item ctx l).
Proof.
  intros ctx l t H. apply dumps_ok in H as (c & HL & HW & ->).
  cbn [lower mapM bind] in HL. rewrite lower_bytes_list in HL. cbn [bind] in HL.
  injection HL as <-. auto.
Qed.

Lemma dumps_ctx_ok : forall ctx l, wfc (ctx_item ctx l) = true ->
  dumps_plain (VList (VStr (bs ctx) :: map VBytes l)) = Ok (enc (ctx_item ctx l)).
Proof.
  intros ctx l H. unfold dumps_plain, dumps. cbn [lower mapM bind]. rewrite lower_bytes_list.
  cbn [bind]. fold (ctx_item ctx l). rewrite H. reflexivity.
Qed.

Lemma map_CBytes_inj : forall l m, map CBytes l = map CBytes m -> l = m.
Proof.
  induction l as [|a l IH]; intros [|b m] H; try discriminate; [reflexivity|].
  cbn [map] in H. injection H as -> H. f_equal. apply IH. assumption.
Qed.

Lemma bs_inj : forall a b, bs a = bs b -> a = b.
Proof.
  intros a b H. unfold bs in H. apply (f_equal string_of_list_byte) in H.
  rewrite !string_of_list_byte_of_string in H. assumption.
Qed.

Lemma ctx_item_inj : forall ctx ctx' l m, ctx_item ctx l = ctx_item ctx' m -> ctx = ctx' /\ l = m.
Proof.
  intros ctx ctx' l m H. unfold ctx_item in H. injection H as H1 H2. split.
  - apply bs_inj. assumption.
  - apply map_CBytes_inj. assumption.
Qed.

Lemma enc_ctx_inj : forall ctx ctx' l m,
  wfc (ctx_item ctx l) = true -> wfc (ctx_item ctx' m) = true ->
  enc (ctx_item ctx l) = enc (ctx_item ctx' m) -> ctx = ctx' /\ l = m.
Proof. intros ctx ctx' l m H1 H2 E. apply ctx_item_inj. apply enc_inj; assumption. Qed.

Lemma wfc_arr : forall l, wfc (CArr l) = (N.of_nat (length l) <? max_len) && forallb wfc l.
Proof. reflexivity. Qed.

Lemma wfc_bytes : forall b, wfc (CBytes b) = (blen b <? max_len).
Proof. reflexivity. Qed.

Lemma wfc_text : forall b, wfc (CText b) = (blen b <? max_len) && utf8_valid b.
Proof. reflexivity. Qed.

Lemma enc_bstrs_rfc : forall l, forallb wfc (map CBytes l) = true ->
  map enc (map CBytes l) = map rfc_bstr l.
Proof.
  induction l as [|b l IH]; intros H; [reflexivity|].
  cbn [map forallb] in H. apply andb_true_iff in H as [Hb H].
  rewrite wfc_bytes in Hb. apply N.ltb_lt in Hb.
  cbn [map]. rewrite IH by assumption. rewrite enc_bytes_rfc by assumption. reflexivity.
Qed.

Lemma enc_ctx_rfc : forall ctx l, wfc (ctx_item ctx l) = true ->
  enc (ctx_item ctx l) = rfc_array (rfc_tstr ctx :: map rfc_bstr l).
Proof.
  intros ctx l H. unfold ctx_item in *. rewrite wfc_arr in H.
  apply andb_true_iff in H as [HN H]. apply N.ltb_lt in HN.
  rewrite enc_arr_rfc by assumption. cbn [forallb] in H.
  apply andb_true_iff in H as [HT H]. rewrite wfc_text in HT.
  apply andb_true_iff in HT as [HT _]. apply N.ltb_lt in HT.
  cbn [map]. rewrite enc_text_rfc by assumption. rewrite enc_bstrs_rfc by assumption. reflexivity.
Qed.

(** *** Sign1 *)

Lemma sign1_structure_inv : forall c d t, sign1_structure c (vopt d) = Ok t ->
  exists p pl, protected_field c p /\ signed_payload (payload c) d pl /\
    wfc (ctx_item "Signature1" [p; aad c; pl]) = true /\
    t = enc (ctx_item "Signature1" [p; aad c; pl]).
Proof.
  intros c d t H. unfold sign1_structure in H.
  apply bind_ok in H as (p & HP & H). apply bind_ok in H as (v & HV & H).
  apply sig_payload_spec in HV as (pl & -> & HV).
  apply (dumps_ctx "Signature1" [p; aad c; pl]) in H as [HW ->].
  exists p, pl. rewrite <- base_protected_spec. auto.
Qed.

(** *** Signers *)

Definition opt_list {A} (o : option A) : list A := match o with Some a => [a] | None => [] end.

Lemma signer_structure_inv : forall m s d t, signer_structure (Some m) s (vopt d) = Ok t ->
  exists bp sp pl, phdr_encoded m = Ok bp /\ signer_protected s sp /\
    signed_payload (payload m) d pl /\
    wfc (ctx_item "Signature" ([bp] ++ opt_list sp ++ [aad s; pl])) = true /\
    t = enc (ctx_item "Signature" ([bp] ++ opt_list sp ++ [aad s; pl])).
Proof.
  intros m s d t H. unfold signer_structure in H.
  apply bind_ok in H as (bp & HB & H). apply bind_ok in H as (sp & HS & H).
  apply bind_ok in H as (v & HV & H). apply sig_payload_spec in HV as (pl & -> & HV).
  exists bp.
  destruct (phdr s) as [|e r] eqn:EP.
  - injection HS as <-. exists None, pl. cbn [app opt_list] in *.
    apply (dumps_ctx "Signature" [bp; aad s; pl]) in H as [HW ->].
    auto.
  - apply bind_ok in HS as (q & HQ & HS). injection HS as <-.
    exists (Some q), pl. cbn [app opt_list] in *.
    apply (dumps_ctx "Signature" [bp; q; aad s; pl]) in H as [HW ->].
    split; [assumption|]. split; [|auto]. cbn [signer_protected].
    split; [rewrite EP; discriminate|assumption].
Qed.

Lemma signer_structure_parent : forall p s d t, signer_structure p s d = Ok t -> exists m, p = Some m.
Proof. intros [m|] s d t H; [eauto|discriminate]. Qed.

(** *** Enc and Mac *)

Lemma enc_structure_inv : forall ctx c t, enc_structure ctx c = Ok t ->
  exists p, protected_field c p /\ wfc (ctx_item ctx [p; aad c]) = true /\
    t = enc (ctx_item ctx [p; aad c]).
Proof.
  intros ctx c t H. unfold enc_structure in H. apply bind_ok in H as (p & HP & H).
  apply (dumps_ctx ctx [p; aad c]) in H as [HW ->].
  exists p. rewrite <- base_protected_spec. auto.
Qed.

Lemma mac_structure_inv : forall ctx c t, mac_structure ctx c = Ok t ->
  exists p pl, protected_field c p /\ payload c = Some pl /\
    wfc (ctx_item ctx [p; aad c; pl]) = true /\ t = enc (ctx_item ctx [p; aad c; pl]).
Proof.
  intros ctx c t H. unfold mac_structure in H. apply bind_ok in H as (p & HP & H).
  destruct (payload c) as [pl|]; [|discriminate].
  apply (dumps_ctx ctx [p; aad c; pl]) in H as [HW ->].
  exists p, pl. rewrite <- base_protected_spec. auto.
Qed.

(** ** C03-C07 *)

Lemma sign1_tbs_inj : forall c1 c2 d1 d2 t,
  sign1_structure c1 (vopt d1) = Ok t -> sign1_structure c2 (vopt d2) = Ok t ->
  exists p pl, protected_field c1 p /\ protected_field c2 p /\
    aad c1 = aad c2 /\
    signed_payload (payload c1) d1 pl /\ signed_payload (payload c2) d2 pl.
Proof.
  intros c1 c2 d1 d2 t H1 H2.
  apply sign1_structure_inv in H1 as (p1 & l1 & HP1 & HL1 & HW1 & ->).
  apply sign1_structure_inv in H2 as (p2 & l2 & HP2 & HL2 & HW2 & E).
  apply enc_ctx_inj in E as [_ E]; [|assumption|assumption].
  injection E as -> HA ->. exists p2, l2. auto 6.
Qed.

Lemma signer_tbs_inj : forall m1 m2 s1 s2 d1 d2 t,
  signer_structure (Some m1) s1 (vopt d1) = Ok t -> signer_structure (Some m2) s2 (vopt d2) = Ok t ->
  exists bp sp pl, phdr_encoded m1 = Ok bp /\ phdr_encoded m2 = Ok bp /\
    signer_protected s1 sp /\ signer_protected s2 sp /\
    aad s1 = aad s2 /\
    signed_payload (payload m1) d1 pl /\ signed_payload (payload m2) d2 pl.
Proof.
  intros m1 m2 s1 s2 d1 d2 t H1 H2.
  apply signer_structure_inv in H1 as (b1 & p1 & l1 & HB1 & HP1 & HL1 & HW1 & ->).
  apply signer_structure_inv in H2 as (b2 & p2 & l2 & HB2 & HP2 & HL2 & HW2 & E).
  apply enc_ctx_inj in E as [_ E]; [|assumption|assumption].
  destruct p1 as [p1|], p2 as [p2|]; cbn [app opt_list] in E; try discriminate.
  - injection E as -> -> HA ->. exists b2, (Some p2), l2. auto 8.
  - injection E as -> HA ->. exists b2, None, l2. auto 8.
Qed.

Lemma enc_aad_inj : forall ctx1 ctx2 c1 c2 t,
  enc_structure ctx1 c1 = Ok t -> enc_structure ctx2 c2 = Ok t ->
  ctx1 = ctx2 /\ exists p, protected_field c1 p /\ protected_field c2 p /\ aad c1 = aad c2.
Proof.
  intros ctx1 ctx2 c1 c2 t H1 H2.
  apply enc_structure_inv in H1 as (p1 & HP1 & HW1 & ->).
  apply enc_structure_inv in H2 as (p2 & HP2 & HW2 & E).
  apply enc_ctx_inj in E as [HC E]; [|assumption|assumption].
  injection E as -> HA. split; [assumption|]. exists p2. auto.
Qed.

Lemma mac_input_inj : forall ctx1 ctx2 c1 c2 t,
  mac_structure ctx1 c1 = Ok t -> mac_structure ctx2 c2 = Ok t ->
  ctx1 = ctx2 /\ exists p pl, protected_field c1 p /\ protected_field c2 p /\ aad c1 = aad c2 /\
    payload c1 = Some pl /\ payload c2 = Some pl.
Proof.
  intros ctx1 ctx2 c1 c2 t H1 H2.
  apply mac_structure_inv in H1 as (p1 & l1 & HP1 & HL1 & HW1 & ->).
  apply mac_structure_inv in H2 as (p2 & l2 & HP2 & HL2 & HW2 & E).
  apply enc_ctx_inj in E as [HC E]; [|assumption|assumption].
  injection E as -> HA ->. split; [assumption|]. exists p2, l2. auto 6.
Qed.

Definition kind_context (k : kind) : string :=
  match k with
  | KindSign1 => "Signature1" | KindSign => "Signature" | KindEnc0 => "Encrypt0"
  | KindEnc => "Encrypt" | KindMac0 => "MAC0" | KindMac => "MAC"
  end.

Lemma kind_context_inj : forall k1 k2, kind_context k1 = kind_context k2 -> k1 = k2.
Proof. intros [] []; cbn; congruence. Qed.

Lemma dumps_list_head : forall ctx l t, dumps_plain (VList (VStr (bs ctx) :: l)) = Ok t ->
  exists cs, wfc (CArr (CText (bs ctx) :: cs)) = true /\ t = enc (CArr (CText (bs ctx) :: cs)).
Proof.
  intros ctx l t H. apply dumps_ok in H as (c & HL & HW & ->).
  cbn [lower mapM bind] in HL. apply bind_ok in HL as (cs & HL & E). injection E as <-.
  apply bind_ok in HL as (ys & HL & E). injection E as <-. exists ys. auto.
Qed.

Lemma authenticates_context : forall k t, authenticates k t ->
  exists cs, wfc (CArr (CText (bs (kind_context k)) :: cs)) = true /\
    t = enc (CArr (CText (bs (kind_context k)) :: cs)).
Proof.
  intros k t H. destruct H as [c d t H|m s d t H|c t H|c t H|c t H|c t H].
  - unfold sign1_structure in H. apply bind_ok in H as (p & _ & H). apply bind_ok in H as (v & _ & H).
    eapply dumps_list_head. eassumption.
  - destruct m as [m|]; [|discriminate]. unfold signer_structure in H.
    apply bind_ok in H as (p & _ & H). apply bind_ok in H as (q & _ & H).
    apply bind_ok in H as (v & _ & H). eapply dumps_list_head. exact H.
  - apply enc_structure_inv in H as (p & _ & HW & ->). eexists. split; [exact HW|reflexivity].
  - apply enc_structure_inv in H as (p & _ & HW & ->). eexists. split; [exact HW|reflexivity].
  - apply mac_structure_inv in H as (p & pl & _ & _ & HW & ->). eexists. split; [exact HW|reflexivity].
  - apply mac_structure_inv in H as (p & pl & _ & _ & HW & ->). eexists. split; [exact HW|reflexivity].
Qed.

Lemma authenticates_kind : forall k1 k2 t, authenticates k1 t -> authenticates k2 t -> k1 = k2.
Proof.
  intros k1 k2 t H1 H2.
  apply authenticates_context in H1 as (c1 & W1 & ->).
  apply authenticates_context in H2 as (c2 & W2 & E).
  apply enc_inj in E; [|assumption|assumption]. injection E as E _.
  apply kind_context_inj. apply bs_inj. assumption.
Qed.

(** ** C08: zero padding *)

Lemma zero_pad_spec : forall l, exists n, (n < 16)%nat /\ zero_pad l = l ++ repeat x00 n /\
  (length (zero_pad l) mod 16 = 0)%nat.
Proof.
  intros l. unfold zero_pad. exists ((16 - length l mod 16) mod 16)%nat.
  split; [apply Nat.mod_upper_bound; lia|]. split; [reflexivity|].
  rewrite app_length, repeat_length.
  pose proof (Nat.mod_upper_bound (length l) 16 ltac:(lia)) as HU.
  pose proof (Nat.div_mod (length l) 16 ltac:(lia)) as HD.
  set (m := (length l mod 16)%nat) in *. set (q := (length l / 16)%nat) in *.
  destruct m as [|m'] eqn:Em.
  - replace ((16 - 0) mod 16)%nat with 0%nat by reflexivity.
    replace (length l + 0)%nat with (q * 16)%nat by lia. apply Nat.mod_mul. lia.
  - rewrite (Nat.mod_small (16 - S m') 16) by lia.
    replace (length l + (16 - S m'))%nat with ((q + 1) * 16)%nat by lia. apply Nat.mod_mul. lia.
Qed.

Lemma zero_pad_shortest : forall l n, (length (l ++ repeat x00 n) mod 16 = 0)%nat ->
  (length (zero_pad l) <= length (l ++ repeat x00 n))%nat.
Proof.
  intros l n H. destruct (zero_pad_spec l) as (k & Hk & E & HM).
  rewrite E in *. rewrite !app_length, !repeat_length in *.
  destruct (Nat.le_gt_cases k n) as [|Hlt]; [lia|exfalso].
  pose proof (Nat.div_mod (length l + n) 16 ltac:(lia)) as D1.
  pose proof (Nat.div_mod (length l + k) 16 ltac:(lia)) as D2. lia.
Qed.

Lemma zero_pad_mac_inj : forall ctx1 ctx2 c1 c2 t1 t2,
  mac_structure ctx1 c1 = Ok t1 -> mac_structure ctx2 c2 = Ok t2 ->
  zero_pad t1 = zero_pad t2 -> t1 = t2.
Proof.
  intros ctx1 ctx2 c1 c2 t1 t2 H1 H2 E.
  apply mac_structure_inv in H1 as (p1 & l1 & _ & _ & W1 & ->).
  apply mac_structure_inv in H2 as (p2 & l2 & _ & _ & W2 & ->).
  unfold zero_pad in E. apply enc_prefix_free in E; [|assumption|assumption].
  destruct E as [E _]. rewrite E. reflexivity.
Qed.
