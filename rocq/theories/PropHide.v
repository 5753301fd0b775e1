(** C130: what an encoded message shows. *)
From Coq Require Import NArith ZArith Bool String Lia.
From Coq Require Import Init.Byte List.
From Verif Require Import Bytes Value Cbor Registry Crypto Keys Algorithms Headers Messages Recipients Toy SpecCrypto SpecAlg SpecIana SpecRfc SpecStruct SpecMsg SpecWire SpecLen SpecLen2 SpecHide.
From Verif Require Import BytesProofs ValueProofs StructProofs AlgProofs MiscProofs LayoutProofs WireProofs RcptProofs RcptTrip2 AgainProofs AgainProofs2 AcceptProofs PropWire PropHdr PropMsg PropRcpt PropRcptTrip PropAccept PropLen PropLen2 PropGen.
Import ListNotations.
Local Open Scope result_scope.
Local Open Scope list_scope.

(** ** The same values *)

Definition same : pyval -> pyval -> Prop := eq.
Lemma S_refl : forall v, same v v.
Proof. reflexivity. Qed.
Lemma S_bytes : forall b b', b = b' -> same (VBytes b) (VBytes b').
Proof. intros b b' ->. reflexivity. Qed.
Lemma all_same : forall l l', Forall2 same l l' -> l = l'.
Proof. intros l l' H. induction H as [|v v' l l' HV H IH]; [reflexivity|]. unfold same in HV. congruence. Qed.
Lemma S_list : forall l l', Forall2 same l l' -> same (VList l) (VList l').
Proof. intros l l' H. apply all_same in H. subst. reflexivity. Qed.

Lemma emit_same : forall c c' t tag l l' b b', tstr c = tstr c' -> Forall2 same l l' -> emit c t tag l = Ok b -> emit c' t tag l' = Ok b' -> b = b'.
Proof. intros c c' t tag l l' b b' HT HF H H'. apply all_same in HF. subst l'. unfold emit, dumps_msg in *. rewrite <- HT in H'. rewrite H in H'. injection H' as E. exact E. Qed.

(** ** Ciphertexts, wrapped keys, tags, signatures *)

Lemma seal_same : forall X a k k' n n' (p p' : option bytes) ad ad' ct ct', content_hidden X ->
  match p, p' with Some q, Some q' => length q = length q' | None, None => True | _, _ => False end ->
  alg_encrypt X a k n (vopt p) ad = Ok ct -> alg_encrypt X a k' n' (vopt p') ad' = Ok ct' -> ct = ct'.
Proof.
  intros X a k k' n n' p p' ad ad' ct ct' [LG LC] HL H H'. unfold alg_encrypt in *. destruct (alg_kind a) as [[]|]; try discriminate H.
  - apply bind_ok in H as (b & _ & H). apply bind_ok in H as (nb & _ & H). apply bind_ok in H as (d & HP & H).
    apply bind_ok in H' as (b' & _ & H'). apply bind_ok in H' as (nb' & _ & H'). apply bind_ok in H' as (d' & HP' & H').
    destruct p as [p|], p' as [p'|]; try contradiction; try discriminate HP. injection HP as <-. injection HP' as <-. exact (LG _ _ _ _ _ _ _ _ _ _ HL H H').
  - apply bind_ok in H as (b & _ & H). apply bind_ok in H as (nb & _ & H). apply bind_ok in H as (d & HP & H).
    apply bind_ok in H' as (b' & _ & H'). apply bind_ok in H' as (nb' & _ & H'). apply bind_ok in H' as (d' & HP' & H').
    destruct p as [p|], p' as [p'|]; try contradiction; try discriminate HP. injection HP as <-. injection HP' as <-. exact (LC _ _ _ _ _ _ _ _ _ _ _ HL H H').
Qed.

Lemma cbc_constant : forall X k k' bl bl', tags_hidden X -> bl <> [] -> bl' <> [] -> cbc_mac (x_aes X k) bl = cbc_mac (x_aes X k') bl'.
Proof.
  intros X k k' bl bl' [_ LA] H H'. destruct (exists_last H) as (l & x & ->). destruct (exists_last H') as (l' & x' & ->).
  unfold cbc_mac. rewrite !fold_left_app. cbn [fold_left]. apply LA.
Qed.

Lemma tag_same : forall X a k k' d d' t t', law_hmac_len X -> law_aes_len X -> tags_hidden X -> d <> [] -> d' <> [] ->
  alg_compute_tag X a k d = Ok t -> alg_compute_tag X a k' d' = Ok t' -> t = t'.
Proof.
  intros X a k k' d d' t t' LH LA LT HD HD' H H'. destruct (alg_kind a) as [ty|] eqn:EK; [|unfold alg_compute_tag in H; rewrite EK in H; discriminate H].
  destruct (kind_def _ _ EK) as (z & -> & HI).
  assert (HC : (exists h n, In (z, (h, n)) rfc_hmacs) \/ (exists n, In (z, n) rfc_aes_macs)).
  { unfold alg_compute_tag in H. rewrite EK in H. clear - HI H. unfold alg_defs in HI. cbn [In] in HI.
    repeat (destruct HI as [HI|HI]; [injection HI as <- <-; try discriminate H; first [left; eexists; eexists; cbn [rfc_hmacs In]; tauto|right; eexists; cbn [rfc_aes_macs In]; tauto]|]). destruct HI. }
  assert (HP : forall n (r r' : bytes), length t = n -> length t' = n -> t ++ r = t' ++ r' -> t = t').
  { intros n r r' E E' E''. apply (f_equal (firstn n)) in E''. rewrite !firstn_app, E, E', Nat.sub_diag, !firstn_O, !app_nil_r in E''. rewrite <- E in E'' at 1. rewrite <- E' in E'' at 1. rewrite !firstn_all in E''. exact E''. }
  destruct HC as [(h & n & HC)|(n & HC)].
  - destruct (hmac_tag _ _ _ _ _ _ _ HC LH H) as (b & r & _ & HL & HX). destruct (hmac_tag _ _ _ _ _ _ _ HC LH H') as (b' & r' & _ & HL' & HX').
    destruct LT as [LT _]. rewrite (LT h b b' d d'), HX' in HX. symmetry in HX. exact (HP _ _ _ HL HL' HX).
  - destruct (cbc_tag _ _ _ _ _ _ HC LA HD H) as (b & bl & r & _ & HB & HL & HX). destruct (cbc_tag _ _ _ _ _ _ HC LA HD' H') as (b' & bl' & r' & _ & HB' & HL' & HX').
    assert (HN : forall x l, x <> [] -> padded_blocks x l -> l <> []).
    { intros x l HE (_ & i & _ & E) ->. cbn [concat] in E. symmetry in E. apply app_eq_nil in E as [E _]. exact (HE E). }
    rewrite (cbc_constant X b b' bl bl' LT (HN _ _ HD HB) (HN _ _ HD' HB')), HX' in HX. symmetry in HX. exact (HP _ _ _ HL HL' HX).
Qed.

Lemma sign_same : forall X a k k' seed seed' d d' s s', signatures_hidden X -> same_group k k' ->
  alg_sign X seed a k d = Ok s -> alg_sign X seed' a k' d' = Ok s' -> s = s'.
Proof.
  intros X a k k' seed seed' d d' s s' (LE & LD & LR) [HC HN] H H'. unfold alg_sign in *. destruct (alg_kind a) as [[]|]; try discriminate H.
  - apply bind_ok in H as (q & HQ & H). apply bind_ok in H' as (q' & HQ' & H'). refine (LR _ _ _ _ _ _ _ _ _ _ _ H H').
    assert (G : forall kk qq, rsa_private_numbers kk = Ok qq -> attr_int kk PN = Ok (rsa_n (rsa_public qq))).
    { intros kk qq E. unfold rsa_private_numbers in E. apply bind_ok in E as (pub & EP & E). unfold rsa_public_numbers in EP. apply bind_ok in EP as (e & _ & EP). apply bind_ok in EP as (nn & EN & EP). injection EP as <-.
      repeat (apply bind_ok in E as (? & _ & E)). injection E as <-. exact EN. }
    apply G in HQ. apply G in HQ'. unfold attr_int in *. rewrite HN in HQ. rewrite HQ in HQ'. injection HQ' as E. exact E.
  - apply bind_ok in H as (q & HQ & H). discriminate H.
  - apply bind_ok in H as (q & HQ & H). apply bind_ok in H' as (q' & HQ' & H'). exact (LE _ _ _ _ _ _ _ _ H H').
  - apply bind_ok in H as (q & HQ & H). apply bind_ok in H' as (q' & HQ' & H'). unfold ed_curve in *. rewrite HC in HQ. rewrite HQ in HQ'. injection HQ' as <-.
    apply bind_ok in H as (x & _ & H). apply bind_ok in H' as (x' & _ & H'). exact (LD _ _ _ _ _ _ _ H H').
Qed.

Lemma wrap_same : forall X n n' a k k' (o o' : option bytes) w w', keys_hidden X -> 
  (forall h, alg_kind a = Some (AOaep h) -> same_group k k') ->
  match o, o' with Some p, Some p' => length p = length p' | None, None => True | _, _ => False end ->
  alg_key_wrap X n a k (vopt o) = Ok w -> alg_key_wrap X n' a k' (vopt o') = Ok w' -> w = w'.
Proof.
  intros X n n' a k k' o o' w w' [LW LO] HG HL H H'. destruct o as [d|], o' as [d'|]; try contradiction; [|exfalso; exact (wrap_some X n a k None w H eq_refl)].
  unfold alg_key_wrap in *. cbn [vopt as_bytes] in *. destruct (alg_kind a) as [[]|] eqn:EK; try discriminate H.
  - apply bind_ok in H as (q & HQ & H). apply bind_ok in H' as (q' & HQ' & H'). cbn [bind] in H, H'. destruct (HG _ eq_refl) as [_ HN].
    unfold rsa_public_numbers in *. apply bind_ok in HQ as (e & _ & HQ). apply bind_ok in HQ as (nn & EN & HQ). injection HQ as <-.
    apply bind_ok in HQ' as (e' & _ & HQ'). apply bind_ok in HQ' as (nn' & EN' & HQ'). injection HQ' as <-.
    unfold attr_int in EN, EN'. rewrite HN in EN. rewrite EN in EN'. injection EN' as EN'.
    refine (LO _ _ _ _ _ _ _ _ _ _ HL H H'). exact EN'.
  - apply bind_ok in H as (q & HQ & H). apply bind_ok in H' as (q' & HQ' & H'). cbn [bind] in H, H'. exact (LW _ _ _ _ _ _ HL H H').
Qed.

Lemma kw_same : forall X n n' c c' subs subs' w w', keys_hidden X -> same_shape c c' -> same_groups c c' ->
  kw_encrypt X n c subs = Ok w -> kw_encrypt X n' c' subs' = Ok w' -> w = w'.
Proof.
  intros X n n' c c' subs subs' w w' LK HS HG H H'. unfold kw_encrypt in *. rewrite <- (shape_attr _ _ Algorithm HS) in H'.
  destruct (get_attr c Algorithm) as [a|]; [|discriminate]. cbn [bind] in *.
  destruct (negb _); [discriminate|]. destruct (negb _) in H'; [discriminate|]. destruct (is_none a); [discriminate|].
  assert (HL : match payload c, payload c' with Some p, Some p' => length p = length p' | None, None => True | _, _ => False end) by apply HS.
  destruct (alg_in a aes_kw) as [[]|] eqn:EA; cbn [bind] in *; [| |discriminate].
  - apply bind_ok in H as (kb & _ & H). apply bind_ok in H' as (kb' & _ & H'). apply bind_ok in H as (kek & _ & H). apply bind_ok in H' as (kek' & _ & H').
    apply bind_ok in H as (? & _ & H). apply bind_ok in H' as (? & _ & H'). refine (wrap_same X n n' a _ _ (payload c) (payload c') _ _ LK _ HL H H').
    intros h EO. exfalso. apply oaep_kind in EO as (z & HZ & ->). cbn in HZ.
    repeat (destruct HZ as [<-|HZ]; [vm_compute in EA; discriminate EA|]). destruct HZ.
  - destruct (alg_in a oaep) as [[]|]; cbn [bind] in *; [|discriminate|discriminate].
    destruct (ckey c) as [k|] eqn:E1; [|discriminate]. destruct (ckey c') as [k'|] eqn:E2; [|discriminate].
    apply bind_ok in H as (? & _ & H). apply bind_ok in H' as (? & _ & H'). refine (wrap_same X n n' a _ _ (payload c) (payload c') _ _ LK _ HL H H').
    intros h _. exact (HG k k' E1 E2).
Qed.

Lemma kakw_same : forall X n n' c c' c1 c1' w w', keys_hidden X -> same_shape c c' -> ckey c <> None -> ckey c' <> None ->
  kakw_encrypt X n c = (c1, Ok w) -> kakw_encrypt X n' c' = (c1', Ok w') -> c1 = c /\ c1' = c' /\ w = w'.
Proof.
  intros X n n' c c' c1 c1' w w' LK HS HK HK' H H'.
  assert (E1 : c1 = c) by (destruct (kakw_state X n c c1 w H) as [[_ E]|[E _]]; [exact E|congruence]).
  assert (E2 : c1' = c') by (destruct (kakw_state X n' c' c1' w' H') as [[_ E]|[E _]]; [exact E|congruence]).
  subst c1 c1'. split; [reflexivity|]. split; [reflexivity|]. unfold kakw_encrypt in *. rewrite <- (shape_attr _ _ Algorithm HS) in H'.
  destruct (is_none _); [discriminate|]. destruct (is_none _) in H'; [discriminate|]. destruct (get_attr c Algorithm) as [a|] eqn:EA; [|discriminate].
  destruct (is_none a); [discriminate|].
  destruct (ckey c) as [k|]; [|congruence]. destruct (ckey c') as [k'|]; [|congruence].
  apply pair_equal_spec in H as [_ H]. apply pair_equal_spec in H' as [_ H']. cbn [bind] in H, H'. rewrite <- (shape_attr _ _ Algorithm HS) in H'. rewrite EA in H, H'. cbn [bind] in H, H'.
  apply bind_ok in H as (wf & HW & H). rewrite HW in H'. cbn [bind] in H'. apply bind_ok in H as (? & _ & H). apply bind_ok in H' as (? & _ & H').
  apply bind_ok in H as (? & _ & H). apply bind_ok in H' as (? & _ & H').
  refine (wrap_same X n n' wf _ _ (payload c) (payload c') _ _ LK _ _ H H'); [|apply HS].
  intros h EO. exfalso. apply oaep_kind in EO as (z & HZ & ->). exact (func_no_oaep _ _ HW z HZ eq_refl).
Qed.

Lemma finish_same : forall X id id' rc ctx ctx' subs subs' n n' c c' items items' s s' v v',
  (forall n n' s s' vs vs', rcpts_encode X n subs = (s, Ok vs) -> rcpts_encode X n' subs' = (s', Ok vs') -> Forall2 same vs vs') ->
  length subs = length subs' -> Forall2 same items items' ->
  finish X id rc ctx subs n c items = (s, Ok v) -> finish X id' rc ctx' subs' n' c' items' = (s', Ok v') -> same v v'.
Proof.
  intros X id id' rc ctx ctx' subs subs' n n' c c' items items' s s' v v' HA HL HI H H'. unfold finish in *.
  destruct subs as [|x subs], subs' as [|x' subs']; try discriminate HL.
  - injection H as _ <-. injection H' as _ <-. apply S_list. exact HI.
  - destruct (rcpts_encode X n (x :: subs)) as [[n1 s1] [vs|]] eqn:E1; [|discriminate].
    destruct (rcpts_encode X n' (x' :: subs')) as [[n1' s1'] [vs'|]] eqn:E2; [|discriminate].
    injection H as _ <-. injection H' as _ <-. apply S_list. apply Forall2_app; [exact HI|]. constructor; [|constructor]. apply S_list.
    exact (HA _ _ _ _ _ _ E1 E2).
Qed.

Lemma rcpts_same : forall X, keys_hidden X -> forall k l l', list_sum (map height l) < k -> Forall2 same_recipient l l' ->
  forall n n' s s' vs vs', rcpts_encode X n l = (s, Ok vs) -> rcpts_encode X n' l' = (s', Ok vs') -> Forall2 same vs vs'.
Proof.
  intros X LK. induction k as [|k IHk]; [lia|]. intros l l' HK HF. revert HK. induction HF as [|r r' l l' HR HF IHl]; intros HK n n' s s' vs vs' H H'.
  - injection H as _ <-. injection H' as _ <-. constructor.
  - cbn [map list_sum fold_right] in HK. change (fold_right Nat.add 0 (map height l)) with (list_sum (map height l)) in HK.
    cbn [rcpts_encode] in H, H'. destruct (rcpt_encode X n r) as [[n1 r1] [v|]] eqn:E1; [|discriminate].
    destruct (rcpts_encode X n1 l) as [[n2 l2] [us|]] eqn:E2; [|discriminate]. destruct (rcpt_encode X n' r') as [[n1' r1'] [v'|]] eqn:E1'; [|discriminate].
    destruct (rcpts_encode X n1' l') as [[n2' l2'] [us'|]] eqn:E2'; [|discriminate]. injection H as _ <-. injection H' as _ <-.
    constructor; [|refine (IHl _ _ _ _ _ _ _ E2 E2'); lia]. clear E2 E2' IHl.
    destruct HR as [id id' rc c c' ctx ctx' subs subs' HS HG HO HSub]. cbn [height] in HK.
    assert (HA : forall n n' s s' vs vs', rcpts_encode X n subs = (s, Ok vs) -> rcpts_encode X n' subs' = (s', Ok vs') -> Forall2 same vs vs').
    { refine (IHk subs subs' _ HSub). lia. }
    assert (HL : length subs = length subs') by (clear - HSub; induction HSub; cbn [length]; congruence).
    assert (HU : uhdr c = uhdr c') by apply HS.
    destruct rc.
    + cbn [rcpt_encode] in E1, E1'. injection E1 as _ _ E1. injection E1' as _ _ E1'.
      apply bind_ok in E1 as (a & _ & E1). apply bind_ok in E1' as (a' & _ & E1').
      destruct (_ && _); [discriminate|]. destruct (_ && _) in E1'; [discriminate|]. destruct (is_none a); [discriminate|]. destruct (is_none a'); [discriminate|].
      destruct (negb _); [discriminate|]. destruct (negb _) in E1'; [discriminate|].
      apply bind_ok in E1 as (p & HP & E1). apply bind_ok in E1' as (p' & HP' & E1'). injection E1 as <-. injection E1' as <-.
      rewrite <- (shape_protected _ _ _ _ HS HP HP'), HU. apply S_refl.
    + rewrite encode_kw in E1, E1'. destruct (bind (phdr_encoded c) _) as [[p w]|] eqn:EB; [|discriminate].
      destruct (bind (phdr_encoded c') _) as [[p' w']|] eqn:EB'; [|discriminate].
      apply bind_ok in EB as (p0 & HP & EB). apply bind_ok in EB as (w0 & HW & EB). injection EB as -> ->.
      apply bind_ok in EB' as (p0' & HP' & EB'). apply bind_ok in EB' as (w0' & HW' & EB'). injection EB' as -> ->.
      refine (finish_same _ _ _ _ _ _ _ _ _ _ _ _ _ _ _ _ _ _ HA HL _ E1 E1').
      rewrite <- (shape_protected _ _ _ _ HS HP HP'), HU. repeat (constructor; try apply S_refl). apply S_bytes. exact (kw_same _ _ _ _ _ _ _ _ _ LK HS HG HW HW').
    + destruct (HO (or_introl eq_refl)) as [K1 K2]. cbn [rcpt_encode] in E1, E1'. destruct (bind (get_attr c Algorithm) _) as [[a pk]|]; [|discriminate].
      destruct (bind (get_attr c' Algorithm) _) as [[a' pk']|]; [|discriminate].
      destruct (ckey c) as [kk|]; [|congruence]. destruct (ckey c') as [kk'|]; [|congruence]. cbn [bind] in E1, E1'.
      match type of E1 with match ?e with Ok _ => _ | Err _ => _ end = _ => destruct e as [p|] eqn:EP; [|discriminate] end.
      match type of E1' with match ?e with Ok _ => _ | Err _ => _ end = _ => destruct e as [p'|] eqn:EP'; [|discriminate] end.
      destruct (Nat.ltb _ _); [discriminate|]. destruct (Nat.ltb _ _) in EP'; [discriminate|].
      apply bind_ok in EP as (e & _ & EP). apply bind_ok in EP' as (e' & _ & EP'). apply bind_ok in EP as ([] & _ & EP); [discriminate|].
      apply bind_ok in EP' as ([] & _ & EP'); [discriminate|].
      change (finish X id RAgree ctx subs (N.succ n) c [VBytes p; VDict (uhdr c); VBytes []] = (n1, r1, Ok v)) in E1.
      change (finish X id' RAgree ctx' subs' (N.succ n') c' [VBytes p'; VDict (uhdr c'); VBytes []] = (n1', r1', Ok v')) in E1'.
      refine (finish_same _ _ _ _ _ _ _ _ _ _ _ _ _ _ _ _ _ _ HA HL _ E1 E1').
      rewrite <- (shape_protected _ _ _ _ HS EP EP'), HU. repeat (constructor; try apply S_refl).
    + destruct (HO (or_intror eq_refl)) as [K1 K2]. rewrite encode_kakw in E1, E1'. destruct (bind (phdr_encoded c) _) as [p|] eqn:EB; [|discriminate].
      destruct (bind (phdr_encoded c') _) as [p'|] eqn:EB'; [|discriminate].
      apply bind_ok in EB as (p0 & HP & EB). apply bind_ok in EB as (? & _ & EB). apply bind_ok in EB as (? & _ & EB). injection EB as ->.
      apply bind_ok in EB' as (p0' & HP' & EB'). apply bind_ok in EB' as (? & _ & EB'). apply bind_ok in EB' as (? & _ & EB'). injection EB' as ->.
      destruct (kakw_encrypt X n c) as [c1 [w|]] eqn:EK; [|discriminate]. destruct (kakw_encrypt X n' c') as [c1' [w'|]] eqn:EK'; [|discriminate].
      destruct (kakw_same X n n' c c' c1 c1' w w' LK HS K1 K2 EK EK') as (-> & -> & HW).
      refine (finish_same _ _ _ _ _ _ _ _ _ _ _ _ _ _ _ _ _ _ HA HL _ E1 E1').
      rewrite <- (shape_protected _ _ _ _ HS HP HP'), HU. repeat (constructor; try apply S_refl). apply S_bytes. exact HW.
Qed.

Lemma cipher_same : forall X ctx c c' k k' b b', content_hidden X -> same_shape c c' ->
  enc_encrypt X ctx (with_key c k) = Ok b -> enc_encrypt X ctx (with_key c' k') = Ok b' -> b = b'.
Proof.
  intros X ctx c c' k k' b b' LS HS H H'. unfold enc_encrypt in *. cbn [ckey with_key] in *.
  change (get_attr (with_key c k) Algorithm) with (get_attr c Algorithm) in H. change (get_attr (with_key c' k') Algorithm) with (get_attr c' Algorithm) in H'.
  rewrite <- (shape_attr _ _ Algorithm HS) in H'.
  destruct k as [k|]; [|discriminate]. destruct k' as [k'|]; [|discriminate]. destruct (get_attr c Algorithm) as [a|]; [|discriminate]. cbn [bind] in H, H'.
  apply bind_ok in H as (nn & _ & H). apply bind_ok in H' as (nn' & _ & H'). apply bind_ok in H as (? & _ & H). apply bind_ok in H' as (? & _ & H').
  apply bind_ok in H as (? & _ & H). apply bind_ok in H' as (? & _ & H'). apply bind_ok in H as (ad & _ & H). apply bind_ok in H' as (ad' & _ & H').
  refine (seal_same X a k k' nn nn' (payload c) (payload c') ad ad' b b' LS _ H H'). destruct HS as (_ & _ & _ & _ & HL). exact HL.
Qed.

Lemma compute_same : forall X ctx c c' k k' b b', law_hmac_len X -> law_aes_len X -> tags_hidden X -> same_shape c c' ->
  mac_compute X ctx (with_key c k) = Ok b -> mac_compute X ctx (with_key c' k') = Ok b' -> b = b'.
Proof.
  intros X ctx c c' k k' b b' LH LA LT HS H H'. unfold mac_compute in *. cbn [ckey with_key] in *.
  change (get_attr (with_key c k) Algorithm) with (get_attr c Algorithm) in H. change (get_attr (with_key c' k') Algorithm) with (get_attr c' Algorithm) in H'.
  rewrite <- (shape_attr _ _ Algorithm HS) in H'. destruct (get_attr c Algorithm) as [a|]; [|discriminate]. cbn [bind] in H, H'.
  destruct k as [k|]; [|discriminate]. destruct k' as [k'|]; [|discriminate].
  apply bind_ok in H as (? & _ & H). apply bind_ok in H' as (? & _ & H'). apply bind_ok in H as (? & _ & H). apply bind_ok in H' as (? & _ & H').
  apply bind_ok in H as (d & HD & H). apply bind_ok in H' as (d' & HD' & H').
  exact (tag_same X a _ _ _ _ _ _ LH LA LT (mac_structure_nonempty _ _ _ HD) (mac_structure_nonempty _ _ _ HD') H H').
Qed.

(** ** C130. Encrypted messages: two messages with the same headers, algorithms and plaintext
    length are the same bytes, whatever the plaintexts, the external data, the keys, the content
    keys and the random numbers are. *)

Theorem C130_enc0 : forall X c c' tag b b', content_hidden X -> same_shape c c' ->
  enc0_encode X c tag true = Ok b -> enc0_encode X c' tag true = Ok b' -> b = b'.
Proof.
  intros X c c' tag b b' LS HS H H'. unfold enc0_encode in *. apply bind_ok in H as (p & HP & H). apply bind_ok in H' as (p' & HP' & H').
  apply bind_ok in H as (v & HV & H). apply bind_ok in H' as (v' & HV' & H'). apply bind_ok in HV as (e & HE & HV). apply bind_ok in HV' as (e' & HE' & HV'). injection HV as <-. injection HV' as <-.
  assert (E : e = e').
  { refine (cipher_same X "Encrypt0" c c' (ckey c) (ckey c') e e' LS HS _ _); [destruct c; exact HE|destruct c'; exact HE']. }
  rewrite <- (shape_protected _ _ _ _ HS HP HP'), <- E in H'. destruct HS as (_ & _ & HU & HT & _). rewrite <- HU in H'.
  refine (emit_same _ _ _ _ _ _ _ _ HT _ H H'). repeat (constructor; [reflexivity|]). constructor.
Qed.
Print Assumptions C130_enc0.

Theorem C130_encrypt : forall X n n' m m' tag s s' b b', law_urandom_len X -> content_hidden X -> keys_hidden X ->
  same_shape (e_core m) (e_core m') -> Forall2 same_recipient (e_rcpts m) (e_rcpts m') ->
  encm_encode X n m tag true = (s, Ok b) -> encm_encode X n' m' tag true = (s', Ok b') -> b = b'.
Proof.
  intros X n n' m m' tag s s' b b' LU LS LK HS HF H H'. unfold encm_encode in *.
  destruct (phdr_encoded (e_core m)) as [p|] eqn:EP; [|discriminate]. destruct (phdr_encoded (e_core m')) as [p'|] eqn:EP'; [|discriminate].
  rewrite <- (shape_protected _ _ _ _ HS EP EP') in H'. clear EP EP' p'.
  assert (HB : exists n1 n1' m1 m1' v v', Forall2 same_recipient (e_rcpts m1) (e_rcpts m1') /\ same_shape (e_core m1) (e_core m1') /\ same v v' /\
    match e_rcpts m1 with
    | [] => ((n1, m1), emit (e_core m1) 96 tag [VBytes p; VDict (uhdr (e_core m1)); v])
    | rs => match get_attr (e_core m1) Algorithm with
      | Err e => ((n1, m1), Err e)
      | Ok _ => match rcpts_encode X n1 rs with
        | ((n2, rs'), Err e) => ((n2, EncMsg (e_core m1) rs'), Err e)
        | ((n2, rs'), Ok vs) => ((n2, EncMsg (e_core m1) rs'), emit (e_core m1) 96 tag ([VBytes p; VDict (uhdr (e_core m1)); v] ++ [VList vs]))
        end end end = (s, Ok b) /\
    match e_rcpts m1' with
    | [] => ((n1', m1'), emit (e_core m1') 96 tag [VBytes p; VDict (uhdr (e_core m1')); v'])
    | rs => match get_attr (e_core m1') Algorithm with
      | Err e => ((n1', m1'), Err e)
      | Ok _ => match rcpts_encode X n1' rs with
        | ((n2, rs'), Err e) => ((n2, EncMsg (e_core m1') rs'), Err e)
        | ((n2, rs'), Ok vs) => ((n2, EncMsg (e_core m1') rs'), emit (e_core m1') 96 tag ([VBytes p; VDict (uhdr (e_core m1')); v'] ++ [VList vs]))
        end end end = (s', Ok b')).
  { destruct (encm_encrypt X n m) as [[n1 m1] [x|]] eqn:EE; cbn [bind] in H; [|discriminate].
      destruct (encm_encrypt X n' m') as [[n1' m1'] [x'|]] eqn:EE'; cbn [bind] in H'; [|discriminate].
      exists n1, n1', m1, m1', (VBytes x), (VBytes x'). pose proof (encm_recipients_long X n n' m m' _ _ _ _ LU HS HF EE EE') as HF1. split; [exact HF1|].
      apply encm_encrypt_out in EE as (E1 & k & E2). apply encm_encrypt_out in EE' as (E1' & k' & E2'). rewrite E2 in E1. rewrite E2' in E1'.
      split; [rewrite E2, E2'; exact HS|]. split; [apply S_bytes; exact (cipher_same X _ _ _ _ _ _ _ LS HS E1 E1')|]. split; [exact H|exact H']. }
  clear HS HF H H'. destruct HB as (n1 & n1' & m1 & m1' & v & v' & HF & HS & HV & H & H').
  assert (HI : Forall2 same [VBytes p; VDict (uhdr (e_core m1)); v] [VBytes p; VDict (uhdr (e_core m1')); v']).
  { destruct HS as (_ & _ & HU & _). rewrite HU. repeat (constructor; try apply S_refl). exact HV. }
  assert (HT : tstr (e_core m1) = tstr (e_core m1')) by apply HS.
  destruct (e_rcpts m1) as [|r rs]; inversion HF as [|? r' ? rs' HR HRs]; subst.
  - rewrite <- H0 in H'. apply pair_equal_spec in H as [_ H]. apply pair_equal_spec in H' as [_ H']. exact (emit_same _ _ _ _ _ _ _ _ HT HI H H').
  - match goal with E : r' :: rs' = e_rcpts m1' |- _ => rewrite <- E in H', HF end.
    destruct (get_attr (e_core m1) Algorithm); [|discriminate]. destruct (get_attr (e_core m1') Algorithm); [|discriminate].
    destruct (rcpts_encode X n1 (r :: rs)) as [[n2 l2] [vs|]] eqn:ER; [|discriminate]. destruct (rcpts_encode X n1' (r' :: rs')) as [[n2' l2'] [vs'|]] eqn:ER'; [|discriminate].
    apply pair_equal_spec in H as [_ H]. apply pair_equal_spec in H' as [_ H']. refine (emit_same _ _ _ _ _ _ _ _ HT _ H H').
    apply Forall2_app; [exact HI|]. constructor; [|constructor]. apply S_list. exact (rcpts_same X LK _ _ _ (Nat.lt_succ_diag_r _) HF _ _ _ _ _ _ ER ER').
Qed.
Print Assumptions C130_encrypt.

(** ** Authenticated and signed messages show the payload, which they carry, and neither the
    external data nor anything of the keys. *)

Theorem C130_mac0 : forall X m m' tag b b', law_hmac_len X -> law_aes_len X -> tags_hidden X ->
  same_shape (m0_core m) (m0_core m') -> payload (m0_core m) = payload (m0_core m') ->
  snd (mac0_encode X m tag true) = Ok b -> snd (mac0_encode X m' tag true) = Ok b' -> b = b'.
Proof.
  intros X [c t] [c' t'] tag b b' LH LA LT HS HPl H H'. unfold mac0_encode, mac0_compute_tag in *. cbn [m0_core] in *.
  destruct (phdr_encoded c) as [p|] eqn:HP; [|discriminate]. destruct (phdr_encoded c') as [p'|] eqn:HP'; [|discriminate].
  destruct (mac_compute X "MAC0" c) as [e|] eqn:HE; [|discriminate]. destruct (mac_compute X "MAC0" c') as [e'|] eqn:HE'; [|discriminate]. cbn [snd] in H, H'.
  assert (E : e = e').
  { refine (compute_same X "MAC0" c c' (ckey c) (ckey c') e e' LH LA LT HS _ _); [destruct c; exact HE|destruct c'; exact HE']. }
  rewrite <- (shape_protected _ _ _ _ HS HP HP'), <- E, <- HPl in H'. destruct HS as (_ & _ & HU & HT & _). rewrite <- HU in H'.
  refine (emit_same _ _ _ _ _ _ _ _ HT _ H H'). repeat (constructor; [reflexivity|]). constructor.
Qed.
Print Assumptions C130_mac0.

Theorem C130_mac : forall X n n' m m' rs rs' tag mac s s' b b', law_hmac_len X -> law_aes_len X -> tags_hidden X -> keys_hidden X ->
  same_shape (mm_core m) (mm_core m') -> payload (mm_core m) = payload (mm_core m') -> mm_rcpts m = Some rs -> mm_rcpts m' = Some rs' -> Forall2 same_recipient rs rs' ->
  macm_encode X n m tag mac = (s, Ok b) -> macm_encode X n' m' tag mac = (s', Ok b') -> b = b'.
Proof.
  intros X n n' m m' rs rs' tag mac s s' b b' LH LA LT LK HS HPl HR HR' HF H H'. unfold macm_encode in *.
  destruct (phdr_encoded (mm_core m)) as [p|] eqn:EP; [|discriminate]. destruct (phdr_encoded (mm_core m')) as [p'|] eqn:EP'; [|discriminate].
  rewrite <- (shape_protected _ _ _ _ HS EP EP') in H'. clear EP EP' p'.
  assert (HB : exists n1 n1' m1 m1' tl tl', mm_rcpts m1 = Some rs /\ mm_rcpts m1' = Some rs' /\ same_shape (mm_core m1) (mm_core m1') /\ payload (mm_core m1) = payload (mm_core m1') /\ Forall2 same tl tl' /\
    match mm_rcpts m1 with
    | None => ((n1, m1), Err TypeError)
    | Some [] => ((n1, m1), emit (mm_core m1) 97 tag ([VBytes p; VDict (uhdr (mm_core m1)); vopt (payload (mm_core m1))] ++ tl))
    | Some rs => match get_attr (mm_core m1) Algorithm with
      | Err e => ((n1, m1), Err e)
      | Ok _ => match rcpts_encode X n1 rs with
        | ((n2, rs'), Err e) => ((n2, MacMsg (mm_core m1) (mm_tag m1) (Some rs')), Err e)
        | ((n2, rs'), Ok vs) => ((n2, MacMsg (mm_core m1) (mm_tag m1) (Some rs')), emit (mm_core m1) 97 tag (([VBytes p; VDict (uhdr (mm_core m1)); vopt (payload (mm_core m1))] ++ tl) ++ [VList vs]))
        end end end = (s, Ok b) /\
    match mm_rcpts m1' with
    | None => ((n1', m1'), Err TypeError)
    | Some [] => ((n1', m1'), emit (mm_core m1') 97 tag ([VBytes p; VDict (uhdr (mm_core m1')); vopt (payload (mm_core m1'))] ++ tl'))
    | Some rs => match get_attr (mm_core m1') Algorithm with
      | Err e => ((n1', m1'), Err e)
      | Ok _ => match rcpts_encode X n1' rs with
        | ((n2, rs'), Err e) => ((n2, MacMsg (mm_core m1') (mm_tag m1') (Some rs')), Err e)
        | ((n2, rs'), Ok vs) => ((n2, MacMsg (mm_core m1') (mm_tag m1') (Some rs')), emit (mm_core m1') 97 tag (([VBytes p; VDict (uhdr (mm_core m1')); vopt (payload (mm_core m1'))] ++ tl') ++ [VList vs]))
        end end end = (s', Ok b')).
  { destruct mac.
    - destruct (macm_compute_tag X n m) as [[n1 m1] [x|]] eqn:EE; cbn [bind] in H; [|discriminate].
      destruct (macm_compute_tag X n' m') as [[n1' m1'] [x'|]] eqn:EE'; cbn [bind] in H'; [|discriminate].
      exists n1, n1', m1, m1', [VBytes x], [VBytes x'].
      apply macm_compute_out in EE as (E1 & (k & E2) & _ & E3). apply macm_compute_out in EE' as (E1' & (k' & E2') & _ & E3'). rewrite E2 in E1. rewrite E2' in E1'.
      split; [congruence|]. split; [congruence|]. split; [rewrite E2, E2'; exact HS|]. split; [rewrite E2, E2'; exact HPl|]. split; [|split; [exact H|exact H']].
      constructor; [apply S_bytes; exact (compute_same X _ _ _ _ _ _ _ LH LA LT HS E1 E1')|constructor].
    - exists n, n', m, m', [], []. split; [exact HR|]. split; [exact HR'|]. split; [exact HS|]. split; [exact HPl|]. split; [constructor|]. split; [exact H|exact H']. }
  clear HS HPl HR HR' H H'. destruct HB as (n1 & n1' & m1 & m1' & tl & tl' & HR & HR' & HS & HPl & HTl & H & H'). rewrite HR in H. rewrite HR' in H'.
  assert (HI : Forall2 same ([VBytes p; VDict (uhdr (mm_core m1)); vopt (payload (mm_core m1))] ++ tl) ([VBytes p; VDict (uhdr (mm_core m1')); vopt (payload (mm_core m1'))] ++ tl')).
  { apply Forall2_app; [|exact HTl]. destruct HS as (_ & _ & HU & _). rewrite HU, HPl. repeat (constructor; try apply S_refl). }
  assert (HT : tstr (mm_core m1) = tstr (mm_core m1')) by apply HS.
  inversion HF as [|r r' rs0 rs0' HR0 HRs]; subst.
  - apply pair_equal_spec in H as [_ H]. apply pair_equal_spec in H' as [_ H']. exact (emit_same _ _ _ _ _ _ _ _ HT HI H H').
  - destruct (get_attr (mm_core m1) Algorithm); [|discriminate]. destruct (get_attr (mm_core m1') Algorithm); [|discriminate].
    destruct (rcpts_encode X n1 (r :: rs0)) as [[n2 l2] [vs|]] eqn:ER; [|discriminate]. destruct (rcpts_encode X n1' (r' :: rs0')) as [[n2' l2'] [vs'|]] eqn:ER'; [|discriminate].
    apply pair_equal_spec in H as [_ H]. apply pair_equal_spec in H' as [_ H']. refine (emit_same _ _ _ _ _ _ _ _ HT _ H H').
    apply Forall2_app; [exact HI|]. constructor; [|constructor]. apply S_list. exact (rcpts_same X LK _ _ _ (Nat.lt_succ_diag_r _) HF _ _ _ _ _ _ ER ER').
Qed.
Print Assumptions C130_mac.

Lemma signature_same : forall X n n' c c' t t' s s', signatures_hidden X -> same_shape c c' -> same_groups c c' ->
  compute_signature X n c t = Ok s -> compute_signature X n' c' t' = Ok s' -> s = s'.
Proof.
  intros X n n' c c' t t' s s' LS HS HG HC HC'. unfold compute_signature in HC, HC'. apply bind_ok in HC as (a & HA & HC). apply bind_ok in HC' as (a' & HA' & HC').
  rewrite <- (shape_attr _ _ _ HS), HA in HA'. injection HA' as <-. apply bind_ok in HC as (k & HK & HC). apply bind_ok in HC' as (k' & HK' & HC').
  apply key_verification_key in HK. apply key_verification_key in HK'. apply bind_ok in HC as (? & _ & HC). apply bind_ok in HC' as (? & _ & HC'). apply bind_ok in HC as (? & _ & HC). apply bind_ok in HC' as (? & _ & HC').
  exact (sign_same _ _ _ _ _ _ _ _ _ _ LS (HG _ _ HK HK') HC HC').
Qed.

Theorem C130_sign1 : forall X n n' m m' tag d d' b b', signatures_hidden X ->
  same_shape (s1_core m) (s1_core m') -> same_groups (s1_core m) (s1_core m') -> payload (s1_core m) = payload (s1_core m') ->
  sign1_encode X n m tag true d = Ok b -> sign1_encode X n' m' tag true d' = Ok b' -> b = b'.
Proof.
  intros X n n' [c t] [c' t'] tag d d' b b' LS HS HG HPl H H'. unfold sign1_encode in *. cbn [s1_core] in *.
  apply bind_ok in H as (p & HP & H). apply bind_ok in H' as (p' & HP' & H'). apply bind_ok in H as (v & HV & H). apply bind_ok in H' as (v' & HV' & H').
  apply bind_ok in HV as (e & HE & HV). apply bind_ok in HV' as (e' & HE' & HV'). injection HV as <-. injection HV' as <-.
  rewrite <- (shape_protected _ _ _ _ HS HP HP'), <- (signature_same _ _ _ _ _ _ _ _ _ LS HS HG HE HE'), <- HPl in H'. destruct HS as (_ & _ & HU & HT & _). rewrite <- HU in H'.
  refine (emit_same _ _ _ _ _ _ _ _ HT _ H H'). repeat (constructor; [reflexivity|]). constructor.
Qed.
Print Assumptions C130_sign1.

Lemma signers_same : forall X l l', signatures_hidden X -> Forall2 (fun s s' => same_shape s s' /\ same_groups s s') l l' ->
  forall n n' c c' d d' vs vs', signers_encode X n c l d = Ok vs -> signers_encode X n' c' l' d' = Ok vs' -> vs = vs'.
Proof.
  intros X l l' LS HF. induction HF as [|s s' l l' [HS HG] HF IH]; intros n n' c c' d d' vs vs' H H'; cbn [signers_encode] in H, H'; [congruence|].
  apply bind_ok in H as (v & HV & H). apply bind_ok in H' as (v' & HV' & H'). apply bind_ok in H as (us & HU & H). apply bind_ok in H' as (us' & HU' & H').
  injection H as <-. injection H' as <-. f_equal; [|exact (IH _ _ _ _ _ _ _ _ HU HU')].
  unfold signer_encode in *. apply bind_ok in HV as (p & HP & HV). apply bind_ok in HV' as (p' & HP' & HV'). apply bind_ok in HV as (e & HE & HV). apply bind_ok in HV' as (e' & HE' & HV').
  injection HV as <-. injection HV' as <-. rewrite <- (shape_protected _ _ _ _ HS HP HP'), <- (signature_same _ _ _ _ _ _ _ _ _ LS HS HG HE HE').
  destruct HS as (_ & _ & E & _). rewrite <- E. reflexivity.
Qed.

Theorem C130_sign : forall X n n' m m' tag d d' b b', signatures_hidden X ->
  same_shape (sm_core m) (sm_core m') -> payload (sm_core m) = payload (sm_core m') ->
  Forall2 (fun s s' => same_shape s s' /\ same_groups s s') (sm_signers m) (sm_signers m') ->
  sign_encode X n m tag d = Ok b -> sign_encode X n' m' tag d' = Ok b' -> b = b'.
Proof.
  intros X n n' [c l] [c' l'] tag d d' b b' LS HS HPl HF H H'. unfold sign_encode in *. cbn [sm_core sm_signers] in *.
  apply bind_ok in H as (p & HP & H). apply bind_ok in H' as (p' & HP' & H'). rewrite <- (shape_protected _ _ _ _ HS HP HP'), <- HPl in H'.
  pose proof HS as (_ & _ & HU & HT & _). rewrite <- HU in H'.
  apply bind_ok in H as (v & HV & H). apply bind_ok in H' as (v' & HV' & H'). assert (E : v = v').
  { pose proof (signers_same X l l' LS HF) as HA. destruct HF as [|s s' l l' HSg HF]; [congruence|].
    apply bind_ok in HV as (vs & HV & E). apply bind_ok in HV' as (vs' & HV' & E'). injection E as <-. injection E' as <-. rewrite (HA _ _ _ _ _ _ _ _ HV HV'). reflexivity. }
  subst v'. refine (emit_same _ _ _ _ _ _ _ _ HT _ H H'). clear. induction v; constructor; [reflexivity|assumption].
Qed.
Print Assumptions C130_sign.

(** ** Primitives that keep the laws *)

Definition opaque : crypto := {|
  x_hash := x_hash toy;
  x_hmac := fun h _ _ => repeat x00 (hash_len h);
  x_aes := fun _ _ => repeat x00 16;
  x_gcm_enc := fun _ _ p _ => Ok (repeat x00 (length p + 16));
  x_gcm_dec := x_gcm_dec toy;
  x_ccm_enc := fun t _ _ p _ => Ok (repeat x00 (length p + t));
  x_ccm_dec := x_ccm_dec toy;
  x_wrap := fun _ d => Ok (repeat x00 (length d + 8));
  x_unwrap := x_unwrap toy;
  x_rsa_sign := fun _ _ q _ _ => Ok (min_be (rsa_n (rsa_public q)));
  x_rsa_verify := x_rsa_verify toy;
  x_oaep_enc := fun _ p _ _ => Ok (min_be (rsa_n p));
  x_oaep_dec := x_oaep_dec toy;
  x_ecdsa_sign := fun _ _ _ _ => Ok (repeat x00 64);
  x_ecdsa_verify := x_ecdsa_verify toy;
  x_ed_sign := fun _ _ _ => Ok (repeat x00 64);
  x_ed_verify := x_ed_verify toy;
  x_ec_pub := x_ec_pub toy;
  x_ec_point := x_ec_point toy;
  x_ec_gen := x_ec_gen toy;
  x_ecdh := x_ecdh toy;
  x_hkdf := x_hkdf toy;
  x_okp_gen := x_okp_gen toy;
  x_okp_pub := x_okp_pub toy;
  x_rsa_gen := x_rsa_gen toy;
  x_urandom := x_urandom toy
|}.
Lemma opaque_content : content_hidden opaque.
Proof. split; intros; cbn [x_gcm_enc x_ccm_enc opaque] in *; congruence. Qed.
Lemma opaque_keys : keys_hidden opaque.
Proof. split; intros; cbn [x_wrap x_oaep_enc opaque] in *; congruence. Qed.
Lemma opaque_tags : tags_hidden opaque.
Proof. split; reflexivity. Qed.
Lemma opaque_signatures : signatures_hidden opaque.
Proof. split; [|split]; intros; cbn [x_ecdsa_sign x_ed_sign x_rsa_sign opaque] in *; congruence. Qed.
Lemma opaque_lengths : law_hmac_len opaque /\ law_aes_len opaque /\ law_urandom_len opaque.
Proof. split; [|split]; [intros h k d; apply repeat_length|intros k b _; apply repeat_length|exact toy_urandom]. Qed.

(** ** Examples *)

(** Other plaintexts, other keys, other external data and other random numbers. *)
Example C130_enc0_example : let c := ex_len (alg 1) in let c' := ex_len_other (alg 1) (bs "seven") in
  same_shape c c' /\ payload c <> payload c' /\ ckey c <> ckey c' /\ exists b, enc0_encode opaque c true true = Ok b /\ enc0_encode opaque c' true true = Ok b.
Proof.
  cbv zeta. split; [vm_compute; repeat split; reflexivity|]. split; [vm_compute; discriminate|]. split; [vm_compute; discriminate|].
  eexists. split; vm_compute; reflexivity.
Qed.

Example C130_encrypt_example : let m := ex_long (bs "hello") ex_sym [] in let m' := ex_long (bs "seven") ex_len_key [] in
  same_shape (e_core m) (e_core m') /\ Forall2 same_recipient (e_rcpts m) (e_rcpts m') /\
  exists b, snd (encm_encode opaque 0 m true true) = Ok b /\ snd (encm_encode opaque 9 m' true true) = Ok b.
Proof.
  cbv zeta. split; [exact (proj1 C125_encrypt_example)|]. split; [exact (proj1 (proj2 C125_encrypt_example))|].
  eexists. split; vm_compute; reflexivity.
Qed.

Example C130_mac_example : let m := ex_long_mac (bs "hello") ex_sym in let m' := ex_long_mac (bs "hello") ex_len_key in
  same_shape (mm_core m) (mm_core m') /\ exists b, snd (macm_encode opaque 0 m true true) = Ok b /\ snd (macm_encode opaque 9 m' true true) = Ok b.
Proof. cbv zeta. split; [repeat split; reflexivity|]. eexists. split; vm_compute; reflexivity. Qed.

Example C130_sign_example : let c := ex_signer ex_ec2 (bs "hello") in let c' := ex_signer ex_len_ec2 (bs "hello") in
  same_shape c c' /\ ckey c <> ckey c' /\
  (exists b, sign1_encode opaque 0 (Sign1 c (VBytes [])) true true VNone = Ok b /\ sign1_encode opaque 5 (Sign1 c' (VBytes [])) true true VNone = Ok b) /\
  exists b, sign_encode opaque 0 (SignMsg c [c; c]) true VNone = Ok b /\ sign_encode opaque 5 (SignMsg c' [c'; c']) true VNone = Ok b.
Proof.
  cbv zeta. split; [vm_compute; repeat split; reflexivity|]. split; [vm_compute; discriminate|]. split; eexists; (split; [vm_compute; reflexivity|vm_compute; reflexivity]).
Qed.
