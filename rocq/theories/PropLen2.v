(** C125 for messages with recipients. *)
From Coq Require Import NArith ZArith Bool String Lia.
From Coq Require Import Init.Byte List.
From Verif Require Import Bytes Value Cbor Registry Crypto Keys Algorithms Headers Messages Recipients Toy SpecCrypto SpecAlg SpecIana SpecRfc SpecStruct SpecMsg SpecWire SpecLen SpecLen2.
From Verif Require Import BytesProofs ValueProofs StructProofs AlgProofs MiscProofs LayoutProofs WireProofs RcptProofs RcptTrip2 AgainProofs AgainProofs2 AcceptProofs PropWire PropHdr PropMsg PropRcpt PropRcptTrip PropAccept PropLen.
Import ListNotations.
Local Open Scope result_scope.
Local Open Scope list_scope.

(** ** Values that are as long *)

Inductive as_long : pyval -> pyval -> Prop :=
| AL_refl v : as_long v v
| AL_bytes b b' : length b = length b' -> as_long (VBytes b) (VBytes b')
| AL_list l l' : Forall2 as_long l l' -> as_long (VList l) (VList l').

Fixpoint vsize (v : pyval) : nat := match v with VList l => S (list_sum (map vsize l)) | _ => 1 end.

Lemma as_long_wire : forall names k v v' x x', vsize v < k -> as_long v v' -> on_wire names v x -> on_wire names v' x' -> blen x = blen x'.
Proof.
  intros names. induction k as [|k IH]; [lia|]. intros v v' x x' HK H HX HX'. destruct H as [v|b b' H|l l' H].
  - unfold on_wire in *. rewrite HX in HX'. injection HX' as <-. reflexivity.
  - apply wire_bytes in HX. apply wire_bytes in HX'. subst. rewrite !blen_bstr. unfold blen. rewrite H. reflexivity.
  - apply dumps_list in HX as (xs & HX & ->). apply dumps_list in HX' as (xs' & HX' & ->). cbn [vsize] in HK.
    assert (HE : length xs = length xs' /\ total xs = total xs').
    { assert (HK' : list_sum (map vsize l) < k) by lia. clear HK. revert xs xs' HX HX' HK'.
      induction H as [|v v' l l' HV H IHl]; intros xs xs' HX HX' HK'; inversion HX as [|? x ? ys Hx Hxs]; inversion HX' as [|? x' ? ys' Hx' Hxs']; subst; [auto|].
      cbn [map list_sum fold_right] in HK'. change (fold_right Nat.add 0 (map vsize l)) with (list_sum (map vsize l)) in HK'.
      destruct (IHl ys ys' Hxs Hxs' ltac:(lia)) as [E1 E2]. cbn [length total fold_right]. fold (total ys) (total ys'). split; [congruence|].
      rewrite E2, (IH v v' x x' ltac:(lia) HV Hx Hx'). reflexivity. }
    destruct HE as [E1 E2]. rewrite !blen_array, E1, E2. reflexivity.
Qed.

Lemma wires_long : forall names l l' xs xs', Forall2 as_long l l' -> Forall2 (on_wire names) l xs -> Forall2 (on_wire names) l' xs' ->
  length xs = length xs' /\ total xs = total xs'.
Proof.
  intros names l l' xs xs' H. revert xs xs'. induction H as [|v v' l l' HV H IH]; intros xs xs' HX HX';
    inversion HX as [|? x ? ys Hx Hxs]; inversion HX' as [|? x' ? ys' Hx' Hxs']; subst; [auto|].
  destruct (IH ys ys' Hxs Hxs') as [E1 E2]. cbn [length total fold_right]. fold (total ys) (total ys'). split; [congruence|].
  rewrite E2, (as_long_wire names _ v v' x x' (Nat.lt_succ_diag_r _) HV Hx Hx'). reflexivity.
Qed.

Lemma emit_long : forall c c' t tag l l' b b', tstr c = tstr c' -> Forall2 as_long l l' -> emit c t tag l = Ok b -> emit c' t tag l' = Ok b' -> length b = length b'.
Proof.
  intros c c' t tag l l' b b' HT HF H H'. enough (E : blen b = blen b') by (unfold blen in E; lia).
  apply emit_layout in H as (xs & HX & ->). apply emit_layout in H' as (xs' & HX' & ->). unfold dumps_msg in HX, HX'. rewrite <- HT in HX'.
  destruct (wires_long (tstr c) l l' xs xs' HF HX HX') as [E1 E2]. rewrite !blen_tag, !blen_array, E1, E2. reflexivity.
Qed.

Lemma shape_protected : forall c c' p p', same_shape c c' -> phdr_encoded c = Ok p -> phdr_encoded c' = Ok p' -> p = p'.
Proof.
  intros c c' p p' (H1 & H2 & H3 & H4 & _) HP HP'. unfold phdr_encoded, dumps_msg in *. rewrite <- H1, <- H2, <- H4 in HP'. congruence.
Qed.

Lemma shape_vopt : forall c c', same_shape c c' -> as_long (vopt (payload c)) (vopt (payload c')).
Proof. intros c c' (_ & _ & _ & _ & H). destruct (payload c) as [p|], (payload c') as [p'|]; try contradiction; [apply AL_bytes; exact H|apply AL_refl]. Qed.

(** ** Wrapped keys *)

Lemma wrap_long : forall X n n' a k k' (o o' : option bytes) w w', law_wrap_size X -> law_oaep_size X -> 
  (forall h, alg_kind a = Some (AOaep h) -> same_group k k') ->
  match o, o' with Some p, Some p' => length p = length p' | None, None => True | _, _ => False end ->
  alg_key_wrap X n a k (vopt o) = Ok w -> alg_key_wrap X n' a k' (vopt o') = Ok w' -> length w = length w'.
Proof.
  intros X n n' a k k' o o' w w' LW LO HG HL H H'. destruct o as [d|], o' as [d'|]; try contradiction; [|exfalso; exact (wrap_some X n a k None w H eq_refl)].
  unfold alg_key_wrap in *. cbn [vopt as_bytes] in *. destruct (alg_kind a) as [[]|] eqn:EK; try discriminate H.
  - apply bind_ok in H as (q & HQ & H). apply bind_ok in H' as (q' & HQ' & H'). cbn [bind] in H, H'. destruct (HG _ eq_refl) as [_ HN].
    unfold rsa_public_numbers in *. apply bind_ok in HQ as (e & _ & HQ). apply bind_ok in HQ as (nn & EN & HQ). injection HQ as <-.
    apply bind_ok in HQ' as (e' & _ & HQ'). apply bind_ok in HQ' as (nn' & EN' & HQ'). injection HQ' as <-.
    unfold attr_int in EN, EN'. rewrite HN in EN. rewrite EN in EN'. injection EN' as EN'.
    refine (LO _ _ _ _ _ _ _ _ _ _ HL H H'). exact EN'.
  - apply bind_ok in H as (q & HQ & H). apply bind_ok in H' as (q' & HQ' & H'). cbn [bind] in H, H'. apply LW in H. apply LW in H'. congruence.
Qed.

Lemma kw_long : forall X n n' c c' subs subs' w w', law_wrap_size X -> law_oaep_size X -> same_shape c c' -> same_groups c c' ->
  kw_encrypt X n c subs = Ok w -> kw_encrypt X n' c' subs' = Ok w' -> length w = length w'.
Proof.
  intros X n n' c c' subs subs' w w' LW LO HS HG H H'. unfold kw_encrypt in *. rewrite <- (shape_attr _ _ Algorithm HS) in H'.
  destruct (get_attr c Algorithm) as [a|]; [|discriminate]. cbn [bind] in *.
  destruct (negb _); [discriminate|]. destruct (negb _) in H'; [discriminate|]. destruct (is_none a); [discriminate|].
  assert (HL : match payload c, payload c' with Some p, Some p' => length p = length p' | None, None => True | _, _ => False end) by apply HS.
  destruct (alg_in a aes_kw) as [[]|] eqn:EA; cbn [bind] in *; [| |discriminate].
  - apply bind_ok in H as (kb & _ & H). apply bind_ok in H' as (kb' & _ & H'). apply bind_ok in H as (kek & _ & H). apply bind_ok in H' as (kek' & _ & H').
    apply bind_ok in H as (? & _ & H). apply bind_ok in H' as (? & _ & H'). refine (wrap_long X n n' a _ _ (payload c) (payload c') _ _ LW LO _ HL H H').
    intros h EO. exfalso. apply oaep_kind in EO as (z & HZ & ->). cbn in HZ.
    repeat (destruct HZ as [<-|HZ]; [vm_compute in EA; discriminate EA|]). destruct HZ.
  - destruct (alg_in a oaep) as [[]|]; cbn [bind] in *; [|discriminate|discriminate].
    destruct (ckey c) as [k|] eqn:E1; [|discriminate]. destruct (ckey c') as [k'|] eqn:E2; [|discriminate].
    apply bind_ok in H as (? & _ & H). apply bind_ok in H' as (? & _ & H'). refine (wrap_long X n n' a _ _ (payload c) (payload c') _ _ LW LO _ HL H H').
    intros h _. exact (HG k k' E1 E2).
Qed.

Lemma kakw_long : forall X n n' c c' c1 c1' w w', law_wrap_size X -> law_oaep_size X -> same_shape c c' -> ckey c <> None -> ckey c' <> None ->
  kakw_encrypt X n c = (c1, Ok w) -> kakw_encrypt X n' c' = (c1', Ok w') -> c1 = c /\ c1' = c' /\ length w = length w'.
Proof.
  intros X n n' c c' c1 c1' w w' LW LO HS HK HK' H H'.
  assert (E1 : c1 = c) by (destruct (kakw_state X n c c1 w H) as [[_ E]|[E _]]; [exact E|congruence]).
  assert (E2 : c1' = c') by (destruct (kakw_state X n' c' c1' w' H') as [[_ E]|[E _]]; [exact E|congruence]).
  subst c1 c1'. split; [reflexivity|]. split; [reflexivity|]. unfold kakw_encrypt in *. rewrite <- (shape_attr _ _ Algorithm HS) in H'.
  destruct (is_none _); [discriminate|]. destruct (is_none _) in H'; [discriminate|]. destruct (get_attr c Algorithm) as [a|] eqn:EA; [|discriminate].
  destruct (is_none a); [discriminate|].
  destruct (ckey c) as [k|]; [|congruence]. destruct (ckey c') as [k'|]; [|congruence].
  apply pair_equal_spec in H as [_ H]. apply pair_equal_spec in H' as [_ H']. cbn [bind] in H, H'. rewrite <- (shape_attr _ _ Algorithm HS) in H'. rewrite EA in H, H'. cbn [bind] in H, H'.
  apply bind_ok in H as (wf & HW & H). rewrite HW in H'. cbn [bind] in H'. apply bind_ok in H as (? & _ & H). apply bind_ok in H' as (? & _ & H').
  apply bind_ok in H as (? & _ & H). apply bind_ok in H' as (? & _ & H').
  refine (wrap_long X n n' wf _ _ (payload c) (payload c') _ _ LW LO _ _ H H'); [|apply HS].
  intros h EO. exfalso. apply oaep_kind in EO as (z & HZ & ->). exact (func_no_oaep _ _ HW z HZ eq_refl).
Qed.

(** ** Recipients *)

Lemma finish_long : forall X id id' rc ctx ctx' subs subs' n n' c c' items items' s s' v v',
  (forall n n' s s' vs vs', rcpts_encode X n subs = (s, Ok vs) -> rcpts_encode X n' subs' = (s', Ok vs') -> Forall2 as_long vs vs') ->
  length subs = length subs' -> Forall2 as_long items items' ->
  finish X id rc ctx subs n c items = (s, Ok v) -> finish X id' rc ctx' subs' n' c' items' = (s', Ok v') -> as_long v v'.
Proof.
  intros X id id' rc ctx ctx' subs subs' n n' c c' items items' s s' v v' HA HL HI H H'. unfold finish in *.
  destruct subs as [|x subs], subs' as [|x' subs']; try discriminate HL.
  - injection H as _ <-. injection H' as _ <-. apply AL_list. exact HI.
  - destruct (rcpts_encode X n (x :: subs)) as [[n1 s1] [vs|]] eqn:E1; [|discriminate].
    destruct (rcpts_encode X n' (x' :: subs')) as [[n1' s1'] [vs'|]] eqn:E2; [|discriminate].
    injection H as _ <-. injection H' as _ <-. apply AL_list. apply Forall2_app; [exact HI|]. constructor; [|constructor]. apply AL_list.
    exact (HA _ _ _ _ _ _ E1 E2).
Qed.

Lemma rcpts_long : forall X, law_wrap_size X -> law_oaep_size X -> forall k l l', list_sum (map height l) < k -> Forall2 same_recipient l l' ->
  forall n n' s s' vs vs', rcpts_encode X n l = (s, Ok vs) -> rcpts_encode X n' l' = (s', Ok vs') -> Forall2 as_long vs vs'.
Proof.
  intros X LW LO. induction k as [|k IHk]; [lia|]. intros l l' HK HF. revert HK. induction HF as [|r r' l l' HR HF IHl]; intros HK n n' s s' vs vs' H H'.
  - injection H as _ <-. injection H' as _ <-. constructor.
  - cbn [map list_sum fold_right] in HK. change (fold_right Nat.add 0 (map height l)) with (list_sum (map height l)) in HK.
    cbn [rcpts_encode] in H, H'. destruct (rcpt_encode X n r) as [[n1 r1] [v|]] eqn:E1; [|discriminate].
    destruct (rcpts_encode X n1 l) as [[n2 l2] [us|]] eqn:E2; [|discriminate]. destruct (rcpt_encode X n' r') as [[n1' r1'] [v'|]] eqn:E1'; [|discriminate].
    destruct (rcpts_encode X n1' l') as [[n2' l2'] [us'|]] eqn:E2'; [|discriminate]. injection H as _ <-. injection H' as _ <-.
    constructor; [|refine (IHl _ _ _ _ _ _ _ E2 E2'); lia]. clear E2 E2' IHl.
    destruct HR as [id id' rc c c' ctx ctx' subs subs' HS HG HO HSub]. cbn [height] in HK.
    assert (HA : forall n n' s s' vs vs', rcpts_encode X n subs = (s, Ok vs) -> rcpts_encode X n' subs' = (s', Ok vs') -> Forall2 as_long vs vs').
    { refine (IHk subs subs' _ HSub). lia. }
    assert (HL : length subs = length subs') by (clear - HSub; induction HSub; cbn [length]; congruence).
    assert (HU : uhdr c = uhdr c') by apply HS.
    destruct rc.
    + cbn [rcpt_encode] in E1, E1'. injection E1 as _ _ E1. injection E1' as _ _ E1'.
      apply bind_ok in E1 as (a & _ & E1). apply bind_ok in E1' as (a' & _ & E1').
      destruct (_ && _); [discriminate|]. destruct (_ && _) in E1'; [discriminate|]. destruct (is_none a); [discriminate|]. destruct (is_none a'); [discriminate|].
      destruct (negb _); [discriminate|]. destruct (negb _) in E1'; [discriminate|].
      apply bind_ok in E1 as (p & HP & E1). apply bind_ok in E1' as (p' & HP' & E1'). injection E1 as <-. injection E1' as <-.
      rewrite <- (shape_protected _ _ _ _ HS HP HP'), HU. apply AL_refl.
    + rewrite encode_kw in E1, E1'. destruct (bind (phdr_encoded c) _) as [[p w]|] eqn:EB; [|discriminate].
      destruct (bind (phdr_encoded c') _) as [[p' w']|] eqn:EB'; [|discriminate].
      apply bind_ok in EB as (p0 & HP & EB). apply bind_ok in EB as (w0 & HW & EB). injection EB as -> ->.
      apply bind_ok in EB' as (p0' & HP' & EB'). apply bind_ok in EB' as (w0' & HW' & EB'). injection EB' as -> ->.
      refine (finish_long _ _ _ _ _ _ _ _ _ _ _ _ _ _ _ _ _ _ HA HL _ E1 E1').
      rewrite <- (shape_protected _ _ _ _ HS HP HP'), HU. repeat (constructor; try apply AL_refl). exact (kw_long _ _ _ _ _ _ _ _ _ LW LO HS HG HW HW').
    + destruct (HO (or_introl eq_refl)) as [K1 K2]. cbn [rcpt_encode] in E1, E1'. destruct (bind (get_attr c Algorithm) _) as [[a pk]|]; [|discriminate].
      destruct (bind (get_attr c' Algorithm) _) as [[a' pk']|]; [|discriminate].
      destruct (ckey c) as [kk|]; [|congruence]. destruct (ckey c') as [kk'|]; [|congruence]. cbn [bind] in E1, E1'.
      match type of E1 with match ?e with Ok _ => _ | Err _ => _ end = _ => destruct e as [p|] eqn:EP; [|discriminate] end.
      match type of E1' with match ?e with Ok _ => _ | Err _ => _ end = _ => destruct e as [p'|] eqn:EP'; [|discriminate] end.
      destruct (Nat.ltb _ _); [discriminate|]. destruct (Nat.ltb _ _) in EP'; [discriminate|].
      apply bind_ok in EP as (e & _ & EP). apply bind_ok in EP' as (e' & _ & EP'). apply bind_ok in EP as ([] & _ & EP); [discriminate|].
      apply bind_ok in EP' as ([] & _ & EP'); [discriminate|].
      change (finish X id RAgree ctx subs (N.succ n) c [VBytes p; VDict (uhdr c); VBytes []] = (n1, r1, Ok v)) in E1.
      change (finish X id' RAgree ctx' subs' (N.succ n') c' [VBytes p'; VDict (uhdr c'); VBytes []] = (n1', r1', Ok v')) in E1'.
      refine (finish_long _ _ _ _ _ _ _ _ _ _ _ _ _ _ _ _ _ _ HA HL _ E1 E1').
      rewrite <- (shape_protected _ _ _ _ HS EP EP'), HU. repeat (constructor; try apply AL_refl).
    + destruct (HO (or_intror eq_refl)) as [K1 K2]. rewrite encode_kakw in E1, E1'. destruct (bind (phdr_encoded c) _) as [p|] eqn:EB; [|discriminate].
      destruct (bind (phdr_encoded c') _) as [p'|] eqn:EB'; [|discriminate].
      apply bind_ok in EB as (p0 & HP & EB). apply bind_ok in EB as (? & _ & EB). apply bind_ok in EB as (? & _ & EB). injection EB as ->.
      apply bind_ok in EB' as (p0' & HP' & EB'). apply bind_ok in EB' as (? & _ & EB'). apply bind_ok in EB' as (? & _ & EB'). injection EB' as ->.
      destruct (kakw_encrypt X n c) as [c1 [w|]] eqn:EK; [|discriminate]. destruct (kakw_encrypt X n' c') as [c1' [w'|]] eqn:EK'; [|discriminate].
      destruct (kakw_long X n n' c c' c1 c1' w w' LW LO HS K1 K2 EK EK') as (-> & -> & HW).
      refine (finish_long _ _ _ _ _ _ _ _ _ _ _ _ _ _ _ _ _ _ HA HL _ E1 E1').
      rewrite <- (shape_protected _ _ _ _ HS HP HP'), HU. repeat (constructor; try apply AL_refl). exact HW.
Qed.

Definition keys_long (kb kb' : pyval) : Prop := (exists b b', kb = VBytes b /\ kb' = VBytes b' /\ length b = length b') \/ (kb = VNone /\ kb' = VNone).

Lemma encrypt_long : forall X n n' r r' r1 r1' w w', same_recipient r r' -> rcpt_encrypt X n r = (r1, Ok w) -> rcpt_encrypt X n' r' = (r1', Ok w') -> r1 = r /\ r1' = r'.
Proof.
  intros X n n' r r' r1 r1' w w' HR H H'. destruct HR as [id id' rc c c' ctx ctx' subs subs' HS HG HO HSub]. cbn [rcpt_encrypt] in H, H'.
  destruct rc; try discriminate H.
  - apply pair_equal_spec in H as [<- _]. apply pair_equal_spec in H' as [<- _]. auto.
  - destruct (HO (or_intror eq_refl)) as [K1 K2]. destruct (kakw_encrypt X n c) as [c1 x] eqn:E. destruct (kakw_encrypt X n' c') as [c1' x'] eqn:E'.
    apply pair_equal_spec in H as [<- ->]. apply pair_equal_spec in H' as [<- ->]. cbn [r_with].
    destruct (kakw_state X n c c1 w E) as [[_ ->]|[E1 _]]; [|congruence]. destruct (kakw_state X n' c' c1' w' E') as [[_ ->]|[E2 _]]; [|congruence]. auto.
Qed.

Lemma loop_long : forall X l l', Forall2 same_recipient l l' -> forall n n' kb kb' s s' k1 k1', keys_long kb kb' ->
  cek_loop X n kb l = (s, Ok k1) -> cek_loop X n' kb' l' = (s', Ok k1') -> Forall2 same_recipient (snd s) (snd s').
Proof.
  intros X l l' HF. induction HF as [|r r' l l' HR HF IH]; intros n n' kb kb' s s' k1 k1' HK H H'; cbn [cek_loop] in H, H'.
  - injection H as <- _. injection H' as <- _. constructor.
  - destruct HR as [id id' rc c c' ctx ctx' subs subs' HS HG HO HSub]. cbn [r_core] in H, H'.
    match type of H with (let '(_, _) := ?t in _) = _ => destruct t as [r1 kb1] eqn:E1 end.
    match type of H' with (let '(_, _) := ?t in _) = _ => destruct t as [r1' kb1'] eqn:E1' end.
    assert (HR1 : same_recipient r1 r1' /\ keys_long kb1 kb1').
    { pose proof HS as (S1 & S2 & S3 & S4 & S5). destruct (payload c) as [[|x p]|] eqn:EP, (payload c') as [[|x' p']|] eqn:EP'; try contradiction; try discriminate S5;
        apply pair_equal_spec in E1 as [<- <-]; apply pair_equal_spec in E1' as [<- <-]; cbn [r_with].
      - split; [|exact HK]. apply SR; [|exact HG|exact HO|exact HSub]. do 4 (split; [assumption|]). cbn [payload with_payload].
        destruct HK as [(b & b' & -> & -> & HL)|[-> ->]]; [exact HL|exact I].
      - split; [apply SR; assumption|]. left. exists (x :: p), (x' :: p'). auto.
      - split; [apply SR; assumption|]. right. auto. }
    destruct HR1 as [HR1 HK1]. destruct (rcpt_encrypt X n r1) as [r2 [w|]] eqn:ER; [|discriminate]. destruct (rcpt_encrypt X n' r1') as [r2' [w'|]] eqn:ER'; [|discriminate].
    destruct (encrypt_long X n n' r1 r1' r2 r2' w w' HR1 ER ER') as [-> ->].
    destruct (cek_loop X (N.succ n) kb1 l) as [[n2 l2] x] eqn:EL. destruct (cek_loop X (N.succ n') kb1' l') as [[n2' l2'] x'] eqn:EL'.
    injection H as <- ->. injection H' as <- ->. cbn [snd]. constructor; [exact HR1|]. exact (IH _ _ _ _ _ _ _ _ HK1 EL EL').
Qed.

Lemma same_recipient_classes : forall l l', Forall2 same_recipient l l' -> map r_class l' = map r_class l.
Proof. intros l l' H. induction H as [|r r' l l' [] H IH]; [reflexivity|]. cbn [map r_class]. rewrite IH. reflexivity. Qed.

Lemma encm_recipients_long : forall X n n' m m' s s' b b', law_urandom_len X -> same_shape (e_core m) (e_core m') -> Forall2 same_recipient (e_rcpts m) (e_rcpts m') ->
  encm_encrypt X n m = (s, Ok b) -> encm_encrypt X n' m' = (s', Ok b') -> Forall2 same_recipient (e_rcpts (snd s)) (e_rcpts (snd s')).
Proof.
  intros X n n' [c rs] [c' rs'] s s' b b' LU HS HF H H'. unfold encm_encrypt in *. cbn [e_core e_rcpts] in *.
  destruct (class_eqs _ _ (same_recipient_classes _ _ HF)) as [HC HV]. rewrite HV, !HC, <- (shape_attr _ _ Algorithm HS) in H'.
  destruct (bind (get_attr c Algorithm) _) as [t|]; [|discriminate].
  destruct (has_class RDirect rs). { injection H as <- _. injection H' as <- _. exact HF. }
  destruct (has_class RAgree rs).
  { destruct rs as [|r rs]; [discriminate|]. destruct rs' as [|r' rs']; [discriminate|]. destruct (compute_cek X r t false) as [k|]; [|discriminate]. destruct (compute_cek X r' t false) as [k'|]; [|discriminate].
    injection H as <- _. injection H' as <- _. exact HF. }
  destruct (_ || _); [|discriminate]. destruct (get_key_length t) as [len|]; [|discriminate].
  destruct (cek_loop X (N.succ n) _ rs) as [[n1 rs1] [kb|]] eqn:EL; [|discriminate]. destruct (cek_loop X (N.succ n') _ rs') as [[n1' rs1'] [kb'|]] eqn:EL'; [|discriminate].
  destruct (sym_with kb t _) as [k|]; [|discriminate]. destruct (sym_with kb' t _) as [k'|]; [|discriminate]. injection H as <- _. injection H' as <- _. cbn [snd e_rcpts].
  refine (loop_long X rs rs' HF _ _ _ _ _ _ _ _ _ EL EL'). left. eexists; eexists. split; [reflexivity|]. split; [reflexivity|]. rewrite !LU. reflexivity.
Qed.

Lemma cipher_long : forall X ctx c c' k k' b b', law_seal_size X -> same_shape c c' ->
  enc_encrypt X ctx (with_key c k) = Ok b -> enc_encrypt X ctx (with_key c' k') = Ok b' -> length b = length b'.
Proof.
  intros X ctx c c' k k' b b' LS HS H H'. unfold enc_encrypt in *. cbn [ckey with_key] in *.
  change (get_attr (with_key c k) Algorithm) with (get_attr c Algorithm) in H. change (get_attr (with_key c' k') Algorithm) with (get_attr c' Algorithm) in H'.
  rewrite <- (shape_attr _ _ Algorithm HS) in H'.
  destruct k as [k|]; [|discriminate]. destruct k' as [k'|]; [|discriminate]. destruct (get_attr c Algorithm) as [a|]; [|discriminate]. cbn [bind] in H, H'.
  apply bind_ok in H as (nn & _ & H). apply bind_ok in H' as (nn' & _ & H'). apply bind_ok in H as (? & _ & H). apply bind_ok in H' as (? & _ & H').
  apply bind_ok in H as (? & _ & H). apply bind_ok in H' as (? & _ & H'). apply bind_ok in H as (ad & _ & H). apply bind_ok in H' as (ad' & _ & H').
  apply seal_length in H as (z & t & pl & -> & HI & HP & HB); [|exact LS]. apply seal_length in H' as (z' & t' & pl' & E & HI' & HP' & HB'); [|exact LS].
  injection E as <-. cbn [payload with_key] in HP, HP'. destruct HS as (_ & _ & _ & _ & HL). rewrite HP, HP' in HL.
  assert (HN : t = t') by (clear - HI HI'; cbn [aead_tag_lengths In] in HI, HI'; repeat (destruct HI as [HI|HI]; [injection HI as <- <-; repeat (destruct HI' as [HI'|HI']; [first [discriminate HI'|injection HI' as <-; reflexivity]|]); destruct HI'|]); destruct HI).
  subst t'. unfold blen in *. rewrite <- HL in HB'. rewrite <- HB in HB'. lia.
Qed.

Lemma tag_long : forall X ctx c c' k k' b b', law_hmac_len X -> law_aes_len X -> same_shape c c' ->
  mac_compute X ctx (with_key c k) = Ok b -> mac_compute X ctx (with_key c' k') = Ok b' -> length b = length b'.
Proof.
  intros X ctx c c' k k' b b' LH LA HS H H'. unfold mac_compute in *. cbn [ckey with_key] in *.
  change (get_attr (with_key c k) Algorithm) with (get_attr c Algorithm) in H. change (get_attr (with_key c' k') Algorithm) with (get_attr c' Algorithm) in H'.
  rewrite <- (shape_attr _ _ Algorithm HS) in H'. destruct (get_attr c Algorithm) as [a|]; [|discriminate]. cbn [bind] in H, H'.
  destruct k as [k|]; [|discriminate]. destruct k' as [k'|]; [|discriminate].
  apply bind_ok in H as (? & _ & H). apply bind_ok in H' as (? & _ & H'). apply bind_ok in H as (? & _ & H). apply bind_ok in H' as (? & _ & H').
  apply bind_ok in H as (d & HD & H). apply bind_ok in H' as (d' & HD' & H').
  destruct (tag_length _ _ _ _ _ LH LA (mac_structure_nonempty _ _ _ HD) H) as (z & t & -> & HI & HB).
  destruct (tag_length _ _ _ _ _ LH LA (mac_structure_nonempty _ _ _ HD') H') as (z' & t' & E & HI' & HB'). injection E as <-.
  assert (HN : t = t') by (clear - HI HI'; cbn [mac_tag_lengths In] in HI, HI'; repeat (destruct HI as [HI|HI]; [injection HI as <- <-; repeat (destruct HI' as [HI'|HI']; [first [discriminate HI'|injection HI' as <-; reflexivity]|]); destruct HI'|]); destruct HI).
  unfold blen in *. subst t'. lia.
Qed.

(** ** C125. *)

Theorem C125_encrypt : forall X n n' m m' tag encrypt s s' b b', law_urandom_len X -> law_seal_size X -> law_wrap_size X -> law_oaep_size X ->
  same_shape (e_core m) (e_core m') -> Forall2 same_recipient (e_rcpts m) (e_rcpts m') ->
  encm_encode X n m tag encrypt = (s, Ok b) -> encm_encode X n' m' tag encrypt = (s', Ok b') -> length b = length b'.
Proof.
  intros X n n' m m' tag encrypt s s' b b' LU LS LW LO HS HF H H'. unfold encm_encode in *.
  destruct (phdr_encoded (e_core m)) as [p|] eqn:EP; [|discriminate]. destruct (phdr_encoded (e_core m')) as [p'|] eqn:EP'; [|discriminate].
  rewrite <- (shape_protected _ _ _ _ HS EP EP') in H'. clear EP EP' p'.
  assert (HB : exists n1 n1' m1 m1' v v', Forall2 same_recipient (e_rcpts m1) (e_rcpts m1') /\ same_shape (e_core m1) (e_core m1') /\ as_long v v' /\
    match e_rcpts m1 with
    | [] => ((n1, m1), emit (e_core m1) 96 tag [VBytes p; VDict (uhdr (e_core m1)); v])
    | rs => match get_attr (e_core m1) Algorithm with
      | Err e => ((n1, m1), Err e)
      | Ok _ => match rcpts_encode X n1 rs with
        | ((n2, rs'), Err e) => ((n2, EncMsg (e_core m1) rs'), Err e)
        | ((n2, rs'), Ok vs) => ((n2, EncMsg (e_core m1) rs'), emit (e_core m1) 96 tag ([VBytes p; VDict (uhdr (e_core m1)); v] ++ [VList vs]))
        end end end = (s, Ok b) /\
    match e_rcpts m1' with
    | [] => ((n1', m1'), emit (e_core m1') 96 tag [VBytes p; VDict (uhdr (e_core m1')); v'])
    | rs => match get_attr (e_core m1') Algorithm with
      | Err e => ((n1', m1'), Err e)
      | Ok _ => match rcpts_encode X n1' rs with
        | ((n2, rs'), Err e) => ((n2, EncMsg (e_core m1') rs'), Err e)
        | ((n2, rs'), Ok vs) => ((n2, EncMsg (e_core m1') rs'), emit (e_core m1') 96 tag ([VBytes p; VDict (uhdr (e_core m1')); v'] ++ [VList vs]))
        end end end = (s', Ok b')).
  { destruct encrypt.
    - destruct (encm_encrypt X n m) as [[n1 m1] [x|]] eqn:EE; cbn [bind] in H; [|discriminate].
      destruct (encm_encrypt X n' m') as [[n1' m1'] [x'|]] eqn:EE'; cbn [bind] in H'; [|discriminate].
      exists n1, n1', m1, m1', (VBytes x), (VBytes x'). pose proof (encm_recipients_long X n n' m m' _ _ _ _ LU HS HF EE EE') as HF1. split; [exact HF1|].
      apply encm_encrypt_out in EE as (E1 & k & E2). apply encm_encrypt_out in EE' as (E1' & k' & E2'). rewrite E2 in E1. rewrite E2' in E1'.
      split; [rewrite E2, E2'; exact HS|]. split; [apply AL_bytes; exact (cipher_long X _ _ _ _ _ _ _ LS HS E1 E1')|]. split; [exact H|exact H'].
    - exists n, n', m, m', (vopt (payload (e_core m))), (vopt (payload (e_core m'))). split; [exact HF|]. split; [exact HS|]. split; [exact (shape_vopt _ _ HS)|]. split; [exact H|exact H']. }
  clear HS HF H H'. destruct HB as (n1 & n1' & m1 & m1' & v & v' & HF & HS & HV & H & H').
  assert (HI : Forall2 as_long [VBytes p; VDict (uhdr (e_core m1)); v] [VBytes p; VDict (uhdr (e_core m1')); v']).
  { destruct HS as (_ & _ & HU & _). rewrite HU. repeat (constructor; try apply AL_refl). exact HV. }
  assert (HT : tstr (e_core m1) = tstr (e_core m1')) by apply HS.
  destruct (e_rcpts m1) as [|r rs]; inversion HF as [|? r' ? rs' HR HRs]; subst.
  - rewrite <- H0 in H'. apply pair_equal_spec in H as [_ H]. apply pair_equal_spec in H' as [_ H']. exact (emit_long _ _ _ _ _ _ _ _ HT HI H H').
  - match goal with E : r' :: rs' = e_rcpts m1' |- _ => rewrite <- E in H', HF end.
    destruct (get_attr (e_core m1) Algorithm); [|discriminate]. destruct (get_attr (e_core m1') Algorithm); [|discriminate].
    destruct (rcpts_encode X n1 (r :: rs)) as [[n2 l2] [vs|]] eqn:ER; [|discriminate]. destruct (rcpts_encode X n1' (r' :: rs')) as [[n2' l2'] [vs'|]] eqn:ER'; [|discriminate].
    apply pair_equal_spec in H as [_ H]. apply pair_equal_spec in H' as [_ H']. refine (emit_long _ _ _ _ _ _ _ _ HT _ H H').
    apply Forall2_app; [exact HI|]. constructor; [|constructor]. apply AL_list. exact (rcpts_long X LW LO _ _ _ (Nat.lt_succ_diag_r _) HF _ _ _ _ _ _ ER ER').
Qed.
Print Assumptions C125_encrypt.

Theorem C125_mac : forall X n n' m m' rs rs' tag mac s s' b b', law_hmac_len X -> law_aes_len X -> law_wrap_size X -> law_oaep_size X ->
  same_shape (mm_core m) (mm_core m') -> mm_rcpts m = Some rs -> mm_rcpts m' = Some rs' -> Forall2 same_recipient rs rs' ->
  macm_encode X n m tag mac = (s, Ok b) -> macm_encode X n' m' tag mac = (s', Ok b') -> length b = length b'.
Proof.
  intros X n n' m m' rs rs' tag mac s s' b b' LH LA LW LO HS HR HR' HF H H'. unfold macm_encode in *.
  destruct (phdr_encoded (mm_core m)) as [p|] eqn:EP; [|discriminate]. destruct (phdr_encoded (mm_core m')) as [p'|] eqn:EP'; [|discriminate].
  rewrite <- (shape_protected _ _ _ _ HS EP EP') in H'. clear EP EP' p'.
  assert (HB : exists n1 n1' m1 m1' tl tl', mm_rcpts m1 = Some rs /\ mm_rcpts m1' = Some rs' /\ same_shape (mm_core m1) (mm_core m1') /\ Forall2 as_long tl tl' /\
    match mm_rcpts m1 with
    | None => ((n1, m1), Err TypeError)
    | Some [] => ((n1, m1), emit (mm_core m1) 97 tag ([VBytes p; VDict (uhdr (mm_core m1)); vopt (payload (mm_core m1))] ++ tl))
    | Some rs => match get_attr (mm_core m1) Algorithm with
      | Err e => ((n1, m1), Err e)
      | Ok _ => match rcpts_encode X n1 rs with
        | ((n2, rs'), Err e) => ((n2, MacMsg (mm_core m1) (mm_tag m1) (Some rs')), Err e)
        | ((n2, rs'), Ok vs) => ((n2, MacMsg (mm_core m1) (mm_tag m1) (Some rs')), emit (mm_core m1) 97 tag (([VBytes p; VDict (uhdr (mm_core m1)); vopt (payload (mm_core m1))] ++ tl) ++ [VList vs]))
        end end end = (s, Ok b) /\
    match mm_rcpts m1' with
    | None => ((n1', m1'), Err TypeError)
    | Some [] => ((n1', m1'), emit (mm_core m1') 97 tag ([VBytes p; VDict (uhdr (mm_core m1')); vopt (payload (mm_core m1'))] ++ tl'))
    | Some rs => match get_attr (mm_core m1') Algorithm with
      | Err e => ((n1', m1'), Err e)
      | Ok _ => match rcpts_encode X n1' rs with
        | ((n2, rs'), Err e) => ((n2, MacMsg (mm_core m1') (mm_tag m1') (Some rs')), Err e)
        | ((n2, rs'), Ok vs) => ((n2, MacMsg (mm_core m1') (mm_tag m1') (Some rs')), emit (mm_core m1') 97 tag (([VBytes p; VDict (uhdr (mm_core m1')); vopt (payload (mm_core m1'))] ++ tl') ++ [VList vs]))
        end end end = (s', Ok b')).
  { destruct mac.
    - destruct (macm_compute_tag X n m) as [[n1 m1] [x|]] eqn:EE; cbn [bind] in H; [|discriminate].
      destruct (macm_compute_tag X n' m') as [[n1' m1'] [x'|]] eqn:EE'; cbn [bind] in H'; [|discriminate].
      exists n1, n1', m1, m1', [VBytes x], [VBytes x'].
      apply macm_compute_out in EE as (E1 & (k & E2) & _ & E3). apply macm_compute_out in EE' as (E1' & (k' & E2') & _ & E3'). rewrite E2 in E1. rewrite E2' in E1'.
      split; [congruence|]. split; [congruence|]. split; [rewrite E2, E2'; exact HS|]. split; [|split; [exact H|exact H']].
      constructor; [apply AL_bytes; exact (tag_long X _ _ _ _ _ _ _ LH LA HS E1 E1')|constructor].
    - exists n, n', m, m', [], []. split; [exact HR|]. split; [exact HR'|]. split; [exact HS|]. split; [constructor|]. split; [exact H|exact H']. }
  clear HS HR HR' H H'. destruct HB as (n1 & n1' & m1 & m1' & tl & tl' & HR & HR' & HS & HTl & H & H'). rewrite HR in H. rewrite HR' in H'.
  assert (HI : Forall2 as_long ([VBytes p; VDict (uhdr (mm_core m1)); vopt (payload (mm_core m1))] ++ tl) ([VBytes p; VDict (uhdr (mm_core m1')); vopt (payload (mm_core m1'))] ++ tl')).
  { apply Forall2_app; [|exact HTl]. pose proof (shape_vopt _ _ HS) as HV. destruct HS as (_ & _ & HU & _). rewrite HU. repeat (constructor; try apply AL_refl). exact HV. }
  assert (HT : tstr (mm_core m1) = tstr (mm_core m1')) by apply HS.
  inversion HF as [|r r' rs0 rs0' HR0 HRs]; subst.
  - apply pair_equal_spec in H as [_ H]. apply pair_equal_spec in H' as [_ H']. exact (emit_long _ _ _ _ _ _ _ _ HT HI H H').
  - destruct (get_attr (mm_core m1) Algorithm); [|discriminate]. destruct (get_attr (mm_core m1') Algorithm); [|discriminate].
    destruct (rcpts_encode X n1 (r :: rs0)) as [[n2 l2] [vs|]] eqn:ER; [|discriminate]. destruct (rcpts_encode X n1' (r' :: rs0')) as [[n2' l2'] [vs'|]] eqn:ER'; [|discriminate].
    apply pair_equal_spec in H as [_ H]. apply pair_equal_spec in H' as [_ H']. refine (emit_long _ _ _ _ _ _ _ _ HT _ H H').
    apply Forall2_app; [exact HI|]. constructor; [|constructor]. apply AL_list. exact (rcpts_long X LW LO _ _ _ (Nat.lt_succ_diag_r _) HF _ _ _ _ _ _ ER ER').
Qed.
Print Assumptions C125_mac.

(** ** The toy primitives keep the laws *)

Lemma toy_wrap_size : law_wrap_size toy.
Proof. intros k d w H. cbn [x_wrap toy] in H. unfold toy_seal in H. injection H as <-. rewrite app_length, mix_length. reflexivity. Qed.
Lemma toy_oaep_size : law_oaep_size toy.
Proof. intros h p p' s s' d d' w w' HN HL H H'. cbn [x_oaep_enc toy] in H, H'. unfold toy_seal in *. injection H as <-. injection H' as <-. rewrite !app_length, !mix_length, HL. reflexivity. Qed.

(** ** Examples *)

(** Another payload of the same length, another key-encryption key, other random numbers: as long,
    though not equal. With one more recipient it is longer. *)
Definition ex_long (p : bytes) (k : key) (more : list rcpt) : encmsg :=
  EncMsg (with_payload (e_core (ex_enc [])) (Some p)) ([ex_kw 0 (Some k) [ex_kw 4 (Some k) []]; ex_oaep 1; ex_agree_with 2 RAgreeKW (-29) []] ++ more).
Lemma ex_same_kw : forall id subs subs', Forall2 same_recipient subs subs' -> same_recipient (ex_kw id (Some ex_sym) subs) (ex_kw id (Some ex_len_key) subs').
Proof.
  intros id subs subs' H. apply SR; [repeat split; reflexivity| |intros [E|E]; discriminate|exact H].
  intros k k' E E'. injection E as <-. injection E' as <-. split; vm_compute; reflexivity.
Qed.
Lemma ex_same_self : forall id rc c ctx, (rc = RAgree \/ rc = RAgreeKW -> ckey c <> None) -> same_recipient (Rcpt id rc c ctx []) (Rcpt id rc c ctx []).
Proof.
  intros id rc c ctx H. apply SR; [|intros k k' E E'; rewrite E in E'; injection E' as <-; split; reflexivity|auto|constructor].
  do 4 (split; [reflexivity|]). destruct (payload c); [reflexivity|exact I].
Qed.
Example C125_encrypt_example : let m := ex_long (bs "hello") ex_sym [] in let m' := ex_long (bs "seven") ex_len_key [] in
  same_shape (e_core m) (e_core m') /\ Forall2 same_recipient (e_rcpts m) (e_rcpts m') /\
  exists b b' b'', snd (encm_encode toy 0 m true true) = Ok b /\ snd (encm_encode toy 9 m' true true) = Ok b' /\
    snd (encm_encode toy 0 (ex_long (bs "hello") ex_sym [ex_kw 3 (Some ex_sym) []]) true true) = Ok b'' /\
    bytes_eqb b b' = false /\ length b = length b' /\ Nat.ltb (length b) (length b'') = true.
Proof.
  cbv zeta. split; [repeat split; reflexivity|]. split.
  - constructor; [apply ex_same_kw; constructor; [apply ex_same_kw; constructor|constructor]|]. constructor; [apply ex_same_self; intros [E|E]; discriminate E|].
    constructor; [apply ex_same_self; intros _; discriminate|constructor].
  - eexists; eexists; eexists. split; [vm_compute; reflexivity|]. split; [vm_compute; reflexivity|]. split; [vm_compute; reflexivity|]. split; [vm_compute; reflexivity|]. split; vm_compute; reflexivity.
Qed.

(** (With key wrapping recipients encode() of a COSE_Mac fails when it computes the tag, C58.) *)
Definition ex_long_mac (p : bytes) (k : key) : macmsg := MacMsg (ex_core [(Algorithm, alg 5)] p (Some k) []) (VBytes []) (Some [ex_direct 0; ex_direct 1]).
Example C125_mac_example : let m := ex_long_mac (bs "hello") ex_sym in let m' := ex_long_mac (bs "seven") ex_len_key in
  same_shape (mm_core m) (mm_core m') /\ Forall2 same_recipient [ex_direct 0; ex_direct 1] [ex_direct 0; ex_direct 1] /\
  exists b b', snd (macm_encode toy 0 m true true) = Ok b /\ snd (macm_encode toy 9 m' true true) = Ok b' /\ bytes_eqb b b' = false /\ length b = length b'.
Proof.
  cbv zeta. split; [repeat split; reflexivity|]. split; [do 2 (constructor; [apply ex_same_self; intros [E|E]; discriminate E|]); constructor|].
  eexists; eexists. split; [vm_compute; reflexivity|]. split; [vm_compute; reflexivity|]. split; vm_compute; reflexivity.
Qed.
