(** Keys among the protected headers of key agreement recipients, and COSE_Mac with direct
    key agreement. *)
From Coq Require Import NArith ZArith Bool String Lia.
From Coq Require Import Init.Byte List.
From Verif Require Import Bytes BytesProofs Value ValueProofs Cbor CborProofs SpecData DataProofs Registry
  RegistryProofs Crypto SpecCrypto Keys Algorithms Headers Messages Recipients SpecRegistry SpecKeys SpecHdr HdrProofs
  SpecTrip KeyTrip KeyTrip2 SpecAlg KeyProofs KeyProofs2 AlgProofs SpecMsg HdrTrip MsgTrip MsgTrip2 SpecRcpt RcptProofs RcptProofs2
  SpecRcptTrip RcptTrip RcptTrip2 RcptTrip3 RcptTrip4 RcptTrip5 SpecAgree.
Import ListNotations.
Local Open Scope result_scope.

Lemma lower_key_value : forall d a k, dget d a = Some (kval k) -> exists e, lower cls_fullname HIdent (VDict d) = Err e.
Proof.
  intros d a k H. cbn [lower].
  match goal with |- exists e, bind (?f _) _ = _ => set (go := f) end.
  assert (E : exists e, go d = Err e).
  { induction d as [|[b v] d IH]; [discriminate|]. cbn [dget] in H. cbn [go]. fold go.
    destruct (lower cls_fullname HIdent b) as [b'|e]; [|eexists; reflexivity]. cbn [bind].
    destruct (keyeq a b).
    - injection H as ->. destruct k. eexists. reflexivity.
    - destruct (lower cls_fullname HIdent v) as [v'|e]; [|eexists; reflexivity]. cbn [bind].
      destruct (IH H) as [e ->]. eexists. reflexivity. }
  destruct E as [e ->]. eexists. reflexivity.
Qed.

Section Agree.
Variable X : crypto.

Lemma kdf_key_value : forall kc a k, dget (kc_protected kc) a = Some (kval k) -> exists e, kdf_encode kc = Err e.
Proof.
  intros kc a k H. unfold kdf_encode. destruct (identifier_of _); [|eauto]. unfold dumps.
  destruct (lower_key_value _ _ _ H) as [e ->]. cbn [bind]. eauto.
Qed.

Lemma bind_err_l : forall A B (m : result A) (f : A -> result B) e, m = Err e -> bind m f = Err e.
Proof. intros A B m f e ->. reflexivity. Qed.

Lemma agree_kek_key : forall c t pk lk z a k, dget (phdr c) a = Some (kval k) -> exists e, agree_kek X c t pk lk z = Err e.
Proof.
  intros c t pk lk z a k H. unfold agree_kek.
  destruct (kex_hash z); cbn [bind]; [|eauto]. destruct (peer pk) as [p|]; cbn [bind]; [|eauto].
  destruct (prop_get p PCrv); cbn [bind]; [|eauto]. destruct (get_kdf_context c t) as [kc|] eqn:EK; cbn [bind]; [|eauto].
  destruct lk; cbn [bind]; [|eauto]. unfold derive_kek. destruct (kex_hash z); cbn [bind]; [|eauto].
  destruct (ecdh X _ _ _); cbn [bind]; [|eauto].
  assert (HP : kc_protected kc = phdr c).
  { unfold get_kdf_context in EK. do 7 (apply bind_ok in EK as (? & _ & EK)). injection EK as <-. reflexivity. }
  rewrite <- HP in H. destruct (kdf_key_value _ _ _ H) as [e ->]. cbn [bind]. eauto.
Qed.

(** A [CoseKey] among the protected headers. *)
Definition pkey (c : core) : Prop := exists a k, dget (phdr c) a = Some (kval k).

Lemma protected_pkey : forall c, key_headers (phdr c) -> protected_sender_key c -> pkey c.
Proof.
  intros c HK H. destruct H as [H|H]; [set (z := (-1)%Z) in *|set (z := (-2)%Z) in *];
    (destruct (dget (phdr c) (hdr z)) as [v|] eqn:E; [|exfalso; apply H; exact E]);
    (destruct (HK z v) as (k & -> & _); [cbn; auto|exact E|]); exists (hdr z), k; exact E.
Qed.

Lemma agree_cek_pkey : forall c t dec, pkey c -> exists e, agree_compute_cek X c t dec = Err e.
Proof.
  intros c t dec (a & k & H). unfold agree_compute_cek. destruct (get_attr c Algorithm) as [z|]; cbn [bind]; [|eauto].
  destruct (alg_in z _) as [[]|]; cbn [bind negb]; eauto.
  match goal with |- context [bind ?m _] => destruct m as [pk|]; cbn [bind]; [|eauto] end.
  destruct (is_none pk); [eauto|]. destruct (peer pk) as [p|]; cbn [bind]; [|eauto].
  destruct (key_verify p _ _ _); cbn [bind]; [|eauto]. destruct (ckey c) as [lk|]; cbn [bind]; [|eauto].
  destruct (key_verify lk _ _ _); cbn [bind]; [|eauto].
  destruct (agree_kek_key c t pk (Some lk) z a k H) as [e ->]. cbn [bind]. eauto.
Qed.

Lemma kakw_decrypt_pkey : forall c, pkey c -> exists e, kakw_decrypt X c = Err e.
Proof.
  intros c (a & k & H). unfold kakw_decrypt. destruct (get_attr c Algorithm) as [z|]; cbn [bind]; [|eauto].
  destruct (alg_in z es_kw) as [es|]; cbn [bind]; [|eauto].
  match goal with |- context [bind ?m _] => destruct m as [pk|]; cbn [bind]; [|eauto] end.
  destruct (get_key_wrap_func z) as [wf|]; cbn [bind]; [|eauto].
  destruct (agree_kek_key c wf pk (ckey c) z a k H) as [e ->]. cbn [bind]. eauto.
Qed.

Lemma kakw_encrypt_pkey : forall n c, pkey c -> exists e, snd (kakw_encrypt X n c) = Err e.
Proof.
  intros n c HP. destruct (kakw_encrypt X n c) as [c1 [b|e]] eqn:E; cbn [snd]; [|eauto]. exfalso.
  destruct (kakw_but X _ _ _ _ E) as [(HPh & _) _].
  assert (HP' : pkey c1) by (destruct HP as (a & k & H); exists a, k; rewrite HPh; exact H). destruct HP' as (a & k & H').
  unfold kakw_encrypt in E. destruct (is_none _); [discriminate|]. destruct (get_attr c Algorithm) as [z|]; [|discriminate].
  destruct (is_none z); [discriminate|]. match type of E with (let '(_, _) := ?m in _) = _ => destruct m as [c2 r] end.
  apply pair_equal_spec in E as [-> E]. apply bind_ok in E as (? & _ & E). apply bind_ok in E as (z' & _ & E). apply bind_ok in E as (wf & _ & E).
  apply bind_ok in E as (kb & HK & _). destruct (agree_kek_key c1 wf (dget_or (local c) StaticKey VNone) (ckey c1) z a k H') as [e HE]. congruence.
Qed.

(** ** Receiving *)

Lemma compute_cek_pkey : forall r t, agreement r -> pkey (r_core r) -> exists e, compute_cek X r t true = Err e.
Proof.
  intros [id rc c ctx subs] t [HC|HC] HP; cbn [r_class r_core] in *; subst rc; unfold compute_cek; cbn [r_class r_core].
  - destruct (agree_cek_pkey c t true HP) as [e ->]. cbn [bind]. eauto.
  - cbn [rcpt_decrypt]. destruct (kakw_decrypt_pkey c HP) as [e ->]. cbn [bind]. eauto.
Qed.

Lemma from_obj_keys : forall allow ctx id rc v r, rcpt_from_obj X allow ctx id rc v = Ok r -> key_headers (phdr (r_core r)).
Proof.
  intros allow ctx id rc v r H. unfold rcpt_from_obj in H. destruct v; try discriminate.
  apply bind_ok in H as ([c rest] & HC & H).
  assert (HR : r_core r = c).
  { repeat match type of H with
    | bind _ _ = Ok _ => apply bind_ok in H as (? & _ & H)
    | (if ?b then _ else _) = Ok _ => destruct b
    | match ?b with _ => _ end = Ok _ => destruct b
    | Err _ = _ => discriminate
    | Ok _ = Ok _ => injection H as <-
    end; reflexivity. }
  rewrite HR. eapply core_keys. exact HC.
Qed.

Lemma created_keys : forall allow ctx l id rs r, create_all X allow ctx id l = Ok rs -> In r rs -> key_headers (phdr (r_core r)).
Proof.
  intros allow ctx l. induction l as [|v l IH]; intros id rs r H HI; [injection H as <-; destruct HI|].
  cbn [create_all] in H. apply bind_ok in H as (r0 & HR & H). apply bind_ok in H as (rs0 & HRs & H). injection H as <-.
  destruct HI as [<-|HI]; [|eapply IH; eassumption]. clear HRs IH. unfold create_recipient in HR.
  do 4 (apply bind_ok in HR as (? & _ & HR)). destruct (is_none _); [discriminate|]. apply bind_ok in HR as (rc & _ & HR).
  eapply from_obj_keys. exact HR.
Qed.

Lemma recipients_from_keys : forall allow ctx rest rs r, recipients_from X allow ctx rest = Ok (Some rs) -> In r rs -> key_headers (phdr (r_core r)).
Proof.
  intros allow ctx rest rs r H HI. unfold recipients_from in H. destruct rest as [|v rest]; [discriminate|].
  destruct (bind (py_iter v) _) as [l|e] eqn:E; [|destruct (is_value_error e || _); discriminate].
  injection H as ->. apply bind_ok in E as (l & _ & E). eapply created_keys; eassumption.
Qed.

Lemma received_rcpt_keys : forall e allow v m r, decode X e allow v = Ok m -> In r (message_rcpts m) -> key_headers (phdr (r_core r)).
Proof.
  intros e allow v m r H HI. apply decode_inv in H as (b & obj & _ & _ & _ & H & _). destruct m as [m|m|m|m|m|m]; try destruct HI.
  - cbn [message_tag] in H. unfold from_cose_obj in H. cbn [N.eqb Pos.eqb] in H. apply bind_ok in H as (m0 & HM & H). injection H as ->.
    unfold enc_from_obj in HM. apply bind_ok in HM as ([c rest] & _ & HM). apply bind_ok in HM as ([rs|] & HR & HM); injection HM as <-; cbn [message_rcpts e_rcpts] in HI;
      [|destruct HI]. eapply recipients_from_keys; eassumption.
  - cbn [message_tag] in H. unfold from_cose_obj in H. cbn [N.eqb Pos.eqb] in H. apply bind_ok in H as (m0 & HM & H). injection H as ->.
    unfold mac_from_obj in HM. apply bind_ok in HM as ([c rest] & _ & HM). destruct rest as [|t rest]; [discriminate|].
    apply bind_ok in HM as ([rs|] & HR & HM); injection HM as <-; cbn [message_rcpts mm_rcpts] in HI;
      [|destruct HI]. eapply recipients_from_keys; eassumption.
Qed.

Lemma verify_not_direct : forall rs r u, In r rs -> agreement r -> verify_recipients rs = Ok u -> has_class RDirect rs = false.
Proof.
  intros rs r u HI HA H. destruct (has_class RDirect rs) eqn:E; [|reflexivity]. exfalso. unfold verify_recipients in H. rewrite E in H.
  cbn [andb] in H. assert (HN : Nat.ltb 1 (n_classes rs) = true); [|rewrite HN in H; discriminate].
  assert (HC : has_class (r_class r) rs = true).
  { unfold has_class. apply existsb_exists. exists r. split; [exact HI|]. destruct (r_class r); reflexivity. }
  apply Nat.ltb_lt. unfold n_classes. cbn [filter]. rewrite E. destruct HA as [HA|HA]; rewrite HA in HC; rewrite HC;
    destruct (has_class RKeyWrap rs), (has_class RAgree rs), (has_class RAgreeKW rs); cbn [length]; lia.
Qed.

Lemma decrypt_pkey : forall m r, In r (e_rcpts m) -> agreement r -> pkey (r_core r) -> exists e, snd (encm_decrypt X m r) = Err e.
Proof.
  intros m r HI HA HP. unfold encm_decrypt. destruct (get_attr _ _) as [t|]; [|cbn; eauto]. destruct (negb _); [cbn; eauto|].
  destruct (verify_recipients (e_rcpts m)) as [u|] eqn:EV; [|cbn; eauto]. rewrite (verify_not_direct _ _ _ HI HA EV).
  destruct (_ || _); [|cbn; eauto]. destruct (compute_cek_pkey r t HA HP) as [e ->]. cbn. eauto.
Qed.

Theorem received_protected_key : forall e allow v m i r k lo a, decode X e allow v = Ok (MEnc m) -> nth_error (e_rcpts m) i = Some r ->
  agreement r -> protected_sender_key (r_core r) ->
  exists err, snd (encm_decrypt X (equip_msg m a i (equip_rcpt r k lo)) (equip_rcpt r k lo)) = Err err.
Proof.
  intros e allow v m i r k lo a H HN HA HP. pose proof (nth_error_In _ _ HN) as HI.
  pose proof (protected_pkey _ (received_rcpt_keys _ _ _ (MEnc m) r H HI) HP) as HK.
  apply decrypt_pkey.
  - unfold equip_msg. cbn [e_rcpts]. apply in_or_app. right. left. reflexivity.
  - unfold agreement, equip_rcpt in *. destruct r. exact HA.
  - unfold pkey, equip_rcpt in *. destruct r. exact HK.
Qed.

Theorem received_protected_key_cek : forall e allow v m r k lo t, decode X e allow v = Ok m -> In r (message_rcpts m) ->
  agreement r -> protected_sender_key (r_core r) -> exists err, compute_cek X (equip_rcpt r k lo) t true = Err err.
Proof.
  intros e allow v m r k lo t H HI HA HP.
  pose proof (protected_pkey _ (received_rcpt_keys _ _ _ m r H HI) HP) as HK.
  apply compute_cek_pkey; unfold agreement, pkey, equip_rcpt in *; destruct r; assumption.
Qed.

(** ** Sending *)

Lemma built_keys : forall id rc a rs r, rcpt_init X id rc a rs = Ok r -> key_headers (phdr (r_core r)) /\ r_class r = rc.
Proof.
  intros id rc a rs r H. unfold rcpt_init in H. apply bind_ok in H as (c & HI & H). destruct (set_recipients [] rs) as [l [?|]]; [|discriminate].
  injection H as <-. cbn [r_core r_class]. split; [|reflexivity].
  apply core_init_inv in HI as (pd & ud & _ & _ & HP & _). eapply parse_key_headers; [exact HP|]. intros z v _ HV. discriminate.
Qed.

Lemma cek_loop_pkey : forall l n kb r, In r l -> r_class r = RAgreeKW -> pkey (r_core r) -> exists e, snd (cek_loop X n kb l) = Err e.
Proof.
  induction l as [|x l IH]; intros n kb r HI HC HP; [destruct HI|]. cbn [cek_loop].
  match goal with |- context [let '(_, _) := ?m in _] => assert (HX : r_class (fst m) = r_class x /\ phdr (r_core (fst m)) = phdr (r_core x)); [|destruct m as [r1 kb1]; cbn [fst] in HX] end.
  { destruct x as [id rc c ctx subs]. cbn [r_core r_class]. destruct (payload c) as [[|]|]; split; reflexivity. }
  destruct (rcpt_encrypt X n r1) as [r2 [w|e]] eqn:ER; [|cbn [snd]; eauto].
  destruct HI as [->|HI].
  - exfalso. destruct HX as [H1 H2]. destruct r1 as [id rc c ctx subs]. cbn [r_class r_core] in *. rewrite HC in H1. subst rc.
    cbn [rcpt_encrypt] in ER. assert (HP' : pkey c) by (destruct HP as (a & k & H); exists a, k; rewrite H2; exact H).
    destruct (kakw_encrypt_pkey n c HP') as [e HE]. destruct (kakw_encrypt X n c) as [c' y]. cbn [snd] in HE. subst y. discriminate.
  - destruct (IH (N.succ n) kb1 r HI HC HP) as [e HE]. destruct (cek_loop X (N.succ n) kb1 l) as [[n' l''] y]. cbn [snd] in *. eauto.
Qed.

Lemma has_class_in : forall rs r, In r rs -> has_class (r_class r) rs = true.
Proof. intros rs r H. unfold has_class. apply existsb_exists. exists r. split; [exact H|]. destruct (r_class r); reflexivity. Qed.

Lemma agree_alone : forall rs u, has_class RAgree rs = true -> verify_recipients rs = Ok u -> exists r, rs = [r].
Proof.
  intros rs u HC H. unfold verify_recipients in H. destruct (has_class RDirect rs && _); [discriminate|]. rewrite HC in H. cbn [andb] in H.
  destruct rs as [|r [|]]; [discriminate|eauto|discriminate].
Qed.

Lemma encrypt_pkey : forall n m r, In r (e_rcpts m) -> agreement r -> pkey (r_core r) -> exists e, snd (encm_encrypt X n m) = Err e.
Proof.
  intros n m r HI HA HP. unfold encm_encrypt. destruct (get_attr _ _) as [t|]; cbn [bind]; [|cbn; eauto].
  destruct (verify_recipients (e_rcpts m)) as [u|] eqn:EV; cbn [bind]; [|cbn; eauto]. rewrite (verify_not_direct _ _ _ HI HA EV).
  destruct (has_class RAgree (e_rcpts m)) eqn:EA.
  - destruct (agree_alone _ _ EA EV) as [r0 ER]. rewrite ER in *. destruct HI as [->|[]].
    assert (HC : r_class r = RAgree) by (unfold has_class in EA; cbn [existsb] in EA; destruct (r_class r); cbn in EA; congruence).
    unfold compute_cek. rewrite HC. destruct (agree_cek_pkey _ t false HP) as [e ->]. cbn. eauto.
  - destruct HA as [HC|HC]; [rewrite <- HC, has_class_in in EA by exact HI; discriminate|].
    pose proof (has_class_in _ _ HI) as HB. rewrite HC in HB. rewrite HB, orb_true_r.
    destruct (get_key_length t) as [len|]; [|cbn; eauto]. destruct (cek_loop_pkey (e_rcpts m) (N.succ n) (VBytes (x_urandom X n len)) r HI HC HP) as [e HE].
    destruct (cek_loop X _ _ _) as [[n' l'] y]. cbn [snd] in HE. subst y. cbn. eauto.
Qed.

Lemma given_pkey : forall id rc a rs r k lo, rcpt_init X id rc a rs = Ok r -> agreement r -> protected_sender_key (r_core r) ->
  agreement (given r k lo) /\ pkey (r_core (given r k lo)).
Proof.
  intros id rc a rs r k lo HB HA HP. apply built_keys in HB as [HB _]. pose proof (protected_pkey _ HB HP) as HK. destruct r. split; assumption.
Qed.

Theorem sent_protected_key : forall n m tag id rc a rs r k lo, rcpt_init X id rc a rs = Ok r -> agreement r ->
  protected_sender_key (r_core r) -> In (given r k lo) (e_rcpts m) -> exists err, snd (encm_encode X n m tag true) = Err err.
Proof.
  intros n m tag id rc a rs r k lo HB HA HP HI. destruct (given_pkey _ _ _ _ _ k lo HB HA HP) as [HA' HK].
  unfold encm_encode. destruct (phdr_encoded _); [|cbn; eauto]. destruct (encrypt_pkey n m _ HI HA' HK) as [e HE].
  destruct (encm_encrypt X n m) as [[n1 m1] y]. cbn [snd] in HE. subst y. cbn. eauto.
Qed.

Lemma mac_pkey : forall n m rs r, mm_rcpts m = Some rs -> In r rs -> agreement r -> pkey (r_core r) -> exists e, snd (macm_compute_tag X n m) = Err e.
Proof.
  intros n m rs r ERs HI HA HP. unfold macm_compute_tag. destruct (get_attr _ _) as [t|]; [|cbn; eauto]. rewrite ERs.
  destruct (verify_recipients rs) as [u|] eqn:EV; [|cbn; eauto]. rewrite (verify_not_direct _ _ _ HI HA EV).
  destruct (has_class RAgree rs) eqn:EA.
  - destruct (agree_alone _ _ EA EV) as [r0 ER]. rewrite ER in *. destruct HI as [->|[]].
    assert (HC : r_class r = RAgree) by (unfold has_class in EA; cbn [existsb] in EA; destruct (r_class r); cbn in EA; congruence).
    unfold compute_cek. rewrite HC. destruct (agree_cek_pkey _ t false HP) as [e ->]. cbn. eauto.
  - destruct HA as [HC|HC]; [rewrite <- HC, has_class_in in EA by exact HI; discriminate|].
    pose proof (has_class_in _ _ HI) as HB. rewrite HC in HB. rewrite HB, orb_true_r.
    destruct (get_key_length t) as [len|]; [|cbn; eauto]. destruct (cek_loop X _ _ _) as [[n' l'] [y|y]]; cbn; eauto.
Qed.

Theorem sent_protected_key_mac : forall n m l tag id rc a rs r k lo, rcpt_init X id rc a rs = Ok r -> agreement r ->
  protected_sender_key (r_core r) -> mm_rcpts m = Some l -> In (given r k lo) l -> exists err, snd (macm_encode X n m tag true) = Err err.
Proof.
  intros n m l tag id rc a rs r k lo HB HA HP HL HI. destruct (given_pkey _ _ _ _ _ k lo HB HA HP) as [HA' HK].
  unfold macm_encode. destruct (phdr_encoded _); [|cbn; eauto]. destruct (mac_pkey n m l _ HL HI HA' HK) as [e HE].
  destruct (macm_compute_tag X n m) as [[n1 m1] y]. cbn [snd] in HE. subst y. cbn. eauto.
Qed.

(** ** COSE_Mac with direct key agreement *)

Lemma hmac_no_length : forall z h t, alg_kind (alg z) = Some (AHmac h t) -> get_key_length (alg z) = Err AttributeError.
Proof. intros z h t H. unfold get_key_length. rewrite H. reflexivity. Qed.

Lemma kdf_no_length : forall c t e, get_key_length t = Err e -> exists e', get_kdf_context c t = Err e'.
Proof.
  intros c t e H. destruct (get_kdf_context c t) as [k|e'] eqn:E; [|eauto]. unfold get_kdf_context in E. do 6 (apply bind_ok in E as (? & _ & E)).
  rewrite H in E. discriminate.
Qed.

Lemma agree_no_length : forall c t dec e, get_key_length t = Err e -> exists e', agree_compute_cek X c t dec = Err e'.
Proof.
  intros c t dec e H. destruct (agree_compute_cek X c t dec) as [k|e'] eqn:E; [|eauto]. exfalso. unfold agree_compute_cek in E.
  apply bind_ok in E as (z & _ & E). apply bind_ok in E as (known & _ & E). destruct (negb known); [discriminate|].
  apply bind_ok in E as (pk & _ & E). destruct (is_none pk); [discriminate|]. do 4 (apply bind_ok in E as (? & _ & E)).
  apply bind_ok in E as (kb & HK & _). unfold agree_kek in HK. do 3 (apply bind_ok in HK as (? & _ & HK)). apply bind_ok in HK as (kc & HKc & _).
  destruct (kdf_no_length c t e H) as [e' HE]. congruence.
Qed.

Theorem hmac_agree : forall n m r tag z, mm_rcpts m = Some [r] -> r_class r = RAgree -> In z [4; 5; 6; 7]%Z ->
  get_attr (mm_core m) Algorithm = Ok (alg z) -> exists e, snd (macm_encode X n m tag true) = Err e.
Proof.
  intros n m r tag z ERs HC HZ HA. unfold macm_encode. destruct (phdr_encoded _); [|cbn; eauto].
  assert (HL : get_key_length (alg z) = Err AttributeError) by (cbn [In] in HZ; destruct HZ as [<-|[<-|[<-|[<-|[]]]]]; reflexivity).
  assert (HE : exists e, snd (macm_compute_tag X n m) = Err e).
  { unfold macm_compute_tag. rewrite HA, ERs. destruct (verify_recipients [r]); [|cbn; eauto]. destruct (agree_class r HC) as [-> ->].
    unfold compute_cek. rewrite HC. destruct (agree_no_length (r_core r) _ false _ HL) as [e ->]. cbn. eauto. }
  destruct HE as [e HE]. destruct (macm_compute_tag X n m) as [[n1 m1] y]. cbn [snd] in HE. subst y. cbn. eauto.
Qed.

Theorem hmac_agree_receive : forall r z, r_class r = RAgree -> In z [4; 5; 6; 7]%Z -> exists e, compute_cek X r (alg z) true = Err e.
Proof.
  intros r z HC HZ.
  assert (HL : get_key_length (alg z) = Err AttributeError) by (cbn [In] in HZ; destruct HZ as [<-|[<-|[<-|[<-|[]]]]]; reflexivity).
  unfold compute_cek. rewrite HC. destruct (agree_no_length (r_core r) _ true _ HL) as [e ->]. cbn. eauto.
Qed.

Theorem mac_agree_trip : forall n m r n' m2 b k lo e, law_wrap_some X -> law_oaep_some X -> law_ecdh X ->
  headers_ok X (mm_core m) -> mm_rcpts m = Some [r] -> headers_ok X (r_core r) -> r_subs r = [] -> agree_holder X r k lo ->
  e = None \/ e = Some 97%N -> macm_encode X n m true true = ((n', m2), Ok b) ->
  exists m' r' t kc, decode X e true (VBytes b) = Ok (MMac m') /\ arrived (mm_core m) (mm_core m') /\
    payload (mm_core m') = payload (mm_core m) /\ mm_rcpts m' = Some [r'] /\ r_class r' = RAgree /\ arrived (r_core r) (r_core r') /\
    get_attr (mm_core m') Algorithm = Ok t /\ compute_cek X (equip_rcpt r' k lo) t true = Ok (Some kc) /\
    macm_verify_tag X (MacMsg (equip (mm_core m') kc (aad (mm_core m))) (mm_tag m') (mm_rcpts m')) = Ok true.
Proof.
  intros n m r n' m2 b k lo e LW LO LE HO ERs HOr HSu HH He H.
  assert (HC : r_class r = RAgree) by (destruct HH as (? & ? & ? & ? & ? & ? & HC & _); exact HC).
  assert (HSi : simple r) by (destruct HH as (z & ? & ? & ? & ? & ? & _ & HZ & HG & _); split; [exact HSu|exists z; rewrite HC; auto]).
  assert (HKn : ckey (r_core r) <> None) by (destruct HH as (z & ? & ? & ? & ? & ? & _ & _ & _ & _ & _ & E & _); congruence).
  unfold macm_encode in H.
  destruct (phdr_encoded (mm_core m)) as [p|er] eqn:EP; [|discriminate].
  destruct (macm_compute_tag X n m) as [[n1 m1] x] eqn:EE. destruct x as [tg|er]; cbn [bind] in H; [|discriminate].
  unfold macm_compute_tag in EE. destruct (get_attr (mm_core m) Algorithm) as [a|er] eqn:HA; [|discriminate]. rewrite ERs in EE.
  destruct (verify_recipients [r]) as [[]|er] eqn:HV; [|discriminate].
  destruct (agree_class r HC) as [A1 A2]. rewrite A1, A2 in EE. unfold compute_cek in EE. rewrite HC in EE.
  destruct (agree_compute_cek X (r_core r) a false) as [kc|er] eqn:EC; cbn [bind] in EE; [|discriminate].
  unfold mac_super_compute in EE. cbn [mm_core mm_rcpts mm_tag] in EE.
  destruct (mac_compute X "MAC" (with_key (mm_core m) (Some kc))) as [t'|er] eqn:EM; [|discriminate]. injection EE as <- <- <-.
  cbn [mm_core mm_rcpts mm_tag] in H.
  change (get_attr (with_key (mm_core m) (Some kc)) Algorithm) with (get_attr (mm_core m) Algorithm) in H. rewrite HA in H.
  destruct (rcpts_encode X n [r]) as [[n3 rs2] [vs|er]] eqn:ER; [|discriminate]. apply pair_equal_spec in H as [_ H]. cbn [app] in H.
  destruct (mac_decodes X (mm_core m) p (payload (mm_core m)) t' n [r] n3 rs2 vs b e LW LO HO (Forall_cons _ (conj HOr HSi) (Forall_nil _)) EP ER He H)
    as (c' & rrs & HDe & HAr & HPL & HLa).
  destruct (all_land_nth X _ _ _ 0 r HLa eq_refl) as (n0 & r2 & rr & _ & HIr & HLr).
  destruct (all_land_classes X _ _ _ HLa) as [HCl HLen].
  destruct rrs as [|rr' [|]]; try discriminate. injection HIr as ->.
  destruct (agree_trip X n0 r r2 rr k lo a kc LE HH HLr EC) as ((z & kd & b0 & -> & HKd & ->) & HDc).
  pose proof (agreed_shares (with_key (mm_core m) (Some (agreed_key b0 (alg z)))) b0 z (Cls FOps 10) HA eq_refl) as HSh.
  assert (HA' : arrived (with_key (mm_core m) (Some (agreed_key b0 (alg z)))) c') by exact HAr.
  exists (MacMsg c' (VBytes t') (Some [rr])), rr, (alg z), (agreed_key b0 (alg z)). split; [exact HDe|]. split; [exact HAr|]. split; [exact HPL|]. split; [reflexivity|].
  pose proof HLr as (_ & _ & L1 & _ & L4 & _ & _ & _ & w & _ & LM). rewrite HC in L1, LM. split; [exact L1|].
  destruct LM as [_ LM]. rewrite (LM HKn) in L4. split; [exact L4|].
  split; [exact (alg_trip (mm_core m) c' z HAr HA)|].
  destruct (equip_facts rr k lo) as [Q1 Q2]. split; [unfold compute_cek; rewrite Q1, L1, HDc; reflexivity|].
  exact (mac_trip X "MAC" _ c' _ t' HA' HPL HSh EM).
Qed.

End Agree.
