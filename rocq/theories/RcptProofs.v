(** Lemmas on recipient lists, decoding of recipients and failing operations. *)
From Coq Require Import NArith ZArith Bool String Lia.
From Coq Require Import Init.Byte List.
From Verif Require Import Bytes Value Cbor SpecData Registry Crypto Keys Algorithms Headers Messages Recipients
  ValueProofs DataProofs SpecRegistry SpecKeys SpecHdr SpecTrip SpecMsg SpecRcpt KeyProofs KeyProofs4 HdrProofs HdrProofs2 KeyTrip KeyTrip2.
Import ListNotations.

(** ** Membership *)

Lemma has_recipient_unfold : forall t rs,
  has_recipient t rs = (fix go (l : list rcpt) (found : bool) : bool :=
     match l with
     | [] => found
     | x :: l' =>
       if N.eqb t (r_id x) then true
       else go l' (match r_subs x with [] => found | _ => has_recipient t (r_subs x) end)
     end) rs false.
Proof.
  intros t rs. unfold has_recipient at 1. generalize false. induction rs as [|x rs IH]; intros f; [reflexivity|].
  destruct (N.eqb t (r_id x)); [reflexivity|]. rewrite IH. destruct x as [i rc c ctx [|s ss]]; reflexivity.
Qed.

Fixpoint rsize (r : rcpt) : nat :=
  match r with Rcpt _ _ _ _ s => S (list_sum (map rsize s)) end.
Lemma in_rsize : forall r l, In r l -> rsize r <= list_sum (map rsize l).
Proof.
  intros r l. induction l as [|x l IH]; intros H; [destruct H|]. cbn [map list_sum fold_right] in *.
  change (fold_right Nat.add 0 (map rsize l)) with (list_sum (map rsize l)). destruct H as [->|H]; [lia|]. apply IH in H. lia.
Qed.
Lemma subs_rsize : forall r, list_sum (map rsize (r_subs r)) < rsize r.
Proof. intros [i rc c x s]. cbn [r_subs rsize]. lia. Qed.

(** One level of the search, from a given intermediate result. *)
Fixpoint search (t : N) (l : list rcpt) (found : bool) : bool :=
  match l with
  | [] => found
  | x :: l' =>
    if N.eqb t (r_id x) then true
    else search t l' (match r_subs x with [] => found | _ => has_recipient t (r_subs x) end)
  end.
Lemma has_recipient_search : forall t rs, has_recipient t rs = search t rs false.
Proof.
  intros t rs. rewrite has_recipient_unfold. generalize false. induction rs as [|x rs IH]; intros f; [reflexivity|].
  cbn [search]. destruct (N.eqb t (r_id x)); [reflexivity|]. apply IH.
Qed.

Lemma search_top : forall t l f r, In r l -> r_id r = t -> search t l f = true.
Proof.
  intros t l. induction l as [|x l IH]; intros f r HI HE; [destruct HI|]. cbn [search].
  destruct (N.eqb_spec t (r_id x)) as [|N]; [reflexivity|]. destruct HI as [->|HI]; [congruence|]. eauto.
Qed.

Lemma search_cases : forall t l f, search t l f = true ->
  (exists r, In r l /\ r_id r = t) \/ (exists r, In r l /\ has_recipient t (r_subs r) = true) \/ f = true.
Proof.
  intros t l. induction l as [|x l IH]; intros f H; [auto|]. cbn [search] in H.
  destruct (N.eqb_spec t (r_id x)) as [E|N]; [left; exists x; split; [left; reflexivity|congruence]|].
  apply IH in H as [(r & HI & HE)|[(r & HI & HE)|H]].
  - left. exists r. split; [right; assumption|assumption].
  - right; left. exists r. split; [right; assumption|assumption].
  - destruct (r_subs x) eqn:ES; [auto|]. right; left. exists x. split; [left; reflexivity|]. rewrite ES. assumption.
Qed.

Lemma has_recipient_sound : forall t rs, has_recipient t rs = true -> in_forest t rs.
Proof.
  intros t rs. remember (list_sum (map rsize rs)) as n eqn:En. revert rs En.
  induction n as [n IH] using lt_wf_ind. intros rs -> H. rewrite has_recipient_search in H.
  apply search_cases in H as [(r & HI & HE)|[(r & HI & HE)|H]]; [econstructor 1; eassumption| |discriminate].
  econstructor 2; [eassumption|]. eapply IH; [|reflexivity|assumption].
  pose proof (in_rsize _ _ HI). pose proof (subs_rsize r). lia.
Qed.

(** What the search amounts to. *)
Definition nested (r : rcpt) : bool := match r_subs r with [] => false | _ => true end.
Lemma search_exact : forall t l f,
  search t l f = existsb (fun r => N.eqb t (r_id r)) l ||
    match rev (filter nested l) with
    | [] => f
    | r :: _ => has_recipient t (r_subs r)
    end.
Proof.
  intros t l. induction l as [|x l IH]; intros f; [reflexivity|]. cbn [search existsb filter].
  destruct (N.eqb t (r_id x)); [reflexivity|]. cbn [orb]. rewrite IH. f_equal.
  unfold nested at 2. destruct (r_subs x) eqn:ES; [reflexivity|]. cbn [rev]. rewrite <- ES.
  destruct (rev (filter nested l)); reflexivity.
Qed.

(** ** Mixing *)

Lemma rclass_eqb_eq : forall a b, rclass_eqb a b = true <-> a = b.
Proof. intros [] []; cbn; split; intros; try discriminate; reflexivity. Qed.
Lemma has_class_iff : forall rc rs, has_class rc rs = true <-> exists r, In r rs /\ r_class r = rc.
Proof.
  intros rc rs. unfold has_class. rewrite existsb_exists. split; intros (r & HI & H); exists r; (split; [assumption|]).
  - apply rclass_eqb_eq in H. congruence.
  - apply rclass_eqb_eq. congruence.
Qed.
Lemma has_class_false : forall rc rs, has_class rc rs = false <-> forall r, In r rs -> r_class r <> rc.
Proof.
  intros rc rs. split.
  - intros H r HI E. assert (has_class rc rs = true) by (apply has_class_iff; eauto). congruence.
  - intros H. destruct (has_class rc rs) eqn:E; [|reflexivity]. apply has_class_iff in E as (r & HI & HE). destruct (H r HI HE).
Qed.

Lemma direct_mix : forall rs, has_class RDirect rs && Nat.ltb 1 (n_classes rs) = false <->
  ((exists r, In r rs /\ r_class r = RDirect) -> forall r, In r rs -> r_class r = RDirect).
Proof.
  intros rs. destruct (has_class RDirect rs) eqn:ED; cbn [andb].
  2:{ split; [|reflexivity]. intros _ (r & HI & HE). destruct (proj1 (has_class_false _ _) ED r HI HE). }
  assert (HN : Nat.ltb 1 (n_classes rs) = has_class RKeyWrap rs || has_class RAgree rs || has_class RAgreeKW rs).
  { unfold n_classes. cbn [filter]. rewrite ED.
    destruct (has_class RKeyWrap rs), (has_class RAgree rs), (has_class RAgreeKW rs); reflexivity. }
  rewrite HN. apply has_class_iff in ED. split.
  - intros H _ r HI. apply orb_false_iff in H as [H HW]. apply orb_false_iff in H as [HK HA].
    rewrite has_class_false in HK, HA, HW. specialize (HK r HI). specialize (HA r HI). specialize (HW r HI).
    destruct (r_class r); congruence.
  - intros H. specialize (H ED). repeat (apply orb_false_intro); apply has_class_false; intros r HI; rewrite (H r HI); discriminate.
Qed.

Lemma verify_mix : forall rs, verify_recipients rs = Ok tt <-> may_mix rs.
Proof.
  intros rs. unfold verify_recipients, may_mix. rewrite <- direct_mix.
  destruct (has_class RDirect rs && Nat.ltb 1 (n_classes rs)) eqn:ED; [split; [discriminate|intros [H _]; discriminate]|].
  destruct (has_class RAgree rs) eqn:EA; cbn [andb].
  - pose proof (proj1 (has_class_iff _ _) EA) as HA. destruct (Nat.ltb_spec 1 (length rs)) as [L|L]; split; intros H; try discriminate.
    + destruct H as [_ H]. specialize (H HA). lia.
    + split; [reflexivity|]. intros (r & HI & _). destruct rs; [destruct HI|]. cbn [length] in *. lia.
    + reflexivity.
  - split; [|reflexivity]. intros _. split; [reflexivity|]. intros (r & HI & HE). destruct (proj1 (has_class_false _ _) EA r HI HE).
Qed.
Lemma verify_refused : forall rs e, verify_recipients rs = Err e -> e = CoseException.
Proof.
  intros rs e. unfold verify_recipients. destruct (_ && _); [intros H; injection H; auto|].
  destruct (_ && _); [intros H; injection H; auto|discriminate].
Qed.

(** ** Assigning *)

Lemma append_good : forall l cur, append_recipients cur (map Some l) = (cur ++ l, Ok tt).
Proof.
  induction l as [|r l IH]; intros cur; cbn [map append_recipients]; [rewrite app_nil_r; reflexivity|].
  rewrite IH, <- app_assoc. reflexivity.
Qed.
Lemma append_bad : forall good cur bad, append_recipients cur (map Some good ++ None :: bad) = (cur ++ good, Err TypeError).
Proof.
  induction good as [|r l IH]; intros cur bad; cbn [map append_recipients app]; [rewrite app_nil_r; reflexivity|].
  rewrite IH, <- app_assoc. reflexivity.
Qed.
Lemma assign_lists : forall ls m, e_rcpts (assign m (map (fun l => Some (map Some l)) ls)) = e_rcpts m ++ concat ls.
Proof.
  induction ls as [|l ls IH]; intros m; [cbn; rewrite app_nil_r; reflexivity|]. cbn [map]. unfold assign in *. cbn [fold_left].
  rewrite IH. unfold enc_set_recipients, set_recipients. rewrite append_good. cbn [fst e_rcpts concat]. rewrite <- app_assoc. reflexivity.
Qed.
Lemma assign_app : forall m a b, assign m (a ++ b) = assign (assign m a) b.
Proof. intros. unfold assign. apply fold_left_app. Qed.

Section Rcpt.
Variable X : crypto.

(** ** Decoded recipients *)

Lemma from_obj_subs : forall allow ctx id rc v r, rcpt_from_obj X allow ctx id rc v = Ok r -> r_subs r = [] /\ r_id r = id /\ r_class r = rc.
Proof.
  intros allow ctx id rc v r H. unfold rcpt_from_obj in H. destruct v; try discriminate.
  apply bind_ok in H as ([c rest] & _ & H). destruct rc.
  - destruct (negb _); [discriminate|]. apply bind_ok in H as (a & _ & H). destruct (_ && _); [discriminate|]. injection H as <-. auto.
  - apply bind_ok in H as (a & _ & H). apply bind_ok in H as (kw & _ & H). destruct (_ && _); [discriminate|].
    destruct (match payload c with Some [] => true | _ => false end); [discriminate|]. injection H as <-. auto.
  - apply bind_ok in H as (a & _ & H). apply bind_ok in H as (es & _ & H). apply bind_ok in H as (ms & _ & H).
    destruct ms; [discriminate|]. injection H as <-. auto.
  - destruct (match payload c with Some [] => true | _ => false end); [discriminate|]. injection H as <-. auto.
Qed.

Lemma create_subs : forall allow ctx id v r, create_recipient X allow ctx id v = Ok r -> r_subs r = [] /\ r_id r = id.
Proof.
  intros allow ctx id v r H. unfold create_recipient in H. apply bind_ok in H as (r0 & _ & H). apply bind_ok in H as (pa & _ & H).
  apply bind_ok in H as (r1 & _ & H). apply bind_ok in H as (d & _ & H). destruct (is_none _); [discriminate|].
  apply bind_ok in H as (rc & _ & H). apply from_obj_subs in H. tauto.
Qed.

Lemma create_all_subs : forall allow ctx l id rs, create_all X allow ctx id l = Ok rs ->
  Forall (fun r => r_subs r = []) rs /\ length rs = length l.
Proof.
  intros allow ctx l. induction l as [|v l IH]; intros id rs H; cbn [create_all] in H; [injection H as <-; auto|].
  apply bind_ok in H as (r & HR & H). apply bind_ok in H as (rs' & HS & H). injection H as <-.
  apply IH in HS as [H1 H2]. apply create_subs in HR as [HR _]. split; [constructor; assumption|cbn [length]; congruence].
Qed.

Lemma enc_decoded : forall e allow b m, decode X e allow (VBytes b) = Ok (MEnc m) ->
  exists obj c rest, loads_bytes b = Ok (VTag 96 (VList obj)) /\ core_from_obj X allow obj = Ok (c, rest) /\ e_core m = c /\
    exists o, recipients_from X allow "Enc_Recipient" rest = Ok o /\ e_rcpts m = match o with Some rs => rs | None => [] end.
Proof.
  intros e allow b m H. unfold decode in H. change (loads (VBytes b)) with (loads_bytes b) in H.
  destruct (loads_bytes b) as [v|]; [|discriminate]. destruct v; try discriminate. destruct v; try discriminate.
  apply bind_ok in H as (m0 & HM & H).
  assert (m0 = MEnc m) by (destruct e as [t'|]; [destruct (N.eqb _ _); [congruence|discriminate]|congruence]). subst m0. clear H.
  unfold from_cose_obj in HM.
  repeat match type of HM with
  | (if N.eqb ?t ?k then _ else _) = _ => destruct (N.eqb_spec t k) as [->|]; [try (apply bind_ok in HM as (? & _ & HM); discriminate)|]
  end; try discriminate.
  apply bind_ok in HM as (m1 & HM & E). injection E as <-. unfold enc_from_obj in HM. apply bind_ok in HM as ([c rest] & HC & HM).
  apply bind_ok in HM as (o & HO & HM). injection HM as <-. exists l, c, rest. cbn [e_core e_rcpts]. eauto 10.
Qed.

Lemma mac_decoded : forall e allow b m, decode X e allow (VBytes b) = Ok (MMac m) ->
  exists obj c t rest, loads_bytes b = Ok (VTag 97 (VList obj)) /\ core_from_obj X allow obj = Ok (c, t :: rest) /\ mm_core m = c /\
    mm_tag m = t /\ recipients_from X allow "Mac_Recipient" rest = Ok (mm_rcpts m).
Proof.
  intros e allow b m H. unfold decode in H. change (loads (VBytes b)) with (loads_bytes b) in H.
  destruct (loads_bytes b) as [v|]; [|discriminate]. destruct v; try discriminate. destruct v; try discriminate.
  apply bind_ok in H as (m0 & HM & H).
  assert (m0 = MMac m) by (destruct e as [t'|]; [destruct (N.eqb _ _); [congruence|discriminate]|congruence]). subst m0. clear H.
  unfold from_cose_obj in HM.
  repeat match type of HM with
  | (if N.eqb ?t ?k then _ else _) = _ => destruct (N.eqb_spec t k) as [->|]; [try (apply bind_ok in HM as (? & _ & HM); discriminate)|]
  end; try discriminate.
  apply bind_ok in HM as (m1 & HM & E). injection E as <-. unfold mac_from_obj in HM. apply bind_ok in HM as ([c rest] & HC & HM).
  destruct rest as [|t rest]; [discriminate|]. apply bind_ok in HM as (o & HO & HM). injection HM as <-.
  exists l, c, t, rest. cbn [mm_core mm_tag mm_rcpts]. auto.
Qed.

Lemma recipients_from_some : forall allow ctx rest rs, recipients_from X allow ctx rest = Ok (Some rs) ->
  exists v l, nth_error rest 0 = Some v /\ py_iter v = Ok l /\ create_all X allow (VStr (bs ctx)) 0 l = Ok rs.
Proof.
  intros allow ctx rest rs H. unfold recipients_from in H. destruct rest as [|v rest].
  - cbn in H. discriminate.
  - destruct (py_iter v) as [l|e] eqn:EI; cbn [bind] in H.
    + destruct (create_all X allow (VStr (bs ctx)) 0 l) as [rs'|e] eqn:EC.
      * injection H as <-. exists v, l. auto.
      * destruct (_ || _); discriminate.
    + destruct (_ || _); discriminate.
Qed.

Lemma recipients_from_subs : forall allow ctx rest o, recipients_from X allow ctx rest = Ok o ->
  Forall (fun r => r_subs r = []) (match o with Some rs => rs | None => [] end).
Proof.
  intros allow ctx rest [rs|] H; [|constructor]. apply recipients_from_some in H as (v & l & _ & _ & H).
  apply create_all_subs in H as [H _]. exact H.
Qed.

(** A message decodes like one without recipients if its recipients raise IndexError or
    ValueError. *)
Lemma decode_swallow : forall e allow b b0 x y z v rest err,
  loads_bytes b0 = Ok (VTag 96 (VList [x; y; z])) ->
  loads_bytes b = Ok (VTag 96 (VList (x :: y :: z :: v :: rest))) ->
  bind (py_iter v) (create_all X allow (VStr (bs "Enc_Recipient")) 0) = Err err ->
  is_value_error err || match err with IndexError => true | _ => false end = true ->
  decode X e allow (VBytes b) = decode X e allow (VBytes b0).
Proof.
  intros e allow b b0 x y z v rest err H0 H HC HE. unfold decode. change (loads (VBytes b)) with (loads_bytes b).
  change (loads (VBytes b0)) with (loads_bytes b0). rewrite H, H0. cbn [from_cose_obj N.eqb Pos.eqb]. unfold enc_from_obj.
  unfold core_from_obj. destruct (core_init X _) as [c|err']; [|reflexivity]. cbn [bind].
  destruct (check_payload z) as [pl|err']; [|reflexivity]. cbn [bind]. unfold recipients_from.
  change (fun l => create_all X allow (VStr (bs "Enc_Recipient")) 0 l) with (create_all X allow (VStr (bs "Enc_Recipient")) 0).
  rewrite HC, HE. reflexivity.
Qed.

(** ** Operations that always fail *)

Lemma bind_err : forall A B (r : result A) (f : A -> result B), (forall a, exists e, f a = Err e) -> exists e, bind r f = Err e.
Proof. intros A B [a|e] f H; cbn [bind]; eauto. Qed.

(** A recipient without a key, whatever is nested in it. *)
Lemma kw_no_key : forall n c subs, ckey c = None -> exists e, kw_encrypt X n c subs = Err e.
Proof.
  intros n c subs HK. unfold kw_encrypt. apply bind_err. intros a. destruct (negb _); [eauto|]. destruct (is_none a); [eauto|].
  apply bind_err. intros [].
  - assert (HE : exists e, kw_kek_encrypt c subs = Err e).
    { unfold kw_kek_encrypt. rewrite HK. destruct subs; [eauto|]. apply bind_err. intros _. destruct (has_class RAgree _); [eauto|].
      destruct (_ || _); [|eauto]. apply bind_err. eauto. }
    destruct HE as [e ->]. cbn [bind]. eauto.
  - apply bind_err. intros []; [|eauto]. rewrite HK. eauto.
Qed.
Lemma kw_no_key_decrypt : forall id c ctx subs, ckey c = None -> exists e, rcpt_decrypt X (Rcpt id RKeyWrap c ctx subs) = Err e.
Proof.
  intros id c ctx subs HK. cbn [rcpt_decrypt]. apply bind_err. intros a. apply bind_err. intros [].
  - rewrite HK. destruct subs as [|s subs]; [cbn [bind]; eauto|].
    match goal with |- exists e, bind ?r ?f = Err e => assert (HE : exists e, r = Err e) end.
    { apply bind_err. intros _. destruct (_ || _); [|eauto]. apply bind_err. intros _. apply bind_err. eauto. }
    destruct HE as [e ->]. cbn [bind]. eauto.
  - apply bind_err. intros []; [|eauto]. rewrite HK. eauto.
Qed.

Lemma agree_no_key : forall c target dec, ckey c = None -> exists e, agree_compute_cek X c target dec = Err e.
Proof.
  intros c target dec HK. unfold agree_compute_cek. apply bind_err. intros a. apply bind_err. intros []; cbn [negb]; [|eauto].
  apply bind_err. intros pk. destruct (is_none pk); [eauto|]. apply bind_err. intros p. apply bind_err. intros _. rewrite HK.
  cbn [bind]. eauto.
Qed.

Lemma macm_wrapped : forall n m rs, mm_rcpts m = Some rs -> key_wrapped rs -> exists e, snd (macm_compute_tag X n m) = Err e.
Proof.
  intros n m rs HR [HN HK]. unfold macm_compute_tag. destruct (get_attr _ _) as [t|e]; [|cbn [snd]; eauto]. rewrite HR.
  destruct (verify_recipients rs) as [[]|e]; [|cbn [snd]; eauto].
  assert (HD : has_class RDirect rs = false) by (apply has_class_false; intros r HI; destruct (HK r HI) as [-> | ->]; discriminate).
  assert (HA : has_class RAgree rs = false) by (apply has_class_false; intros r HI; destruct (HK r HI) as [-> | ->]; discriminate).
  rewrite HD, HA. destruct (_ || _); [|cbn [snd]; eauto]. destruct (get_key_length t) as [len|e]; [|cbn [snd]; eauto].
  destruct (cek_loop X _ _ rs) as [[n' rs'] [kb|e]]; cbn [snd]; eauto.
Qed.
Lemma macm_encode_wrapped : forall n m rs tag, mm_rcpts m = Some rs -> key_wrapped rs -> exists e, snd (macm_encode X n m tag true) = Err e.
Proof.
  intros n m rs tag HR HK. unfold macm_encode. destruct (phdr_encoded _) as [p|e]; [|cbn [snd]; eauto].
  destruct (macm_wrapped n m rs HR HK) as [e HE]. destruct (macm_compute_tag X n m) as [[n1 m1] r]. cbn [snd] in HE. subst r.
  cbn [bind snd]. eauto.
Qed.

Lemma encm_agree_no_key : forall n m r tag, e_rcpts m = [r] -> r_class r = RAgree -> ckey (r_core r) = None ->
  exists e, snd (encm_encode X n m tag true) = Err e.
Proof.
  intros n m r tag HR HC HK. unfold encm_encode. destruct (phdr_encoded _) as [p|e]; [|cbn [snd]; eauto].
  unfold encm_encrypt. destruct (bind (get_attr _ _) _) as [t|e]; [|cbn [snd bind]; eauto]. rewrite HR.
  unfold has_class. cbn [existsb]. rewrite HC. cbn [rclass_eqb orb]. unfold compute_cek. rewrite HC.
  destruct (agree_no_key (r_core r) t false HK) as [e HE]. rewrite HE. cbn [bind snd]. eauto.
Qed.

(** ** Ephemeral keys *)

Lemma generated : forall n crv k, ec2_generate X n crv VNone = Ok k -> exists c x y d,
  from_id FCrv false crv = Ok (VClass (Cls FCrv c)) /\ curve_key_type c = KtyEC2 /\ portable X k /\ k_cls k = KEC2 /\
  param k EC2KpCurve = Some (VClass (Cls FCrv c)) /\ bytes_param k EC2KpX x /\ bytes_param k EC2KpY y /\ bytes_param k EC2KpD d /\
  x_ec_pub X c (of_be d) = Ok (of_be x, of_be y).
Proof.
  intros n crv k H. unfold ec2_generate in H. apply bind_ok in H as (cv & HC & H). destruct cv as [| | | | | | | | | | | | | |cv|]; try discriminate.
  destruct (veqb _ _) eqn:EV; [|discriminate]. apply bind_ok in H as ([px py] & HP & H).
  assert (HK : curve_key_type (c_id cv) = KtyEC2) by (apply veqb_eq; exact EV).
  destruct (crv_of _ _ HC) as [nm HR].
  assert (Ecv : cv = Cls FCrv (c_id cv)) by
    (cbn in HR; repeat (destruct HR as [HR|HR]; [injection HR as <- <-; reflexivity|]); destruct HR).
  exists (c_id cv). rewrite <- Ecv.
  pose proof H as HImp. apply ec2_import in HImp as (P1 & (bx & P2 & _ & Ex) & (by_ & P3 & _ & Ey) & (bd & P4 & _ & Ed)); [|exact HK].
  exists bx, by_, bd. split; [exact HC|]. split; [exact HK|].
  unfold ec2_from_ext in H. apply bind_ok in H as (bx' & HX & H). apply bind_ok in H as (by' & HY & H). apply bind_ok in H as (d' & HD & H).
  apply bind_ok in HD as (bd' & HD & HE). injection HE as <-.
  assert (HI : ec2_init X (VClass (Cls FCrv (c_id cv))) (VBytes bx') (VBytes by') (VBytes bd') (VDict []) true = Ok k) by exact H.
  split; [eapply ec2_built; [|exact HI]; right; exists []; split; [reflexivity|apply Forall_nil]|].
  split; [apply ec2_init_store in HI as (? & ? & ? & ? & ? & _ & _ & _ & _ & _ & _ & _ & _ & ->); reflexivity|].
  rewrite <- Ecv in P1. unfold bytes_param. repeat (split; [assumption|]). rewrite Ex, Ey, Ed. exact HP.
Qed.

(** The key without its private part. *)
Definition public_part (k : key) : key := Key (k_cls k) (ddel (k_store k) (VClass EC2KpD)) (k_extra k).

Lemma ddel_in : forall d a e, In e (ddel d a) -> In e d.
Proof.
  induction d as [|[b v] d IH]; intros a e H; [destruct H|]. cbn [ddel] in H. destruct (keyeq a b); [right; assumption|].
  destruct H as [H|H]; [left; assumption|right; eauto].
Qed.

Lemma public_portable : forall k, portable X k -> k_cls k = KEC2 -> portable X (public_part k).
Proof.
  intros [c s e] (HE & HD & HK & HF & HC) E. cbn [k_cls k_store k_extra] in *. subst c. unfold public_part. cbn [k_cls k_store k_extra].
  rewrite distinct_keys_dnodup in HD.
  assert (HP : forall p, p <> EC2KpD -> param (Key KEC2 (ddel s (VClass EC2KpD)) e) p = param (Key KEC2 s e) p).
  { intros p HN. unfold param. cbn [k_store]. apply dget_ddel_other. apply keyeq_ne_class. congruence. }
  split; [exact HE|]. split; [cbn [k_store]; rewrite distinct_keys_dnodup; apply dnodup_ddel; exact HD|].
  split; [unfold has in *; rewrite HP by discriminate; exact HK|].
  split; [cbn [k_cls k_store]; rewrite Forall_forall in *; intros x HI; apply HF; eapply ddel_in; exact HI|].
  cbn [components k_cls] in *. destruct HC as (cv & x & y & H1 & H2 & H3 & _). exists cv, x, y. unfold bytes_param in *.
  rewrite !HP by discriminate. repeat (split; [assumption|]). intros d Hd. unfold param in Hd. cbn [k_store] in Hd.
  rewrite dget_ddel_same in Hd by (try assumption; apply keyeq_refl). discriminate.
Qed.

(** The state of a recipient after its ephemeral key was generated. *)
Lemma setup_ephemeral_ok : forall n c pk c', setup_ephemeral X n c pk = (c', Ok tt) ->
  exists k, c' = with_uhdr (with_key c (Some k)) (dset (uhdr c) EphemeralKey (VDict (k_store (public_part k)))) /\
    get_attr c EphemeralKey = Ok VNone /\
    exists p crv, peer pk = Ok p /\ prop_get p PCrv = Ok crv /\ ec2_generate X n crv VNone = Ok k.
Proof.
  intros n c pk c' H. unfold setup_ephemeral in H.
  destruct (bind (peer pk) _) as [k|e] eqn:EG; [|discriminate].
  destruct (get_attr (with_key c (Some k)) EphemeralKey) as [v|e] eqn:EA; [|discriminate].
  destruct (is_none v) eqn:EN; cbn [negb] in H; [|discriminate]. destruct (dmem _ _); [|discriminate].
  injection H as <-. apply bind_ok in EG as (p & HP & EG). apply bind_ok in EG as (crv & HC & EG).
  exists k. split; [reflexivity|]. split; [destruct v; try discriminate; exact EA|]. eauto.
Qed.

Definition sent_ephemeral (c c' : core) : Prop :=
  exists k, ckey c' = Some k /\ portable X k /\ k_cls k = KEC2 /\ has k EC2KpD /\
    uhdr c' = dset (uhdr c) EphemeralKey (VDict (k_store (public_part k))) /\ get_attr c EphemeralKey = Ok VNone.

Lemma setup_sent : forall n c pk c', setup_ephemeral X n c pk = (c', Ok tt) -> sent_ephemeral c c'.
Proof.
  intros n c pk c' H. apply setup_ephemeral_ok in H as (k & -> & HA & p & crv & _ & _ & HG).
  apply generated in HG as (cv & x & y & d & _ & _ & HPo & HC & _ & _ & _ & HD & _). exists k. cbn [ckey uhdr with_uhdr with_key].
  repeat (split; [first [reflexivity|assumption]|]). split; [|split; [reflexivity|exact HA]].
  unfold has. rewrite HD. discriminate.
Qed.

Lemma kakw_encrypt_state : forall n c c' w, kakw_encrypt X n c = (c', Ok w) ->
  (ckey c <> None /\ c' = c) \/ (ckey c = None /\ exists pk, setup_ephemeral X n c pk = (c', Ok tt)).
Proof.
  intros n c c' w H. unfold kakw_encrypt in H. destruct (is_none _); [discriminate|].
  destruct (get_attr c Algorithm) as [a|e]; [|discriminate]. destruct (is_none a); [discriminate|].
  destruct (ckey c) as [k|].
  - injection H as <- _. left. split; [discriminate|reflexivity].
  - right. split; [reflexivity|]. destruct (alg_in a es_kw) as [[]|e].
    + destruct (setup_ephemeral X n c _) as [c1 r] eqn:ES. injection H as <- H. exists (dget_or (local c) StaticKey VNone).
      rewrite ES. destruct r as [[]|e]; [reflexivity|discriminate].
    + injection H as _ H. discriminate.
    + injection H as _ H. discriminate.
Qed.

(** ** Encoding a recipient *)

Definition finish (id : N) (rc : rclass) (ctx : pyval) (subs : list rcpt) (n : N) (c : core) (items : list pyval)
  : (N * rcpt) * result pyval :=
  match subs with
  | [] => ((n, Rcpt id rc c ctx subs), Ok (VList items))
  | _ =>
    match rcpts_encode X n subs with
    | ((n', s'), Err e) => ((n', Rcpt id rc c ctx s'), Err e)
    | ((n', s'), Ok vs) => ((n', Rcpt id rc c ctx s'), Ok (VList (items ++ [VList vs])))
    end
  end.

Lemma rcpts_encode_go : forall l n,
  (fix go (n : N) (l : list rcpt) : (N * list rcpt) * result (list pyval) :=
     match l with
     | [] => ((n, []), Ok [])
     | x :: l' =>
       match rcpt_encode X n x with
       | ((n1, x'), Err e) => ((n1, x' :: l'), Err e)
       | ((n1, x'), Ok v) =>
         match go n1 l' with
         | ((n2, l''), Err e) => ((n2, x' :: l''), Err e)
         | ((n2, l''), Ok vs) => ((n2, x' :: l''), Ok (v :: vs))
         end
       end
     end) n l = rcpts_encode X n l.
Proof. reflexivity. Qed.

Lemma encode_kw : forall n id c ctx subs, rcpt_encode X n (Rcpt id RKeyWrap c ctx subs) =
  match bind (phdr_encoded c) (fun p => bind (kw_encrypt X n c subs) (fun w => Ok (p, w))) with
  | Err e => ((N.succ n, Rcpt id RKeyWrap c ctx subs), Err e)
  | Ok (p, w) => finish id RKeyWrap ctx subs (N.succ n) c [VBytes p; VDict (uhdr c); VBytes w]
  end.
Proof. reflexivity. Qed.

Lemma encode_kakw : forall n id c ctx subs, rcpt_encode X n (Rcpt id RAgreeKW c ctx subs) =
  match bind (phdr_encoded c) (fun p => bind (get_attr c Algorithm) (fun a => bind (get_key_wrap_func a) (fun _ => Ok p))) with
  | Err e => ((n, Rcpt id RAgreeKW c ctx subs), Err e)
  | Ok p =>
    match kakw_encrypt X n c with
    | (c1, Err e) => ((N.succ n, Rcpt id RAgreeKW c1 ctx subs), Err e)
    | (c1, Ok w) => finish id RAgreeKW ctx subs (N.succ n) c1 [VBytes p; VDict (uhdr c1); VBytes w]
    end
  end.
Proof. reflexivity. Qed.

Lemma finish_ok : forall id rc ctx subs n c items n' r' v, finish id rc ctx subs n c items = ((n', r'), Ok v) ->
  exists subs' tail, r' = Rcpt id rc c ctx subs' /\ v = VList (items ++ tail) /\ (subs = [] -> subs' = [] /\ tail = []).
Proof.
  intros id rc ctx subs n c items n' r' v H. unfold finish in H. destruct subs as [|s subs].
  - injection H as _ <- <-. exists [], []. rewrite app_nil_r. auto.
  - destruct (rcpts_encode X n (s :: subs)) as [[n1 s'] [vs|e]]; [|discriminate]. injection H as _ <- <-.
    exists s', [VList vs]. repeat (split; [reflexivity|]). discriminate.
Qed.

(** What a recipient's encoding consists of. *)
Definition emitted (n : N) (r r' : rcpt) (v : pyval) : Prop :=
  exists p w tail, v = VList (VBytes p :: VDict (uhdr (r_core r')) :: VBytes w :: tail) /\
    phdr_encoded (r_core r) = Ok p /\ r_id r' = r_id r /\ r_class r' = r_class r /\ (r_subs r = [] -> tail = []) /\
    match r_class r with
    | RDirect => r' = r /\ w = [] /\ exists a, get_attr (r_core r) Algorithm = Ok a /\ (veqb a (algc (-6)) = true -> phdr (r_core r) = [])
    | RKeyWrap => r_core r' = r_core r /\ kw_encrypt X n (r_core r) (r_subs r) = Ok w
    | RAgree => w = [] /\
        (exists a, get_attr (r_core r) Algorithm = Ok a /\
          ((exists e, get_attr (r_core r') EphemeralKey = Ok e /\ is_none e = false) \/ alg_in a es_hkdf = Ok false)) /\
        ((ckey (r_core r) <> None /\ r_core r' = r_core r) \/
         (ckey (r_core r) = None /\ exists pk, setup_ephemeral X n (r_core r) pk = (r_core r', Ok tt)))
    | RAgreeKW => kakw_encrypt X n (r_core r) = (r_core r', Ok w)
    end.

Lemma encode_emits : forall n r n' r' v, rcpt_encode X n r = ((n', r'), Ok v) -> emitted n r r' v.
Proof.
  intros n [id rc c ctx subs] n' r' v H. destruct rc.
  - cbn [rcpt_encode] in H. injection H as _ <- H. apply bind_ok in H as (a & HA & H).
    destruct (veqb a (algc (-6)) && negb (Nat.eqb (length (phdr c)) 0)) eqn:E; [discriminate|]. destruct (is_none a); [discriminate|].
    destruct (negb (Nat.eqb (length subs) 0)); [discriminate|]. apply bind_ok in H as (p & HP & H). injection H as <-.
    exists p, [], []. cbn [r_core r_class r_id r_subs]. repeat (split; [auto|]). exists a. split; [exact HA|]. intros V. rewrite V in E.
    destruct (phdr c); [reflexivity|discriminate].
  - rewrite encode_kw in H. destruct (bind (phdr_encoded c) _) as [[p w]|e] eqn:EB; [|discriminate].
    apply bind_ok in EB as (p' & HP & EB). apply bind_ok in EB as (w' & HW & EB). injection EB as <- <-.
    apply finish_ok in H as (s' & tail & -> & -> & HT). exists p', w', tail. cbn [app r_core r_class r_id r_subs].
    repeat (split; [first [reflexivity|assumption]|]). split; [intros E; apply HT; exact E|]. auto.
  - cbn [rcpt_encode] in H.
    destruct (bind (get_attr c Algorithm) _) as [[a pk]|e] eqn:EB; [|discriminate].
    apply bind_ok in EB as (a' & HA & EB). destruct (is_none a'); [discriminate|]. destruct (is_none _); [discriminate|].
    injection EB as <- <-. set (pk := dget_or (local c) StaticKey VNone) in *.
    match type of H with (let '(c1, res) := ?st in _) = _ => destruct st as [c1 res] eqn:ES end.
    destruct (bind res _) as [p|e] eqn:EB; [|discriminate].
    assert (HF : finish id RAgree ctx subs (N.succ n) c1 [VBytes p; VDict (uhdr c1); VBytes []] = ((n', r'), Ok v)) by exact H.
    clear H. apply finish_ok in HF as (s' & tail & -> & -> & HT).
    apply bind_ok in EB as ([] & -> & EB). destruct (Nat.ltb 1 (length subs)); [discriminate|].
    apply bind_ok in EB as (e & HE & EB). apply bind_ok in EB as (es & HEs & EB). destruct es; [discriminate|].
    assert (HPC : phdr_encoded c1 = phdr_encoded c /\ ((ckey c <> None /\ c1 = c) \/
         (ckey c = None /\ exists pk, setup_ephemeral X n c pk = (c1, Ok tt)))).
    { destruct (ckey c) eqn:EK.
      - injection ES as <-. split; [reflexivity|]. left. split; [discriminate|reflexivity].
      - destruct (alg_in a' es_hkdf) as [[]|]; try discriminate. split; [|right; split; [reflexivity|exists pk; exact ES]].
        apply setup_ephemeral_ok in ES as (k & -> & _). reflexivity. }
    destruct HPC as [HP HC]. rewrite HP in EB.
    exists p, [], tail. cbn [app r_core r_class r_id r_subs]. repeat (split; [first [reflexivity|assumption]|]).
    split; [intros E; apply HT; exact E|]. split; [reflexivity|]. split; [|exact HC].
    exists a'. split; [exact HA|]. destruct (is_none e) eqn:EN; [right; exact HEs|left; exists e; auto].
  - rewrite encode_kakw in H. destruct (bind (phdr_encoded c) _) as [p|e] eqn:EB; [|discriminate].
    apply bind_ok in EB as (p' & HP & EB). apply bind_ok in EB as (a & HA & EB). apply bind_ok in EB as (f & HF & EB). injection EB as <-.
    destruct (kakw_encrypt X n c) as [c1 [w|e]] eqn:EK; [|discriminate].
    apply finish_ok in H as (s' & tail & -> & -> & HT). exists p', w, tail. cbn [app r_core r_class r_id r_subs].
    repeat (split; [first [reflexivity|assumption]|]). split; [intros E; apply HT; exact E|]. assumption.
Qed.
End Rcpt.
