(** Proofs for C105: the exceptions of [encode] for recipients of any class. *)
From Coq Require Import NArith ZArith Bool String Lia.
From Coq Require Import Init.Byte List.
From Verif Require Import Bytes Value ValueProofs Cbor Registry RegistryProofs Crypto SpecCrypto Keys Algorithms Headers Messages Recipients
  SpecRegistry SpecKeys SpecGen SpecStruct SpecAlg SpecAccept SpecCheck SpecSend SpecRcpt SpecIncomplete SpecIncomplete2 SpecIncomplete3
  KeyProofs2 KeyProofs3 MsgTrip AcceptProofs GenProofs CheckProofs CheckProofs2 SendProofs RcptProofs RcptTrip SpecRcptTrip RcptTrip2 CekProofs SendAgree IncProofs IncProofs2 IncProofs3 IncProofs4 AgainProofs.
Import ListNotations.
Local Open Scope result_scope.

Section Inc.
Variable X : crypto.

Definition fine {A} (r : result A) : Prop := match r with Ok _ => True | Err x => is_cose_exception x = true \/ other_exception X x end.

Lemma fine_bind : forall A B (r : result A) (f : A -> result B), fine r -> (forall a, r = Ok a -> fine (f a)) -> fine (bind r f).
Proof. intros A B [a|x] f HR HF; [exact (HF a eq_refl)|exact HR]. Qed.
Lemma fine_five : forall A x, In x [AttributeError; ValueError; TypeError; CBOREncodeTypeError; OverflowError] -> fine (Err x : result A).
Proof. intros A x H. right. right. exact H. Qed.
Lemma fine_attr : forall A (r : result A), (forall x, r = Err x -> is_cose_exception x = true \/ In x attr_exns) -> fine r.
Proof. intros A [a|x] H; [exact I|]. destruct (H x eq_refl) as [HX|HX]; [left; exact HX|apply fine_five; cbn in HX |- *; tauto]. Qed.
Lemma fine_get : forall c h, fine (get_attr c h).
Proof. intros c h. apply fine_attr. intros x H. apply get_attr_err in H. subst x. left. reflexivity. Qed.
Lemma fine_in : forall a l, fine (alg_in a l).
Proof. intros a l. unfold alg_in. destruct (hashable a); [exact I|apply fine_five; cbn; auto]. Qed.
Lemma fine_never : forall A (r : result A), only never r -> fine r.
Proof. intros A [a|x] H; [exact I|]. destruct H as [-> |[]]. apply fine_five. cbn. auto 8. Qed.
Ltac one := apply fine_five; cbn; auto 8.

Lemma fine_length : forall a, fine (get_key_length a).
Proof.
  intros a. unfold get_key_length. destruct (alg_kind a) as [[]|]; try exact I; try one.
  unfold kw_length. destruct (alg_kind _) as [[]|]; try exact I; one.
Qed.

Lemma fine_kdf : forall k, fine (kdf_encode k).
Proof.
  intros k. unfold kdf_encode. destruct (identifier_of _); [|one]. apply fine_bind.
  - destruct (dumps _ _ _) as [b|x] eqn:E; [exact I|]. apply dumps_err in E as [[[-> _]|[-> _]]| ->]; one.
  - intros prot _. cbv zeta. unfold dumps_plain. destruct (dumps _ _ _) as [b|x] eqn:E; [exact I|]. apply dumps_err in E as [[-> _]| ->]; one.
Qed.

Lemma fine_kek : forall c t pk lk a, fine (agree_kek X c t pk lk a).
Proof.
  intros c t pk lk a. unfold agree_kek. apply fine_bind; [unfold kex_hash; destruct (alg_kind a) as [[]|]; try exact I; one|]. intros h0 _.
  apply fine_bind; [unfold peer; destruct (as_key pk); [exact I|one]|]. intros p _. apply fine_bind; [apply fine_attr; intros x; apply prop_get_err|]. intros crv _.
  apply fine_bind.
  { unfold get_kdf_context. do 6 (apply fine_bind; [apply fine_get|intros ? _]). apply fine_bind; [apply fine_length|]. intros; exact I. }
  intros k _. apply fine_bind; [destruct lk; [exact I|one]|]. intros l _. unfold derive_kek.
  apply fine_bind; [unfold kex_hash; destruct (alg_kind a) as [[]|]; try exact I; one|]. intros h _. apply fine_bind.
  - unfold ecdh. do 3 (apply fine_bind; [apply fine_attr; intros x; apply attr_hex_err|intros ? _]).
    destruct crv as [| | | | | | | | | | | | | |[f cz]|]; try one. destruct f; try one. destruct (veqb _ _); [|one].
    match goal with |- fine ?e => destruct e eqn:E; [exact I|right; left; right; right; left; eauto 8] end.
  - intros s _. apply fine_bind; [apply fine_kdf|]. intros i _.
    match goal with |- fine ?e => destruct e eqn:E; [exact I|right; left; right; right; right; eauto 8] end.
Qed.

Lemma fine_wrap : forall n wf kek d, fine (alg_key_wrap X n wf kek d).
Proof.
  intros n wf kek d. unfold alg_key_wrap. destruct (alg_kind wf) as [[]|]; try one.
  - apply fine_bind.
    { unfold rsa_public_numbers. do 2 (apply fine_bind; [apply fine_attr; intros x; apply attr_int_err|intros ? _]). exact I. }
    intros b _. apply fine_bind; [apply fine_attr; intros x H; right; eapply as_bytes_exn; exact H|]. intros p _.
    match goal with |- fine ?e => destruct e eqn:E; [exact I|right; left; right; left; right; eauto 8] end.
  - apply fine_bind.
    { unfold kw_key. apply fine_bind; [apply fine_attr; intros x; apply prop_get_err|]. intros v _. apply fine_bind; [unfold py_len; destruct v; try exact I; one|].
      intros m _. destruct (Nat.eqb _ _); [|one]. apply fine_attr. intros x H. right. eapply as_bytes_exn. exact H. }
    intros b _. apply fine_bind; [apply fine_attr; intros x H; right; eapply as_bytes_exn; exact H|]. intros p _.
    match goal with |- fine ?e => destruct e eqn:E; [exact I|right; left; right; left; left; eauto 8] end.
Qed.

Lemma fine_sym : forall b t, fine (sym_with (VBytes b) t [DeriveKeyOp]).
Proof.
  intros b t. unfold sym_with, sym_init, common_init. cbn [opt_items bind transform_params].
  assert (E : from_id (param_fam KSym) true (VClass KpAlg) = Ok (VClass KpAlg)) by (vm_compute; reflexivity). rewrite E. cbn [bind]. clear E.
  change (parse_kp (VClass KpAlg) t) with (from_id FAlg false t). destruct (from_id FAlg false t) as [t'|x] eqn:E; cbn [bind].
  2: { apply from_id_err in E. subst x. left. reflexivity. }
  match goal with |- fine (bind ?e _) => assert (HE : exists k, e = Ok k) by (eexists; vm_compute; reflexivity) end.
  destruct HE as [k ->]. cbn [bind]. destruct (veqb _ _); [left; reflexivity|]. unfold set_k. destruct (existsb _ _); [exact I|left; reflexivity].
Qed.

(** ** Ephemeral keys *)

Lemma fine_generate : forall n crv, law_ec_gen X -> fine (ec2_generate X n crv VNone).
Proof.
  intros n crv HG. unfold ec2_generate. destruct (from_id FCrv false crv) as [v|x] eqn:E; cbn [bind]; [|apply from_id_err in E; subst x; left; reflexivity].
  destruct (from_id_cases _ _ _ _ E) as [(c & nm & HI & HS & ->)|[(EF & _)|(l & l' & _ & -> & _)]]; [|discriminate|one].
  destruct c as [f z]. cbn [c_id]. assert (f = FCrv) by (clear - HI; cbn in HI; repeat (destruct HI as [HI|HI]; [injection HI as <- _ _; reflexivity|]); destruct HI). subst f.
  destruct (curve_key_types z) as [(HK & size & HC)|[(HK & _)|HK]]; [|rewrite HK; left; reflexivity|rewrite HK; left; reflexivity].
  destruct (ec2_generate_ok X n z size nm crv HG HC HI HS) as (k & x & y & HO & _). unfold ec2_generate in HO. rewrite E in HO. cbn [bind c_id] in HO. rewrite HO. exact I.
Qed.

Lemma fine_setup : forall n c pk, law_ec_gen X -> sendable_headers c ->
  match setup_ephemeral X n c pk with
  | (c1, r) => fine r /\ (r = Ok tt -> but_ephemeral c c1 /\ sendable_headers c1)
  end.
Proof.
  intros n c pk HG HH. destruct (setup_ephemeral X n c pk) as [c1 r] eqn:ES. split.
  - unfold setup_ephemeral in ES. destruct (bind (peer pk) _) as [k|x] eqn:E.
    + apply bind_ok in E as (p & _ & E). apply bind_ok in E as (crv & _ & E). apply generated in E as (cv & bx & by_ & d & _ & _ & _ & _ & _ & _ & _ & HD & _).
      pose proof (fine_get (with_key c (Some k)) EphemeralKey) as HF. cbv zeta in ES. destruct (get_attr _ EphemeralKey) as [v|y]; [|injection ES as _ <-; exact HF].
      destruct (negb (is_none v)); [injection ES as _ <-; left; reflexivity|]. unfold dmem in ES. unfold SpecTrip.bytes_param in HD. match type of HD with ?e = _ => change e with (dget (k_store k) (VClass EC2KpD)) in HD end. rewrite HD in ES. injection ES as _ <-. exact I.
    + injection ES as _ <-. assert (HF : fine (bind (peer pk) (fun p => bind (prop_get p PCrv) (fun crv => ec2_generate X n crv VNone)))).
      { apply fine_bind; [unfold peer; destruct (as_key pk); [exact I|one]|]. intros p _. apply fine_bind; [apply fine_attr; intros y; apply prop_get_err|]. intros crv _. apply fine_generate. exact HG. }
      rewrite E in HF. exact HF.
  - intros ->. split; [eapply setup_but; exact ES|]. apply setup_ephemeral_ok in ES as (k & -> & _ & p & crv & _ & _ & Hk).
    apply generated in Hk as (cv' & bx & by_ & d & _ & _ & HPo & HKC & _). split; [apply HH|]. cbn [uhdr with_uhdr with_key].
    apply dset_sendable; [apply HH|reflexivity|]. apply (portable_sendable X). apply public_portable; assumption.
Qed.

(** ** Recipients *)

Lemma verify_cose : forall rs, fine (verify_recipients rs).
Proof. intros rs. unfold verify_recipients. destruct (_ && _); [left; reflexivity|]. destruct (_ && _); [left; reflexivity|exact I]. Qed.

Lemma fine_kw : forall n c, typed_key c -> sendable_headers c -> fine (kw_encrypt X n c []).
Proof.
  intros n c HT HH. destruct (kw_encrypt X n c []) as [b|x] eqn:E; [exact I|]. destruct (kw_err X n c x HT HH E) as [HX|[HX|[[-> _]|[[HX _]| ->]]]]; [left; exact HX| | | |].
  - right. left. right. left. exact HX.
  - one.
  - apply fine_five. cbn in HX |- *. tauto.
  - one.
Qed.

Lemma fine_kw_any : forall n c subs, typed_key c -> sendable_headers c -> fine (kw_encrypt X n c subs).
Proof.
  intros n c subs HT HH. destruct (ckey c) as [k|] eqn:EK.
  { replace (kw_encrypt X n c subs) with (kw_encrypt X n c []); [apply fine_kw; assumption|]. unfold kw_encrypt, kw_kek_encrypt. rewrite EK. reflexivity. }
  unfold kw_encrypt. apply fine_bind; [apply fine_get|]. intros a _. destruct (negb _); [left; reflexivity|]. destruct (is_none a); [left; reflexivity|].
  apply fine_bind; [apply fine_in|]. intros [] _.
  - assert (HK : fine (kw_kek_encrypt c subs) /\ forall v, kw_kek_encrypt c subs <> Ok v).
    { unfold kw_kek_encrypt. rewrite EK. destruct subs as [|s subs]; [split; [left; reflexivity|discriminate]|].
      pose proof (verify_cose (s :: subs)) as HV. destruct (verify_recipients _) as [u|x]; cbn [bind]; [|split; [exact HV|discriminate]].
      destruct (has_class _ _); [split; [one|discriminate]|]. destruct (_ || _); [|split; [left; reflexivity|discriminate]].
      pose proof (fine_get c Algorithm) as HG. destruct (get_attr c Algorithm); cbn [bind]; [split; [one|discriminate]|split; [exact HG|discriminate]]. }
    apply fine_bind; [apply HK|]. intros v HV. elim (proj2 HK v HV).
  - apply fine_bind; [apply fine_in|]. intros [] _; [rewrite EK; one|one].
Qed.

Lemma fine_kakw : forall n c, law_ec_gen X -> sendable_headers c ->
  match kakw_encrypt X n c with
  | (c1, r) => fine r /\ (forall b, r = Ok b -> sendable_headers c1)
  end.
Proof.
  intros n c HG HH. unfold kakw_encrypt. cbv zeta. destruct (is_none (dget_or (local c) StaticKey VNone)); [split; [left; reflexivity|discriminate]|].
  pose proof (fine_get c Algorithm) as HA. destruct (get_attr c Algorithm) as [a|x]; [|split; [exact HA|discriminate]].
  destruct (is_none a); [split; [left; reflexivity|discriminate]|].
  assert (HR : forall c1 pk, fine (alg' <- get_attr c1 Algorithm ;; wf <- get_key_wrap_func alg' ;; kb <- agree_kek X c1 wf pk (ckey c1) a ;;
     kek <- sym_with (VBytes kb) a [DeriveKeyOp] ;; alg_key_wrap X n wf kek (vopt (payload c1)))).
  { intros c1 pk. apply fine_bind; [apply fine_get|]. intros a' _. apply fine_bind; [unfold get_key_wrap_func; destruct (alg_kind a') as [[]|]; try exact I; one|].
    intros wf _. apply fine_bind; [apply fine_kek|]. intros kb _. apply fine_bind; [apply fine_sym|]. intros kek _. apply fine_wrap. }
  destruct (ckey c) as [k|] eqn:EK; [split; [cbn [bind]; apply HR|intros _ _; exact HH]|].
  pose proof (fine_in a es_kw) as HI. destruct (alg_in a es_kw) as [[]|x]; [|split; [left; reflexivity|discriminate]|split; [exact HI|discriminate]].
  pose proof (fine_setup n c (dget_or (local c) StaticKey VNone) HG HH) as HS. destruct (setup_ephemeral X n c _) as [c1 [[]|x]]; destruct HS as [HS1 HS2].
  - cbn [bind]. split; [apply HR|]. intros _ _. apply HS2. reflexivity.
  - split; [exact HS1|discriminate].
Qed.

(** What is known of a recipient before and after the first pass. *)
Definition steady (r : rcpt) : Prop := Forall any_recipient (r_subs r) /\ (r_class r <> RAgreeKW -> typed_key (r_core r)) /\ sendable_headers (r_core r).

Lemma any_steady : forall r, any_recipient r -> steady r.
Proof. intros r [H1 H2 H3 H4]. split; [exact H4|]. split; [intros _; exact H1|exact H2]. Qed.
Lemma all_steady : forall l, Forall any_recipient l -> Forall steady l.
Proof. intros l. apply Forall_impl. exact any_steady. Qed.

Lemma row_sendable : forall c p w tl, sendable_headers c -> forallb sendable tl = true -> sendable (VList ([VBytes p; VDict (uhdr c); VBytes w] ++ tl)) = true.
Proof. intros c p w tl [_ HU] HT. cbn [app sendable forallb] in HU |- *. rewrite HU, HT. reflexivity. Qed.

Definition good {S} (r : S * result pyval) : Prop := fine (snd r) /\ forall v, snd r = Ok v -> sendable v = true.
Lemma good_err : forall S (s : S) x, fine (Err x : result unit) -> good (s, Err x).
Proof. intros S s x H. split; [exact H|discriminate]. Qed.

Lemma encode_agree : forall n id c ctx subs, rcpt_encode X n (Rcpt id RAgree c ctx subs) =
  match (alg <- get_attr c Algorithm ;; if is_none alg then Err CoseMalformedMessage
         else let pk := dget_or (local c) StaticKey VNone in if is_none pk then Err CoseException else Ok (alg, pk)) with
  | Err e => ((n, Rcpt id RAgree c ctx subs), Err e)
  | Ok (alg, pk) =>
    let '(c1, res) :=
      match ckey c with
      | Some _ => (c, Ok tt)
      | None => match alg_in alg es_hkdf with Err e => (c, Err e) | Ok true => setup_ephemeral X n c pk | Ok false => (c, Err CoseException) end
      end in
    match (_ <- res ;; if Nat.ltb 1 (length subs) then Err CoseMalformedMessage else
             e <- get_attr c1 EphemeralKey ;; es <- (if is_none e then alg_in alg es_hkdf else Ok false) ;; if es : bool then Err CoseMalformedMessage else phdr_encoded c1) with
    | Err e => ((N.succ n, Rcpt id RAgree c1 ctx subs), Err e)
    | Ok p => finish X id RAgree ctx subs (N.succ n) c1 [VBytes p; VDict (uhdr c1); VBytes []]
    end
  end.
Proof. reflexivity. Qed.

Lemma fine_encode : forall r n, law_ec_gen X -> steady r ->
  (forall m, fine (snd (rcpts_encode X m (r_subs r))) /\ forall vs, snd (rcpts_encode X m (r_subs r)) = Ok vs -> forallb sendable vs = true) ->
  good (rcpt_encode X n r).
Proof.
  intros [id rc c ctx subs] n HG (_ & HT & HH) HSub. cbn [r_class r_subs r_core] in *.
  assert (HF : forall m c1 p w, sendable_headers c1 -> good (finish X id rc ctx subs m c1 [VBytes p; VDict (uhdr c1); VBytes w])).
  { intros m c1 p w H1. unfold finish. destruct subs as [|s subs].
    - split; [exact I|]. intros v H. injection H as <-. rewrite <- (row_sendable c1 p w [] H1 eq_refl). reflexivity.
    - destruct (HSub m) as [H2 H3]. destruct (rcpts_encode X m (s :: subs)) as [[m' s'] [vs|x]]; cbn [snd] in *; [|apply good_err; exact H2].
      split; [exact I|]. intros v H. injection H as <-. apply row_sendable; [exact H1|]. cbn [forallb sendable]. rewrite (H3 vs eq_refl). reflexivity. }
  destruct rc.
  - cbn [rcpt_encode]. split; cbn [snd].
    + apply fine_bind; [apply fine_get|]. intros a _. destruct (_ && _); [left; reflexivity|]. destruct (is_none a); [left; reflexivity|].
      destruct (negb _); [left; reflexivity|]. apply fine_bind; [apply fine_never, send_phdr; exact HH|]. intros; exact I.
    + intros v H. apply bind_ok in H as (a & _ & H). destruct (_ && _); [discriminate|]. destruct (is_none a); [discriminate|]. destruct (negb _); [discriminate|].
      apply bind_ok in H as (p & _ & H). injection H as <-. exact (row_sendable c p [] [] HH eq_refl).
  - rewrite encode_kw. assert (H0 : fine (p <- phdr_encoded c ;; w <- kw_encrypt X n c subs ;; Ok (p, w))).
    { apply fine_bind; [apply fine_never, send_phdr; exact HH|]. intros p _. apply fine_bind; [apply fine_kw_any; [apply HT; discriminate|exact HH]|]. intros; exact I. }
    destruct (bind (phdr_encoded c) _) as [[p w]|y]; [apply HF; exact HH|apply good_err; exact H0].
  - rewrite encode_agree.
    assert (H0 : fine (alg <- get_attr c Algorithm ;; if is_none alg then Err CoseMalformedMessage
       else let pk := dget_or (local c) StaticKey VNone in if is_none pk then Err CoseException else Ok (alg, pk))).
    { apply fine_bind; [apply fine_get|]. intros a _. destruct (is_none a); [left; reflexivity|]. cbv zeta. destruct (is_none _); [left; reflexivity|exact I]. }
    destruct (bind (get_attr c Algorithm) _) as [[a pk]|x]; [|apply good_err; exact H0]. clear H0.
    assert (H1 : match (match ckey c with Some _ => (c, Ok tt)
        | None => match alg_in a es_hkdf with Err e => (c, Err e) | Ok true => setup_ephemeral X n c pk | Ok false => (c, Err CoseException) end end) with
      | (c1, r) => fine r /\ (r = Ok tt -> sendable_headers c1) end).
    { destruct (ckey c); [split; [exact I|intros _; exact HH]|]. pose proof (fine_in a es_hkdf) as HI.
      destruct (alg_in a es_hkdf) as [[]|x]; [|split; [left; reflexivity|discriminate]|split; [exact HI|discriminate]].
      pose proof (fine_setup n c pk HG HH) as HS. destruct (setup_ephemeral X n c pk) as [c1 r]. destruct HS as [H1 H2]. split; [exact H1|]. intros E. apply H2. exact E. }
    match goal with |- context [let '(c1, res) := ?e in _] => destruct e as [c1 [[]|x]] end; destruct H1 as [H1 H2]; [|apply good_err; exact H1].
    specialize (H2 eq_refl). cbn [bind].
    assert (H3 : fine (if Nat.ltb 1 (length subs) then Err CoseMalformedMessage else
      e <- get_attr c1 EphemeralKey ;; es <- (if is_none e then alg_in a es_hkdf else Ok false) ;; if es : bool then Err CoseMalformedMessage else phdr_encoded c1)).
    { destruct (Nat.ltb _ _); [left; reflexivity|].
      apply fine_bind; [apply fine_get|]. intros e _. apply fine_bind; [destruct (is_none e); [apply fine_in|exact I]|]. intros [] _; [left; reflexivity|]. apply fine_never, send_phdr. exact H2. }
    destruct (if Nat.ltb 1 _ then _ else _) as [p|x]; [apply HF; exact H2|apply good_err; exact H3].
  - rewrite encode_kakw.
    assert (H0 : fine (p <- phdr_encoded c ;; alg <- get_attr c Algorithm ;; _ <- get_key_wrap_func alg ;; Ok p)).
    { apply fine_bind; [apply fine_never, send_phdr; exact HH|]. intros p _. apply fine_bind; [apply fine_get|]. intros a _.
      apply fine_bind; [unfold get_key_wrap_func; destruct (alg_kind a) as [[]|]; try exact I; one|]. intros; exact I. }
    destruct (bind (phdr_encoded c) _) as [p|x]; [|apply good_err; exact H0].
    pose proof (fine_kakw n c HG HH) as HK. destruct (kakw_encrypt X n c) as [c1 [w|x]]; destruct HK as [HK1 HK2]; [|apply good_err; exact HK1].
    apply HF. eapply HK2. reflexivity.
Qed.

Lemma fine_tree : forall k l, list_sum (map height l) < k -> forall n, law_ec_gen X -> Forall steady l ->
  fine (snd (rcpts_encode X n l)) /\ forall vs, snd (rcpts_encode X n l) = Ok vs -> forallb sendable vs = true.
Proof.
  induction k as [|k IHk]; [lia|]. induction l as [|r l IH]; intros HK n HG HF; cbn [rcpts_encode]; [split; [exact I|intros vs H; injection H as <-; reflexivity]|].
  cbn [map list_sum fold_right] in HK. change (fold_right Nat.add 0 (map height l)) with (list_sum (map height l)) in HK.
  apply Forall_cons_iff in HF as [HR HF]. destruct (fine_encode r n HG HR) as [H1 H2].
  { intros m. apply IHk; [destruct r; cbn [height r_subs] in HK |- *; lia|exact HG|]. apply all_steady. apply HR. }
  destruct (rcpt_encode X n r) as [[n1 r'] [v|y]]; cbn [snd] in *; [|split; [exact H1|discriminate]].
  destruct (IH ltac:(lia) n1 HG HF) as [H3 H4]. destruct (rcpts_encode X n1 l) as [[n2 l'] [vs|y]]; cbn [snd] in *; [|split; [exact H3|discriminate]].
  split; [exact I|]. intros ws H. injection H as <-. cbn [forallb]. rewrite (H2 v eq_refl), (H4 vs eq_refl). reflexivity.
Qed.
Lemma fine_encodes : forall l n, law_ec_gen X -> Forall steady l -> fine (snd (rcpts_encode X n l)) /\ forall vs, snd (rcpts_encode X n l) = Ok vs -> forallb sendable vs = true.
Proof. intros l. exact (fine_tree _ l (Nat.lt_succ_diag_r _)). Qed.

Lemma fine_loop : forall l n b, law_ec_gen X -> Forall steady l ->
  match cek_loop X n (VBytes b) l with
  | ((_, l'), Ok kb) => Forall steady l' /\ length l' = length l /\ exists b', kb = VBytes b'
  | (_, Err x) => is_cose_exception x = true \/ other_exception X x
  end.
Proof.
  induction l as [|r l IH]; intros n b HG HF; cbn [cek_loop]; [split; [constructor|split; [reflexivity|eauto]]|]. apply Forall_cons_iff in HF as [HR HF]. cbv zeta.
  destruct r as [id rc c ctx subs]. cbn [r_core r_with].
  set (d := match payload c with Some [] => (Rcpt id rc (with_payload c (Some b)) ctx subs, VBytes b) | p => (Rcpt id rc c ctx subs, vopt p) end).
  assert (HD : exists c1 kb1, d = (Rcpt id rc c1 ctx subs, kb1) /\ steady (Rcpt id rc c1 ctx subs) /\ (kb1 = VNone -> payload c1 = None) /\ (kb1 = VNone \/ exists b', kb1 = VBytes b')).
  { unfold d. destruct (payload c) as [[|x p]|] eqn:EP; cbn [vopt]; do 2 eexists; (split; [reflexivity|]); (split; [exact HR|]); (split; [try discriminate; auto|eauto]). }
  clearbody d. destruct HD as (c1 & kb1 & -> & (HS1 & HT1 & HH1) & HKN & HKB). cbn [r_class r_subs r_core] in *.
  assert (HE : match rcpt_encrypt X n (Rcpt id rc c1 ctx subs) with
    | (r2, Ok _) => steady r2 /\ payload c1 <> None
    | (_, Err x) => is_cose_exception x = true \/ other_exception X x end).
  { cbn [rcpt_encrypt]. destruct rc; [right; right; cbn; auto| |right; right; cbn; auto|].
    - pose proof (fine_kw_any n c1 subs (HT1 ltac:(discriminate)) HH1) as HK. destruct (kw_encrypt X n c1 subs) as [w|x] eqn:EW; [|exact HK].
      split; [exact (conj HS1 (conj HT1 HH1))|]. apply kw_ready in EW; [apply EW|apply HT1; discriminate].
    - pose proof (fine_kakw n c1 HG HH1) as HK. destruct (kakw_encrypt X n c1) as [c2 [w|x]] eqn:EW; destruct HK as [HK1 HK2]; [|exact HK1].
      split; [|apply kakw_ready in EW as (z & p & _ & _ & _ & _ & HP); exact HP]. split; [exact HS1|]. cbn [r_with r_class r_core]. split; [congruence|]. eapply HK2. reflexivity. }
  destruct (rcpt_encrypt X n (Rcpt id rc c1 ctx subs)) as [r2 [w|x]]; [|exact HE]. destruct HE as [HE HP]. destruct HKB as [-> |[b' ->]]; [elim HP; auto|].
  specialize (IH (N.succ n) b' HG HF). destruct (cek_loop X (N.succ n) (VBytes b') l) as [[n2 l2] [kb|x]]; [|exact IH].
  destruct IH as (IH1 & IH2 & IH3). split; [constructor; assumption|]. split; [cbn [length]; rewrite IH2; reflexivity|exact IH3].
Qed.

(** ** The content *)

Lemma fine_enc : forall ctx c, typed_key c -> byte_iv_headers c -> sendable_headers c -> fine (enc_encrypt X ctx c).
Proof.
  intros ctx c HT HB HH. destruct (enc_encrypt X ctx c) as [b|x] eqn:E; [exact I|]. destruct (enc_refused X ctx c x HT HB HH E) as [HX|[HX|[[-> _]|[[-> _]| ->]]]]; [left; exact HX|right; left; left; exact HX| | |]; one.
Qed.
Lemma fine_mac : forall ctx c, typed_key c -> sendable_headers c -> fine (mac_compute X ctx c).
Proof.
  intros ctx c HT HH. destruct (mac_compute X ctx c) as [b|x] eqn:E; [exact I|]. destruct (mac_refused X ctx c x HT HH E) as [HX|[[-> _]|[[-> _]| ->]]]; [left; exact HX| | |]; one.
Qed.

Lemma fine_agree : forall r t, any_recipient r -> r_class r = RAgree ->
  match compute_cek X r t false with
  | Ok o => exists k, o = Some k /\ typed k
  | Err x => is_cose_exception x = true \/ other_exception X x
  end.
Proof.
  intros r t [HT HH HP _] HC. unfold compute_cek. rewrite HC.
  assert (HA : fine (agree_compute_cek X (r_core r) t false) /\ forall k, agree_compute_cek X (r_core r) t false = Ok k -> typed k).
  { set (c := r_core r) in *. split.
    - unfold agree_compute_cek. apply fine_bind; [apply fine_get|]. intros a _. apply fine_bind; [apply fine_in|]. intros known HK. destruct known; [|one]. cbn [negb bind].
      destruct (alg_in_alg _ _ _ HK eq_refl) as (z & _ & ->).
      destruct (is_none _) eqn:EN; [left; reflexivity|]. destruct (peer (dget_or (local c) StaticKey VNone)) as [p|x] eqn:EP; cbn [bind].
      2: { unfold peer in EP. destruct (as_key _) in EP; [discriminate|]. injection EP as <-. one. }
      assert (HPt : typed p).
      { apply HP. unfold dget_or, peer in EP. destruct (dget (local c) StaticKey) as [v|]; [|discriminate]. destruct v; try discriminate. cbn [as_key] in EP. injection EP as <-. reflexivity. }
      apply fine_bind; [apply fine_attr; intros x H; left; destruct HPt as (HT1 & HT2 & _); eapply (key_verify_some p KEC2 z [Cls FOps 7; Cls FOps 8]); eassumption|]. intros _ _.
      apply fine_bind; [destruct (ckey c); [exact I|one]|]. intros lk HL.
      apply fine_bind.
      { apply fine_attr; intros x H; left. destruct (ckey c) as [k|] eqn:EK; [|discriminate]. injection HL as <-. destruct (HT k EK) as (HT1 & HT2 & _).
        eapply (key_verify_some k KEC2 z [Cls FOps 7; Cls FOps 8]); eassumption. }
      intros _ _. apply fine_bind; [apply fine_kek|]. intros kb _. apply fine_attr. intros x H. left. eapply derived_err; [|exact H]. cbn. auto.
    - intros k H. unfold agree_compute_cek in H. apply bind_ok in H as (a & _ & H). apply bind_ok in H as (b & _ & H). destruct b; [|discriminate]. cbn [negb bind] in H.
      destruct (is_none _); [discriminate|]. do 4 apply bind_ok in H as (? & _ & H). apply bind_ok in H as (kb & HKB & H).
      assert (HL : exists z, t = alg z).
      { unfold agree_kek in HKB. do 3 apply bind_ok in HKB as (? & _ & HKB). apply bind_ok in HKB as (kx & HKX & _). unfold get_kdf_context in HKX.
        do 6 apply bind_ok in HKX as (? & _ & HKX). apply bind_ok in HKX as (len & HL & _). eapply key_length_class. exact HL. }
      destruct HL as (z & ->). apply derived_ok in H as (t' & HT' & HD); [|cbn; auto]. destruct (from_id_class _ _ _ HT') as [c' ->]. eapply derived_typed; [|exact HD]. cbn. auto. }
  destruct HA as [HA1 HA2]. destruct (agree_compute_cek X (r_core r) t false) as [k|x]; cbn [bind]; [|exact HA1]. exists k. split; [reflexivity|]. apply HA2. reflexivity.
Qed.

Lemma agree_alone : forall rs u, verify_recipients rs = Ok u -> has_class RAgree rs = true -> exists r, rs = [r] /\ r_class r = RAgree.
Proof.
  intros rs u HV HA. unfold verify_recipients in HV. destruct (_ && _); [discriminate|]. rewrite HA in HV. cbn [andb] in HV.
  destruct rs as [|r [|q l]]; [discriminate| |discriminate]. exists r. split; [reflexivity|]. unfold has_class in HA. cbn [existsb] in HA. destruct (r_class r); try discriminate; reflexivity.
Qed.

(** ** Messages *)

Lemma fine_encm : forall n m, law_ec_gen X -> typed_key (e_core m) -> byte_iv_headers (e_core m) -> sendable_headers (e_core m) -> Forall any_recipient (e_rcpts m) ->
  match encm_encrypt X n m with
  | ((_, m'), r) => fine r /\ (forall b, r = Ok b -> Forall steady (e_rcpts m') /\ uhdr (e_core m') = uhdr (e_core m))
  end.
Proof.
  intros n [c rs] HG HT HB HH HF. cbn [e_core e_rcpts] in *. unfold encm_encrypt. cbn [e_core e_rcpts]. cbv zeta.
  assert (HS : Forall steady rs) by (apply all_steady; exact HF).
  assert (H0 : fine (alg <- get_attr c Algorithm ;; _ <- verify_recipients rs ;; Ok alg)).
  { apply fine_bind; [apply fine_get|]. intros a _. apply fine_bind; [apply verify_cose|]. intros; exact I. }
  destruct (bind (get_attr c Algorithm) _) as [a|x] eqn:EA; [|split; [exact H0|discriminate]]. clear H0.
  apply bind_ok in EA as (a' & HA & EA). apply bind_ok in EA as (u & HV & EA). injection EA as ->.
  destruct (has_class RDirect rs); [split; [apply fine_enc; assumption|intros _ _; auto]|].
  destruct (has_class RAgree rs) eqn:EG.
  { destruct (agree_alone rs u HV EG) as (r & -> & HC). apply Forall_cons_iff in HF as [HR _]. pose proof (fine_agree r a HR HC) as HK.
    destruct (compute_cek X r a false) as [o|x]; [|split; [exact HK|discriminate]]. destruct HK as (k & -> & HK).
    split; [|intros _ _; auto]. apply fine_enc; [intros k' E; injection E as <-; exact HK|exact HB|exact HH]. }
  destruct (_ || _); [|split; [left; reflexivity|discriminate]].
  pose proof (fine_length a) as HL. destruct (get_key_length a) as [len|x] eqn:EL; [|split; [exact HL|discriminate]].
  pose proof (fine_loop rs (N.succ n) (x_urandom X n len) HG HS) as HLo. destruct (cek_loop X (N.succ n) _ rs) as [[n' rs'] [kb|x]]; [|split; [exact HLo|discriminate]].
  destruct HLo as (H1 & H2 & b & ->). destruct (sym_with (VBytes b) a [EncryptOp]) as [k|x] eqn:ES.
  - split; [|intros _ _; auto]. apply fine_enc; [|exact HB|exact HH]. intros k' E. injection E as <-. destruct (key_length_class _ _ EL) as (z & ->).
    unfold sym_with in ES. apply made_ok in ES as (t' & HT' & HD); [|cbn; auto]. destruct (from_id_class _ _ _ HT') as [c' ->]. eapply made_typed; [|exact HD]. cbn. auto.
  - split; [|discriminate]. left. eapply made_err; [|exact ES]. cbn. auto.
Qed.

Lemma encm_exceptions : forall n m tag x, law_ec_gen X -> typed_key (e_core m) -> byte_iv_headers (e_core m) -> sendable_headers (e_core m) -> Forall any_recipient (e_rcpts m) ->
  snd (encm_encode X n m tag true) = Err x -> is_cose_exception x = true \/ other_exception X x.
Proof.
  intros n m tag x HG HT HB HH HF H. cut (fine (snd (encm_encode X n m tag true))); [rewrite H; auto|]. clear H x. unfold encm_encode.
  pose proof (fine_never _ _ (send_phdr _ HH)) as HP. destruct (phdr_encoded (e_core m)) as [p|x]; [|exact HP].
  pose proof (fine_encm n m HG HT HB HH HF) as HE. destruct (encm_encrypt X n m) as [[n1 m1] r]. destruct HE as [HE1 HE2]. destruct r as [b|x]; cbn [bind]; [|exact HE1].
  destruct (HE2 b eq_refl) as [HS HU]. cbv zeta. destruct (e_rcpts m1) as [|r rs] eqn:ER.
  - cbn [snd]. apply fine_never, send_emit. destruct HH as [_ HH]. rewrite HU. cbn [forallb sendable] in HH |- *. rewrite HH. reflexivity.
  - pose proof (fine_get (e_core m1) Algorithm) as HA. destruct (get_attr (e_core m1) Algorithm) as [a|x]; [|exact HA].
    destruct (fine_encodes (r :: rs) n1 HG HS) as [H1 H2]. destruct (rcpts_encode X n1 (r :: rs)) as [[n2 rs'] [vs|x]]; cbn [snd] in *; [|exact H1].
    apply fine_never, send_emit. destruct HH as [_ HH]. rewrite HU. cbn [app forallb sendable] in HH |- *. rewrite HH, (H2 vs eq_refl). reflexivity.
Qed.

Definition fine_or_name {A} (r : result A) : Prop := match r with Ok _ => True | Err x => is_cose_exception x = true \/ other_exception X x \/ x = NameError end.
Lemma fine_weak : forall A (r : result A), fine r -> fine_or_name r.
Proof. intros A [a|x]; [auto|]. intros [H|H]; cbn; auto. Qed.

Lemma fine_macm : forall n m rs, law_ec_gen X -> typed_key (mm_core m) -> sendable_headers (mm_core m) -> mm_rcpts m = Some rs -> Forall any_recipient rs ->
  match macm_compute_tag X n m with
  | ((_, m'), r) => fine_or_name r /\ (forall b, r = Ok b -> exists rs', mm_rcpts m' = Some rs' /\ Forall steady rs' /\ uhdr (mm_core m') = uhdr (mm_core m))
  end.
Proof.
  intros n [c tg o] rs HG HT HH HO HF. cbn [mm_core mm_rcpts] in *. subst o. unfold macm_compute_tag. cbn [mm_core mm_rcpts mm_tag]. cbv zeta.
  assert (HS : Forall steady rs) by (apply all_steady; exact HF).
  pose proof (fine_get c Algorithm) as HA. destruct (get_attr c Algorithm) as [a|y] eqn:EA; [|split; [exact (fine_weak _ (Err y) HA)|discriminate]].
  pose proof (verify_cose rs) as HV. destruct (verify_recipients rs) as [u|y] eqn:EV; [|split; [exact (fine_weak _ (Err y) HV)|discriminate]].
  assert (HM : forall c', typed_key c' -> sendable_headers c' -> uhdr c' = uhdr c -> match mac_super_compute X n (MacMsg c' tg (Some rs)) with
    | ((_, m'), r) => fine_or_name r /\ (forall b, r = Ok b -> exists rs', mm_rcpts m' = Some rs' /\ Forall steady rs' /\ uhdr (mm_core m') = uhdr c) end).
  { intros c' HT' HH' HU'. unfold mac_super_compute. cbn [mm_core mm_rcpts mm_tag]. pose proof (fine_mac "MAC" c' HT' HH') as HM. destruct (mac_compute X "MAC" c') as [t|y].
    - split; [exact I|]. intros b _. exists rs. cbn [mm_rcpts mm_core]. auto.
    - split; [exact (fine_weak _ (Err y) HM)|discriminate]. }
  destruct (has_class RDirect rs) eqn:ED; [apply HM; auto|].
  destruct (has_class RAgree rs) eqn:EG.
  { destruct (agree_alone rs u EV EG) as (r & -> & HC). apply Forall_cons_iff in HF as [HRr _]. pose proof (fine_agree r a HRr HC) as HK.
    destruct (compute_cek X r a false) as [o|y]; [|split; [exact (fine_weak _ (Err y) HK)|discriminate]]. destruct HK as (k & -> & HK).
    apply HM; [intros k' E; injection E as <-; exact HK|exact HH|reflexivity]. }
  destruct (_ || _); [|split; [left; reflexivity|discriminate]].
  pose proof (fine_length a) as HL. destruct (get_key_length a) as [len|y]; [|split; [exact (fine_weak _ (Err y) HL)|discriminate]].
  pose proof (fine_loop rs (N.succ n) (x_urandom X n len) HG HS) as HLo. destruct (cek_loop X (N.succ n) _ rs) as [[n' rs'] [kb|y]]; (split; [|discriminate]).
  - right. right. reflexivity.
  - exact (fine_weak _ (Err y) HLo).
Qed.

Lemma macm_exceptions : forall n m rs tag x, law_ec_gen X -> typed_key (mm_core m) -> sendable_headers (mm_core m) -> mm_rcpts m = Some rs -> Forall any_recipient rs ->
  snd (macm_encode X n m tag true) = Err x -> is_cose_exception x = true \/ other_exception X x \/ x = NameError.
Proof.
  intros n m rs tag x HG HT HH HO HF H. cut (fine_or_name (snd (macm_encode X n m tag true))); [rewrite H; auto|]. clear H x. unfold macm_encode.
  pose proof (fine_never _ _ (send_phdr _ HH)) as HP. destruct (phdr_encoded (mm_core m)) as [p|y]; [|exact (fine_weak _ (Err y) HP)].
  pose proof (fine_macm n m rs HG HT HH HO HF) as HE. destruct (macm_compute_tag X n m) as [[n1 m1] [b|y]]; destruct HE as [HE1 HE2]; cbn [bind]; [|exact HE1].
  destruct (HE2 b eq_refl) as (rs' & HR & HS & HU). cbv zeta. rewrite HR. destruct rs' as [|r rs0].
  - apply fine_weak. cbn [snd]. apply fine_never, send_emit. destruct HH as [_ HH]. rewrite HU. cbn [app forallb sendable] in HH |- *. rewrite HH, sendable_vopt. reflexivity.
  - apply fine_weak. pose proof (fine_get (mm_core m1) Algorithm) as HA. destruct (get_attr (mm_core m1) Algorithm) as [a|y]; [|exact HA].
    destruct (fine_encodes (r :: rs0) n1 HG HS) as [H1 H2]. destruct (rcpts_encode X n1 (r :: rs0)) as [[n2 rs'] [vs|y]]; cbn [snd] in *; [|exact H1].
    apply fine_never, send_emit. destruct HH as [_ HH]. rewrite HU. cbn [app forallb sendable] in HH |- *. rewrite HH, sendable_vopt, (H2 vs eq_refl). reflexivity.
Qed.
End Inc.
