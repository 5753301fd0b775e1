(** Complete messages are encoded (C103). *)
From Coq Require Import NArith ZArith Bool String Lia.
From Coq Require Import Init.Byte List.
From Verif Require Import Bytes Value ValueProofs Cbor CborProofs DataProofs Registry Crypto Keys Algorithms Headers Messages Recipients
  SpecKeys SpecHdr SpecStruct SpecAlg SpecAccept SpecCheck SpecMsg SpecSend KeyProofs KeyProofs2 KeyProofs3 KeyProofs4 HdrProofs HdrProofs2 StructProofs AcceptProofs
  CheckProofs MsgTrip SpecCrypto SpecRcpt RcptProofs RcptTrip.
Import ListNotations.
Local Open Scope result_scope.

Lemma only_ok : forall P A (a : A), only P (Ok a).
Proof. intros. exact I. Qed.
Lemma only_weak : forall (P Q : exn -> Prop) A (r : result A), (forall x, P x -> Q x) -> only P r -> only Q r.
Proof. intros P Q A [a|x] H HR; [exact I|]. destruct HR as [HR|HR]; [left|right]; auto. Qed.
Lemma only_never : forall P A (r : result A), only never r -> only P r.
Proof. intros P A r. apply only_weak. intros x []. Qed.
Lemma only_bind : forall P A B (r : result A) (f : A -> result B), only P r -> (forall a, r = Ok a -> only P (f a)) -> only P (bind r f).
Proof. intros P A B [a|x] f HR HF; [exact (HF a eq_refl)|exact HR]. Qed.

(** ** Serialising *)

Lemma send_pairs : forall t d, Forall (fun e => (sendable (fst e) = true -> exists c, lower cls_fullname (HMsg t) (fst e) = Ok c) /\
    (sendable (snd e) = true -> exists c, lower cls_fullname (HMsg t) (snd e) = Ok c)) d ->
  forallb (fun e => match e with (a, b) => sendable a && sendable b end) d = true ->
  Forall (fun e => exists a b, lower cls_fullname (HMsg t) (fst e) = Ok a /\ lower cls_fullname (HMsg t) (snd e) = Ok b) d.
Proof.
  intros t d HF HP. rewrite forallb_forall in HP. rewrite Forall_forall in *. intros [a b] HI.
  specialize (HP _ HI). cbn beta iota in HP. apply andb_true_iff in HP as [H1 H2]. destruct (HF _ HI) as [HA HB]. cbn [fst snd] in *.
  destruct (HA H1) as (x & HX). destruct (HB H2) as (y & HY). eauto.
Qed.

Lemma send_lower : forall t v, sendable v = true -> exists c, lower cls_fullname (HMsg t) v = Ok c.
Proof.
  intros t. induction v as [|b|z|f|n| | |b|b|l HF|l HF|d HF|g v IH|g v IH|c|k s e HS HE] using pyval_ind'; intros HP; try discriminate HP; try (eexists; reflexivity).
  - cbn [sendable] in HP. assert (HX : exists cs, mapM (lower cls_fullname (HMsg t)) l = Ok cs).
    { induction HF as [|x l Hx HF IHl]; [exists []; reflexivity|]. cbn [forallb] in HP. apply andb_true_iff in HP as [H1 H2].
      destruct (Hx H1) as (c & Hc). destruct (IHl H2) as (cs & Hcs). exists (c :: cs). cbn [mapM]. rewrite Hc, Hcs. reflexivity. }
    destruct HX as (cs & Hcs). exists (CArr cs). cbn [lower]. rewrite Hcs. reflexivity.
  - cbn [sendable] in HP. assert (HX : exists cs, mapM (lower cls_fullname (HMsg t)) l = Ok cs).
    { induction HF as [|x l Hx HF IHl]; [exists []; reflexivity|]. cbn [forallb] in HP. apply andb_true_iff in HP as [H1 H2].
      destruct (Hx H1) as (c & Hc). destruct (IHl H2) as (cs & Hcs). exists (c :: cs). cbn [mapM]. rewrite Hc, Hcs. reflexivity. }
    destruct HX as (cs & Hcs). exists (CArr cs). cbn [lower]. rewrite Hcs. reflexivity.
  - cbn [sendable] in HP. apply (send_pairs t d HF) in HP.
    assert (HX : exists cs, mapM (lower_pair cls_fullname (HMsg t)) d = Ok cs).
    { clear HF. induction HP as [|[a b] d (x & y & HX & HY) HP IHd]; [exists []; reflexivity|]. cbn [fst snd] in *. destruct IHd as (cs & Hcs).
      exists ((x, y) :: cs). cbn [mapM lower_pair]. rewrite HX, HY, Hcs. reflexivity. }
    destruct HX as (cs & Hcs). exists (CMap cs). rewrite lower_dict, Hcs. reflexivity.
  - cbn [sendable] in HP. destruct (IH HP) as (c & Hc). exists (CTag g c). cbn [lower]. rewrite Hc. reflexivity.
  - cbn [sendable] in HP. destruct (IH HP) as (c & Hc). exists (CTag g c). cbn [lower]. rewrite Hc. reflexivity.
  - cbn [lower lower_class]. destruct (_ && _); eauto.
  - cbn [sendable] in HP. apply andb_true_iff in HP as [HP HK]. apply (send_pairs t s HS) in HP. clear HS HE. cbn [lower].
    assert (HM : forall d, Forall (fun e => exists a b, lower cls_fullname (HMsg t) (fst e) = Ok a /\ lower cls_fullname (HMsg t) (snd e) = Ok b) d ->
      exists cs, mapM (lower_pair cls_fullname (HMsg t)) d = Ok cs).
    { clear. intros d HP. induction HP as [|[a b] d (x & y & HX & HY) HP IHd]; [exists []; reflexivity|]. cbn [fst snd] in *. destruct IHd as (cs & Hcs).
      exists ((x, y) :: cs). cbn [mapM lower_pair]. rewrite HX, HY, Hcs. reflexivity. }
    match goal with |- exists c, bind (?g s) _ = _ => assert (HX : exists cs, g s = Ok cs) end.
    { induction HP as [|[a b] s (x & y & HX & HY) HP IHd]; [exists []; reflexivity|]. cbn [fst snd] in *.
      cbn [dget] in HK. change (VClass KpKeyOps) with kp_key_ops in HK. destruct (keyeq kp_key_ops a).
      - destruct b; try discriminate. cbn [py_len bind]. destruct (HM s HP) as (cs & Hcs). rewrite lower_pairs_mapM, Hcs, HX, HY. cbn [bind].
        destruct (Nat.eqb _ 0); eauto.
      - destruct (IHd HK) as (cs & Hcs). rewrite HX, HY. cbn [bind]. rewrite Hcs. cbn [bind]. eauto. }
    destruct HX as (cs & Hcs). rewrite Hcs. cbn [bind]. eauto.
Qed.

Lemma send_dumps : forall t v, sendable v = true -> only never (dumps cls_fullname (HMsg t) v).
Proof. intros t v H. destruct (send_lower t v H) as (c & HC). unfold dumps. rewrite HC. cbn [bind]. destruct (wfc c); [exact I|left; reflexivity]. Qed.

Lemma send_emit : forall c n tag items, forallb sendable items = true -> only never (emit c n tag items).
Proof. intros c n tag items H. unfold emit, dumps_msg. apply send_dumps. destruct tag; exact H. Qed.

Lemma send_phdr : forall c, sendable_headers c -> only never (phdr_encoded c).
Proof.
  intros c [H _]. unfold phdr_encoded. destruct (phdr_raw c); [exact I|]. destruct (phdr c) as [|e d] eqn:E; [exact I|].
  unfold dumps_msg. rewrite <- E in *. apply send_dumps. exact H.
Qed.
Lemma send_base : forall c, sendable_headers c -> only never (base_protected c).
Proof. intros c H. unfold base_protected. destruct (phdr c); [exact I|]. apply send_phdr. exact H. Qed.

Lemma send_plain : forall ctx l, only never (dumps_plain (VList (VStr (bs ctx) :: map VBytes l))).
Proof. intros ctx l. rewrite dumps_ctx_eq. destruct (wfc _); [exact I|left; reflexivity]. Qed.

(** ** Keys *)

Lemma permitted_verify : forall c z k ops, permitted c z k ops -> key_verify k (k_cls k) (alg z) (map VClass ops) = Ok tt.
Proof. intros c z k ops (_ & _ & _ & HA & HO). apply key_verify_ok; assumption. Qed.

Section Send.
Variable X : crypto.

(** ** MACs *)

Lemma has_mac_ok : forall z, mac_algorithm z -> has_mac (alg z) = Ok tt.
Proof. intros z [H|H]; each H; vm_compute; reflexivity. Qed.
Lemma has_enc_ok : forall z, enc_algorithm z -> has_enc (alg z) = Ok tt.
Proof. intros z [H|H]; each H; vm_compute; reflexivity. Qed.
Lemma has_sign_ok : forall t z, sig_algorithm t z -> has_sign (alg z) = Ok tt.
Proof. intros t z H. destruct t; cbn [sig_algorithm] in H; [destruct H|subst z; vm_compute; reflexivity| |]; each H; vm_compute; reflexivity. Qed.

Lemma send_mac : forall ctx c z k, sendable_headers c -> permitted c z k [Cls FOps 9] -> k_cls k = KSym -> mac_algorithm z -> payload c <> None ->
  only never (mac_compute X ctx c).
Proof.
  intros ctx c z k HH HP HC HZ HN. pose proof (permitted_verify _ _ _ _ HP) as HV. destruct HP as (HA & HK & HT & _ & _).
  unfold mac_compute. rewrite HA. cbn [bind]. rewrite HK. rewrite HC in HV.
  change [MacCreateOp] with (map VClass [Cls FOps 9]). rewrite HV. cbn [bind]. rewrite (has_mac_ok z HZ). cbn [bind].
  apply only_bind.
  - unfold mac_structure. apply only_bind; [apply send_base; exact HH|]. intros p _. destruct (payload c) as [pl|]; [|elim HN; reflexivity].
    apply (send_plain ctx [p; aad c; pl]).
  - intros t _. destruct (compute_tag_ok X (alg z) k t tt HT HC (has_mac_ok z HZ)) as (b & ->). exact I.
Qed.

(** ** Signatures *)

Lemma send_alg_sign : forall seed z k t, typed k -> sig_algorithm (k_cls k) z -> can_sign k -> only (sign_failure X) (alg_sign X seed (alg z) k t).
Proof.
  intros seed z k t HT HZ HS. pose proof HT as (_ & _ & _ & _ & HC). unfold can_sign in HS. destruct (k_cls k) eqn:EC; cbn [sig_algorithm] in HZ; [destruct HZ| | |].
  - subst z. destruct HS as [(d & HD & _) (cz & HI & HV)]. unfold alg_sign. cbn [alg_kind]. change (alg_kind (alg (-8))) with (Some AEdDSA). cbv iota beta.
    unfold ed_curve. rewrite prop_get_place, EC. cbn [place crv_prop]. rewrite HV. cbn [bind].
    assert (HB : attr_bytes k PD = Ok d) by (unfold attr_bytes; rewrite prop_get_place, EC; cbn [place bytes_prop]; rewrite HD; reflexivity).
    apply only_bind; [destruct HI as [<-|[<-|[]]]; exact I|]. intros cv _. rewrite HB. cbn [bind].
    destruct (x_ed_sign X cv d t) eqn:E; [exact I|]. right. right. right. eauto.
  - destruct (filled_hex k PD EC2KpD) as [d HD]; [rewrite EC; reflexivity|exact HS|]. unfold alg_sign.
    each HZ; match goal with |- only _ (match alg_kind ?a with _ => _ end) => let r := eval vm_compute in (alg_kind a) in change (alg_kind a) with r end;
      cbv iota beta; rewrite HD; cbn [bind]; match goal with |- only _ ?e => destruct e eqn:E; [exact I|right; right; left; eauto 8] end.
  - destruct HC as (bn & be & HN & HE).
    assert (HQ : exists q, rsa_private_numbers k = Ok q).
    { assert (HI : forall p q, place KRSA p = Some q -> In q [RSAKpP; RSAKpQ; RSAKpD; RSAKpDP; RSAKpDQ; RSAKpQInv] -> exists n, attr_int k p = Ok n).
      { intros p q HP HI. destruct (HS q HI) as (b & HB & _). eapply filled_int; [rewrite EC; exact HP|exact HB]. }
      unfold rsa_private_numbers, rsa_public_numbers.
      destruct (filled_int k PE RSAKpE be) as [e He]; [rewrite EC; reflexivity|exact HE|].
      destruct (filled_int k PN RSAKpN bn) as [n Hn]; [rewrite EC; reflexivity|exact HN|]. rewrite He, Hn. cbn [bind].
      destruct (HI PP RSAKpP) as [? ->]; [reflexivity|cbn; auto|]. destruct (HI PQ RSAKpQ) as [? ->]; [reflexivity|cbn; auto|].
      destruct (HI PD RSAKpD) as [? ->]; [reflexivity|cbn; auto|]. destruct (HI PDP RSAKpDP) as [? ->]; [reflexivity|cbn; auto|].
      destruct (HI PDQ RSAKpDQ) as [? ->]; [reflexivity|cbn; auto 6|]. destruct (HI PQInv RSAKpQInv) as [? ->]; [reflexivity|cbn; auto 8|]. cbn [bind]. eauto. }
    destruct HQ as (q & HQ). unfold alg_sign.
    each HZ; match goal with |- only _ (match alg_kind ?a with _ => _ end) => let r := eval vm_compute in (alg_kind a) in change (alg_kind a) with r end;
      cbv iota beta; rewrite HQ; cbn [bind]; match goal with |- only _ ?e => destruct e eqn:E; [exact I|right; left; eauto 8] end.
Qed.

Lemma send_signature : forall seed c structure, signs c -> only never structure -> only (sign_failure X) (compute_signature X seed c structure).
Proof.
  intros seed c structure (z & k & HP & HZ & HS) HT. pose proof (permitted_verify _ _ _ _ HP) as HV. destruct HP as (HA & HK & HY & _ & _).
  unfold compute_signature. rewrite HA. cbn [bind]. unfold key_verification. rewrite HK.
  assert (E : match k_cls k with KSym => Err CoseException | kc => _ <- key_verify k kc (alg z) [SignOp] ;; Ok k end = Ok k).
  { change [SignOp] with (map VClass [Cls FOps 1]). destruct (k_cls k); [destruct HZ| | |]; rewrite HV; reflexivity. }
  rewrite E. cbn [bind]. rewrite (has_sign_ok _ _ HZ). cbn [bind]. apply only_bind; [apply only_never; exact HT|].
  intros t _. apply send_alg_sign; assumption.
Qed.

Lemma one_payload_sig : forall c d, one_payload c d -> exists l, sig_payload (payload c) (vopt d) = Ok (VBytes l).
Proof. intros c [d|] H; unfold one_payload in H; destruct (payload c); try contradiction; cbn [vopt sig_payload]; eauto. Qed.

Lemma send_sign1_structure : forall c d, sendable_headers c -> one_payload c d -> only never (sign1_structure c (vopt d)).
Proof.
  intros c d HH HO. unfold sign1_structure. apply only_bind; [apply send_base; exact HH|]. intros p _.
  destruct (one_payload_sig c d HO) as (l & ->). cbn [bind]. apply (send_plain "Signature1" [p; aad c; l]).
Qed.

Lemma send_signer_structure : forall m s d, sendable_headers m -> sendable_headers s -> one_payload m d -> only never (signer_structure (Some m) s (vopt d)).
Proof.
  intros m s d HM HS HO. unfold signer_structure. apply only_bind; [apply send_phdr; exact HM|]. intros p _.
  destruct (one_payload_sig m d HO) as (l & HL). destruct (phdr s) as [|e r].
  - cbn [bind]. rewrite HL. cbn [bind app]. apply (send_plain "Signature" [p; aad s; l]).
  - apply only_bind; [apply only_bind; [apply send_phdr; exact HS|intros; exact I]|]. intros sp HSP.
    apply bind_ok in HSP as (q & _ & HSP). injection HSP as <-. rewrite HL. cbn [bind app]. apply (send_plain "Signature" [p; q; aad s; l]).
Qed.

Lemma sendable_vopt : forall o, sendable (vopt o) = true.
Proof. intros [o|]; reflexivity. Qed.

Lemma send_sign1 : forall seed m tag d, sendable_headers (s1_core m) -> signs (s1_core m) -> one_payload (s1_core m) d ->
  only (sign_failure X) (sign1_encode X seed m tag true (vopt d)).
Proof.
  intros seed m tag d HH HS HO. unfold sign1_encode. cbv zeta. apply only_bind; [apply only_never, send_phdr; exact HH|]. intros p _.
  apply only_bind.
  - apply only_bind; [|intros; exact I]. apply send_signature; [exact HS|]. apply send_sign1_structure; assumption.
  - intros items HI. apply bind_ok in HI as (s & _ & HI). injection HI as <-. apply only_never, send_emit. destruct HH as [_ HU].
    cbn [app forallb sendable]. rewrite sendable_vopt. cbn [sendable] in HU. rewrite HU. reflexivity.
Qed.

Lemma send_sign : forall seed m tag d, sendable_headers (sm_core m) ->
  Forall (fun s => sendable_headers s /\ signs s) (sm_signers m) -> one_payload (sm_core m) d ->
  only (sign_failure X) (sign_encode X seed m tag (vopt d)).
Proof.
  intros seed m tag d HH HS HO. unfold sign_encode. cbv zeta. apply only_bind; [apply only_never, send_phdr; exact HH|]. intros p _.
  assert (HL : forall l n, Forall (fun s => sendable_headers s /\ signs s) l -> only (sign_failure X) (signers_encode X n (Some (sm_core m)) l (vopt d)) /\
    forall vs, signers_encode X n (Some (sm_core m)) l (vopt d) = Ok vs -> forallb sendable vs = true).
  { clear HS. induction l as [|s l IH]; intros n HF; [split; [exact I|]; intros vs H; injection H as <-; reflexivity|].
    apply Forall_cons_iff in HF as [[HU HS] HF]. destruct (IH (N.succ n) HF) as [I1 I2]. cbn [signers_encode]. split.
    - apply only_bind; [|intros v _; apply only_bind; [exact I1|intros; exact I]]. unfold signer_encode.
      apply only_bind; [apply only_never, send_phdr; exact HU|]. intros q _. apply only_bind; [|intros; exact I].
      apply send_signature; [exact HS|]. apply send_signer_structure; assumption.
    - intros vs H. apply bind_ok in H as (v & HV & H). apply bind_ok in H as (r & HR & H). injection H as <-. cbn [forallb]. rewrite (I2 _ HR), andb_true_r.
      unfold signer_encode in HV. apply bind_ok in HV as (q & _ & HV). apply bind_ok in HV as (g & _ & HV). injection HV as <-.
      destruct HU as [_ HU]. cbn [sendable forallb] in HU |- *. rewrite HU. reflexivity. }
  destruct HH as [_ HU]. cbn [sendable] in HU. destruct (HL _ seed HS) as [H1 H2]. destruct (sm_signers m) as [|s l].
  - cbn [bind]. apply only_never, send_emit. cbn [forallb sendable]. rewrite sendable_vopt, HU. reflexivity.
  - apply only_bind; [apply only_bind; [exact H1|intros; exact I]|]. intros items HI. apply bind_ok in HI as (vs & HV & HI). injection HI as <-.
    apply only_never, send_emit. cbn [app forallb sendable]. rewrite sendable_vopt, HU, (H2 _ HV). reflexivity.
Qed.

(** ** Encryption *)

Lemma send_encrypt : forall ctx c z k, sendable_headers c -> permitted c z k [Cls FOps 3] -> k_cls k = KSym -> enc_algorithm z ->
  has_nonce c k -> payload c <> None -> only (seal_failure X) (enc_encrypt X ctx c).
Proof.
  intros ctx c z k HH HP HC HZ HN HL. pose proof (permitted_verify _ _ _ _ HP) as HV. destruct HP as (HA & HK & HT & _ & _).
  unfold enc_encrypt. rewrite HK, HA. cbn [bind].
  assert (HG : exists n, get_nonce c = Ok (VBytes n)).
  { unfold get_nonce. destruct HN as [(n & ->)|(-> & (b & HB & HE) & p & HQ)]; cbn [bind is_none]; [eauto|]. rewrite HK, prop_get_place. cbn [place].
    replace (match bytes_prop (k_cls k) PBaseIV with Some q => _ | None => _ end) with (Ok (VBytes b) : result pyval).
    2: { rewrite HC. cbn [bytes_prop]. rewrite HB. reflexivity. }
    cbn [bind]. destruct b; [elim HE; reflexivity|]. replace (veqb (VBytes (b :: b0)) (VBytes [])) with false by reflexivity.
    rewrite HQ. cbn [bind as_bytes]. eauto. }
  destruct HG as (n & ->). cbn [bind]. rewrite HC in HV. change [EncryptOp] with (map VClass [Cls FOps 3]). rewrite HV. cbn [bind].
  rewrite (has_enc_ok z HZ). cbn [bind]. apply only_bind.
  - unfold enc_structure. apply only_bind; [apply only_never, send_base; exact HH|]. intros p _. apply only_never. apply (send_plain ctx [p; aad c]).
  - intros ad _. destruct (payload c) as [pl|]; [|elim HL; reflexivity]. destruct (typed_secret k HT HC) as (b & HB & _).
    assert (HS : attr_bytes k PK = Ok b) by (unfold attr_bytes; rewrite HB; reflexivity). unfold alg_encrypt.
    pose proof (has_enc_ok z HZ) as HX. unfold has_enc in HX. destruct (alg_kind (alg z)) as [[]|]; try discriminate; rewrite HS; cbn [bind as_bytes vopt];
      match goal with |- only _ ?e => destruct e eqn:E; [exact I|right] end; [left|right]; eauto 8.
Qed.

Lemma send_enc0 : forall c z k tag, sendable_headers c -> permitted c z k [Cls FOps 3] -> k_cls k = KSym -> enc_algorithm z ->
  has_nonce c k -> payload c <> None -> only (seal_failure X) (enc0_encode X c tag true).
Proof.
  intros c z k tag HH HP HC HZ HN HL. unfold enc0_encode. apply only_bind; [apply only_never, send_phdr; exact HH|]. intros p _.
  apply only_bind; [apply only_bind; [|intros; exact I]; eapply send_encrypt; eassumption|]. intros b HB. apply bind_ok in HB as (e & _ & HB). injection HB as <-.
  apply only_never, send_emit. destruct HH as [_ HU]. cbn [forallb sendable] in HU |- *. rewrite HU. reflexivity.
Qed.

Lemma send_mac0 : forall m z k tag, sendable_headers (m0_core m) -> permitted (m0_core m) z k [Cls FOps 9] -> k_cls k = KSym -> mac_algorithm z ->
  payload (m0_core m) <> None -> only never (snd (mac0_encode X m tag true)).
Proof.
  intros m z k tag HH HP HC HZ HL. unfold mac0_encode. cbv zeta. pose proof (send_phdr _ HH) as H1. destruct (phdr_encoded (m0_core m)) as [p|e]; [|exact H1].
  unfold mac0_compute_tag. pose proof (send_mac "MAC0" _ z k HH HP HC HZ HL) as H2. destruct (mac_compute X "MAC0" (m0_core m)) as [t|e]; [|exact H2].
  cbn [snd]. apply send_emit. destruct HH as [_ HU]. cbn [app forallb sendable] in HU |- *. rewrite sendable_vopt, HU. reflexivity.
Qed.

(** Nothing protected: the headers are enough. *)
Lemma send_unprotected : forall c tag n, sendable_headers c -> forall items, forallb sendable items = true ->
  only never (p <- phdr_encoded c ;; emit c n tag ([VBytes p; VDict (uhdr c)] ++ items)).
Proof.
  intros c tag n HH items HI. apply only_bind; [apply send_phdr; exact HH|]. intros p _. apply send_emit. destruct HH as [_ HU].
  cbn [app forallb sendable] in HU |- *. rewrite HU, HI. reflexivity.
Qed.

(** ** Recipients *)

Lemma aes_wraps_kind : forall z n, In (z, n) aes_wraps -> alg_kind (alg z) = Some (AKw n) /\ alg_in (alg z) aes_kw = Ok true /\ is_none (alg z) = false.
Proof. intros z n H. cbn in H. repeat (destruct H as [H|H]; [injection H as <- <-; repeat split; vm_compute; reflexivity|]). destruct H. Qed.

Lemma good_secret : forall z b ops, existsb (fun e => Z.eqb (fst e) z) alg_defs = true -> In ops used_ops -> In (length b) [16; 24; 32] ->
  sym_with (VBytes b) (alg z) ops = Ok (sym_key b (alg z) ops).
Proof.
  intros z b ops HZ HO HL. unfold sym_with, sym_init. rewrite (sym_common z ops HZ HO). cbn [bind].
  replace (veqb (VBytes b) (VBytes [])) with false by (destruct b; [cbn in HL; repeat (destruct HL as [HL|HL]; [discriminate|]); destruct HL|reflexivity]).
  unfold set_k. replace (existsb (Nat.eqb (length b)) [16; 24; 32]) with true; [reflexivity|]. symmetry. apply existsb_exists. exists (length b). split; [exact HL|apply Nat.eqb_refl].
Qed.

Lemma send_kw : forall n c b, sendable_headers c -> phdr c = [] -> wrapping c -> payload c = Some b -> only (wrap_failure X) (kw_encrypt X n c []).
Proof.
  intros n c b HH HE HW HB. unfold kw_encrypt. destruct HW as [(z & len & k & s & HA & HZ & HK & HS & HL)|(z & k & HP & HZ & HC)].
  - destruct (aes_wraps_kind z len HZ) as (EK & EI & EN). rewrite HA. cbn [bind]. rewrite HE, EN, EI. cbn [length Nat.eqb negb bind].
    unfold kw_kek_encrypt. rewrite HK, HS. cbn [bind].
    assert (HLen : In (length s) [16; 24; 32]).
    { rewrite HL. cbn in HZ. repeat (destruct HZ as [HZ|HZ]; [injection HZ as _ <-; cbn; auto|]). destruct HZ. }
    rewrite (good_secret z s [WrapOp; EncryptOp] (kind_def _ _ EK)); [|cbn; auto|exact HLen]. cbn [bind].
    change [WrapOp; EncryptOp] with (map VClass [Cls FOps 5; Cls FOps 3]) at 2.
    rewrite (sym_key_verify s z [WrapOp; EncryptOp] (Cls FOps 5)); [|cbn; auto|cbn; auto]. cbn [bind].
    unfold alg_key_wrap. rewrite EK, HB. unfold kw_key. rewrite (sym_key_secret s (alg z) [WrapOp; EncryptOp]). cbn [bind py_len]. rewrite HL, Nat.eqb_refl. cbn [bind as_bytes vopt].
    match goal with |- only _ ?e => destruct e eqn:E; [exact I|right; left; eauto] end.
  - pose proof (permitted_verify _ _ _ _ HP) as HV. destruct HP as (HA & HK & HT & _ & _). rewrite HA. cbn [bind]. rewrite HE. cbn [length Nat.eqb negb].
    destruct HT as (_ & _ & _ & _ & HT). rewrite HC in HT, HV. destruct HT as (bn & be & HN & HR).
    destruct (filled_int k PE RSAKpE be) as [e He]; [rewrite HC; reflexivity|exact HR|].
    destruct (filled_int k PN RSAKpN bn) as [m Hm]; [rewrite HC; reflexivity|exact HN|].
    change (map VClass [Cls FOps 5; Cls FOps 3]) with [WrapOp; EncryptOp] in HV.
    assert (EA : is_none (alg z) = false /\ alg_in (alg z) aes_kw = Ok false /\ alg_in (alg z) oaep = Ok true /\ exists h, alg_kind (alg z) = Some (AOaep h)).
    { clear - HZ. cbn in HZ. repeat (destruct HZ as [<-|HZ]; [do 3 (split; [vm_compute; reflexivity|]); eexists; vm_compute; reflexivity|]). destruct HZ. }
    destruct EA as (-> & -> & E3 & h & EK). cbn [bind]. rewrite E3. cbn [bind]. rewrite HK, HV. cbn [bind]. unfold alg_key_wrap. rewrite EK. unfold rsa_public_numbers.
    rewrite He, Hm, HB. cbn [bind as_bytes vopt]. match goal with |- only _ ?e => destruct e eqn:E; [exact I|right; right; eauto 8] end.
Qed.

Lemma send_recipient : forall n r, direct_recipient r \/ wrap_recipient r -> only (wrap_failure X) (snd (rcpt_encode X n r)) /\
  forall v, snd (rcpt_encode X n r) = Ok v -> sendable v = true.
Proof.
  intros n [id rc c ctx subs] [(HR & HS & HH & z & HA & HZ)|(HR & HS & HH & HE & HW & b & HB & HL)]; cbn [r_class r_subs r_core] in *; subst rc subs.
  - cbn [rcpt_encode snd length Nat.eqb negb]. rewrite HA. cbn [bind].
    replace (veqb (alg z) (algc (-6)) && negb (Nat.eqb (length (phdr c)) 0)) with false.
    2: { destruct (veqb (alg z) (algc (-6))) eqn:E; [|reflexivity]. apply veqb_eq in E. injection E as ->. rewrite (HZ eq_refl). reflexivity. }
    change (is_none (alg z)) with false. cbv iota. pose proof (send_phdr _ HH) as HP. destruct HH as [_ HU].
    destruct (phdr_encoded c) as [p|e]; cbn [bind]; [split; [exact I|]|split; [apply (only_never _ _ (Err e : result pyval)); exact HP|discriminate]].
    intros v H. injection H as <-. cbn [sendable forallb] in HU |- *. rewrite HU. reflexivity.
  - rewrite encode_kw. pose proof (send_phdr _ HH) as HP. destruct (phdr_encoded c) as [p|e]; cbn [bind].
    2: { split; [apply (only_never _ _ (Err e : result pyval)); exact HP|discriminate]. }
    pose proof (send_kw n c b HH HE HW HB) as HK. destruct (kw_encrypt X n c []) as [w|e]; cbn [bind]; [|split; [exact HK|discriminate]].
    unfold finish. cbn [snd]. split; [exact I|]. intros v H. injection H as <-. destruct HH as [_ HU]. cbn [sendable forallb] in HU |- *. rewrite HU. reflexivity.
Qed.

Lemma send_recipients : forall l n, Forall (fun r => direct_recipient r \/ wrap_recipient r) l -> only (wrap_failure X) (snd (rcpts_encode X n l)) /\
  forall vs, snd (rcpts_encode X n l) = Ok vs -> forallb sendable vs = true.
Proof.
  induction l as [|r l IH]; intros n HF; [split; [exact I|]; intros vs H; injection H as <-; reflexivity|].
  apply Forall_cons_iff in HF as [HR HF]. cbn [rcpts_encode]. destruct (send_recipient n r HR) as [S1 S2].
  destruct (rcpt_encode X n r) as [[n1 r'] [v|e]]; cbn [snd] in *; [|split; [exact S1|discriminate]].
  destruct (IH n1 HF) as [I1 I2]. destruct (rcpts_encode X n1 l) as [[n2 l'] [vs|e]]; cbn [snd] in *; [|split; [exact I1|discriminate]].
  split; [exact I|]. intros ws H. injection H as <-. cbn [forallb]. rewrite (S2 v eq_refl), (I2 vs eq_refl). reflexivity.
Qed.

Lemma direct_classes : forall rs, rs <> [] -> Forall direct_recipient rs -> verify_recipients rs = Ok tt /\ has_class RDirect rs = true.
Proof.
  intros rs HN HF. rewrite Forall_forall in HF. split.
  - apply verify_mix. split; [intros _ r HI; apply HF; exact HI|]. intros (r & HI & E). destruct (HF r HI) as (E' & _). congruence.
  - apply has_class_iff. destruct rs as [|r rs]; [elim HN; reflexivity|]. exists r. split; [left; reflexivity|]. apply HF. left. reflexivity.
Qed.

Lemma direct_any : forall rs, Forall direct_recipient rs -> Forall (fun r => direct_recipient r \/ wrap_recipient r) rs.
Proof. intros rs. apply Forall_impl. auto. Qed.

(** The end of [encode]: the recipients and the array. *)
Lemma only_fail : forall P A B (e : exn), only P (Err e : result A) -> only P (Err e : result B).
Proof. intros P A B e H. exact H. Qed.

Lemma send_enc_direct : forall n m z k tag, sendable_headers (e_core m) -> permitted (e_core m) z k [Cls FOps 3] -> k_cls k = KSym -> enc_algorithm z ->
  has_nonce (e_core m) k -> payload (e_core m) <> None -> e_rcpts m <> [] -> Forall direct_recipient (e_rcpts m) ->
  only (send_failure X) (snd (encm_encode X n m tag true)).
Proof.
  intros n [c rs] z k tag HH HP HC HZ HN HL HR HF. cbn [e_core e_rcpts] in *. pose proof HP as (HA & _).
  unfold encm_encode. cbn [e_core]. pose proof (send_phdr _ HH) as H1. destruct (phdr_encoded c) as [p|e]; [|exact (only_never _ _ (Err e : result bytes) H1)].
  unfold encm_encrypt. cbn [e_core e_rcpts]. destruct (direct_classes rs HR HF) as [HV HD]. rewrite HA, HV, HD. cbn [bind].
  pose proof (send_encrypt "Encrypt" c z k HH HP HC HZ HN HL) as H2. destruct (enc_encrypt X "Encrypt" c) as [ct|e]; cbn [bind].
  2: { cbn [snd]. eapply only_weak with (r := Err e : result bytes); [|exact H2]. intros x Hx. left. exact Hx. }
  cbn [e_rcpts e_core]. destruct rs as [|r rs]; [elim HR; reflexivity|]. rewrite HA.
  destruct (send_recipients (r :: rs) n (direct_any _ HF)) as [S1 S2]. destruct (rcpts_encode X n (r :: rs)) as [[n2 rs'] [vs|e]]; cbn [snd] in *.
  - apply only_never, send_emit. destruct HH as [_ HU]. cbn [app forallb sendable] in HU |- *. rewrite HU, (S2 vs eq_refl). reflexivity.
  - eapply only_weak with (r := Err e : result bytes); [|exact S1]. intros x Hx. right. exact Hx.
Qed.

Lemma send_mac_direct : forall n m rs z k tag, sendable_headers (mm_core m) -> permitted (mm_core m) z k [Cls FOps 9] -> k_cls k = KSym -> mac_algorithm z ->
  payload (mm_core m) <> None -> mm_rcpts m = Some rs -> rs <> [] -> Forall direct_recipient rs ->
  only never (snd (macm_encode X n m tag true)).
Proof.
  intros n [c t o] rs z k tag HH HP HC HZ HL HO HR HF. cbn [mm_core mm_rcpts] in *. subst o. pose proof HP as (HA & _).
  unfold macm_encode. cbn [mm_core]. pose proof (send_phdr _ HH) as H1. destruct (phdr_encoded c) as [p|e]; [|exact H1].
  unfold macm_compute_tag. cbn [mm_core mm_rcpts]. destruct (direct_classes rs HR HF) as [HV HD]. rewrite HA, HV, HD.
  unfold mac_super_compute. cbn [mm_core mm_rcpts mm_tag]. pose proof (send_mac "MAC" c z k HH HP HC HZ HL) as H2. destruct (mac_compute X "MAC" c) as [mt|e]; cbn [bind]; [|exact H2].
  cbn [mm_rcpts mm_core]. destruct rs as [|r rs]; [elim HR; reflexivity|]. rewrite HA.
  assert (S : forall n, only never (snd (rcpts_encode X n (r :: rs)))).
  { clear - HF. induction (r :: rs) as [|x l IH]; intros n; [exact I|]. apply Forall_cons_iff in HF as [HX HF]. cbn [rcpts_encode].
    assert (HE : only never (snd (rcpt_encode X n x))).
    { destruct x as [id rc c ctx subs]. destruct HX as (HR & HS & HH & z & HA & HZ). cbn [r_class r_subs r_core] in *. subst rc subs.
      cbn [rcpt_encode snd length Nat.eqb negb]. rewrite HA. cbn [bind].
      replace (veqb (alg z) (algc (-6)) && negb (Nat.eqb (length (phdr c)) 0)) with false.
      2: { destruct (veqb (alg z) (algc (-6))) eqn:E; [|reflexivity]. apply veqb_eq in E. injection E as ->. rewrite (HZ eq_refl). reflexivity. }
      change (is_none (alg z)) with false. cbv iota. apply only_bind; [apply send_phdr; exact HH|intros; exact I]. }
    destruct (rcpt_encode X n x) as [[n1 x'] [v|e]]; cbn [snd] in *; [|exact HE].
    specialize (IH HF n1). destruct (rcpts_encode X n1 l) as [[n2 l'] [vs|e]]; cbn [snd] in *; [exact I|exact IH]. }
  destruct (send_recipients (r :: rs) n (direct_any _ HF)) as [_ S2]. specialize (S n). destruct (rcpts_encode X n (r :: rs)) as [[n2 rs'] [vs|e]]; cbn [snd] in *.
  - apply send_emit. destruct HH as [_ HU]. cbn [app forallb sendable] in HU |- *. rewrite sendable_vopt, HU, (S2 vs eq_refl). reflexivity.
  - exact S.
Qed.

(** Key wrap *)
Lemma send_cek : forall l n K, Forall wrap_recipient l -> In (length K) [16; 24; 32] ->
  match cek_loop X n (VBytes K) l with
  | ((_, l'), Ok kb) => Forall wrap_recipient l' /\ length l' = length l /\ exists b, kb = VBytes b /\ In (length b) [16; 24; 32]
  | (_, Err x) => x = OverflowError \/ wrap_failure X x
  end.
Proof.
  induction l as [|r l IH]; intros n K HF HK; [cbn; eauto 8|]. apply Forall_cons_iff in HF as [HR HF]. cbn [cek_loop].
  destruct r as [id rc c ctx subs]. destruct HR as (HC & HS & HH & HE & HW & b & HB & HL). cbn [r_class r_subs r_core] in *. subst rc subs.
  rewrite HB.
  assert (HG : exists K', In (length K') [16; 24; 32] /\
    match b with [] => (r_with (Rcpt id RKeyWrap c ctx []) (with_payload c (Some K)), VBytes K) | _ => (Rcpt id RKeyWrap c ctx [], vopt (Some b)) end =
    (Rcpt id RKeyWrap (with_payload c (Some K')) ctx [], VBytes K')).
  { destruct b as [|b0 b].
    - exists K. split; [exact HK|reflexivity].
    - exists (b0 :: b). split; [destruct HL as [HL|HL]; [discriminate|exact HL]|]. destruct c. cbn in HB. subst. reflexivity. }
  destruct HG as (K' & HK' & EG).
  replace (match b with [] => _ | _ => _ end) with (Rcpt id RKeyWrap (with_payload c (Some K')) ctx [], VBytes K') by (rewrite <- EG; destruct b; reflexivity).
  clear EG. cbn [rcpt_encrypt].
  assert (HR' : wrap_recipient (Rcpt id RKeyWrap (with_payload c (Some K')) ctx [])).
  { split; [reflexivity|]. split; [reflexivity|]. cbn [r_core]. destruct c. repeat split; try apply HH; try exact HE; try exact HW. exists K'. split; [reflexivity|right; exact HK']. }
  pose proof (send_kw n (with_payload c (Some K')) K') as HX. destruct HR' as (_ & _ & H1 & H2 & H3 & H4). cbn [r_core] in *. specialize (HX H1 H2 H3 eq_refl).
  destruct (kw_encrypt X n (with_payload c (Some K')) []) as [w|e]; [|exact HX].
  specialize (IH (N.succ n) K' HF HK'). destruct (cek_loop X (N.succ n) (VBytes K') l) as [[n' l'] [kb|e]]; [|exact IH].
  destruct IH as (I1 & I2 & I3). split; [|split; [cbn; congruence|exact I3]]. constructor; [|exact I1].
  split; [reflexivity|]. split; [reflexivity|]. auto.
Qed.

Lemma send_enc_wrapped : forall n m z nc tag, law_urandom_len X -> sendable_headers (e_core m) -> get_attr (e_core m) Algorithm = Ok (alg z) -> enc_algorithm z ->
  get_attr (e_core m) IV = Ok (VBytes nc) -> payload (e_core m) <> None -> e_rcpts m <> [] -> Forall wrap_recipient (e_rcpts m) ->
  only (send_failure X) (snd (encm_encode X n m tag true)).
Proof.
  intros n [c rs] z nc tag HU HH HA HZ HN HL HR HF. cbn [e_core e_rcpts] in *.
  assert (HCL : forall rc rs, Forall wrap_recipient rs -> has_class rc rs = true -> rc = RKeyWrap).
  { intros rc l H E. apply has_class_iff in E as (r & HI & <-). rewrite Forall_forall in H. apply (H r HI). }
  unfold encm_encode. cbn [e_core]. pose proof (send_phdr _ HH) as H1. destruct (phdr_encoded c) as [p|e]; [|exact (only_never _ _ (Err e : result bytes) H1)].
  unfold encm_encrypt. cbn [e_core e_rcpts]. rewrite HA.
  assert (HV : verify_recipients rs = Ok tt).
  { apply verify_mix. split; intros (r & HI & E); exfalso; rewrite Forall_forall in HF; destruct (HF r HI) as (E' & _); congruence. }
  rewrite HV. cbn [bind].
  replace (has_class RDirect rs) with false by (symmetry; destruct (has_class RDirect rs) eqn:E; [apply HCL in E; [discriminate|exact HF]|reflexivity]).
  replace (has_class RAgree rs) with false by (symmetry; destruct (has_class RAgree rs) eqn:E; [apply HCL in E; [discriminate|exact HF]|reflexivity]).
  replace (has_class RKeyWrap rs) with true.
  2: { symmetry. apply has_class_iff. destruct rs as [|r rs]; [elim HR; reflexivity|]. exists r. split; [left; reflexivity|]. apply Forall_inv in HF. apply HF. }
  cbn [orb].
  assert (HG : exists len kd, get_key_length (alg z) = Ok len /\ In len [16; 24; 32] /\ alg_kind (alg z) = Some kd).
  { clear - HZ. destruct HZ as [H|H]; each H; (eexists; eexists; split; [vm_compute; reflexivity|split; [cbn; tauto|vm_compute; reflexivity]]). }
  destruct HG as (len & kd & HG & HLen & HKD). rewrite HG.
  pose proof (send_cek rs (N.succ n) (x_urandom X n len) HF) as HC. rewrite HU in HC. specialize (HC HLen).
  destruct (cek_loop X (N.succ n) (VBytes (x_urandom X n len)) rs) as [[n' rs'] [kb|e]].
  2: { cbn [bind snd]. destruct HC as [HC|HC]; [left; exact HC|right; right; exact HC]. }
  destruct HC as (HF' & HLN & b & -> & HB). rewrite (good_secret z b [EncryptOp] (kind_def _ _ HKD)); [|cbn; auto|exact HB].
  set (k := sym_key b (alg z) [EncryptOp]). set (c' := with_key c (Some k)).
  assert (HP : permitted c' z k [Cls FOps 3]).
  { unfold permitted, c'. destruct c. split; [exact HA|]. split; [reflexivity|]. split; [|split].
    - split; [|split; [|split; [|split]]].
      + intros v H. injection H as <-. eexists. reflexivity.
      + intros v H. injection H as <-. eexists. reflexivity.
      + intros v H. discriminate H.
      + intros e [].
      + exists b. split; [reflexivity|exact HB].
    - right. right. exists (Cls FAlg z). split; reflexivity.
    - right. right. exists [EncryptOp], (Cls FOps 3). split; [reflexivity|]. split; cbn; auto. }
  assert (HH' : sendable_headers c') by (unfold c'; destruct c; exact HH).
  assert (HX : only (seal_failure X) (enc_encrypt X "Encrypt" c')).
  { apply (send_encrypt "Encrypt" c' z k HH' HP eq_refl HZ); [left; exists nc; unfold c'; destruct c; exact HN|unfold c'; destruct c; exact HL]. }
  destruct (enc_encrypt X "Encrypt" c') as [ct|e]; cbn [bind].
  2: { cbn [snd]. destruct HX as [HX|HX]; [left; exact HX|right; left; exact HX]. }
  cbn [e_rcpts e_core]. destruct rs' as [|r rs']; [destruct rs; [elim HR; reflexivity|discriminate HLN]|].
  replace (get_attr c' Algorithm) with (Ok (alg z)) by (unfold c'; destruct c; symmetry; exact HA).
  assert (HF2 : Forall (fun r => direct_recipient r \/ wrap_recipient r) (r :: rs')) by (eapply Forall_impl; [|exact HF']; auto).
  destruct (send_recipients (r :: rs') n' HF2) as [S1 S2]. destruct (rcpts_encode X n' (r :: rs')) as [[n2 rs2] [vs|e]]; cbn [snd] in *.
  - apply only_never, send_emit. destruct HH' as [_ HU']. cbn [app forallb sendable] in HU' |- *. rewrite HU', (S2 vs eq_refl). reflexivity.
  - destruct S1 as [S1|S1]; [left; exact S1|right; right; exact S1].
Qed.

End Send.
