(** The order of map entries (C104). *)
From Coq Require Import NArith ZArith Bool String Lia Permutation.
From Coq Require Import Init.Byte List.
From Verif Require Import Bytes Value ValueProofs Cbor SpecData DataProofs Registry RegistryProofs Crypto Keys Algorithms Headers Messages Recipients
  SpecRegistry SpecKeys SpecOrder KeyTrip.
Import ListNotations.
Local Open Scope result_scope.

(** ** Dictionaries *)

Lemma perm_dmem : forall d d' k, Permutation d d' -> dmem d k = dmem d' k.
Proof.
  intros d d' k H. rewrite !dmem_existsb. induction H as [|x l l' _ IH|x y l|l l' l'' _ IH1 _ IH2]; [reflexivity| | |congruence].
  - cbn [existsb]. rewrite IH. reflexivity.
  - cbn [existsb]. rewrite !orb_assoc, (orb_comm (keyeq k (fst y))). reflexivity.
Qed.

Lemma perm_dnodup : forall d d', Permutation d d' -> dnodup d = dnodup d'.
Proof.
  intros d d' H. induction H as [|[a v] l l' HP IH|[a v] [b w] l|l l' l'' _ IH1 _ IH2]; [reflexivity| | |congruence].
  - cbn [dnodup]. rewrite IH, (perm_dmem _ _ a HP). reflexivity.
  - cbn [dnodup]. unfold dmem. cbn [dget]. rewrite (keyeq_sym b a). destruct (keyeq a b) eqn:E.
    + reflexivity.
    + destruct (dget l a); destruct (dget l b); reflexivity.
Qed.

Lemma perm_dget : forall d d', Permutation d d' -> dnodup d = true -> forall k, dget d k = dget d' k.
Proof.
  intros d d' H. induction H as [|[a v] l l' HP IH|[a v] [b w] l|l l' l'' HP IH1 _ IH2]; intros HN k.
  - reflexivity.
  - cbn [dnodup] in HN. apply andb_true_iff in HN as [_ HN]. cbn [dget]. rewrite (IH HN). reflexivity.
  - cbn [dnodup] in HN. apply andb_true_iff in HN as [HN _]. apply negb_true_iff, dmem_false in HN. cbn [dget] in HN |- *.
    destruct (keyeq k b) eqn:EB; [|reflexivity]. destruct (keyeq k a) eqn:EA; [|reflexivity].
    rewrite keyeq_sym in EB. rewrite (keyeq_trans b k a EB EA) in HN. discriminate.
  - rewrite (IH1 HN). apply IH2. rewrite <- (perm_dnodup _ _ HP). exact HN.
Qed.

Lemma perm_ddel : forall d d' k, Permutation d d' -> dnodup d = true -> Permutation (ddel d k) (ddel d' k).
Proof.
  intros d d' k H. induction H as [|[a v] l l' HP IH|[a v] [b w] l|l l' l'' HP IH1 _ IH2]; intros HN.
  - constructor.
  - cbn [dnodup] in HN. apply andb_true_iff in HN as [_ HN]. cbn [ddel]. destruct (keyeq k a); [exact HP|]. constructor. apply IH, HN.
  - cbn [dnodup] in HN. apply andb_true_iff in HN as [HN _]. apply negb_true_iff, dmem_false in HN. cbn [dget] in HN. cbn [ddel].
    destruct (keyeq k b) eqn:EB; destruct (keyeq k a) eqn:EA; try apply Permutation_refl.
    + rewrite keyeq_sym in EB. rewrite (keyeq_trans b k a EB EA) in HN. discriminate.
    + apply perm_swap.
  - eapply Permutation_trans; [apply IH1, HN|]. apply IH2. rewrite <- (perm_dnodup _ _ HP). exact HN.
Qed.

Lemma mapM_perm : forall A B (f : A -> result B) d d' l, Permutation d d' -> mapM f d = Ok l -> exists l', mapM f d' = Ok l' /\ Permutation l l'.
Proof.
  intros A B f d d' l H. revert l. induction H as [|x d d' HP IH|x y d|d d' d'' _ IH1 _ IH2]; intros m E.
  - exists m. split; [exact E|apply Permutation_refl].
  - cbn [mapM] in E |- *. apply bind_ok in E as (z & EZ & E). apply bind_ok in E as (r & ER & E). injection E as <-.
    destruct (IH _ ER) as (l' & E' & P'). rewrite EZ, E'. cbn [bind]. eexists. split; [reflexivity|constructor; exact P'].
  - cbn [mapM] in E |- *. apply bind_ok in E as (z & EZ & E). apply bind_ok in E as (r & ER & E). injection E as <-.
    apply bind_ok in ER as (z' & EZ' & ER). apply bind_ok in ER as (r' & ER' & ER). injection ER as <-.
    rewrite EZ, EZ', ER'. cbn [bind]. eexists. split; [reflexivity|apply perm_swap].
  - destruct (IH1 _ E) as (l' & E' & P'). destruct (IH2 _ E') as (l2 & E2 & P2). exists l2. split; [exact E2|eapply Permutation_trans; eassumption].
Qed.

(** Entries translated one by one keep different keys. *)
Lemma once_nodup : forall f allow (g : pyval -> pyval -> result pyval) d l, named_once f d -> Forall (fun e => hashable (fst e) = true) d ->
  mapM (fun e => a <- from_id f allow (fst e) ;; v <- g a (snd e) ;; Ok (a, v)) d = Ok l -> dnodup l = true.
Proof.
  intros f allow g d. induction d as [|e d IH]; intros l HO HH E.
  - injection E as <-. reflexivity.
  - inversion HO as [|? ? HF HO']; subst. inversion HH as [|? ? HE HH']; subst. cbn [mapM] in E. apply bind_ok in E as (x & EX & E).
    apply bind_ok in E as (r & ER & E). injection E as <-. apply bind_ok in EX as (a & EA & EX). apply bind_ok in EX as (v & EV & EX). injection EX as <-.
    cbn [dnodup]. rewrite (IH r HO' HH' ER), andb_true_r. apply negb_true_iff. rewrite dmem_existsb. apply not_true_is_false. intros HX.
    apply existsb_exists in HX as ([b w] & HI & HK). cbn [fst] in HK.
    apply mapM_Forall2 in ER. assert (HB : exists e', In e' d /\ from_id f allow (fst e') = Ok b).
    { clear - ER HI. induction ER as [|e0 x0 d r H0 _ IH]; [destruct HI|]. destruct HI as [->|HI].
      - exists e0. apply bind_ok in H0 as (a & EA & H0). apply bind_ok in H0 as (v & _ & H0). injection H0 as <- _. split; [left; reflexivity|exact EA].
      - destruct (IH HI) as (e' & HE & E'). exists e'. split; [right; exact HE|exact E']. }
    destruct HB as (e' & HE' & EB). rewrite Forall_forall in HF, HH'. 
    assert (HS : forall (e : pyval * pyval) s, hashable (fst e) = true -> from_id f allow (fst e) = Ok s -> stands_for f (fst e) s).
    { intros e1 s H1 H2. apply from_id_stands; [|intros l0 EL; rewrite EL in H1; discriminate]. destruct allow; [exact H2|].
      destruct (from_id_cases _ _ _ _ H2) as [(c & n & HC & HSp & ->)|[(HF' & _)|(l1 & l2 & EL & _)]].
      - eapply stands_from_id. left. eauto.
      - discriminate.
      - rewrite EL in H1. discriminate. }
    rewrite (HF e' HE' a b (HS _ _ HE EA) (HS _ _ (HH' e' HE') EB)) in HK. discriminate.
Qed.

Lemma once_perm : forall f d d', named_once f d -> Permutation d d' -> named_once f d'.
Proof.
  intros f d d' HO H. induction H as [|x l l' HP IH|x y l|l l' l'' _ IH1 _ IH2]; [exact HO| | |auto].
  - inversion HO as [|? ? HF HO']; subst. constructor; [|apply IH, HO']. rewrite Forall_forall in *. intros e HE. apply HF.
    eapply Permutation_in; [apply Permutation_sym; exact HP|exact HE].
  - inversion HO as [|? ? HF HO']; subst. inversion HO' as [|? ? HF' HO2]; subst. inversion HF as [|? ? H1 HF2]; subst.
    constructor; [constructor; [|exact HF']|constructor; [exact HF2|exact HO2]]. intros s s' HS HS'. rewrite keyeq_sym. apply H1; assumption.
Qed.

Section Order.
Variable X : crypto.

(** ** Headers *)

Lemma parse_items_mapM : forall allow d acc, parse_items X allow d acc =
  (l <- mapM (fun e => a <- from_id FHdr allow (fst e) ;; v <- parse_value X a (snd e) ;; Ok (a, v)) d ;; Ok (dupdate acc l)).
Proof.
  intros allow d. induction d as [|[k v] d IH]; intros acc; [reflexivity|]. cbn [parse_items mapM fst snd].
  destruct (from_id FHdr allow k) as [a|e]; [|reflexivity]. cbn [bind]. destruct (parse_value X a v) as [w|e]; [|reflexivity]. cbn [bind].
  rewrite IH. destruct (mapM _ d) as [l|e]; reflexivity.
Qed.

Lemma parse_perm : forall allow u u' h, header_maps u u' -> parse_items X allow u [] = Ok h ->
  exists h', parse_items X allow u' [] = Ok h' /\ Permutation h h' /\ dnodup h = true.
Proof.
  intros allow u u' h (HP & (_ & HH) & HO) E. rewrite parse_items_mapM in *. apply bind_ok in E as (l & EL & E). injection E as <-.
  destruct (mapM_perm _ _ _ _ _ _ HP EL) as (l' & EL' & P'). rewrite EL'. cbn [bind]. eexists. split; [reflexivity|].
  pose proof (once_nodup FHdr allow (parse_value X) u l HO HH EL) as HN. change (dupdate [] l) with (dict_of_pairs l). change (dupdate [] l') with (dict_of_pairs l').
  rewrite !dict_of_pairs_nodup; [auto|rewrite <- (perm_dnodup _ _ P'); exact HN|exact HN].
Qed.

(** ** What only reads headers *)

Lemma reordered_attr : forall c c' a, reordered c c' -> get_attr c' a = get_attr c a.
Proof.
  intros c c' a (H1 & _ & _ & _ & _ & _ & _ & HP & HN). unfold get_attr, get_attr_default, dget_or. rewrite H1.
  rewrite distinct_keys_dnodup in HN. rewrite (perm_dget _ _ HP HN). reflexivity.
Qed.

Lemma reordered_eq : forall c c', reordered c c' -> c' = with_uhdr c (uhdr c').
Proof. intros [] [] (H1 & H2 & H3 & H4 & H5 & H6 & H7 & _). cbn in *. subst. reflexivity. Qed.

Ltac same H c c' := let E := fresh in let HA := fresh in
  pose proof (reordered_eq _ _ H) as E; assert (HA : forall a, get_attr c' a = get_attr c a) by (intros; apply reordered_attr; exact H);
  rewrite E in HA |- *; clear E H; destruct c.

Lemma order_phdr : forall c c', reordered c c' -> phdr_encoded c' = phdr_encoded c.
Proof. intros c c' H. rewrite (reordered_eq _ _ H). destruct c. reflexivity. Qed.

Lemma order_sign : forall c c' seed d, reordered c c' ->
  compute_signature X seed c' (sign1_structure c' d) = compute_signature X seed c (sign1_structure c d) /\
  (forall s, verify_signature X c' (sign1_structure c' d) s = verify_signature X c (sign1_structure c d) s).
Proof.
  intros c c' seed d H. assert (HS : sign1_structure c' d = sign1_structure c d) by (rewrite (reordered_eq _ _ H); destruct c; reflexivity).
  rewrite HS. assert (HV : forall x y, key_verification c' x y = key_verification c x y) by (intros; rewrite (reordered_eq _ _ H); destruct c; reflexivity).
  unfold compute_signature, verify_signature. rewrite (reordered_attr c c' _ H). split; [|intros s]; destruct (get_attr c Algorithm); cbn [bind]; rewrite ?HV; reflexivity.
Qed.

Lemma order_signer : forall p p' c c' seed d, reordered p p' -> reordered c c' ->
  compute_signature X seed c' (signer_structure (Some p') c' d) = compute_signature X seed c (signer_structure (Some p) c d) /\
  signer_verify X (Some p') c' d = signer_verify X (Some p) c d.
Proof.
  intros p p' c c' seed d HP H. assert (HS : signer_structure (Some p') c' d = signer_structure (Some p) c d).
  { rewrite (reordered_eq _ _ H), (reordered_eq _ _ HP); destruct c, p; reflexivity. }
  unfold signer_verify. rewrite HS. assert (HV : forall x y, key_verification c' x y = key_verification c x y) by (intros; rewrite (reordered_eq _ _ H); destruct c; reflexivity).
  assert (HL : payload c' = payload c) by apply H.
  unfold compute_signature, verify_signature. rewrite (reordered_attr c c' _ H), HL. split; destruct (get_attr c Algorithm); cbn [bind]; rewrite ?HV; reflexivity.
Qed.

Lemma order_nonce : forall c c', reordered c c' -> get_nonce c' = get_nonce c.
Proof. intros c c' H. unfold get_nonce. rewrite !(reordered_attr c c' _ H). replace (ckey c') with (ckey c) by (symmetry; apply H). reflexivity. Qed.

Lemma order_enc : forall ctx c c', reordered c c' -> enc_encrypt X ctx c' = enc_encrypt X ctx c /\ enc_decrypt X ctx c' = enc_decrypt X ctx c.
Proof.
  intros ctx c c' H. unfold enc_encrypt, enc_decrypt. rewrite (reordered_attr c c' _ H), (order_nonce _ _ H).
  assert (HS : enc_structure ctx c' = enc_structure ctx c) by (rewrite (reordered_eq _ _ H); destruct c; reflexivity).
  rewrite HS. replace (ckey c') with (ckey c) by (symmetry; apply H). replace (payload c') with (payload c) by (symmetry; apply H). auto.
Qed.

Lemma order_mac : forall ctx c c' t, reordered c c' -> mac_compute X ctx c' = mac_compute X ctx c /\ mac_verify X ctx c' t = mac_verify X ctx c t.
Proof.
  intros ctx c c' t H. unfold mac_compute, mac_verify. rewrite (reordered_attr c c' _ H).
  assert (HS : mac_structure ctx c' = mac_structure ctx c) by (rewrite (reordered_eq _ _ H); destruct c; reflexivity).
  rewrite HS. replace (ckey c') with (ckey c) by (symmetry; apply H). auto.
Qed.

(** ** Recipients *)

Lemma same_length : forall A B (R : A -> B -> Prop) l l', Forall2 R l l' -> length l' = length l.
Proof. intros A B R l l' H. induction H; cbn; congruence. Qed.

Lemma rcpt_class_order : forall rc l l', Forall2 reordered_rcpt l l' -> has_class rc l' = has_class rc l.
Proof.
  intros rc l l' H. unfold has_class. induction H as [|r r' l l' HR _ IH]; [reflexivity|]. cbn [existsb]. rewrite IH. destruct HR. reflexivity.
Qed.

Lemma rcpt_verify_order : forall l l', Forall2 reordered_rcpt l l' -> verify_recipients l' = verify_recipients l.
Proof.
  intros l l' H. unfold verify_recipients, n_classes. cbn [filter]. rewrite !(rcpt_class_order _ _ _ H), (same_length _ _ _ _ _ H). reflexivity.
Qed.

Lemma order_kdf : forall c c' t, reordered c c' -> get_kdf_context c' t = get_kdf_context c t.
Proof.
  intros c c' t H. unfold get_kdf_context. rewrite !(reordered_attr c c' _ H). replace (phdr c') with (phdr c) by (symmetry; apply H).
  replace (local c') with (local c) by (symmetry; apply H). reflexivity.
Qed.

Lemma order_kek : forall c c' t p k a, reordered c c' -> agree_kek X c' t p k a = agree_kek X c t p k a.
Proof. intros. unfold agree_kek. rewrite (order_kdf c c' t H). reflexivity. Qed.

Lemma order_kakw : forall c c', reordered c c' -> kakw_decrypt X c' = kakw_decrypt X c.
Proof.
  intros c c' H. unfold kakw_decrypt. rewrite !(reordered_attr c c' _ H). replace (ckey c') with (ckey c) by (symmetry; apply H).
  replace (payload c') with (payload c) by (symmetry; apply H). 
  destruct (get_attr c Algorithm); [|reflexivity]. cbn [bind]. destruct (alg_in _ es_kw); [|reflexivity]. cbn [bind].
  match goal with |- (pk <- ?e ;; _) = _ => destruct e; [|reflexivity] end. cbn [bind]. destruct (get_key_wrap_func _); [|reflexivity]. cbn [bind].
  rewrite (order_kek _ _ _ _ _ _ H). reflexivity.
Qed.

Lemma order_decrypt : forall r r', reordered_rcpt r r' -> rcpt_decrypt X r' = rcpt_decrypt X r.
Proof.
  fix IH 1. intros [id rc c ctx subs] r' H. inversion H as [? ? ? c' ? ? subs' HC HS]; subst. cbn [rcpt_decrypt].
  rewrite (order_kakw _ _ HC), !(reordered_attr c c' _ HC). replace (ckey c') with (ckey c) by (symmetry; apply HC).
  replace (payload c') with (payload c) by (symmetry; apply HC). rewrite (rcpt_verify_order _ _ HS), !(rcpt_class_order _ _ _ HS).
  destruct subs as [|r0 subs]; inversion HS as [|? r0' ? subs2 HR HS']; subst; [reflexivity|]. rewrite (IH r0 r0' HR). reflexivity.
Qed.

Lemma order_compute : forall r r' t, reordered_rcpt r r' -> compute_cek X r' t true = compute_cek X r t true.
Proof.
  intros r r' t H. pose proof (order_decrypt _ _ H) as HD. destruct H as [id rc c c' ctx subs subs' HC HS]. unfold compute_cek. cbn [r_class r_core].
  rewrite HD. assert (HA : agree_compute_cek X c' t true = agree_compute_cek X c t true).
  { unfold agree_compute_cek. rewrite !(reordered_attr c c' _ HC). replace (ckey c') with (ckey c) by (symmetry; apply HC).
    replace (local c') with (local c) by (symmetry; apply HC).
    destruct (get_attr c Algorithm); [|reflexivity]. cbn [bind]. destruct (alg_in _ _) as [[]|]; [|reflexivity|reflexivity]. cbn [bind negb].
    match goal with |- (pk <- ?e ;; _) = _ => destruct e; [|reflexivity] end. cbn [bind]. destruct (is_none _); [reflexivity|].
    destruct (peer _); [|reflexivity]. cbn [bind]. destruct (key_verify _ _ _ _); [|reflexivity]. cbn [bind]. destruct (ckey c); [|reflexivity]. cbn [bind].
    destruct (key_verify _ _ _ _); [|reflexivity]. cbn [bind]. rewrite (order_kek _ _ _ _ _ _ HC). reflexivity. }
  rewrite HA. reflexivity.
Qed.

Lemma order_has_in : forall t r r', reordered_rcpt r r' -> has_in t r' = has_in t r.
Proof.
  fix IH 2. intros t [i rc c ctx subs] r' H. inversion H as [? ? ? c' ? ? subs' HC HS]; subst. cbn [has_in]. clear - HS IH. generalize false.
  revert subs' HS. induction subs as [|r subs IHs]; intros subs' HS b; inversion HS as [|? r' ? subs2 HR HS']; subst; [reflexivity|].
  rewrite (IH t r r' HR). destruct HR as [id rc c c' ctx s s' HC HF]. cbn [r_id r_subs]. destruct (N.eqb t id); [reflexivity|].
  destruct HF; apply IHs, HS'.
Qed.

Lemma order_has : forall t l l', Forall2 reordered_rcpt l l' -> has_recipient t l' = has_recipient t l.
Proof.
  intros t l l' H. unfold has_recipient. generalize false. induction H as [|r r' l l' HR H IH]; intros b; [reflexivity|].
  rewrite (order_has_in t r r' HR). destruct HR as [id rc c c' ctx s s' HC HF]. cbn [r_id r_subs]. destruct (N.eqb t id); [reflexivity|].
  destruct HF; apply IH.
Qed.

Lemma order_with_key : forall c c' k, reordered c c' -> reordered (with_key c k) (with_key c' k).
Proof. intros [] [] k H. exact (conj (proj1 H) (conj (proj1 (proj2 H)) (conj (proj1 (proj2 (proj2 H))) (conj (proj1 (proj2 (proj2 (proj2 H)))) (conj (proj1 (proj2 (proj2 (proj2 (proj2 H))))) (conj (proj1 (proj2 (proj2 (proj2 (proj2 (proj2 H)))))) (conj eq_refl (proj2 (proj2 (proj2 (proj2 (proj2 (proj2 (proj2 H)))))))))))))). Qed.

Lemma order_encm : forall c c' l l' r r', reordered c c' -> Forall2 reordered_rcpt l l' -> reordered_rcpt r r' ->
  snd (encm_decrypt X (EncMsg c' l') r') = snd (encm_decrypt X (EncMsg c l) r).
Proof.
  intros c c' l l' r r' HC HL HR. unfold encm_decrypt. cbn [e_core e_rcpts]. rewrite (reordered_attr c c' _ HC).
  rewrite (order_has _ _ _ HL), (rcpt_verify_order _ _ HL), !(rcpt_class_order _ _ _ HL), (proj2 (order_enc "Encrypt" _ _ HC)).
  replace (r_id r') with (r_id r) by (destruct HR; reflexivity). destruct (get_attr c Algorithm) as [a|]; [|reflexivity].
  destruct (negb _); [reflexivity|]. destruct (verify_recipients l); [|reflexivity]. destruct (has_class RDirect l); [reflexivity|].
  destruct (_ || _ || _); [|reflexivity]. rewrite (order_compute _ _ a HR). destruct (compute_cek X r a true); [|reflexivity]. cbn [snd].
  apply (order_enc "Encrypt"), order_with_key, HC.
Qed.

(** ** Decoding *)

Lemma order_core_init : forall ph u u' pl ad k enc ts al c, header_maps u u' -> core_init X (Args ph (VDict u) pl ad k enc ts al) = Ok c ->
  exists c', core_init X (Args ph (VDict u') pl ad k enc ts al) = Ok c' /\ reordered c c'.
Proof.
  intros ph u u' pl ad k enc ts al c HM E.
  unfold core_init in *. cbn [a_uhdr a_phdr a_payload a_aad a_key a_phdr_encoded a_tstr a_allow] in *.
  apply bind_ok in E as (p & EP & E). rewrite EP. cbn [bind]. destruct p; try discriminate. 
  apply bind_ok in E as (p1 & EP1 & E). rewrite EP1. cbn [bind]. apply bind_ok in E as (u1 & EU1 & E).
  destruct (parse_perm al u u' u1 HM EU1) as (u2 & EU2 & HP & HN). rewrite EU2. cbn [bind].
  apply bind_ok in E as (raw & ER & E). rewrite ER. cbn [bind]. apply bind_ok in E as (pl1 & EPl & E). rewrite EPl. cbn [bind].
  apply bind_ok in E as (ad1 & EAd & E). rewrite EAd. cbn [bind]. apply bind_ok in E as (k1 & EK & E). rewrite EK. cbn [bind]. injection E as <-.
  eexists. split; [reflexivity|]. unfold reordered. cbn [phdr phdr_raw uhdr local tstr payload aad ckey]. rewrite distinct_keys_dnodup.
  repeat (split; [reflexivity|]). split; [exact HP|exact HN].
Qed.

Lemma order_core_obj : forall allow p u u' rest c rest', header_maps u u' -> core_from_obj X allow (p :: VDict u :: rest) = Ok (c, rest') ->
  exists c', core_from_obj X allow (p :: VDict u' :: rest) = Ok (c', rest') /\ reordered c c'.
Proof.
  intros allow p u u' rest c rest' HM E. cbn [core_from_obj] in *. apply bind_ok in E as (c0 & E0 & E).
  destruct (order_core_init _ _ _ _ _ _ _ _ _ _ HM E0) as (c1 & E1 & H1).
  rewrite E1. cbn [bind]. destruct rest as [|pl rest]; [discriminate|]. apply bind_ok in E as (pl' & EP & E). rewrite EP. cbn [bind]. injection E as <- <-.
  eexists. split; [reflexivity|]. destruct c0, c1. unfold reordered in *. cbn in *. intuition.
Qed.

Lemma order_signers : forall allow l l' s, Forall2 reordered_part l l' -> mapM (signer_from_obj X allow) l = Ok s ->
  exists s', mapM (signer_from_obj X allow) l' = Ok s' /\ Forall2 reordered s s'.
Proof.
  intros allow l l' s H. revert s. induction H as [|a a' l l' HA _ IH]; intros s E.
  - injection E as <-. exists []. split; [reflexivity|constructor].
  - cbn [mapM] in *. apply bind_ok in E as (c & EC & E). apply bind_ok in E as (r & ER & E). injection E as <-. destruct HA as [p u u' rest HM].
    cbn [signer_from_obj] in *. apply bind_ok in EC as ([c0 r0] & E0 & EC). injection EC as <-. destruct (order_core_obj _ _ _ _ _ _ _ HM E0) as (c1 & E1 & H1).
    destruct (IH _ ER) as (s' & ES & HS). rewrite E1. cbn [bind]. rewrite ES. cbn [bind]. eexists. split; [reflexivity|constructor; assumption].
Qed.

Lemma reordered_length : forall c c', reordered c c' -> length (phdr c') = length (phdr c) /\ payload c' = payload c.
Proof. intros c c' H. split; [f_equal|]; apply H. Qed.

Lemma order_create : forall allow ctx id a a' r, reordered_part a a' -> create_recipient X allow ctx id a = Ok r ->
  exists r', create_recipient X allow ctx id a' = Ok r' /\ reordered_rcpt r r'.
Proof.
  intros allow ctx id a a' r [p u u' rest HM] E. unfold create_recipient in *. cbn [py_index nth_error bind] in *.
  apply bind_ok in E as (pa & EP & E). rewrite EP. cbn [bind]. cbn [parse_header] in *. apply bind_ok in E as (d & ED & E).
  destruct (parse_perm _ _ _ _ HM ED) as (d' & ED' & HP & HN). rewrite ED'. cbn [bind]. unfold dget_or in *. rewrite <- (perm_dget _ _ HP HN).
  destruct (is_none _); [discriminate|]. apply bind_ok in E as (rc & ERC & E). rewrite ERC. cbn [bind]. unfold rcpt_from_obj in *.
  apply bind_ok in E as ([c r0] & EC & E). destruct (order_core_obj _ _ _ _ _ _ _ HM EC) as (c' & EC' & HC). rewrite EC'. cbn [bind].
  destruct (reordered_length _ _ HC) as [HL HPl]. rewrite HPl, HL, !(reordered_attr c c' _ HC).
  destruct rc.
  - destruct (negb _); [discriminate|]. apply bind_ok in E as (al & EA & E). rewrite EA. cbn [bind]. destruct (_ && _); [discriminate|]. injection E as <-.
    eexists. split; [reflexivity|]. constructor; [exact HC|constructor].
  - apply bind_ok in E as (al & EA & E). rewrite EA. cbn [bind]. apply bind_ok in E as (kw & EK & E). rewrite EK. cbn [bind].
    destruct (_ && _); [discriminate|]. destruct (match payload c with Some [] => true | _ => false end); [discriminate|]. injection E as <-.
    eexists. split; [reflexivity|]. constructor; [exact HC|constructor].
  - apply bind_ok in E as (al & EA & E). rewrite EA. cbn [bind]. apply bind_ok in E as (kw & EK & E). rewrite EK. cbn [bind].
    apply bind_ok in E as (ms & EM & E). rewrite EM. cbn [bind]. destruct ms; [discriminate|]. injection E as <-.
    eexists. split; [reflexivity|]. constructor; [exact HC|constructor].
  - destruct (match payload c with Some [] => true | _ => false end); [discriminate|]. injection E as <-.
    eexists. split; [reflexivity|]. constructor; [exact HC|constructor].
Qed.

Lemma order_create_all : forall allow ctx l l' id rs, Forall2 reordered_part l l' -> create_all X allow ctx id l = Ok rs ->
  exists rs', create_all X allow ctx id l' = Ok rs' /\ Forall2 reordered_rcpt rs rs'.
Proof.
  intros allow ctx l l' id rs H. revert id rs. induction H as [|a a' l l' HA _ IH]; intros id rs E.
  - injection E as <-. exists []. split; [reflexivity|constructor].
  - cbn [create_all] in *. apply bind_ok in E as (r & ER & E). apply bind_ok in E as (q & EQ & E). injection E as <-.
    destruct (order_create _ _ _ _ _ _ HA ER) as (r' & ER' & HR). destruct (IH _ _ EQ) as (q' & EQ' & HQ). rewrite ER'. cbn [bind]. rewrite EQ'. cbn [bind].
    eexists. split; [reflexivity|constructor; assumption].
Qed.

Lemma order_recipients : forall allow ctx l l' o n, Forall2 reordered_part l l' -> recipients_from X allow ctx [VList l] = Ok o ->
  (n = length (match o with Some rs => rs | None => [] end) /\ n = length l) ->
  (o = None /\ l = [] /\ False) \/ l = [] \/ exists rs rs', o = Some rs /\ recipients_from X allow ctx [VList l'] = Ok (Some rs') /\ Forall2 reordered_rcpt rs rs'.
Proof.
  intros allow ctx l l' o n H E [HN1 HN2]. destruct l as [|a l]; [right; left; reflexivity|]. right; right.
  unfold recipients_from in *. cbn [py_iter bind] in *. destruct (create_all X allow (VStr (bs ctx)) 0 (a :: l)) as [rs|e] eqn:EC.
  - injection E as <-. destruct (order_create_all _ _ _ _ _ _ H EC) as (rs' & E' & HR). exists rs, rs'. rewrite E'. auto.
  - destruct (_ || _); [|discriminate]. injection E as <-. cbn in HN1. subst n. discriminate.
Qed.

Lemma order_from_obj : forall allow t o o' m, reordered_array t o o' -> from_cose_obj X allow t o = Ok m -> all_recipients m o ->
  exists m', from_cose_obj X allow t o' = Ok m' /\ reordered_message m m'.
Proof.
  intros allow t o o' m H E HA. destruct H as [t p u u' rest HT HM|p u u' x l l' HM HL|p u u' x l l' HM HL|p u u' x tg l l' HM HL].
  - destruct HT as [<-|[<-|[<-|[]]]]; cbn [from_cose_obj N.eqb Pos.eqb] in *; apply bind_ok in E as (y & EY & E); injection E as <-.
    + unfold enc0_from_obj in *. apply bind_ok in EY as ([c r] & EC & EY). injection EY as <-. destruct (order_core_obj _ _ _ _ _ _ _ HM EC) as (c' & EC' & HC).
      rewrite EC'. cbn [bind]. eexists. split; [reflexivity|constructor; exact HC].
    + unfold mac0_from_obj in *. apply bind_ok in EY as ([c r] & EC & EY). destruct (order_core_obj _ _ _ _ _ _ _ HM EC) as (c' & EC' & HC).
      rewrite EC'. cbn [bind]. destruct r; [discriminate|]. injection EY as <-. eexists. split; [reflexivity|constructor; exact HC].
    + unfold sign1_from_obj in *. apply bind_ok in EY as ([c r] & EC & EY). destruct (order_core_obj _ _ _ _ _ _ _ HM EC) as (c' & EC' & HC).
      rewrite EC'. cbn [bind]. destruct r; [discriminate|]. injection EY as <-. eexists. split; [reflexivity|constructor; exact HC].
  - cbn [from_cose_obj N.eqb Pos.eqb] in *. apply bind_ok in E as (y & EY & E). injection E as <-. unfold sign_from_obj in *.
    apply bind_ok in EY as ([c r] & EC & EY). destruct (order_core_obj _ _ _ _ _ _ _ HM EC) as (c' & EC' & HC).
    assert (r = [VList l]) as ->. { cbn [core_from_obj] in EC. apply bind_ok in EC as (? & _ & EC). apply bind_ok in EC as (? & _ & EC). congruence. }
    assert (EC2 : core_from_obj X allow [p; VDict u'; x; VList l'] = Ok (c', [VList l'])).
    { cbn [core_from_obj] in EC' |- *. apply bind_ok in EC' as (? & E1 & EC'). rewrite E1. cbn [bind]. apply bind_ok in EC' as (? & E2 & EC'). rewrite E2. cbn [bind]. congruence. }
    rewrite EC2. cbn [bind py_iter] in EY |- *. apply bind_ok in EY as (s & ES & EY). injection EY as <-. destruct (order_signers _ _ _ _ HL ES) as (s' & ES' & HS).
    rewrite ES'. cbn [bind]. eexists. split; [reflexivity|constructor; assumption].
  - cbn [from_cose_obj N.eqb Pos.eqb] in *. apply bind_ok in E as (y & EY & E). injection E as <-. unfold enc_from_obj in *.
    apply bind_ok in EY as ([c r] & EC & EY). destruct (order_core_obj _ _ _ _ _ _ _ HM EC) as (c' & EC' & HC).
    assert (r = [VList l]) as ->. { cbn [core_from_obj] in EC. apply bind_ok in EC as (? & _ & EC). apply bind_ok in EC as (? & _ & EC). congruence. }
    assert (EC2 : core_from_obj X allow [p; VDict u'; x; VList l'] = Ok (c', [VList l'])).
    { cbn [core_from_obj] in EC' |- *. apply bind_ok in EC' as (? & E1 & EC'). rewrite E1. cbn [bind]. apply bind_ok in EC' as (? & E2 & EC'). rewrite E2. cbn [bind]. congruence. }
    rewrite EC2. cbn [bind] in EY |- *. apply bind_ok in EY as (o & EO & EY). injection EY as <-. destruct HA as (l0 & HL0 & HLen). cbn in HL0. injection HL0 as <-. cbn [e_rcpts] in HLen.
    destruct (order_recipients _ _ _ _ _ _ HL EO (conj eq_refl HLen)) as [(_ & _ & [])|[->|(rs & rs' & -> & EO' & HR)]].
    + inversion HL; subst. cbn in EO |- *. injection EO as <-. eexists. split; [reflexivity|constructor; [exact HC|constructor]].
    + rewrite EO'. cbn [bind]. eexists. split; [reflexivity|constructor; assumption].
  - cbn [from_cose_obj N.eqb Pos.eqb] in *. apply bind_ok in E as (y & EY & E). injection E as <-. unfold mac_from_obj in *.
    apply bind_ok in EY as ([c r] & EC & EY). destruct (order_core_obj _ _ _ _ _ _ _ HM EC) as (c' & EC' & HC).
    assert (r = [tg; VList l]) as ->. { cbn [core_from_obj] in EC. apply bind_ok in EC as (? & _ & EC). apply bind_ok in EC as (? & _ & EC). congruence. }
    assert (EC2 : core_from_obj X allow [p; VDict u'; x; tg; VList l'] = Ok (c', [tg; VList l'])).
    { cbn [core_from_obj] in EC' |- *. apply bind_ok in EC' as (? & E1 & EC'). rewrite E1. cbn [bind]. apply bind_ok in EC' as (? & E2 & EC'). rewrite E2. cbn [bind]. congruence. }
    rewrite EC2. cbn [bind] in EY |- *. apply bind_ok in EY as (o & EO & EY). injection EY as <-. destruct HA as (l0 & rs0 & HL0 & HRs & HLen). cbn in HL0. injection HL0 as <-. cbn [mm_rcpts] in HRs. subst o.
    destruct (order_recipients _ _ _ _ _ _ HL EO (conj eq_refl HLen)) as [(_ & _ & [])|[->|(rs & rs' & E1 & EO' & HR)]].
    + inversion HL; subst. cbn in EO |- *. injection EO as <-. eexists. split; [reflexivity|constructor; [exact HC|constructor]].
    + injection E1 as <-. rewrite EO'. cbn [bind]. eexists. split; [reflexivity|constructor; assumption].
Qed.

End Order.
