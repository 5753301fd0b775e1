(** Proofs for C108: what [from_dict] accepts is what the constructors build. *)
From Coq Require Import NArith ZArith Bool String Lia.
From Coq Require Import Init.Byte List.
From Verif Require Import Bytes Value Cbor SpecData ValueProofs Registry RegistryProofs Crypto Keys SpecRegistry SpecKeys SpecTrip SpecMapping DataProofs
  KeyProofs KeyProofs2 MiscProofs WireProofs KeyTrip KeyTrip2 KeyTrip3 MapProofs CopyProofs SpecRcvKey.
Import ListNotations.
Local Open Scope result_scope.

(** What the loop over the parameters may store before the key type and the operations are
    checked. *)
Definition loose (c : kclass) (a v : pyval) : Prop :=
  common_ok c a v \/ a = VClass KpKty \/ (a = VClass KpKeyOps /\ exists w, v = VClass w).

Lemma loose_label : forall c a v, loose c a v -> label_ok c a.
Proof.
  intros c a v [H|[->|[-> _]]]; [eapply common_label; exact H| |]; left; eexists; eexists; (split; [reflexivity|]); apply registered_kp; apply kp_names.
Qed.

(** Every registered parameter is a common one or one of the type's own. *)
Lemma registered_split : forall c p n, In (p, n) (registered (param_fam c)) ->
  In p (own_params c) \/ In (p, n) [(KpKty, bs "KTY"); (KpKid, bs "KID"); (KpAlg, bs "ALG"); (KpKeyOps, bs "KEY_OPS"); (KpBaseIV, bs "BASE_IV")].
Proof.
  intros c p n H. destruct c; cbn in H; repeat (destruct H as [H|H]; [injection H as <- <-; cbn; auto 20|]); destruct H.
Qed.

Lemma known_of : forall f v v', from_id f false v = Ok v' -> (forall l, v <> VList l) -> known_class f v'.
Proof.
  intros f v v' H HL. destruct (from_id_cases _ _ _ _ H) as [(c & n & HI & _ & ->)|[(E & _)|(l & l' & -> & _)]]; [exists c, n; auto|discriminate|elim (HL l); reflexivity].
Qed.

Lemma step : forall c a v kp v', key_label c a -> key_value c a v ->
  (forall p n, In p (own_params c) -> In (p, n) (registered (param_fam c)) -> ~ spells p n a) ->
  from_id (param_fam c) true a = Ok kp -> parse_kp kp v = Ok v' -> loose c kp v'.
Proof.
  intros c a v kp v' HL (VA & VO & VP) HN HA HV.
  destruct (from_id_cases _ _ _ _ HA) as [(p & n & HI & HS & ->)|[(_ & HU & ->)|(l & l' & -> & _)]].
  - destruct (registered_split c p n HI) as [HO|HO]; [elim (HN p n HO HI HS)|].
    cbn [In] in HO. destruct HO as [HO|[HO|[HO|[HO|[HO|[]]]]]]; injection HO as <- <-.
    + right; left; reflexivity.
    + cbn in HV. injection HV as <-. left. constructor. auto.
    + left. constructor. apply (known_of FAlg v v' HV). intros l. apply VA. exact HS.
    + change (from_id FOps false v = Ok v') in HV. destruct (from_id_cases _ _ _ _ HV) as [(w & m & HW & _ & ->)|[(E & _)|(l & l' & -> & -> & HM)]]; [right; right; eauto|discriminate|].
      left. constructor. pose proof (VO HS l) as HNest. clear -HM HNest. assert (HE : forall x, ~ In (VList x) l) by (intros x; apply HNest; reflexivity). clear HNest.
      revert l' HM. induction l as [|o l IH]; intros l' HM; cbn [mapM] in HM; [injection HM as <-; constructor|].
      apply bind_ok in HM as (o' & H1 & HM). apply bind_ok in HM as (r & H2 & HM). injection HM as <-. constructor.
      * apply (known_of FOps o o' H1). intros x ->. apply (HE x). left. reflexivity.
      * apply IH; [|exact H2]. intros x HX. apply (HE x). right. exact HX.
    + cbn in HV. injection HV as <-. left. constructor. auto.
  - assert (HP : plain v) by (apply VP; right; right; exact HU).
    destruct HL as [[z ->]|[(p & n & -> & HI)|(u & -> & HU')]].
    + cbn in HV. injection HV as <-. left. constructor; assumption.
    + exfalso. apply (HU (c_id p) eq_refl p n HI). reflexivity.
    + cbn in HV. injection HV as <-. left. constructor; assumption.
  - destruct HL as [[z E]|[(p & n & E & HI)|(u & E & HU')]]; discriminate.
Qed.

(** ** What is left of the dictionary after the type's own parameters are taken out *)

Lemma dget_ddel_none : forall d k k', dget d k' = None -> dget (ddel d k) k' = None.
Proof.
  intros d k k' H. pose proof (dmem_ddel_imp d k k') as HI. unfold dmem in HI. rewrite H in HI. specialize (HI eq_refl).
  destruct (dget (ddel d k) k'); [discriminate|reflexivity].
Qed.

Definition three (p : cls) : list pyval := [VClass p; VInt (c_id p); VStr (cls_fullname p)].

Lemma remove_none : forall d p a, dget d a = None -> dget (remove d p) a = None.
Proof. intros d p a H. unfold remove. repeat apply dget_ddel_none. exact H. Qed.

Lemma remove_same : forall d p a, dnodup d = true -> In a (three p) -> dget (remove d p) a = None.
Proof.
  intros d p a HD HA. unfold remove. cbn [three In] in HA. destruct HA as [<-|[<-|[<-|[]]]].
  - apply dget_ddel_none, dget_ddel_none, dget_ddel_same; [exact HD|apply keyeq_refl].
  - apply dget_ddel_none, dget_ddel_same; [apply dnodup_ddel; exact HD|apply keyeq_refl].
  - apply dget_ddel_same; [apply dnodup_ddel, dnodup_ddel; exact HD|apply keyeq_refl].
Qed.

Lemma remove_nodup : forall d p, dnodup d = true -> dnodup (remove d p) = true.
Proof. intros d p H. unfold remove. repeat apply dnodup_ddel. exact H. Qed.

Lemma removed_none : forall ms d a, dget d a = None -> dget (remove_all d ms) a = None.
Proof. intros ms. induction ms as [|p ms IH]; intros d a H; [exact H|]. apply (IH (remove d p)). apply remove_none. exact H. Qed.

Lemma removed_same : forall ms d p a, dnodup d = true -> In p ms -> In a (three p) -> dget (remove_all d ms) a = None.
Proof.
  intros ms. induction ms as [|q ms IH]; intros d p a HD HP HA; [destruct HP|]. destruct HP as [->|HP].
  - apply (removed_none ms (remove d p)). apply remove_same; assumption.
  - apply (IH (remove d q) p a); [apply remove_nodup; exact HD|exact HP|exact HA].
Qed.

Lemma removed_in : forall ms d e, In e (remove_all d ms) -> In e d.
Proof.
  intros ms. induction ms as [|q ms IH]; intros d e H; [exact H|]. apply (IH (remove d q)) in H. unfold remove in H.
  do 3 apply ddel_In in H. exact H.
Qed.

Lemma In_some : forall d (a v : pyval), In (a, v) d -> dget d a <> None.
Proof.
  intros d a v H E. induction d as [|[a' v'] d IH]; [destruct H|]. cbn [dget] in E.
  destruct (keyeq a a') eqn:K; [discriminate|]. destruct H as [H|H]; [injection H as -> ->; rewrite keyeq_refl in K; discriminate|auto].
Qed.

Lemma rest_not_own : forall c d ms a v, dnodup d = true -> incl (own_params c) ms -> key_label c a -> In (a, v) (remove_all d ms) ->
  forall p n, In p (own_params c) -> In (p, n) (registered (param_fam c)) -> ~ spells p n a.
Proof.
  intros c d ms a v HD HI HL HIn p n HP HR HS. apply (In_some _ _ _ HIn). apply (removed_same ms d p); [exact HD|apply HI; exact HP|].
  destruct HL as [[z ->]|[(q & m & -> & HQ)|(u & -> & HU)]]; cbn [spells] in HS; cbn [three In].
  - subst z. auto.
  - destruct (registered_id_unique _ _ _ _ _ HQ HR HS) as [-> _]. auto.
  - destruct HU as [HU|[q HQ]]; [elim (HU p n HR HS)|]. rewrite (proj2 (names_upper _ _ _ HQ)) in HS. subst u. rewrite (cls_fullname_registered _ _ _ HR). auto.
Qed.

(** ** The common part of the constructors *)

Lemma Forall_nodup : forall (P : pyval -> pyval -> Prop) d, (forall a v, In (a, v) d -> dget d a = Some v -> P a v) -> dnodup d = true ->
  Forall (fun e => P (fst e) (snd e)) d.
Proof. intros P d H HD. apply Forall_forall. intros [a v] HI. apply H; [exact HI|]. apply In_dget; assumption. Qed.

Lemma dupdate_head : forall v r, dnodup ((VClass KpKty, v) :: r) = true -> dupdate [(VClass KpKty, v)] ((VClass KpKty, v) :: r) = (VClass KpKty, v) :: r.
Proof.
  intros v r H. rewrite dupdate_cons. cbn [dset]. rewrite keyeq_refl. change ((VClass KpKty, v) :: r) with ([(VClass KpKty, v)] ++ r). apply dupdate_disjoint.
  - cbn [dnodup] in H. apply andb_true_iff in H as [_ H]. exact H.
  - intros k w HI. cbn [dnodup] in H. apply andb_true_iff in H as [H _]. apply negb_true_iff in H. unfold dmem. cbn [dget].
    destruct (keyeq k (VClass KpKty)) eqn:E; [|reflexivity]. exfalso. apply dmem_false in H. revert H. rewrite (dget_cong r _ k); [apply (In_some _ _ _ HI)|].
    rewrite keyeq_sym. exact E.
Qed.

Lemma common_received : forall c o k, Forall (fun e => key_label c (fst e) /\ key_value c (fst e) (snd e)) o ->
  (forall a v, In (a, v) o -> forall p n, In p (own_params c) -> In (p, n) (registered (param_fam c)) -> ~ spells p n a) ->
  common_init c (VDict o) true = Ok k ->
  exists o', options_ok c (VDict o') /\ common_init c (VDict o') true = Ok k.
Proof.
  intros c o k HF HN H. pose proof (common_init_fresh _ _ _ _ H) as [FC FN FH FK].
  exists (k_store k). unfold common_init in H. cbn [opt_items bind] in H. inv_bind H d.
  assert (HL : Forall (fun e => loose c (fst e) (snd e)) d).
  { assert (HA : Forall (fun e => loose c (fst e) (snd e)) [(VClass KpKty, kty_of c)]) by (constructor; [right; left; reflexivity|constructor]).
    revert HA H0. generalize [(VClass KpKty, kty_of c)]. clear -HF HN. induction HF as [|[a v] o [H1 H2] HF IH]; intros acc HA HT.
    - injection HT as <-. exact HA.
    - cbn [transform_params fst snd] in *. inv_bind HT kp. inv_bind HT v'. destruct (hashable kp); [|discriminate].
      pose proof (step c a v kp v' H1 H2 (HN a v (or_introl eq_refl)) H H0) as HS. eapply IH; [intros; eapply HN; [right|..]; eassumption| |exact HT].
      eapply Forall_dset; [apply loose_label|eapply loose_label; exact HS|exact HS|exact HA]. }
  destruct (veqb (dget_or d (VClass KpKty) VNone) (kty_of c)) eqn:E; [|discriminate].
  assert (HX : k_extra k = []).
  { unfold base_init in H. destruct (dget d (VClass KpKeyOps)); [inv_bind H n; destruct (Nat.eqb n 0)|]; injection H as <-; reflexivity. }
  assert (HS : Forall (fun e => loose c (fst e) (snd e)) (k_store k) /\ (forall v, dget (k_store k) (VClass KpKeyOps) = Some v -> exists n, py_len v = Ok (S n))).
  { unfold base_init in H. assert (HD : dnodup d = true) by (eapply (transform_params_inv (fun d => dnodup d = true)); [intros; apply dnodup_dset; assumption|exact H0|reflexivity]).
    destruct (dget d (VClass KpKeyOps)) as [ops|] eqn:G; [inv_bind H n; destruct (Nat.eqb n 0) eqn:E0|]; injection H as <-; cbn [k_store].
    - split; [apply Forall_ddel; exact HL|]. intros v Q. rewrite dget_ddel_same in Q; [discriminate|exact HD|apply keyeq_refl].
    - split; [exact HL|]. intros v Q. rewrite G in Q. injection Q as <-. destruct n; [discriminate|eauto].
    - split; [exact HL|]. intros v Q. congruence. }
  destruct HS as [HS HO].
  assert (HC : Forall (fun e => common_ok c (fst e) (snd e)) (k_store k)).
  { apply Forall_nodup; [|exact FN]. intros a v HI HG. rewrite Forall_forall in HS. destruct (HS _ HI) as [Q|[Q|[Q [w W]]]]; cbn [fst snd] in *; [exact Q| |].
    - subst a. unfold param in FK. rewrite FK in HG. injection HG as <-. rewrite <- type_of_kty. constructor.
    - subst a v. destruct (HO _ HG) as [n Q]. discriminate. }
  split.
  - right. exists (k_store k). split; [reflexivity|]. eapply Forall_impl; [|exact HC]. clear. intros [a v] H. cbn [fst snd] in *.
    destruct kp_names as (K1 & K2 & K3 & K4 & K5). destruct H.
    + eapply OO_kty; [exact K1|reflexivity|destruct c; reflexivity|]. destruct c; reflexivity.
    + destruct H as (w & n & -> & HI). eapply OO_alg; [exact K3|reflexivity|exact HI|reflexivity].
    + eapply OO_ops; [exact K4|reflexivity|]. eapply Forall_impl; [|exact H]. intros x (w & n & -> & HI). exists w, n. split; [exact HI|reflexivity].
    + eapply OO_kid; [exact K2|reflexivity|assumption].
    + eapply OO_base_iv; [exact K5|reflexivity|assumption].
    + apply OO_int; assumption.
    + apply OO_text; assumption.
  - assert (HSt : store_ok c (k_store k)).
    { apply Forall_nodup; [|exact FN]. intros a v HI HG. rewrite Forall_forall in HC. pose proof (HC _ HI) as Q. cbn [fst snd] in Q.
      inversion Q; subst; try (constructor; assumption). constructor; [|assumption]. intros ->. destruct (HO _ HG) as [n Q']. discriminate. }
    unfold common_init. cbn [opt_items bind]. rewrite (transform_self c _ _ HSt). cbn [bind].
    destruct FH as (v0 & r & HR). unfold param in FK. rewrite HR in *. cbn [dget] in FK. rewrite keyeq_refl in FK. injection FK as ->.
    rewrite (dupdate_head _ _ FN). unfold dget_or. cbn [dget]. rewrite keyeq_refl. rewrite veqb_refl.
    unfold base_init. destruct k as [kc ks ke]. cbn [k_cls k_store k_extra] in *. subst kc ks ke.
    destruct (dget _ (VClass KpKeyOps)) as [ops|] eqn:G; [|reflexivity]. destruct (HO _ eq_refl) as [n Q]. rewrite Q. reflexivity.
Qed.

(** ** [from_dict] *)

Section Received.
Variable X : crypto.

Lemma from_dict_class : forall d k, from_dict X (VDict d) = Ok k -> exists c, class_from X c (VDict d) = Ok k.
Proof.
  intros d k H. unfold from_dict in H. cbn [map_get bind] in H.
  assert (HD : forall v, dispatch_kty X v (VDict d) = Ok k -> exists c, class_from X c (VDict d) = Ok k).
  { intros v HV. unfold dispatch_kty in HV. destruct (negb (hashable v)); [discriminate|]. destruct (key_type_lookup key_types v) as [[| | |]|]; try discriminate;
      [exists KSym|exists KOKP|exists KEC2|exists KRSA]; exact HV. }
  destruct (dget d (VClass KpKty)); [eapply HD; exact H|]. destruct (dget d (VInt 1)); [eapply HD; exact H|].
  destruct (dget d (VStr (bs "KTY"))); [eapply HD; exact H|discriminate].
Qed.

Lemma extract_absent : forall d p dflt, dget d (VClass p) = None /\ dget d (VInt (c_id p)) = None /\ dget d (VStr (cls_fullname p)) = None ->
  extract (VDict d) p dflt = Ok dflt.
Proof. intros d p dflt (H1 & H2 & H3). unfold extract. cbn [map_get bind]. rewrite H1. cbn [bind]. rewrite H2. cbn [bind]. rewrite H3. reflexivity. Qed.

Lemma class_built : forall c d k, class_from X c (VDict d) = Ok k -> key_map c d -> (c = KRSA -> two_primes d) -> built X k.
Proof.
  intros c d k H [HD HF] HT. rewrite distinct_keys_dnodup in HD.
  assert (HC : forall ms k0, incl (own_params c) ms -> common_init c (VDict (remove_all d ms)) true = Ok k0 ->
    exists o', options_ok c (VDict o') /\ common_init c (VDict o') true = Ok k0).
  { intros ms k0 HI HC. apply (common_received c (remove_all d ms) k0); [| |exact HC].
    - apply Forall_forall. intros e HE. rewrite Forall_forall in HF. apply HF. eapply removed_in. exact HE.
    - intros a v HE. eapply (rest_not_own c d ms a v HD HI); [|exact HE]. rewrite Forall_forall in HF. apply (HF (a, v)). eapply removed_in. exact HE. }
  destruct c; cbn [class_from] in H.
  - unfold sym_from_dict in H. inv_bind H kv. cbn [items_of bind] in H. unfold sym_init in H. inv_bind H k0.
    destruct (HC [SymKpK] k0) as (o' & HO & HE); [apply incl_check; reflexivity|exact H1|]. eapply (BuiltSym X kv (VDict o') true k HO). unfold sym_init. rewrite HE. exact H.
  - unfold okp_from_dict in H. inv_bind H x. inv_bind H dd. inv_bind H crv. cbn [items_of bind] in H. unfold okp_init in H. inv_bind H k0.
    match type of H3 with common_init _ (VDict (remove_all _ ?ms)) _ = _ => destruct (HC ms k0) as (o' & HO & HE); [apply incl_check; reflexivity|exact H3|] end.
    eapply (BuiltOKP X crv x dd (VDict o') true k HO). unfold okp_init. rewrite HE. exact H.
  - unfold ec2_from_dict in H. inv_bind H x. inv_bind H y. inv_bind H dd. inv_bind H crv. cbn [items_of bind] in H. unfold ec2_init in H. inv_bind H k0.
    match type of H4 with common_init _ (VDict (remove_all _ ?ms)) _ = _ => destruct (HC ms k0) as (o' & HO & HE); [apply incl_check; reflexivity|exact H4|] end.
    eapply (BuiltEC2 X crv x y dd (VDict o') true k HO). unfold ec2_init. rewrite HE. exact H.
  - specialize (HT eq_refl). unfold rsa_from_dict in H.
    rewrite (extract_absent d RSAKpOther), (extract_absent d RSAKpRi), (extract_absent d RSAKpDi), (extract_absent d RSAKpTi) in H by (apply HT; cbn; auto 10).
    inv_bind H e. inv_bind H n. inv_bind H dd. inv_bind H p. inv_bind H q. inv_bind H dp. inv_bind H dq. inv_bind H qi. cbn [items_of bind] in H.
    unfold rsa_init in H. cbn [ra_n ra_e ra_d ra_p ra_q ra_dp ra_dq ra_qinv ra_other ra_ri ra_di ra_ti is_none] in H. inv_bind H ok. destruct (negb ok) eqn:EN; [discriminate|].
    inv_bind H k0.
    match type of H9 with common_init _ (VDict (remove_all _ ?ms)) _ = _ => destruct (HC ms k0) as (o' & HO & HE); [apply incl_check; reflexivity|exact H9|] end.
    eapply (BuiltRSA X n e dd p q dp dq qi (VList []) (VDict o') true k HO); [auto|]. unfold rsa_init.
    cbn [ra_n ra_e ra_d ra_p ra_q ra_dp ra_dq ra_qinv ra_other ra_ri ra_di ra_ti is_none]. rewrite H8. cbn [bind]. rewrite EN, HE. exact H.
Qed.

Lemma class_from_cls : forall c d k, class_from X c (VDict d) = Ok k -> k_cls k = c.
Proof.
  intros c d k H. assert (HF : fresh c k); [|apply (fr_cls _ _ HF)]. destruct c; cbn [class_from] in H.
  - unfold sym_from_dict in H. inv_bind H kv. cbn [items_of bind] in H. apply sym_init_fresh in H. apply H.
  - unfold okp_from_dict in H. inv_bind H x. inv_bind H dd. inv_bind H crv. cbn [items_of bind] in H. apply okp_init_fresh in H. apply H.
  - unfold ec2_from_dict in H. inv_bind H x. inv_bind H y. inv_bind H dd. inv_bind H crv. cbn [items_of bind] in H. apply ec2_init_fresh in H. apply H.
  - unfold rsa_from_dict in H. do 12 (apply bind_ok in H as (? & _ & H)). cbn [items_of bind] in H. apply rsa_init_fresh in H. exact H.
Qed.

Theorem received_built : forall d k, from_dict X (VDict d) = Ok k -> key_map (k_cls k) d -> (k_cls k = KRSA -> two_primes d) -> built X k.
Proof.
  intros d k H HM HT. apply from_dict_class in H as [c H]. pose proof (class_from_cls c d k H) as HC. rewrite HC in *. eapply class_built; eassumption.
Qed.
End Received.
