(** Proofs for C105. *)
From Coq Require Import NArith ZArith Bool String Lia.
From Coq Require Import Init.Byte List.
From Verif Require Import Bytes Value Registry Crypto Keys Algorithms Headers Messages Recipients SpecKeys SpecStruct SpecAlg SpecAccept SpecCheck SpecSend SpecIncomplete
  ValueProofs KeyProofs2 KeyProofs3 MsgTrip AcceptProofs CheckProofs SendProofs.
Import ListNotations.
Local Open Scope result_scope.

(** ** Keys *)

Lemma verify_permits : forall c z k t ops u, typed k -> get_attr c Algorithm = Ok (alg z) -> ckey c = Some k ->
  key_verify k t (alg z) (map VClass ops) = Ok u -> permitted c z k ops /\ k_cls k = t.
Proof.
  intros c z k t ops [] HT HA HK H. pose proof HT as (_ & HO & _). apply (key_verify_cases k t (Cls FAlg z) ops HO) in H as (HC & H1 & H2).
  split; [|exact HC]. split; [exact HA|]. split; [exact HK|]. split; [exact HT|]. split; [exact H1|exact H2].
Qed.

Section Inc.
Variable X : crypto.

(** ** MACs *)

Lemma mac_kind : forall a u, has_mac a = Ok u -> exists z, a = alg z /\ mac_algorithm z.
Proof.
  intros a u H. unfold has_mac in H. destruct (alg_kind a) as [q|] eqn:EK; [|discriminate]. destruct (kind_in a q EK) as (z & -> & HI).
  exists z. split; [reflexivity|]. pose proof (proj1 (Forall_forall _ _) registered_params _ HI) as HQ.
  destruct q; try discriminate; cbn [fst snd] in HQ; [left|right]; apply in_map with (f := fst) in HQ; exact HQ.
Qed.
Lemma enc_kind : forall a u, has_enc a = Ok u -> exists z, a = alg z /\ enc_algorithm z.
Proof.
  intros a u H. unfold has_enc in H. destruct (alg_kind a) as [q|] eqn:EK; [|discriminate]. destruct (kind_in a q EK) as (z & -> & HI).
  exists z. split; [reflexivity|]. pose proof (proj1 (Forall_forall _ _) registered_params _ HI) as HQ.
  destruct q; try discriminate; cbn [fst snd] in HQ; [left|right]; apply in_map with (f := fst) in HQ; exact HQ.
Qed.

Lemma mac_sent : forall ctx c t, typed_key c -> mac_compute X ctx c = Ok t ->
  payload c <> None /\ exists z k, permitted c z k [Cls FOps 9] /\ k_cls k = KSym /\ mac_algorithm z.
Proof.
  intros ctx c t HT H. unfold mac_compute in H. apply bind_ok in H as (a & HA & H). destruct (ckey c) as [k|] eqn:EK; [|discriminate].
  apply bind_ok in H as (u & HV & H). apply bind_ok in H as (u' & HM & H). apply mac_kind in HM as (z & -> & HZ). apply bind_ok in H as (data & HD & _). split.
  - unfold mac_structure in HD. apply bind_ok in HD as (p & _ & HD). destruct (payload c); [discriminate|discriminate].
  - exists z, k. destruct (verify_permits c z k KSym [Cls FOps 9] u (HT k EK) HA EK HV) as [HP HC]. auto.
Qed.

(** ** Content encryption *)

Lemma nonce_sent : forall c k n, byte_iv_headers c -> ckey c = Some k -> typed k -> get_nonce c = Ok n -> has_nonce c k.
Proof.
  intros c k n HB HK (_ & _ & HT & _) H. unfold get_nonce in H. apply bind_ok in H as (iv & HI & H). destruct (HB IV iv (or_introl eq_refl) HI) as [-> | [b ->]].
  - right. cbn [is_none] in H. rewrite HK, prop_get_place in H. cbn [place absent_value bytes_prop] in H.
    apply bind_ok in H as (base & HBase & H). destruct (veqb base (VBytes [])) eqn:EV; [discriminate|].
    apply bind_ok in H as (piv & HPV & H). apply bind_ok in H as (p & HP & H). apply bind_ok in H as (b & Hb & _).
    split; [exact HI|]. split.
    + destruct (param k KpBaseIV) as [v|] eqn:EP; [|cbn in HBase; injection HBase as <-; discriminate EV]. injection HBase as ->.
      exists b. apply as_bytes_ok in Hb. split; [congruence|]. intros ->. subst base. discriminate EV.
    + exists p. apply as_bytes_ok in HP. congruence.
  - left. eauto.
Qed.

Lemma enc_sent : forall ctx c t, typed_key c -> byte_iv_headers c -> enc_encrypt X ctx c = Ok t ->
  payload c <> None /\ exists z k, permitted c z k [Cls FOps 3] /\ k_cls k = KSym /\ enc_algorithm z /\ has_nonce c k.
Proof.
  intros ctx c t HT HB H. unfold enc_encrypt in H. destruct (ckey c) as [k|] eqn:EK; [|discriminate]. apply bind_ok in H as (a & HA & H).
  apply bind_ok in H as (n & HN & H). apply bind_ok in H as (u & HV & H). apply bind_ok in H as (u' & HM & H). apply enc_kind in HM as (z & -> & HZ).
  apply bind_ok in H as (data & _ & H). split.
  - intros E. rewrite E in H. cbn [vopt] in H. unfold alg_encrypt in H. destruct (alg_kind (alg z)) as [[]|]; try discriminate.
    all: apply bind_ok in H as (? & _ & H); apply bind_ok in H as (? & _ & H); discriminate.
  - exists z, k. destruct (verify_permits c z k KSym [Cls FOps 3] u (HT k EK) HA EK HV) as [HP HC]. split; [exact HP|]. split; [exact HC|].
    split; [exact HZ|]. eapply nonce_sent; [exact HB|exact EK|exact (HT k EK)|exact HN].
Qed.

(** ** Signatures *)

Lemma param_bytes : forall k p b, prop_get k p = Ok (VBytes b) -> b <> [] -> typed k ->
  exists q, place (k_cls k) p = Some q /\ filled k q.
Proof.
  intros k p b H HN HT. destruct (place (k_cls k) p) as [q|] eqn:EP.
  - exists q. split; [reflexivity|]. rewrite prop_get_place, EP in H. destruct (param k q) as [v|] eqn:E.
    + injection H as ->. exists b. auto.
    + destruct p; cbn in H; try discriminate; injection H as <-; elim HN; reflexivity.
  - rewrite (foreign_property k p HT EP) in H. discriminate.
Qed.

Lemma hex_filled : forall k p n, typed k -> attr_hex k p = Ok n -> exists q, place (k_cls k) p = Some q /\ filled k q.
Proof.
  intros k p n HT H. unfold attr_hex in H. apply bind_ok in H as (v & HV & H). apply bind_ok in H as (b & HB & H). apply as_bytes_ok in HB. subst v.
  eapply param_bytes; [exact HV| |exact HT]. intros ->. discriminate.
Qed.
Lemma int_filled : forall k p n, typed k -> attr_int k p = Ok n -> n <> 0%N -> exists q, place (k_cls k) p = Some q /\ filled k q.
Proof.
  intros k p n HT H HN. apply attr_int_ok in H as (b & HB & ->). eapply param_bytes; [exact HB| |exact HT]. intros ->. elim HN. reflexivity.
Qed.

Lemma alg_sign_sent : forall seed a k t s, typed k -> k_cls k <> KSym -> alg_sign X seed a k t = Ok s -> exists z, a = alg z /\ any_signature z /\ gave k z.
Proof.
  intros seed a k t s HT HN H. unfold alg_sign in H. destruct (alg_kind a) as [q|] eqn:EK; [|discriminate]. destruct (kind_in a q EK) as (z & -> & HI).
  exists z. split; [reflexivity|]. pose proof (proj1 (Forall_forall _ _) registered_params _ HI) as HQ. pose proof (proj1 (Forall_forall _ _) kinds_of_keys _ HI) as HW.
  destruct q; try discriminate; cbn [fst snd] in HQ, HW.
  - assert (HZ : sig_algorithm KRSA z) by (apply in_map with (f := fun e => fst (fst e)) in HQ; exact HQ).
    split; [exists KRSA; exact HZ|]. apply bind_ok in H as (q & H & _). split; [|split].
    + intros HE. discriminate (HW KEC2 HE).
    + intros ->. discriminate (HW KOKP eq_refl).
    + intros _. unfold rsa_private_numbers, rsa_public_numbers in H. apply bind_ok in H as (pb & H & _). apply bind_ok in H as (e & H & _).
      apply attr_int_ok in H as (b & HB & _). destruct (k_cls k) eqn:EC; [congruence| | |reflexivity];
      rewrite (foreign_property k PE HT) in HB by (rewrite EC; reflexivity); discriminate.
  - apply bind_ok in H as (? & _ & H). discriminate.
  - apply bind_ok in H as (d & HD & _).
    assert (HZ : In z [-7; -35; -36]%Z) by (cbn in HQ; repeat (destruct HQ as [HQ|HQ]; [injection HQ as <- _ _; cbn; auto|]); destruct HQ).
    split; [exists KEC2; exact HZ|]. split; [|split].
    + intros _. apply hex_filled in HD as (p & HP & HF); [|exact HT]. exists p. split; [|exact HF].
      destruct (k_cls k); cbn in HP; [discriminate| | |]; injection HP as <-; cbn; auto.
    + intros ->. discriminate (HW KOKP eq_refl).
    + intros HE. discriminate (HW KRSA HE).
  - apply bind_ok in H as (c & HC & _). apply ed_curve_ok in HC as [HC HP]. subst z. split; [exists KOKP; reflexivity|]. split; [|split].
    + intros HE. cbn in HE. repeat (destruct HE as [HE|HE]; [discriminate HE|]). destruct HE.
    + intros _. destruct (place (k_cls k) PCrv) as [p|] eqn:EP; [|rewrite (foreign_property k PCrv HT EP) in HP; discriminate].
      exists p, c. split; [|split; [exact HC|]].
      * destruct (k_cls k); cbn in EP; try discriminate; injection EP as <-; cbn; auto.
      * rewrite prop_get_place, EP in HP. destruct (param k p) as [v|]; [injection HP as ->; reflexivity|discriminate].
    + intros HE. discriminate (HW KRSA HE).
Qed.

Lemma alg_sign_private : forall seed z k t s, refuses_empty X -> typed k -> sig_algorithm (k_cls k) z -> alg_sign X seed (alg z) k t = Ok s -> can_sign k.
Proof.
  intros seed z k t s [RE RR] HT HZ H. unfold can_sign. destruct (k_cls k) eqn:EC; cbn [sig_algorithm] in HZ; [destruct HZ| | |].
  - subst z. unfold alg_sign in H. change (alg_kind (alg (-8))) with (Some AEdDSA) in H. cbv iota beta in H.
    apply bind_ok in H as (c & HC & H). apply bind_ok in H as (d & HD & H). apply ed_curve_ok in HC as [HC HP]. apply attr_bytes_ok in HD. split.
    + assert (HN : d <> []) by (intros ->; exact (RE _ _ _ H)). destruct (param_bytes k PD d HD HN HT) as (q & HQ & HF). rewrite EC in HQ. injection HQ as <-. exact HF.
    + exists c. split; [exact HC|]. rewrite prop_get_place, EC in HP. cbn [place crv_prop] in HP. destruct (param k OKPKpCurve); [injection HP as ->; reflexivity|discriminate].
  - unfold alg_sign in H. assert (HD : exists d, attr_hex k PD = Ok d).
    { each HZ; match type of H with (match alg_kind ?a with _ => _ end) = _ => let r := eval vm_compute in (alg_kind a) in change (alg_kind a) with r in H end;
        cbv iota beta in H; apply bind_ok in H as (d & HD & _); eauto. }
    destruct HD as [d HD]. apply hex_filled in HD as (q & HQ & HF); [|exact HT]. rewrite EC in HQ. injection HQ as <-. exact HF.
  - assert (HR : exists p h q, rsa_private_numbers k = Ok q /\ x_rsa_sign X p h q seed t = Ok s).
    { unfold alg_sign in H. each HZ; match type of H with (match alg_kind ?a with _ => _ end) = _ => let r := eval vm_compute in (alg_kind a) in change (alg_kind a) with r in H end;
        cbv iota beta in H; apply bind_ok in H as (q & HQ & H); eauto. }
    destruct HR as (p & h & q & HQ & HS). apply RR in HS. unfold rsa_private_numbers in HQ.
    apply bind_ok in HQ as (pb & _ & HQ). apply bind_ok in HQ as (a1 & H1 & HQ). apply bind_ok in HQ as (a2 & H2 & HQ). apply bind_ok in HQ as (a3 & H3 & HQ).
    apply bind_ok in HQ as (a4 & H4 & HQ). apply bind_ok in HQ as (a5 & H5 & HQ). apply bind_ok in HQ as (a6 & H6 & HQ). injection HQ as <-.
    cbn [rsa_p rsa_q rsa_d rsa_dmp1 rsa_dmq1 rsa_iqmp] in HS. repeat (apply Forall_cons_iff in HS as [? HS]).
    intros r HR. repeat (destruct HR as [<-|HR];
      [match goal with |- filled _ ?q => first
         [destruct (int_filled k Keys.PP a1 HT H1) as (? & E & HF); [assumption|rewrite EC in E; injection E as <-; exact HF]
         |destruct (int_filled k PQ a2 HT H2) as (? & E & HF); [assumption|rewrite EC in E; injection E as <-; exact HF]
         |destruct (int_filled k PD a3 HT H3) as (? & E & HF); [assumption|rewrite EC in E; injection E as <-; exact HF]
         |destruct (int_filled k PDP a4 HT H4) as (? & E & HF); [assumption|rewrite EC in E; injection E as <-; exact HF]
         |destruct (int_filled k PDQ a5 HT H5) as (? & E & HF); [assumption|rewrite EC in E; injection E as <-; exact HF]
         |destruct (int_filled k PQInv a6 HT H6) as (? & E & HF); [assumption|rewrite EC in E; injection E as <-; exact HF]] end|]).
    destruct HR.
Qed.

Lemma verification_permits : forall c z k, typed_key c -> get_attr c Algorithm = Ok (alg z) -> key_verification c (alg z) SignOp = Ok k ->
  permitted c z k [Cls FOps 1] /\ k_cls k <> KSym.
Proof.
  intros c z k HT HA H. unfold key_verification in H. destruct (ckey c) as [k'|] eqn:EK; [|discriminate].
  destruct (k_cls k') eqn:EC; [discriminate| | |]; apply bind_ok in H as (u & HV & H); injection H as <-;
    destruct (verify_permits c z k' _ [Cls FOps 1] u (HT _ EK) HA EK HV) as [HP HC]; (split; [exact HP|congruence]).
Qed.

Lemma signature_sent : forall seed c st s, typed_key c -> compute_signature X seed c st = Ok s ->
  nearly_signs c /\ (exists b, st = Ok b) /\
  (refuses_empty X -> (forall k, ckey c = Some k -> declares c (sig_algorithm (k_cls k))) -> signs c).
Proof.
  intros seed c st s HT H. unfold compute_signature in H. apply bind_ok in H as (a & HA & H). apply bind_ok in H as (k & HV & H).
  apply bind_ok in H as (u & HH & H). apply bind_ok in H as (data & HD & H).
  assert (HZ : exists z, a = alg z).
  { unfold has_sign in HH. destruct (alg_kind a) as [q|] eqn:EK; [|discriminate]. destruct (kind_in a q EK) as (z & -> & _). eauto. }
  destruct HZ as [z ->]. destruct (verification_permits c z k HT HA HV) as [HP HC]. pose proof HP as (_ & HK & HY & _).
  split; [|split; [eauto|]].
  - destruct (alg_sign_sent seed (alg z) k data s HY HC H) as (z' & E & HS & HG). injection E as <-. exists z, k. auto.
  - intros HR HW. destruct (HW k HK) as (z' & HA' & HZ). rewrite HA in HA'. injection HA' as <-. exists z, k. split; [exact HP|]. split; [exact HZ|].
    eapply alg_sign_private; eassumption.
Qed.

Lemma payload_sent : forall c d v, sig_payload (payload c) (vopt d) = Ok v -> one_payload c d.
Proof. intros c [d|] v H; unfold one_payload; destruct (payload c); cbn [vopt sig_payload] in H; try discriminate; exact I. Qed.
End Inc.
