(** Proofs of C90. *)
From Coq Require Import NArith ZArith Bool String Lia.
From Coq Require Import Init.Byte List.
From Verif Require Import Bytes BytesProofs Value ValueProofs Cbor CborProofs SpecData DataProofs Registry RegistryProofs Crypto Keys Algorithms Headers Messages Recipients.
From Verif Require Import SpecCrypto SpecStruct StructProofs SpecAlg AlgProofs SpecAccept.
Import ListNotations.
Local Open Scope result_scope.

Lemma item_authenticates : forall i t, input i = Ok t ->
  authenticates (match i with ISign1 _ _ => KindSign1 | ISigner _ _ _ => KindSign | IEnc0 _ => KindEnc0 | IEnc _ => KindEnc | IMac0 _ => KindMac0 | IMac _ => KindMac end) t.
Proof. intros [c d|m s d|c|c|c|c] t H; econstructor; exact H. Qed.

Theorem same_input : forall i j t, input i = Ok t -> input j = Ok t -> exists c, has_content i c /\ has_content j c.
Proof.
  intros i j t Hi Hj. pose proof (authenticates_kind _ _ _ (item_authenticates i t Hi) (item_authenticates j t Hj)) as HK.
  destruct i as [c d|m s d|c|c|c|c], j as [c' d'|m' s' d'|c'|c'|c'|c']; try discriminate HK; clear HK; cbn [input] in *.
  - destruct (sign1_tbs_inj _ _ _ _ _ Hi Hj) as (p & pl & A & B & C & D & E). eexists. split; [apply HC_sign1; eassumption|]. rewrite C. apply HC_sign1; assumption.
  - destruct (signer_tbs_inj _ _ _ _ _ _ _ Hi Hj) as (bp & sp & pl & A & B & C & D & E & F & G). eexists. split; [apply HC_signer; eassumption|]. rewrite E. apply HC_signer; assumption.
  - destruct (enc_aad_inj _ _ _ _ _ Hi Hj) as (_ & p & A & B & C). eexists. split; [apply HC_enc0; eassumption|]. rewrite C. apply HC_enc0; assumption.
  - destruct (enc_aad_inj _ _ _ _ _ Hi Hj) as (_ & p & A & B & C). eexists. split; [apply HC_enc; eassumption|]. rewrite C. apply HC_enc; assumption.
  - destruct (mac_input_inj _ _ _ _ _ Hi Hj) as (_ & p & pl & A & B & C & D & E). eexists. split; [apply HC_mac0; eassumption|]. rewrite C. apply HC_mac0; assumption.
  - destruct (mac_input_inj _ _ _ _ _ Hi Hj) as (_ & p & pl & A & B & C & D & E). eexists. split; [apply HC_mac; eassumption|]. rewrite C. apply HC_mac; assumption.
Qed.

Theorem new_fresh : forall i t l, input i = Ok t -> new_content i l -> fresh t l.
Proof. intros i t l HI HN j HJ HE. destruct (same_input i j t HI HE) as (c & A & B). exact (HN j c HJ A B). Qed.

(** ** Algorithms *)

Lemma as_bytes_ok : forall v b, as_bytes v = Ok b -> v = VBytes b.
Proof. intros v b H. destruct v; try discriminate. injection H as <-. reflexivity. Qed.
Lemma attr_bytes_ok : forall k p b, attr_bytes k p = Ok b -> prop_get k p = Ok (VBytes b).
Proof. intros k p b H. apply bind_ok in H as (v & HV & H). apply as_bytes_ok in H. subst v. exact HV. Qed.
Lemma attr_hex_ok : forall k p n, attr_hex k p = Ok n -> exists b, prop_get k p = Ok (VBytes b) /\ n = of_be b.
Proof.
  intros k p n H. apply bind_ok in H as (v & HV & H). apply bind_ok in H as (b & HB & H). apply as_bytes_ok in HB. subst v.
  exists b. split; [exact HV|]. destruct b; [discriminate|]. injection H as <-. reflexivity.
Qed.
Lemma attr_int_ok : forall k p n, attr_int k p = Ok n -> exists b, prop_get k p = Ok (VBytes b) /\ n = of_be b.
Proof.
  intros k p n H. apply bind_ok in H as (v & HV & H). apply bind_ok in H as (b & HB & H). apply as_bytes_ok in HB. subst v.
  exists b. split; [exact HV|]. injection H as <-. reflexivity.
Qed.

Lemma kind_in : forall a q, alg_kind a = Some q -> exists z, a = alg z /\ In (z, q) alg_defs.
Proof.
  intros a q H. destruct a as [| | | | | | | | | | | | | |c|]; try discriminate. destruct c as [[] z]; try discriminate. exists z. split; [reflexivity|]. cbn [alg_kind] in H.
  destruct (find _ alg_defs) as [[z' q']|] eqn:E; [|discriminate]. injection H as <-. apply find_some in E as [HI E]. apply Z.eqb_eq in E. cbn [fst snd] in *. subst. exact HI.
Qed.

(** The parameters of the algorithm classes are the registered ones. *)
Lemma registered_params : Forall (fun e => match snd e with
  | ARsa p h => In (fst e, p, h) rsa_schemes
  | AEcdsa c h => In (fst e, c, h) ecdsa_curves
  | AEdDSA => fst e = (-8)%Z
  | AHmac h n => In (fst e, (h, n)) rfc_hmacs
  | ACbcMac n _ => In (fst e, n) rfc_aes_macs
  | AGcm n => In (fst e, n) rfc_gcms
  | ACcm t n => In (fst e, (n, t)) rfc_ccms
  | _ => True
  end) alg_defs.
Proof. unfold alg_defs. repeat (constructor; [cbn [fst snd]; first [exact I|reflexivity|repeat (first [left; reflexivity|right])]|]). constructor. Qed.

Lemma ed_name : forall c, (cls_fullname c = bs "ED25519" -> c = Cls FCrv 6) /\ (cls_fullname c = bs "ED448" -> c = Cls FCrv 7).
Proof.
  intros [fam z]. unfold cls_fullname. cbn [c_id c_fam].
  assert (HT : forall (l : list (Z * string)) n, (forall e, In e l -> bs (snd e) = n -> fam = FCrv /\ Cls fam (fst e) = Cls FCrv (if bytes_eqb n (bs "ED25519") then 6 else 7)) ->
    n <> [] -> match find (fun e => Z.eqb (fst e) z) l with Some e => bs (snd e) | None => [] end = n -> Cls fam z = Cls FCrv (if bytes_eqb n (bs "ED25519") then 6 else 7)).
  { intros l n HL HN H. destruct (find _ l) as [e|] eqn:E; [|congruence]. apply find_some in E as [HI E]. apply Z.eqb_eq in E. subst z. exact (proj2 (HL e HI H)). }
  split; intros H; [apply (HT _ (bs "ED25519")) in H|apply (HT _ (bs "ED448")) in H]; try exact H; try discriminate; clear.
  all: intros e HI HE; destruct fam; cbv -[In snd fst bs] in HI; cbn [In app] in HI;
    repeat (destruct HI as [<-|HI]; [try (vm_compute in HE; discriminate HE); split; reflexivity|]); contradiction.
Qed.

Section Accept.
Variable X : crypto.

Lemma ed_curve_ok : forall k c, ed_curve k = Ok c -> In c [6; 7]%Z /\ prop_get k PCrv = Ok (VClass (Cls FCrv c)).
Proof.
  intros k c H. apply bind_ok in H as (v & HV & H). destruct v; try discriminate.
  destruct (bytes_eqb _ (bs "ED25519")) eqn:E1.
  - apply bytes_eqb_eq in E1. apply ed_name in E1. injection H as <-. subst. split; [left; reflexivity|exact HV].
  - destruct (bytes_eqb _ (bs "ED448")) eqn:E2; [|discriminate]. apply bytes_eqb_eq in E2. apply ed_name in E2. injection H as <-. subst. split; [right; left; reflexivity|exact HV].
Qed.

Theorem alg_verify_accepts : forall a k t s, alg_verify X a k t s = Ok true -> exists z b, a = alg z /\ s = VBytes b /\ sig_accepts X z k t b.
Proof.
  intros a k t s H. unfold alg_verify in H. destruct (alg_kind a) as [q|] eqn:EK; [|discriminate]. destruct (kind_in a q EK) as (z & -> & HI). exists z.
  destruct q; try discriminate.
  - apply bind_ok in H as (p & HP & H). apply bind_ok in H as (b & HB & H). apply as_bytes_ok in HB. subst s. exists b. split; [reflexivity|]. split; [reflexivity|].
    apply bind_ok in HP as (e & HE & HP). apply bind_ok in HP as (n & HN & HP). injection HP as <-.
    apply attr_int_ok in HE as (eb & HE & ->). apply attr_int_ok in HN as (nb & HN & ->).
    apply (SA_rsa X z pad h k eb nb t b); [|exact HE|exact HN|exact H].
    exact (proj1 (Forall_forall _ _) registered_params _ HI).
  - apply bind_ok in H as (p & HP & H). discriminate.
  - apply bind_ok in H as (x & HX & H). apply bind_ok in H as (y & HY & H). apply bind_ok in H as (b & HB & H). apply as_bytes_ok in HB. subst s.
    exists b. split; [reflexivity|]. split; [reflexivity|]. apply attr_hex_ok in HX as (xb & HX & ->). apply attr_hex_ok in HY as (yb & HY & ->).
    eapply SA_ecdsa; [|exact HX|exact HY|exact H].
    exact (proj1 (Forall_forall _ _) registered_params _ HI).
  - apply bind_ok in H as (c & HC & H). apply bind_ok in H as (x & HX & H). apply bind_ok in H as (b & HB & H). apply as_bytes_ok in HB. subst s.
    exists b. split; [reflexivity|]. split; [reflexivity|]. apply ed_curve_ok in HC as [HC HP]. apply attr_bytes_ok in HX.
    assert (HZ : z = (-8)%Z) by exact (proj1 (Forall_forall _ _) registered_params _ HI).
    subst z. eapply SA_eddsa; eassumption.
Qed.

Theorem verify_tag_accepts : forall a k tag t, law_aes_len X -> t <> [] -> alg_verify_tag X a k tag t = Ok true -> exists z b, a = alg z /\ tag = VBytes b /\ mac_accepts X z k t b.
Proof.
  intros a k tag t LA HT H. apply verify_tag_iff in H as (b & H & ->). pose proof H as H'. unfold alg_compute_tag in H. destruct (alg_kind a) as [q|] eqn:EK; [|discriminate].
  destruct (kind_in a q EK) as (z & -> & HI). exists z, b. split; [reflexivity|]. split; [reflexivity|]. destruct q; try discriminate.
  - apply bind_ok in H as (kb & HK & H). injection H as <-. apply attr_bytes_ok in HK. apply MA_hmac; [|exact HK].
    exact (proj1 (Forall_forall _ _) registered_params _ HI).
  - match type of HI with In (z, ACbcMac ?l _) _ => assert (HIn : In (z, l) rfc_aes_macs) end.
    { exact (proj1 (Forall_forall _ _) registered_params _ HI). }
    destruct (cbc_tag X z _ k t b HIn LA HT H') as (kb & blocks & rest & HS & HP & HL & HC).
    replace b with (firstn (length b) (cbc_mac (x_aes X kb) blocks)) by (rewrite HC, firstn_app, firstn_all, PeanoNat.Nat.sub_diag; cbn [firstn]; apply app_nil_r).
    rewrite HL. eapply MA_cbc; eassumption.
Qed.

Theorem alg_decrypt_opens : forall a k n ct t pt, alg_decrypt X a k n ct t = Ok pt ->
  exists z nonce c, a = alg z /\ n = VBytes nonce /\ ct = VBytes c /\ aead_opens X z k nonce t c pt.
Proof.
  intros a k n ct t pt H. unfold alg_decrypt in H. destruct (alg_kind a) as [q|] eqn:EK; [|discriminate]. destruct (kind_in a q EK) as (z & -> & HI).
  destruct q; try discriminate.
  all: apply bind_ok in H as (kb & HK & H); apply bind_ok in H as (nb & HN & H); apply bind_ok in H as (c & HC & H); apply as_bytes_ok in HN, HC; apply attr_bytes_ok in HK; subst.
  all: exists z, nb, c; do 3 (split; [reflexivity|]).
  - eapply AO_gcm; [|exact HK|exact H]. exact (proj1 (Forall_forall _ _) registered_params _ HI).
  - eapply AO_ccm; [|exact HK|exact H]. exact (proj1 (Forall_forall _ _) registered_params _ HI).
Qed.

(** ** Messages *)

Lemma key_verification_key : forall c a op k, key_verification c a op = Ok k -> ckey c = Some k.
Proof. intros c a op k H. unfold key_verification in H. destruct (ckey c) as [k'|]; [|discriminate]. destruct (k_cls k'); try discriminate; apply bind_ok in H as (? & _ & H); injection H as <-; reflexivity. Qed.

Lemma verify_signature_accepts : forall c st s, verify_signature X c st s = Ok true ->
  exists z k t b, get_attr c Algorithm = Ok (alg z) /\ ckey c = Some k /\ st = Ok t /\ s = VBytes b /\ sig_accepts X z k t b.
Proof.
  intros c st s H. unfold verify_signature in H. apply bind_ok in H as (a & HA & H). apply bind_ok in H as (k & HK & H). apply bind_ok in H as (? & _ & H). apply bind_ok in H as (t & HT & H).
  apply alg_verify_accepts in H as (z & b & -> & -> & H). apply key_verification_key in HK. eauto 10.
Qed.

Lemma mac_verify_accepts : forall ctx c tag, law_aes_len X -> mac_verify X ctx c tag = Ok true ->
  exists z k t b, get_attr c Algorithm = Ok (alg z) /\ ckey c = Some k /\ mac_structure ctx c = Ok t /\ tag = VBytes b /\ mac_accepts X z k t b.
Proof.
  intros ctx c tag LA H. unfold mac_verify in H. apply bind_ok in H as (a & HA & H). destruct (ckey c) as [k|] eqn:EK; [|discriminate].
  apply bind_ok in H as (? & _ & H). apply bind_ok in H as (? & _ & H). apply bind_ok in H as (t & HT & H).
  apply verify_tag_accepts in H as (z & b & -> & -> & H); [|exact LA|exact (mac_structure_nonempty _ _ _ HT)]. eauto 10.
Qed.

Lemma enc_decrypt_opens : forall ctx c pt, enc_decrypt X ctx c = Ok pt ->
  exists z k nonce t ct, get_attr c Algorithm = Ok (alg z) /\ ckey c = Some k /\ get_nonce c = Ok (VBytes nonce) /\ enc_structure ctx c = Ok t /\ payload c = Some ct /\ aead_opens X z k nonce t ct pt.
Proof.
  intros ctx c pt H. unfold enc_decrypt in H. apply bind_ok in H as (a & HA & H). apply bind_ok in H as (n & HN & H). destruct (ckey c) as [k|] eqn:EK; [|discriminate].
  apply bind_ok in H as (? & _ & H). apply bind_ok in H as (? & _ & H). apply bind_ok in H as (t & HT & H).
  apply alg_decrypt_opens in H as (z & nonce & ct & -> & -> & E & H). exists z, k, nonce, t, ct. destruct (payload c) as [p|]; [|discriminate]. injection E as ->. auto 10.
Qed.

Lemma encm_decrypt_opens : forall m r m' pt, encm_decrypt X m r = (m', Ok pt) ->
  e_rcpts m' = e_rcpts m /\ (exists o, e_core m' = with_key (e_core m) o) /\ enc_decrypt X "Encrypt" (e_core m') = Ok pt.
Proof.
  intros m r m' pt H. unfold encm_decrypt in H. destruct (get_attr (e_core m) Algorithm); [|discriminate]. destruct (negb _); [discriminate|].
  destruct (verify_recipients (e_rcpts m)); [|discriminate]. destruct (has_class RDirect (e_rcpts m)).
  - injection H as <- H. split; [reflexivity|]. split; [exists (ckey (e_core m)); destruct m as [[]]; reflexivity|exact H].
  - destruct (_ || _); [|discriminate]. destruct (compute_cek X r _ true) as [k|]; [|discriminate]. injection H as <- H. cbn [e_core e_rcpts]. eauto.
Qed.
End Accept.
