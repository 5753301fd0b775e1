(** C132: a strict receiver accepts what a sender without unknown parameters sent. *)
From Coq Require Import NArith ZArith Bool String.
From Coq Require Import Init.Byte List.
From Verif Require Import Bytes Value Cbor SpecData Registry Crypto Toy Keys Algorithms Headers Messages Recipients
  SpecRegistry SpecKeys SpecCrypto SpecAlg SpecHdr SpecTrip SpecMsg SpecMode KeyTrip2 HdrTrip MsgTrip MsgTrip2 ModeProofs PropHdr PropMsg PropMode.
Import ListNotations.

Lemma same_headers_in h h' : same_headers h h' -> forall k v, In (k, v) h' -> exists w, In (k, w) h.
Proof.
  unfold same_headers. induction 1 as [|[a x] [b y] l l' [E _] _ IH]; intros k v H; [destruct H|]. cbn [fst] in E. subst b.
  destruct H as [H|H].
  - injection H as <- <-. exists x. left. reflexivity.
  - destruct (IH k v H) as [w Hw]. exists w. right. exact Hw.
Qed.

Lemma arrived_no_unknown c c' : arrived c c' -> no_unknown c -> no_unknown c'.
Proof.
  intros (HP & HU & _) HN k v [H|H].
  - destruct (same_headers_in _ _ HP k v H) as [w Hw]. apply (HN k w). left. exact Hw.
  - destruct (same_headers_in _ _ HU k v H) as [w Hw]. apply (HN k w). right. exact Hw.
Qed.

(** When a permissive receiver gets the headers of the objects [cs], and none of them is unknown,
    a strict receiver gets the same message. *)
Theorem C132_strict_receiver : forall X expected v m cs, decode X expected true v = Ok m -> recipients_read m ->
  Forall2 arrived cs (parts m) -> Forall no_unknown cs -> decode X expected false v = Ok m.
Proof.
  intros X e v m cs H HR HA HN. apply (decode_iff X e v m H HR). revert HN.
  induction HA as [|c c' l l' A _ IH]; intros HN; [constructor|]. inversion HN; subst.
  constructor; [eapply arrived_no_unknown; eassumption|]. apply IH. assumption.
Qed.
Print Assumptions C132_strict_receiver.

(** The round trip of COSE_Sign1, COSE_Sign, COSE_Encrypt0 and COSE_Mac0 messages to a strict receiver. *)
Theorem C132_sign1_trip : forall X seed m d b kv e, law_rsa X -> law_ecdsa X -> law_ed X ->
  headers_ok X (s1_core m) -> verifier X (s1_core m) kv -> e = None \/ e = Some 18%N ->
  sign1_encode X seed m true true d = Ok b -> no_unknown (s1_core m) ->
  exists m', decode X e false (VBytes b) = Ok (MSign1 m') /\ arrived (s1_core m) (s1_core m') /\
    payload (s1_core m') = payload (s1_core m) /\
    sign1_verify X (Sign1 (equip (s1_core m') kv (aad (s1_core m))) (s1_sig m')) d = Ok true.
Proof.
  intros X seed m d b kv e L1 L2 L3 HH HV HE HB HN.
  destruct (C10_sign1_round_trip X seed m d b kv e L1 L2 L3 HH HV HE HB) as (m' & s & HD & HA & HP & _ & HS).
  exists m'. split; [|split; [exact HA|split; [exact HP|exact HS]]].
  apply (C132_strict_receiver X e _ (MSign1 m') [s1_core m] HD); [exact I|constructor; [exact HA|constructor]|constructor; [exact HN|constructor]].
Qed.
Print Assumptions C132_sign1_trip.

Theorem C132_sign_trip : forall X seed m d b kvs e, law_rsa X -> law_ecdsa X -> law_ed X ->
  headers_ok X (sm_core m) -> sm_signers m <> [] ->
  Forall2 (fun s kv => headers_ok X s /\ verifier X s kv) (sm_signers m) kvs -> e = None \/ e = Some 98%N ->
  sign_encode X seed m true d = Ok b -> Forall no_unknown (sm_core m :: sm_signers m) ->
  exists m', decode X e false (VBytes b) = Ok (MSign m') /\ arrived (sm_core m) (sm_core m') /\
    payload (sm_core m') = payload (sm_core m) /\
    Forall2 (fun e s' => arrived (fst e) s' /\
      signer_verify X (Some (sm_core m')) (equip s' (snd e) (aad (fst e))) d = Ok true)
      (combine (sm_signers m) kvs) (sm_signers m').
Proof.
  intros X seed m d b kvs e L1 L2 L3 HH HS HK HE HB HN.
  destruct (C12_sign_round_trip X seed m d b kvs e L1 L2 L3 HH HS HK HE HB) as (m' & HD & HA & HP & HF).
  exists m'. split; [|split; [exact HA|split; [exact HP|exact HF]]].
  apply (C132_strict_receiver X e _ (MSign m') (sm_core m :: sm_signers m) HD); [exact I| |exact HN].
  cbn [parts]. constructor; [exact HA|]. clear - HK HF. revert HF. generalize (sm_signers m') as l'.
  induction HK as [|s kv l lk _ _ IH]; intros l' HF; cbn [combine] in HF; inversion HF as [|? s' ? t' [A _] HT]; subst; constructor.
  - exact A.
  - apply IH. exact HT.
Qed.
Print Assumptions C132_sign_trip.

Theorem C132_enc0_trip : forall X c b kr e, law_gcm X -> law_ccm X -> headers_ok X c -> shares c (Cls FOps 4) kr ->
  e = None \/ e = Some 16%N -> enc0_encode X c true true = Ok b -> no_unknown c ->
  exists c' pl, decode X e false (VBytes b) = Ok (MEnc0 c') /\ arrived c c' /\
    payload c = Some pl /\ enc0_decrypt X (equip c' kr (aad c)) = Ok pl.
Proof.
  intros X c b kr e L1 L2 HH HV HE HB HN.
  destruct (C13_enc0_round_trip X c b kr e L1 L2 HH HV HE HB) as (c' & pl & HD & HA & HP & HS).
  exists c', pl. split; [|split; [exact HA|split; [exact HP|exact HS]]].
  apply (C132_strict_receiver X e _ (MEnc0 c') [c] HD); [exact I|constructor; [exact HA|constructor]|constructor; [exact HN|constructor]].
Qed.
Print Assumptions C132_enc0_trip.

Theorem C132_mac0_trip : forall X m b kr e, headers_ok X (m0_core m) -> shares (m0_core m) (Cls FOps 10) kr ->
  e = None \/ e = Some 17%N -> snd (mac0_encode X m true true) = Ok b -> no_unknown (m0_core m) ->
  exists m', decode X e false (VBytes b) = Ok (MMac0 m') /\ arrived (m0_core m) (m0_core m') /\
    payload (m0_core m') = payload (m0_core m) /\
    mac0_verify_tag X (Mac0 (equip (m0_core m') kr (aad (m0_core m))) (m0_tag m')) = Ok true.
Proof.
  intros X m b kr e HH HV HE HB HN.
  destruct (C14_mac0_round_trip X m b kr e HH HV HE HB) as (m' & HD & HA & HP & HS).
  exists m'. split; [|split; [exact HA|split; [exact HP|exact HS]]].
  apply (C132_strict_receiver X e _ (MMac0 m') [m0_core m] HD); [exact I|constructor; [exact HA|constructor]|constructor; [exact HN|constructor]].
Qed.
Print Assumptions C132_mac0_trip.

(** Messages with registered parameters only. *)
Definition ex_strict (z : Z) (k : key) : args :=
  Args (VDict [(VStr (bs "alg"), alg z); (VClass (Cls FHdr 3), VInt 50)])
    (VDict [(VInt 4, VBytes (bs "11")); (VInt 5, VBytes (repeat x07 12))])
    (VBytes (bs "hello")) (VBytes (bs "aad")) (kval k) VNone true false.
Lemma ex_strict_headers z n k c : In (Cls FAlg z, n) (registered FAlg) -> core_init toy (ex_strict z k) = Ok c -> headers_ok toy c.
Proof.
  intros HI H. eapply constructed_headers; [exact H|left; split; reflexivity|left; reflexivity| | |].
  - intros _. unfold given_headers.
    apply Forall_cons. { eapply GH_alg; [in_list|reflexivity|exact HI|reflexivity]. }
    apply Forall_cons. { eapply GH_type; [in_list|reflexivity|]. left. exists 50%Z. split; [reflexivity|discriminate]. }
    apply Forall_nil.
  - intros E. elim E. reflexivity.
  - unfold given_headers.
    apply Forall_cons. { apply (GH_bytes toy 4 (bs "KID")); [in_list|in_list|reflexivity]. }
    apply Forall_cons. { apply (GH_bytes toy 5 (bs "IV")); [in_list|in_list|reflexivity]. }
    apply Forall_nil.
Qed.
Lemma ex_strict_known z k c : core_init toy (ex_strict z k) = Ok c -> no_unknown c.
Proof.
  intros H. destruct (C132_constructor toy (a_phdr (ex_strict z k)) (a_uhdr (ex_strict z k)) (VBytes (bs "hello")) (VBytes (bs "aad")) (kval k) VNone true)
    as [[E|E] HI]; change (Args _ _ _ _ _ _ _ false) with (ex_strict z k) in E; [|congruence].
  rewrite H in E. apply (HI c); [symmetry; exact E|exact H].
Qed.

Example C132_mac0_example : exists c b m', core_init toy (ex_strict 5 ex_sym) = Ok c /\
  headers_ok toy c /\ shares c (Cls FOps 10) ex_sym /\ snd (mac0_encode toy (Mac0 c (VBytes [])) true true) = Ok b /\
  no_unknown c /\ decode toy None false (VBytes b) = Ok (MMac0 m').
Proof.
  do 3 eexists. split; [vm_compute; reflexivity|].
  split; [eapply (ex_strict_headers 5 (bs "HMAC_256") ex_sym); [in_list|vm_compute; reflexivity]|].
  split; [exists 5%Z, ex_sym, (repeat x2a 16); repeat (split; [reflexivity|]); split; left; reflexivity|].
  split; [vm_compute; reflexivity|]. split; [apply (ex_strict_known 5 ex_sym); vm_compute; reflexivity|vm_compute; reflexivity].
Qed.

Example C132_enc0_example : exists c b c', core_init toy (ex_strict 1 ex_sym) = Ok c /\
  law_gcm toy /\ law_ccm toy /\ headers_ok toy c /\ shares c (Cls FOps 4) ex_sym /\ enc0_encode toy c true true = Ok b /\
  no_unknown c /\ decode toy None false (VBytes b) = Ok (MEnc0 c').
Proof.
  do 3 eexists. split; [vm_compute; reflexivity|]. split; [apply toy_gcm|]. split; [apply toy_ccm|].
  split; [eapply (ex_strict_headers 1 (bs "A128GCM") ex_sym); [in_list|vm_compute; reflexivity]|].
  split; [exists 1%Z, ex_sym, (repeat x2a 16); repeat (split; [reflexivity|]); split; left; reflexivity|].
  split; [vm_compute; reflexivity|]. split; [apply (ex_strict_known 1 ex_sym); vm_compute; reflexivity|vm_compute; reflexivity].
Qed.

Lemma ex_verifier c : get_attr c Algorithm = Ok (alg (-7)) -> ckey c = Some ex_ec2 -> verifier toy c ex_pub.
Proof.
  intros HA HK. exists (-7)%Z, ex_ec2. split; [exact HA|]. split; [exact HK|]. split; [apply ex_pair|].
  split; [right; right; eexists; split; reflexivity|]. right; right. do 2 eexists. split; [reflexivity|]. split; left; reflexivity.
Qed.

Example C132_sign1_example : exists c b m', core_init toy (ex_strict (-7) ex_ec2) = Ok c /\
  headers_ok toy c /\ verifier toy c ex_pub /\ sign1_encode toy 5 (Sign1 c (VBytes [])) true true VNone = Ok b /\
  no_unknown c /\ decode toy None false (VBytes b) = Ok (MSign1 m').
Proof.
  do 3 eexists. split; [vm_compute; reflexivity|].
  split; [eapply (ex_strict_headers (-7) (bs "ES256") ex_ec2); [in_list|vm_compute; reflexivity]|].
  split; [apply ex_verifier; reflexivity|]. split; [vm_compute; reflexivity|].
  split; [apply (ex_strict_known (-7) ex_ec2); vm_compute; reflexivity|vm_compute; reflexivity].
Qed.

Example C132_sign_example : exists c s b m',
  core_init toy (ex_strict (-8) ex_ec2) = Ok c /\ core_init toy (ex_strict (-7) ex_ec2) = Ok s /\ headers_ok toy c /\
  Forall2 (fun s kv => headers_ok toy s /\ verifier toy s kv) [s; s] [ex_pub; ex_pub] /\
  sign_encode toy 5 (SignMsg c [s; s]) true VNone = Ok b /\
  Forall no_unknown [c; s; s] /\ decode toy None false (VBytes b) = Ok (MSign m').
Proof.
  do 4 eexists. split; [vm_compute; reflexivity|]. split; [vm_compute; reflexivity|].
  split; [eapply (ex_strict_headers (-8) (bs "EDDSA") ex_ec2); [in_list|vm_compute; reflexivity]|]. split; [|split; [vm_compute; reflexivity|split]].
  - apply Forall2_cons; [|apply Forall2_cons; [|apply Forall2_nil]];
      (split; [eapply (ex_strict_headers (-7) (bs "ES256") ex_ec2); [in_list|vm_compute; reflexivity]|apply ex_verifier; reflexivity]).
  - constructor; [apply (ex_strict_known (-8) ex_ec2); vm_compute; reflexivity|].
    constructor; [|constructor; [|constructor]]; apply (ex_strict_known (-7) ex_ec2); vm_compute; reflexivity.
  - vm_compute; reflexivity.
Qed.
