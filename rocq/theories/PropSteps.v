(** C101: protecting a message first and sending it later. *)
From Coq Require Import NArith ZArith Bool String.
From Coq Require Import Init.Byte List.
From Verif Require Import Bytes Value Cbor Registry Crypto Toy Keys Algorithms Headers HdrProofs Messages Recipients.
From Verif Require Import SpecCrypto SpecMsg SpecAlg SpecKeys SpecHdr ValueProofs WireProofs PropHdr PropMsg LifeProofs MsgTrip MsgTrip2 PropRcpt PropRcptTrip.
Import ListNotations.

(** ** What holds *)

(** [msg.signature = msg.compute_signature()] and [encode(sign=False)] emit what [encode()]
    emits with that signature, for attached and detached payloads. *)
Theorem C101_sign1_partial : forall X seed m d sig tag, compute_signature X seed (s1_core m) (sign1_structure (s1_core m) d) = Ok sig -> sig <> [] ->
  exists m', sign1_set_signature m (VBytes sig) = (m', Ok tt) /\ s1_core m' = s1_core m /\ s1_sig m' = VBytes sig /\
    forall seed' d', sign1_encode X seed' m' tag false d' = sign1_encode X seed m tag true d.
Proof.
  intros X seed m d sig tag HS HN. eexists. split; [reflexivity|]. split; [reflexivity|]. split; [reflexivity|]. intros seed' d'.
  unfold sign1_encode. cbn [s1_core s1_sig]. destruct (phdr_encoded (s1_core m)) as [p|e]; [|reflexivity]. cbn [bind]. rewrite HS. cbn [bind].
  destruct sig as [|x sig]; [contradiction|]. reflexivity.
Qed.
Print Assumptions C101_sign1_partial.

Lemma own_arrived : forall c, arrived c (with_aad (with_key c None) []).
Proof. intros c. split; [apply same_headers_refl|]. split; [apply same_headers_refl|]. repeat split; reflexivity. Qed.
Lemma own_equip : forall c k, equip (with_aad (with_key c None) []) k (aad c) = with_key c (Some k).
Proof. reflexivity. Qed.

(** The message that is sent in this way decodes and verifies, with the key that verifies the
    sender's; and so does the sender's own object. *)
Theorem C101_sign1_verifies_partial : forall X seed seed' m d sig m' b kv, law_rsa X -> law_ecdsa X -> law_ed X ->
  headers_ok X (s1_core m) -> verifier X (s1_core m) kv ->
  compute_signature X seed (s1_core m) (sign1_structure (s1_core m) d) = Ok sig -> sig <> [] ->
  sign1_set_signature m (VBytes sig) = (m', Ok tt) -> sign1_encode X seed' m' true false d = Ok b ->
  (exists c, decode X None true (VBytes b) = Ok (MSign1 (Sign1 c (VBytes sig))) /\ arrived (s1_core m) c /\
    sign1_verify X (Sign1 (equip c kv (aad (s1_core m))) (VBytes sig)) d = Ok true) /\
  sign1_verify X (Sign1 (with_key (s1_core m') (Some kv)) (s1_sig m')) d = Ok true.
Proof.
  intros X seed seed' m d sig m' b kv LR LE LD HH HV HS HN HM HE.
  destruct (C101_sign1_partial X seed m d sig true HS HN) as (m2 & HM2 & HC & HG & HQ). rewrite HM2 in HM. injection HM as ->.
  split.
  - destruct (sign1_plain_trip X seed' m' d b sig None) as (c & HD & HA & HP); try assumption; [rewrite HC; assumption|left; reflexivity|].
    rewrite HC in HA, HP. exists c. split; [exact HD|]. split; [exact HA|]. unfold sign1_verify. cbn [s1_core s1_sig].
    rewrite (sign1_structure_trip _ _ kv d HA HP). eapply verify_trip; eassumption.
  - rewrite HC, HG. pose proof (own_arrived (s1_core m)) as HA. rewrite <- own_equip. unfold sign1_verify. cbn [s1_core s1_sig].
    rewrite (sign1_structure_trip _ _ kv d HA eq_refl). eapply verify_trip; eassumption.
Qed.
Print Assumptions C101_sign1_verifies_partial.

(** [msg.payload = msg.encrypt()] and [encode(encrypt=False)] emit what [encode()] emits, and the
    sender's object, now holding the ciphertext, decrypts to the plaintext. *)
Theorem C101_enc0_partial : forall X c ct, enc_encrypt X "Encrypt0" c = Ok ct ->
  (forall tag, enc0_encode X (with_payload c (Some ct)) tag false = enc0_encode X c tag true) /\
  (forall kr, law_gcm X -> law_ccm X -> shares c (Cls FOps 4) kr ->
    exists pl, payload c = Some pl /\ enc0_decrypt X (with_key (with_payload c (Some ct)) (Some kr)) = Ok pl).
Proof.
  intros X c ct H. split.
  - intros tag. unfold enc0_encode. change (phdr_encoded (with_payload c (Some ct))) with (phdr_encoded c). rewrite H. reflexivity.
  - intros kr LG LC HS. set (c' := with_payload (with_aad (with_key c None) []) (Some ct)).
    assert (HA : arrived c c') by (split; [apply same_headers_refl|]; split; [apply same_headers_refl|]; repeat split; reflexivity).
    destruct (enc_trip X "Encrypt0" c c' kr ct LG LC HA eq_refl HS H) as (pl & HP & HD). exists pl. split; [exact HP|exact HD].
Qed.
Print Assumptions C101_enc0_partial.

(** The same for COSE_Encrypt with any recipients: the two calls together do what [encode()] does. *)
Theorem C101_enc_partial : forall X n m n' m' ct tag, encm_encrypt X n m = ((n', m'), Ok ct) ->
  snd (encm_encode X n' (EncMsg (with_payload (e_core m') (Some ct)) (e_rcpts m')) tag false) = snd (encm_encode X n m tag true).
Proof.
  intros X n m n' m' ct tag H. destruct (encm_encrypt_out X n m n' m' ct H) as [_ (k & HK)].
  unfold encm_encode at 2. rewrite H. unfold encm_encode. cbn [e_core e_rcpts bind].
  assert (HP : phdr_encoded (with_payload (e_core m') (Some ct)) = phdr_encoded (e_core m)) by (rewrite HK; reflexivity). rewrite HP.
  destruct (phdr_encoded (e_core m)) as [p|e]; [|reflexivity].
  change (get_attr (with_payload (e_core m') (Some ct)) Algorithm) with (get_attr (e_core m') Algorithm).
  destruct (e_rcpts m') as [|r rs]; [reflexivity|]. destruct (get_attr (e_core m') Algorithm) as [a|e]; [|reflexivity].
  destruct (rcpts_encode X n' (r :: rs)) as [[n2 rs'] [vs|e]]; reflexivity.
Qed.
Print Assumptions C101_enc_partial.

(** Once a MAC is computed, by compute_tag or encode, the sender's own object verifies. *)
Theorem C101_mac0_own_partial : forall X m t m' r kr, shares (m0_core m) (Cls FOps 10) kr ->
  (mac0_compute_tag X m = (m', Ok t) \/ mac0_encode X m r true = (m', Ok t)) ->
  mac0_verify_tag X (Mac0 (with_key (m0_core m') (Some kr)) (m0_tag m')) = Ok true.
Proof.
  intros X m t m' r kr HS H.
  assert (HC : exists t', mac0_compute_tag X m = (m', Ok t')).
  { destruct H as [H|H]; [eauto|]. unfold mac0_encode in H. destruct (phdr_encoded (m0_core m)) as [p|e]; [|discriminate].
    destruct (mac0_compute_tag X m) as [m2 [t'|e]]; [|discriminate]. injection H as -> _. eauto. }
  clear H. destruct HC as [t' HC]. unfold mac0_compute_tag in HC. destruct (mac_compute X "MAC0" (m0_core m)) as [t2|e] eqn:E; [|discriminate].
  injection HC as <- <-. cbn [m0_core m0_tag]. pose proof (own_arrived (m0_core m)) as HA. rewrite <- own_equip.
  unfold mac0_verify_tag. cbn [m0_core m0_tag]. eapply mac_trip; try eassumption. reflexivity.
Qed.
Print Assumptions C101_mac0_own_partial.

Theorem C101_mac_own_partial : forall X n m n' m' t kr, macm_compute_tag X n m = ((n', m'), Ok t) -> shares (mm_core m') (Cls FOps 10) kr ->
  macm_verify_tag X (MacMsg (with_key (mm_core m') (Some kr)) (mm_tag m') (mm_rcpts m')) = Ok true.
Proof.
  intros X n m n' m' t kr H HS. destruct (macm_compute_out X n m n' m' t H) as (HC & _ & HT & _).
  unfold macm_verify_tag. cbn [mm_core mm_tag]. rewrite HT. pose proof (own_arrived (mm_core m')) as HA. rewrite <- own_equip.
  eapply mac_trip; try eassumption. reflexivity.
Qed.
Print Assumptions C101_mac_own_partial.

(** ** Refuted *)

(** A tag that was computed first is not sent by [encode(mac=False)], so the message does not
    decode; COSE_Mac without recipients likewise. *)
Theorem C101_mac0_refuted : forall X m m' t tag b e, headers_ok X (m0_core m) -> mac0_compute_tag X m = (m', Ok t) ->
  snd (mac0_encode X m' tag false) = Ok b ->
  snd (mac0_encode X m' tag false) = snd (mac0_encode X m tag false) /\ (tag = true -> decode X e true (VBytes b) = Err IndexError).
Proof.
  intros X m m' t tag b e HH HC HE. unfold mac0_compute_tag in HC. destruct (mac_compute X "MAC0" (m0_core m)) as [t2|er] eqn:E; [|discriminate].
  injection HC as <- <-. split; [unfold mac0_encode; cbn [m0_core]; destruct (phdr_encoded (m0_core m)); reflexivity|].
  intros ->. eapply (mac0_unmaced X (Mac0 (m0_core m) (VBytes t2))); [exact HH|exact HE].
Qed.
Print Assumptions C101_mac0_refuted.

(** An object that has been signed by [encode()] alone holds no signature and fails to verify,
    although what was emitted verifies. *)
Theorem C101_sign1_own_refuted : exists m b,
  sign1_init toy (ex_args (alg (-7)) true ex_ec2) = Ok m /\ verifier toy (s1_core m) ex_pub /\
  sign1_encode toy 5 m true true VNone = Ok b /\
  (exists m', decode toy None true (VBytes b) = Ok (MSign1 m') /\ sign1_verify toy (Sign1 (equip (s1_core m') ex_pub (aad (s1_core m))) (s1_sig m')) VNone = Ok true) /\
  sign1_verify toy (Sign1 (with_key (s1_core m) (Some ex_pub)) (s1_sig m)) VNone = Ok false.
Proof.
  do 2 eexists. split; [vm_compute; reflexivity|]. split.
  { exists (-7)%Z, ex_ec2. split; [reflexivity|]. split; [reflexivity|]. split; [apply ex_pair|].
    split; [right; right; eexists; split; reflexivity|]. right; right. do 2 eexists. split; [reflexivity|]. split; left; reflexivity. }
  split; [vm_compute; reflexivity|]. split; [eexists; split; [vm_compute; reflexivity|vm_compute; reflexivity]|vm_compute; reflexivity].
Qed.
Print Assumptions C101_sign1_own_refuted.

(** Anything but bytes is refused as a signature, without effect. *)
Theorem C101_signature_type_partial : forall m v m' r, sign1_set_signature m v = (m', r) ->
  (exists b, v = VBytes b /\ r = Ok tt /\ m' = Sign1 (s1_core m) (VBytes b)) \/ ((forall b, v <> VBytes b) /\ r = Err TypeError /\ m' = m).
Proof.
  intros m v m' r H. destruct v; injection H as <- <-; try (right; split; [discriminate|split; reflexivity]). left. eexists. split; [reflexivity|]. split; reflexivity.
Qed.
Print Assumptions C101_signature_type_partial.

(** Non-vacuity: a signed message, *)
Example C101_sign1_example : exists c s m' b,
  core_init toy (ex_args (alg (-7)) true ex_ec2) = Ok c /\ headers_ok toy c /\
  compute_signature toy 5 c (sign1_structure c VNone) = Ok s /\ s <> [] /\
  sign1_set_signature (Sign1 c (VBytes [])) (VBytes s) = (m', Ok tt) /\ sign1_encode toy 9 m' true false VNone = Ok b.
Proof.
  do 4 eexists. split; [vm_compute; reflexivity|].
  split; [eapply (ex_headers (Cls FAlg (-7)) true ex_ec2); [vm_compute; reflexivity|exists (bs "ES256"); in_list]|].
  split; [vm_compute; reflexivity|]. split; [discriminate|]. split; [vm_compute; reflexivity|]. vm_compute. reflexivity.
Qed.

(** an encrypted and a MACed one (C13_example and C14_example give [shares]), *)
Example C101_enc0_example : exists c ct cm t mt,
  core_init toy (ex_args (alg 1) true ex_sym) = Ok c /\ enc_encrypt toy "Encrypt0" c = Ok ct /\
  core_init toy (ex_args (alg 5) false ex_sym) = Ok cm /\ headers_ok toy cm /\
  mac0_compute_tag toy (Mac0 cm (VBytes [])) = (mt, Ok t) /\ is_ok (snd (mac0_encode toy mt true false)) = true.
Proof.
  do 5 eexists. split; [vm_compute; reflexivity|]. split; [vm_compute; reflexivity|]. split; [vm_compute; reflexivity|].
  split; [eapply (ex_headers (Cls FAlg 5) false ex_sym); [vm_compute; reflexivity|exists (bs "HMAC_256"); in_list]|].
  split; [vm_compute; reflexivity|]. vm_compute. reflexivity.
Qed.

(** and messages with recipients. *)
Example C101_recipients_example : exists s ct s' m' t,
  encm_encrypt toy 3 (ex_enc [ex_kw 0 (Some ex_sym) []; ex_kw 1 (Some ex_sym) []]) = (s, Ok ct) /\
  macm_compute_tag toy 3 (ex_mac [ex_direct 0]) = ((s', m'), Ok t) /\ shares (mm_core m') (Cls FOps 10) ex_sym.
Proof.
  do 5 eexists. split; [vm_compute; reflexivity|]. split; [vm_compute; reflexivity|].
  exists 5%Z, ex_sym, (repeat x2a 16). repeat (split; [reflexivity|]). split; left; reflexivity.
Qed.

(** A COSE_Sign object holds the signers it was built with, and neither external data nor a key of its own: these
    belong to the signers. *)
Theorem C12_construction : forall X a signers m, sign_init X a signers = Ok m ->
  sm_signers m = signers /\ aad (sm_core m) = [] /\ ckey (sm_core m) = None.
Proof.
  intros X a signers m H. unfold sign_init in H. apply bind_ok in H as (c & HC & H). injection H as <-.
  apply core_init_inv in HC as (pd & ud & _ & _ & _ & _ & _ & _ & HA & HK & _). cbn [a_aad a_key check_key] in HA, HK.
  injection HA as HA. injection HK as HK. cbn [sm_signers sm_core]. auto.
Qed.
Print Assumptions C12_construction.
