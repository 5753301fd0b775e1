(** Protected sender keys (C81), COSE_Mac with direct key agreement (C82). *)
From Coq Require Import NArith ZArith Bool String.
From Coq Require Import Init.Byte List.
From Verif Require Import Bytes Value Cbor SpecData Registry Crypto Toy Keys Algorithms Headers Messages Recipients
  SpecRegistry SpecKeys SpecCrypto SpecAlg SpecHdr SpecTrip SpecMsg SpecRcpt SpecRcptTrip SpecAgree
  KeyTrip KeyTrip2 MsgTrip MsgTrip2 RcptProofs RcptTrip RcptTrip2 RcptTrip5 AgreeProofs PropHdr PropMsg PropRcpt PropRcptTrip.
Import ListNotations.

(** ** C81: the sender's key among the protected headers *)

(** Such a recipient can never be used for sending, in COSE_Encrypt or COSE_Mac, whatever
    key and local attributes it is given. *)
Theorem C81_send_refuted : forall X id rc a rs r k lo, rcpt_init X id rc a rs = Ok r -> agreement r ->
  protected_sender_key (r_core r) ->
  (forall n m tag, In (given r k lo) (e_rcpts m) -> exists e, snd (encm_encode X n m tag true) = Err e) /\
  (forall n m l tag, mm_rcpts m = Some l -> In (given r k lo) l -> exists e, snd (macm_encode X n m tag true) = Err e).
Proof.
  intros X id rc a rs r k lo HB HA HP. split; intros; [eapply sent_protected_key|eapply sent_protected_key_mac]; eassumption.
Qed.
Print Assumptions C81_send_refuted.

(** And a received message with one cannot be decrypted, nor its MAC key computed, by
    anyone. *)
Theorem C81_receive_refuted : forall X e allow v m, decode X e allow v = Ok m ->
  (forall r k lo t, In r (message_rcpts m) -> agreement r -> protected_sender_key (r_core r) ->
     exists err, compute_cek X (equip_rcpt r k lo) t true = Err err) /\
  (forall em i r k lo a, m = MEnc em -> nth_error (e_rcpts em) i = Some r -> agreement r -> protected_sender_key (r_core r) ->
     exists err, snd (encm_decrypt X (equip_msg em a i (equip_rcpt r k lo)) (equip_rcpt r k lo)) = Err err).
Proof.
  intros X e allow v m H. split.
  - intros r k lo t. eapply received_protected_key_cek. exact H.
  - intros em i r k lo a ->. eapply received_protected_key. exact H.
Qed.
Print Assumptions C81_receive_refuted.

Definition ex_args_protected : args :=
  Args (VDict [(VStr (bs "EPHEMERAL_KEY"), kval ex_own_pub)]) (VDict [(VStr (bs "ALG"), VStr (bs "ECDH_ES_HKDF_256"))])
    (VBytes []) (VBytes []) VNone VNone false true.
(** The same message goes through when the key is unprotected: [C18_example]. *)
Example C81_example : exists r s b m' r',
  rcpt_init toy 0 RAgree ex_args_protected None = Ok r /\ agreement r /\ protected_sender_key (r_core r) /\
  snd (encm_encode toy 0 (ex_enc [given r (Some ex_own) [(StaticKey, kval ex_peer)]]) true true) = Err AttributeError /\
  encm_encode toy 0 (ex_enc [given r (Some ex_own) [(StaticKey, kval ex_peer)]]) true false = (s, Ok b) /\
  decode toy None true (VBytes b) = Ok (MEnc m') /\ e_rcpts m' = [r'] /\ agreement r' /\ protected_sender_key (r_core r') /\
  snd (encm_decrypt toy (equip_msg m' [] 0 (equip_rcpt r' ex_ec2 [])) (equip_rcpt r' ex_ec2 [])) = Err AttributeError.
Proof.
  do 5 eexists. split; [vm_compute; reflexivity|]. split; [left; reflexivity|]. split; [left; discriminate|].
  split; [vm_compute; reflexivity|]. split; [vm_compute; reflexivity|]. split; [vm_compute; reflexivity|]. split; [reflexivity|].
  split; [left; reflexivity|]. split; [left; discriminate|]. vm_compute. reflexivity.
Qed.

(** ** C82: COSE_Mac with direct key agreement *)

(** With HMAC, neither side can compute the key: the HMAC classes lack [get_key_length]. *)
Theorem C82_hmac_refuted : forall X n m r tag z, mm_rcpts m = Some [r] -> r_class r = RAgree -> In z [4; 5; 6; 7]%Z ->
  get_attr (mm_core m) Algorithm = Ok (alg z) ->
  (exists e, snd (macm_encode X n m tag true) = Err e) /\ (forall k lo, exists e, compute_cek X (equip_rcpt r k lo) (alg z) true = Err e).
Proof.
  intros X n m r tag z ERs HC HZ HA. split; [eapply hmac_agree; eassumption|]. intros k lo. apply hmac_agree_receive; [|exact HZ]. destruct r. exact HC.
Qed.
Print Assumptions C82_hmac_refuted.

Example C82_hmac_example : let r := ex_agree_with 0 RAgree (-25) [(EphemeralKey, kval ex_own_pub)] in
  mm_rcpts (ex_mac [r]) = Some [r] /\ r_class r = RAgree /\ get_attr (mm_core (ex_mac [r])) Algorithm = Ok (alg 5) /\
  snd (macm_encode toy 0 (ex_mac [r]) true true) = Err AttributeError.
Proof. do 3 (split; [reflexivity|]). vm_compute. reflexivity. Qed.

(** With any other algorithm for which the sender gets an encoding, the receiver's key
    agreement gives a key with which the tag verifies. *)
Theorem C82_roundtrip_partial : forall X n m r n' m2 b k lo e, law_wrap_some X -> law_oaep_some X -> law_ecdh X ->
  headers_ok X (mm_core m) -> mm_rcpts m = Some [r] -> headers_ok X (r_core r) -> r_subs r = [] -> agree_holder X r k lo ->
  e = None \/ e = Some 97%N -> macm_encode X n m true true = ((n', m2), Ok b) ->
  exists m' r' t kc, decode X e true (VBytes b) = Ok (MMac m') /\ arrived (mm_core m) (mm_core m') /\
    payload (mm_core m') = payload (mm_core m) /\ mm_rcpts m' = Some [r'] /\ r_class r' = RAgree /\ arrived (r_core r) (r_core r') /\
    get_attr (mm_core m') Algorithm = Ok t /\ compute_cek X (equip_rcpt r' k lo) t true = Ok (Some kc) /\
    macm_verify_tag X (MacMsg (equip (mm_core m') kc (aad (mm_core m))) (mm_tag m') (mm_rcpts m')) = Ok true.
Proof. exact mac_agree_trip. Qed.
Print Assumptions C82_roundtrip_partial.

Definition ex_cbcmac (rs : list rcpt) : macmsg :=
  MacMsg (ex_core [(Algorithm, alg 14)] (bs "hello") None []) (VBytes []) (Some rs).
Example C82_example : exists n' m2 b,
  let r := ex_agree_with 0 RAgree (-25) [(EphemeralKey, kval ex_own_pub)] in
  law_wrap_some toy /\ law_oaep_some toy /\ law_ecdh toy /\
  headers_ok toy (mm_core (ex_cbcmac [r])) /\ headers_ok toy (r_core r) /\ agree_holder toy r ex_ec2 [] /\
  macm_encode toy 0 (ex_cbcmac [r]) true true = ((n', m2), Ok b).
Proof.
  do 3 eexists. cbv zeta. do 3 (split; [first [apply toy_wrap_some|apply toy_oaep_some|apply toy_ecdh]|]).
  split; [ex_ok|]. split; [apply (ex_agree_ok 0 RAgree (-25) (bs "ECDH_ES_HKDF_256") (-1)); in_list|]. split; [|vm_compute; reflexivity].
  exists (-25)%Z, 1%Z, ex_peer, ex_own, ex_own_pub, (kval ex_own_pub). split; [reflexivity|]. split; [left; reflexivity|]. do 2 (split; [reflexivity|]).
  split; [exact ex_peer_pair|]. split; [reflexivity|]. split; [reflexivity|]. split; [left; reflexivity|]. split; [exact ex_own_portable|].
  split; [exact ex_own_pair|]. do 4 (split; [left; reflexivity|]). split; split; reflexivity.
Qed.
