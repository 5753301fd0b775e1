(** Round trips of messages with recipients (C15-C19, C57). *)
From Coq Require Import NArith ZArith Znumtheory Bool String.
From Coq Require Import Init.Byte List.
From Verif Require Import Bytes Value Cbor SpecData Registry Crypto Toy Keys Algorithms Headers Messages Recipients
  SpecRegistry SpecKeys SpecCrypto SpecAlg SpecHdr SpecTrip SpecMsg SpecRcpt SpecRcptTrip
  KeyTrip KeyTrip2 MsgTrip MsgTrip2 RcptProofs RcptTrip RcptTrip2 RcptTrip3 RcptTrip4 RcptTrip5 RcptTrip6 PropHdr PropMsg PropRcpt.
Import ListNotations.

(** ** Objects used by the examples *)

Ltac header := first [apply HO_alg; eexists; eexists; split; [reflexivity|in_list] | apply (HO_bytes toy 5); in_list].
Ltac ex_ok := repeat split; repeat (apply Forall_cons; [header|]); apply Forall_nil.
Lemma ex_enc_ok : forall rs, headers_ok toy (e_core (ex_enc rs)).
Proof. intros rs. ex_ok. Qed.
Lemma ex_mac_ok : forall rs, headers_ok toy (mm_core (ex_mac rs)).
Proof. intros rs. ex_ok. Qed.
Lemma ex_rcpt_ok : forall z n pl k lo, In (Cls FAlg z, n) (registered FAlg) -> headers_ok toy (ex_core [(Algorithm, alg z)] pl k lo).
Proof.
  intros z n pl k lo H. split; [split; [reflexivity|apply Forall_nil]|]. split; [reflexivity|].
  apply Forall_cons; [apply HO_alg; exists (Cls FAlg z), n; split; [reflexivity|exact H]|apply Forall_nil].
Qed.
Ltac rcpt_ok := split; [eapply ex_rcpt_ok; in_list|split; [reflexivity|eexists; split; [|reflexivity]; in_list]].

(** ** C15: COSE_Mac with direct recipients *)

(** A recipient may be built with the algorithm direct+HKDF-SHA-512, which the decoder
    knows no recipient class for: the message is encoded and cannot be decoded. *)
Definition ex_hkdf512 : rcpt := Rcpt 0 RDirect (ex_core [(Algorithm, alg (-11))] [] None []) (VStr []) [].
Theorem C15_unknown_class_refuted : exists n m rs s b,
  headers_ok toy (mm_core m) /\ mm_rcpts m = Some rs /\ rs <> [] /\ Forall direct rs /\
  Forall (fun r => headers_ok toy (r_core r)) rs /\ shares (mm_core m) (Cls FOps 10) ex_sym /\
  macm_encode toy n m true true = (s, Ok b) /\
  decode toy None true (VBytes b) = Err KeyError /\ decode toy (Some 97%N) true (VBytes b) = Err KeyError.
Proof.
  exists 0%N, (ex_mac [ex_hkdf512]), [ex_hkdf512]. do 2 eexists. split; [apply ex_mac_ok|]. split; [reflexivity|]. split; [discriminate|].
  split; [apply Forall_cons; [reflexivity|apply Forall_nil]|]. split; [apply Forall_cons; [eapply ex_rcpt_ok; in_list|apply Forall_nil]|].
  split; [exists 5%Z, ex_sym, (repeat x2a 16); repeat (split; [reflexivity|]); split; left; reflexivity|].
  split; [vm_compute; reflexivity|]. split; vm_compute; reflexivity.
Qed.
Print Assumptions C15_unknown_class_refuted.

(** With algorithms of the recipient class, the tag of the decoded message verifies and the
    recipients arrive. *)
Theorem C15_mac_direct_round_trip_partial : forall X n m rs n' m2 b kr e, law_wrap_some X -> law_oaep_some X ->
  headers_ok X (mm_core m) -> mm_rcpts m = Some rs -> Forall (fun r => headers_ok X (r_core r) /\ simple r) rs -> Forall direct rs ->
  rs <> [] -> shares (mm_core m) (Cls FOps 10) kr -> e = None \/ e = Some 97%N ->
  macm_encode X n m true true = ((n', m2), Ok b) ->
  exists m' rs', decode X e true (VBytes b) = Ok (MMac m') /\ arrived (mm_core m) (mm_core m') /\
    payload (mm_core m') = payload (mm_core m) /\ mm_rcpts m' = Some rs' /\ recipients_arrive rs rs' /\
    macm_verify_tag X (MacMsg (equip (mm_core m') kr (aad (mm_core m))) (mm_tag m') (mm_rcpts m')) = Ok true.
Proof. exact mac_direct_trip. Qed.
Print Assumptions C15_mac_direct_round_trip_partial.

Example C15_example : exists n' m2 b, law_wrap_some toy /\ law_oaep_some toy /\
  headers_ok toy (mm_core (ex_mac [ex_direct 0; ex_direct 1])) /\
  Forall (fun r => headers_ok toy (r_core r) /\ simple r) [ex_direct 0; ex_direct 1] /\ Forall direct [ex_direct 0; ex_direct 1] /\
  shares (mm_core (ex_mac [ex_direct 0; ex_direct 1])) (Cls FOps 10) ex_sym /\
  macm_encode toy 0 (ex_mac [ex_direct 0; ex_direct 1]) true true = ((n', m2), Ok b).
Proof.
  do 3 eexists. split; [apply toy_wrap_some|]. split; [apply toy_oaep_some|]. split; [apply ex_mac_ok|].
  split; [repeat (apply Forall_cons; [rcpt_ok|]); apply Forall_nil|].
  split; [repeat (apply Forall_cons; [reflexivity|]); apply Forall_nil|].
  split; [exists 5%Z, ex_sym, (repeat x2a 16); repeat (split; [reflexivity|]); split; left; reflexivity|]. vm_compute. reflexivity.
Qed.

(** ** C16: COSE_Encrypt with direct recipients *)

Theorem C16_unknown_class_refuted : exists n m s b,
  headers_ok toy (e_core m) /\ e_rcpts m <> [] /\ Forall direct (e_rcpts m) /\
  Forall (fun r => headers_ok toy (r_core r)) (e_rcpts m) /\ shares (e_core m) (Cls FOps 4) ex_sym /\
  encm_encode toy n m true true = (s, Ok b) /\
  decode toy None true (VBytes b) = Err KeyError /\ decode toy (Some 96%N) true (VBytes b) = Err KeyError.
Proof.
  exists 0%N, (ex_enc [ex_hkdf512]). do 2 eexists. split; [apply ex_enc_ok|]. split; [discriminate|].
  split; [apply Forall_cons; [reflexivity|apply Forall_nil]|]. split; [apply Forall_cons; [eapply ex_rcpt_ok; in_list|apply Forall_nil]|].
  split; [exists 1%Z, ex_sym, (repeat x2a 16); repeat (split; [reflexivity|]); split; left; reflexivity|].
  split; [vm_compute; reflexivity|]. split; vm_compute; reflexivity.
Qed.
Print Assumptions C16_unknown_class_refuted.

(** With algorithms of the recipient class, decrypting for any recipient of the decoded
    message gives the payload. *)
Theorem C16_enc_direct_round_trip_partial : forall X n m n' m2 b kr e, law_gcm X -> law_ccm X -> law_wrap_some X -> law_oaep_some X ->
  headers_ok X (e_core m) -> Forall (fun r => headers_ok X (r_core r) /\ simple r) (e_rcpts m) -> Forall direct (e_rcpts m) ->
  e_rcpts m <> [] -> shares (e_core m) (Cls FOps 4) kr -> e = None \/ e = Some 96%N ->
  encm_encode X n m true true = ((n', m2), Ok b) ->
  exists m' pl, decode X e true (VBytes b) = Ok (MEnc m') /\ arrived (e_core m) (e_core m') /\
    recipients_arrive (e_rcpts m) (e_rcpts m') /\ payload (e_core m) = Some pl /\
    forall r', In r' (e_rcpts m') ->
      snd (encm_decrypt X (EncMsg (equip (e_core m') kr (aad (e_core m))) (e_rcpts m')) r') = Ok pl.
Proof. exact enc_direct_trip. Qed.
Print Assumptions C16_enc_direct_round_trip_partial.

Example C16_example : exists n' m2 b, law_gcm toy /\ law_ccm toy /\ law_wrap_some toy /\ law_oaep_some toy /\
  headers_ok toy (e_core (ex_enc [ex_direct 0; ex_direct 1])) /\
  Forall (fun r => headers_ok toy (r_core r) /\ simple r) [ex_direct 0; ex_direct 1] /\ Forall direct [ex_direct 0; ex_direct 1] /\
  shares (e_core (ex_enc [ex_direct 0; ex_direct 1])) (Cls FOps 4) ex_sym /\
  encm_encode toy 0 (ex_enc [ex_direct 0; ex_direct 1]) true true = ((n', m2), Ok b).
Proof.
  do 3 eexists. split; [apply toy_gcm|]. split; [apply toy_ccm|]. split; [apply toy_wrap_some|]. split; [apply toy_oaep_some|]. split; [apply ex_enc_ok|].
  split; [repeat (apply Forall_cons; [rcpt_ok|]); apply Forall_nil|].
  split; [repeat (apply Forall_cons; [reflexivity|]); apply Forall_nil|].
  split; [exists 1%Z, ex_sym, (repeat x2a 16); repeat (split; [reflexivity|]); split; left; reflexivity|]. vm_compute. reflexivity.
Qed.

(** ** C17: COSE_Encrypt with key wrap *)

(** Recipients given different content keys beforehand: the message is encrypted under the
    last one, and the first recipient cannot read it. *)
Theorem C17_preset_keys_refuted : exists n m s b m' r r' k,
  headers_ok toy (e_core m) /\ Forall (fun r => headers_ok toy (r_core r) /\ simple r) (e_rcpts m) /\
  Forall (fun r => r_class r = RKeyWrap) (e_rcpts m) /\
  encm_encode toy n m true true = (s, Ok b) /\ decode toy None true (VBytes b) = Ok (MEnc m') /\
  nth_error (e_rcpts m) 0 = Some r /\ holder toy r k [] /\ nth_error (e_rcpts m') 0 = Some r' /\
  snd (encm_decrypt toy (equip_msg m' (aad (e_core m)) 0 (equip_rcpt r' k [])) (equip_rcpt r' k [])) = Err InvalidTag.
Proof.
  exists 0%N, (ex_enc [ex_preset (ex_kw 0 (Some ex_sym) []) (repeat x11 16); ex_preset (ex_kw 1 (Some ex_sym) []) (repeat x22 16)]).
  do 5 eexists. exists ex_sym. split; [apply ex_enc_ok|].
  split; [repeat (apply Forall_cons; [rcpt_ok|]); apply Forall_nil|].
  split; [repeat (apply Forall_cons; [reflexivity|]); apply Forall_nil|].
  split; [vm_compute; reflexivity|]. split; [vm_compute; reflexivity|]. split; [reflexivity|].
  split; [apply (H_wrap toy _ _ _ (-3) ex_sym (repeat x2a 16)); first [reflexivity|left; reflexivity]|].
  split; [reflexivity|vm_compute; reflexivity].
Qed.
Print Assumptions C17_preset_keys_refuted.

(** When the recipients carry no content key, or all the same, everyone who holds the key
    of a recipient reads the message. The recipients may use AES key wrap, RSA-OAEP and
    ECDH with key wrap side by side. *)
Theorem C17_enc_wrap_round_trip_partial : forall X n m n' m2 b e,
  law_gcm X -> law_ccm X -> law_wrap X -> law_wrap_some X -> law_oaep X -> law_oaep_some X -> law_ecdh X ->
  headers_ok X (e_core m) -> Forall (fun r => headers_ok X (r_core r) /\ simple r) (e_rcpts m) ->
  Forall wraps (e_rcpts m) -> one_content_key (e_rcpts m) -> e = None \/ e = Some 96%N ->
  encm_encode X n m true true = ((n', m2), Ok b) ->
  exists m', decode X e true (VBytes b) = Ok (MEnc m') /\ arrived (e_core m) (e_core m') /\
    length (e_rcpts m') = length (e_rcpts m) /\ recipients_arrive (e_rcpts m2) (e_rcpts m') /\
    forall i r k lo, nth_error (e_rcpts m) i = Some r -> holder X r k lo ->
      exists r' pl, nth_error (e_rcpts m') i = Some r' /\ payload (e_core m) = Some pl /\
        snd (encm_decrypt X (equip_msg m' (aad (e_core m)) i (equip_rcpt r' k lo)) (equip_rcpt r' k lo)) = Ok pl.
Proof. exact wrapped_trip. Qed.
Print Assumptions C17_enc_wrap_round_trip_partial.

(** An RSA key (modulus 15) for an OAEP recipient, beside AES key wrap and ECDH. *)
Definition ex_rsa : key :=
  Key KRSA [(VClass KpKty, KtyRSA); (VClass RSAKpN, VBytes [x0f]); (VClass RSAKpE, VBytes [x03]); (VClass RSAKpD, VBytes [x03]);
            (VClass RSAKpP, VBytes [x05]); (VClass RSAKpQ, VBytes [x03]); (VClass RSAKpDP, VBytes [x03]); (VClass RSAKpDQ, VBytes [x01]);
            (VClass RSAKpQInv, VBytes [x02])] [].
Definition ex_rsa_pub : key :=
  Key KRSA [(VClass KpKty, KtyRSA); (VClass RSAKpN, VBytes [x0f]); (VClass RSAKpE, VBytes [x03])] [].
Lemma prime_5 : prime 5.
Proof. apply prime_alt. split; [reflexivity|]. intros n H [k E]. assert (n = 2 \/ n = 3 \/ n = 4)%Z by Lia.lia. Lia.lia. Qed.
Lemma ex_rsa_pair : rsa_pair ex_rsa_pub ex_rsa.
Proof.
  exists (RsaPriv 5 3 3 3 1 2 (RsaPub 3 15)).
  split; [split; [reflexivity|split; eexists; split; reflexivity]|].
  split; [split; [split; [reflexivity|split; eexists; split; reflexivity]|repeat split; eexists; split; reflexivity]|].
  unfold rsa_consistent. split; [exact prime_5|]. split; [exact prime_3|]. split; [discriminate|]. split; [reflexivity|].
  split; [exists 2%Z; reflexivity|]. split; [exists 2%Z; reflexivity|]. split; [exists 1%Z; reflexivity|exists 1%Z; reflexivity].
Qed.
Example C10_rsa_example : key_pair toy (-37) ex_rsa ex_rsa_pub /\ key_pair toy (-257) ex_rsa ex_rsa_pub.
Proof. destruct ex_rsa_pair as (q & H1 & H2 & H3). split; apply (KP_rsa toy _ _ _ q); try assumption; vm_compute; tauto. Qed.
Definition ex_oaep (id : N) : rcpt := Rcpt id RKeyWrap (ex_core [(Algorithm, alg (-41))] [] (Some ex_rsa_pub) []) (VStr []) [].
Definition ex_mixed : encmsg := ex_enc [ex_kw 0 (Some ex_sym) []; ex_oaep 1; ex_agree 2].
Lemma ex_agree_pair : dh_pair toy 1 ex_ec2 ex_pub.
Proof. exists [x07], [x07], [x08]. do 6 (split; [reflexivity|]). do 3 (split; [discriminate|]). reflexivity. Qed.
Lemma ex_mixed_rcpts : Forall (fun r => headers_ok toy (r_core r) /\ simple r) (e_rcpts ex_mixed) /\ Forall wraps (e_rcpts ex_mixed) /\
  one_content_key (e_rcpts ex_mixed).
Proof.
  split; [repeat (apply Forall_cons; [rcpt_ok|]); apply Forall_nil|].
  split; [repeat (apply Forall_cons; [first [left; reflexivity|right; reflexivity]|]); apply Forall_nil|].
  left. intros r [<-|[<-|[<-|[]]]]; reflexivity.
Qed.
Lemma ex_agree_holder : holder toy (ex_agree 2) ex_ec2 [].
Proof.
  apply (H_agree toy _ _ _ (-29) 1 ex_pub); [reflexivity|left; reflexivity|reflexivity|reflexivity|exact ex_agree_pair|left; reflexivity|split; reflexivity|split; reflexivity].
Qed.
Example C17_example : exists n' m2 b,
  law_gcm toy /\ law_ccm toy /\ law_wrap toy /\ law_wrap_some toy /\ law_oaep toy /\ law_oaep_some toy /\ law_ecdh toy /\
  headers_ok toy (e_core ex_mixed) /\ Forall (fun r => headers_ok toy (r_core r) /\ simple r) (e_rcpts ex_mixed) /\
  Forall wraps (e_rcpts ex_mixed) /\ one_content_key (e_rcpts ex_mixed) /\
  encm_encode toy 3 ex_mixed true true = ((n', m2), Ok b) /\
  holder toy (ex_kw 0 (Some ex_sym) []) ex_sym [] /\ holder toy (ex_oaep 1) ex_rsa [] /\ holder toy (ex_agree 2) ex_ec2 [].
Proof.
  do 3 eexists. do 7 (split; [first [apply toy_gcm|apply toy_ccm|apply toy_wrap|apply toy_wrap_some|apply toy_oaep|apply toy_oaep_some|apply toy_ecdh]|]).
  split; [apply ex_enc_ok|]. destruct ex_mixed_rcpts as (H1 & H2 & H3). split; [exact H1|]. split; [exact H2|]. split; [exact H3|].
  split; [vm_compute; reflexivity|]. split; [|split; [|exact ex_agree_holder]].
  - apply (H_wrap toy _ _ _ (-3) ex_sym (repeat x2a 16)); first [reflexivity|left; reflexivity].
  - apply (H_oaep toy _ _ _ (-41) ex_rsa_pub); [reflexivity|in_list|reflexivity|reflexivity|exact ex_rsa_pair|left; reflexivity|left; reflexivity].
Qed.

(** ** C18: COSE_Encrypt with direct key agreement *)

(** The sender's static key need not be in a header (ECDH-SS). Without it, the holder of the
    peer key cannot read the message: decryption looks for the key in the headers only. *)
Definition ex_peer : key := Key KEC2 (ddel (ddel (k_store ex_pub) (VClass KpAlg)) (VClass KpKeyOps)) [].
Definition ex_own : key :=
  Key KEC2 [(VClass KpKty, KtyEC2); (VClass EC2KpCurve, VClass (Cls FCrv 1)); (VClass EC2KpX, VBytes [x03]); (VClass EC2KpY, VBytes [x04]);
            (VClass EC2KpD, VBytes [x03])] [].
Definition ex_own_pub : key := public_part ex_own.
Definition ex_agree_with (id : N) (rc : rclass) (z : Z) (hs : dict) : rcpt :=
  Rcpt id rc (ex_core ((Algorithm, alg z) :: hs) [] (Some ex_own) [(StaticKey, kval ex_peer)]) (VStr []) [].
Theorem C18_unannounced_key_refuted : exists n m r s b m' r',
  headers_ok toy (e_core m) /\ e_rcpts m = [r] /\ headers_ok toy (r_core r) /\ simple r /\ r_class r = RAgree /\
  dget (local (r_core r)) StaticKey = Some (kval ex_peer) /\ dh_pair toy 1 ex_ec2 ex_peer /\
  encm_encode toy n m true true = (s, Ok b) /\ decode toy None true (VBytes b) = Ok (MEnc m') /\ e_rcpts m' = [r'] /\
  snd (encm_decrypt toy (equip_msg m' (aad (e_core m)) 0 (equip_rcpt r' ex_ec2 [])) (equip_rcpt r' ex_ec2 [])) = Err CoseException.
Proof.
  exists 0%N, (ex_enc [ex_agree_with 0 RAgree (-27) []]). do 5 eexists. split; [apply ex_enc_ok|]. split; [reflexivity|].
  split; [eapply ex_rcpt_ok; in_list|]. split; [split; [reflexivity|eexists; split; [|reflexivity]; in_list]|]. split; [reflexivity|]. split; [reflexivity|].
  split; [exists [x07], [x07], [x08]; do 6 (split; [reflexivity|]); do 3 (split; [discriminate|]); reflexivity|].
  split; [vm_compute; reflexivity|]. split; [vm_compute; reflexivity|]. split; [reflexivity|]. vm_compute. reflexivity.
Qed.
Print Assumptions C18_unannounced_key_refuted.

(** With the sender's public key in the header of its algorithm, the holder of the peer's
    private key reads the message. *)
Theorem C18_enc_agree_round_trip_partial : forall X n m r n' m2 b k lo e,
  law_gcm X -> law_ccm X -> law_wrap_some X -> law_oaep_some X -> law_ecdh X ->
  headers_ok X (e_core m) -> e_rcpts m = [r] -> headers_ok X (r_core r) -> r_subs r = [] -> agree_holder X r k lo ->
  e = None \/ e = Some 96%N -> encm_encode X n m true true = ((n', m2), Ok b) ->
  exists m' r' pl, decode X e true (VBytes b) = Ok (MEnc m') /\ arrived (e_core m) (e_core m') /\
    e_rcpts m' = [r'] /\ r_class r' = RAgree /\ arrived (r_core r) (r_core r') /\ payload (e_core m) = Some pl /\
    snd (encm_decrypt X (equip_msg m' (aad (e_core m)) 0 (equip_rcpt r' k lo)) (equip_rcpt r' k lo)) = Ok pl.
Proof. exact enc_agree_trip. Qed.
Print Assumptions C18_enc_agree_round_trip_partial.

Lemma ex_own_portable : portable toy ex_own_pub.
Proof.
  apply (ec2_built toy (VInt 1) (VBytes [x03]) (VBytes [x04]) (VBytes []) VNone true); [left; reflexivity|vm_compute; reflexivity].
Qed.
Lemma ex_own_pair : dh_pair toy 1 ex_own ex_own_pub.
Proof. exists [x03], [x03], [x04]. do 6 (split; [reflexivity|]). do 3 (split; [discriminate|]). reflexivity. Qed.
Lemma ex_agree_ok : forall id rc z n h, In (Cls FAlg z, n) (registered FAlg) -> In h [-1; -2]%Z ->
  headers_ok toy (r_core (ex_agree_with id rc z [(hdr h, kval ex_own_pub)])).
Proof.
  intros id rc z n h HI HH. split; [split; [reflexivity|apply Forall_nil]|]. cbn [r_core ex_agree_with ex_core uhdr]. split.
  - cbn in HH. destruct HH as [<-|[<-|[]]]; reflexivity.
  - apply Forall_cons; [apply HO_alg; exists (Cls FAlg z), n; split; [reflexivity|exact HI]|].
    apply Forall_cons; [apply HO_key; [exact HH|exact ex_own_portable]|apply Forall_nil].
Qed.
Lemma ex_peer_pair : dh_pair toy 1 ex_ec2 ex_peer.
Proof. exists [x07], [x07], [x08]. do 6 (split; [reflexivity|]). do 3 (split; [discriminate|]). reflexivity. Qed.
Example C18_example : exists n' m2 b,
  let r := ex_agree_with 0 RAgree (-25) [(EphemeralKey, kval ex_own_pub)] in
  law_gcm toy /\ law_ccm toy /\ law_wrap_some toy /\ law_oaep_some toy /\ law_ecdh toy /\
  headers_ok toy (e_core (ex_enc [r])) /\ headers_ok toy (r_core r) /\ agree_holder toy r ex_ec2 [] /\
  encm_encode toy 0 (ex_enc [r]) true true = ((n', m2), Ok b).
Proof.
  do 3 eexists. cbv zeta. do 5 (split; [first [apply toy_gcm|apply toy_ccm|apply toy_wrap_some|apply toy_oaep_some|apply toy_ecdh]|]).
  split; [apply ex_enc_ok|]. split; [apply (ex_agree_ok 0 RAgree (-25) (bs "ECDH_ES_HKDF_256") (-1)); in_list|]. split; [|vm_compute; reflexivity].
  exists (-25)%Z, 1%Z, ex_peer, ex_own, ex_own_pub, (kval ex_own_pub). split; [reflexivity|]. split; [left; reflexivity|]. do 2 (split; [reflexivity|]).
  split; [exact ex_peer_pair|]. split; [reflexivity|]. split; [reflexivity|]. split; [left; reflexivity|]. split; [exact ex_own_portable|].
  split; [exact ex_own_pair|]. do 4 (split; [left; reflexivity|]). split; split; reflexivity.
Qed.

(** ** C19: COSE_Encrypt with key agreement and key wrap *)

(** A sender who uses a key of their own (here with ECDH-ES) but puts it in no header makes
    a message that the holder of the peer key cannot read. *)
Theorem C19_unannounced_key_refuted : exists n m r s b m' r',
  headers_ok toy (e_core m) /\ e_rcpts m = [r] /\ headers_ok toy (r_core r) /\ simple r /\ r_class r = RAgreeKW /\
  dget (local (r_core r)) StaticKey = Some (kval ex_peer) /\ dh_pair toy 1 ex_ec2 ex_peer /\
  encm_encode toy n m true true = (s, Ok b) /\ decode toy None true (VBytes b) = Ok (MEnc m') /\ e_rcpts m' = [r'] /\
  snd (encm_decrypt toy (equip_msg m' (aad (e_core m)) 0 (equip_rcpt r' ex_ec2 [])) (equip_rcpt r' ex_ec2 [])) = Err AttributeError.
Proof.
  exists 0%N, (ex_enc [ex_agree_with 0 RAgreeKW (-29) []]). do 5 eexists. split; [apply ex_enc_ok|]. split; [reflexivity|].
  split; [eapply ex_rcpt_ok; in_list|]. split; [split; [reflexivity|eexists; split; [|reflexivity]; in_list]|]. split; [reflexivity|]. split; [reflexivity|].
  split; [exact ex_peer_pair|].
  split; [vm_compute; reflexivity|]. split; [vm_compute; reflexivity|]. split; [reflexivity|]. vm_compute. reflexivity.
Qed.
Print Assumptions C19_unannounced_key_refuted.

(** Recipients that agree on a key-encryption key: [k] is the private key of the peer, and
    the sender's key is generated by the library or was announced in the header of its
    algorithm. *)
Theorem C19_enc_agree_wrap_round_trip_partial : forall X n m n' m2 b e,
  law_gcm X -> law_ccm X -> law_wrap X -> law_wrap_some X -> law_oaep X -> law_oaep_some X -> law_ecdh X ->
  headers_ok X (e_core m) -> Forall (fun r => headers_ok X (r_core r) /\ simple r) (e_rcpts m) ->
  Forall (fun r => r_class r = RAgreeKW) (e_rcpts m) -> one_content_key (e_rcpts m) -> e = None \/ e = Some 96%N ->
  encm_encode X n m true true = ((n', m2), Ok b) ->
  exists m', decode X e true (VBytes b) = Ok (MEnc m') /\ arrived (e_core m) (e_core m') /\
    length (e_rcpts m') = length (e_rcpts m) /\
    forall i r k lo z cv peer, nth_error (e_rcpts m) i = Some r ->
      get_attr (r_core r) Algorithm = Ok (alg z) -> dget (local (r_core r)) StaticKey = Some (kval peer) ->
      dh_pair X cv k peer -> ckey (r_core r) = None \/ sender_key X cv z (r_core r) ->
      no_protected_keys (r_core r) -> same_supplements (r_core r) lo ->
      exists r' pl, nth_error (e_rcpts m') i = Some r' /\ payload (e_core m) = Some pl /\
        snd (encm_decrypt X (equip_msg m' (aad (e_core m)) i (equip_rcpt r' k lo)) (equip_rcpt r' k lo)) = Ok pl.
Proof.
  intros X n m n' m2 b e LG LC LW LWS LO LOS LE HO HF HC H1 He H.
  assert (HW : Forall wraps (e_rcpts m)) by (eapply Forall_impl; [|exact HC]; intros r E; right; exact E).
  destruct (wrapped_trip X n m n' m2 b e LG LC LW LWS LO LOS LE HO HF HW H1 He H) as (m' & HD & HA & HL & _ & HX).
  exists m'. split; [exact HD|]. split; [exact HA|]. split; [exact HL|]. intros i r k lo z cv peer HI HG HS HP HK HN HU.
  apply (HX i r k lo HI). rewrite Forall_forall in HF, HC. pose proof (nth_error_In _ _ HI) as HIn.
  destruct (HF r HIn) as (_ & _ & z' & HZ & HG'). rewrite HG in HG'. injection HG' as <-. rewrite (HC r HIn) in HZ.
  apply (H_agree X _ _ _ z cv peer); auto.
Qed.
Print Assumptions C19_enc_agree_wrap_round_trip_partial.

Definition ex_two_agree : encmsg := ex_enc [ex_agree 0; ex_agree_with 1 RAgreeKW (-32) [(StaticKey, kval ex_own_pub)]].
Example C19_example : exists n' m2 b, headers_ok toy (e_core ex_two_agree) /\
  Forall (fun r => headers_ok toy (r_core r) /\ simple r) (e_rcpts ex_two_agree) /\
  Forall (fun r => r_class r = RAgreeKW) (e_rcpts ex_two_agree) /\ one_content_key (e_rcpts ex_two_agree) /\
  encm_encode toy 3 ex_two_agree true true = ((n', m2), Ok b) /\
  dh_pair toy 1 ex_ec2 ex_pub /\ dh_pair toy 1 ex_ec2 ex_peer /\
  (exists r, nth_error (e_rcpts ex_two_agree) 0 = Some r /\ ckey (r_core r) = None) /\
  (exists r, nth_error (e_rcpts ex_two_agree) 1 = Some r /\ sender_key toy 1 (-32) (r_core r) /\ no_protected_keys (r_core r) /\
    same_supplements (r_core r) []).
Proof.
  do 3 eexists. split; [apply ex_enc_ok|]. split.
  { apply Forall_cons; [rcpt_ok|]. apply Forall_cons; [|apply Forall_nil]. split; [apply (ex_agree_ok 1 RAgreeKW (-32) (bs "ECDH_SS_A128KW") (-2)); in_list|].
    split; [reflexivity|eexists; split; [|reflexivity]; in_list]. }
  split; [repeat (apply Forall_cons; [reflexivity|]); apply Forall_nil|]. split; [left; intros r [<-|[<-|[]]]; reflexivity|].
  split; [vm_compute; reflexivity|]. split; [exact ex_agree_pair|]. split; [exact ex_peer_pair|].
  split; [eexists; split; reflexivity|]. eexists. split; [reflexivity|]. split; [|split; split; reflexivity].
  exists ex_own, ex_own_pub, (kval ex_own_pub). split; [reflexivity|]. split; [reflexivity|]. split; [left; reflexivity|]. split; [exact ex_own_portable|exact ex_own_pair].
Qed.

(** ** C57: encoding again *)

(** With different content keys given beforehand, the recipients never agree, however often
    the message is encoded. *)
Theorem C57_preset_keys_refuted : exists n m s b m1 n1 s1 b1 m' r r' k,
  headers_ok toy (e_core m) /\ Forall (fun r => headers_ok toy (r_core r) /\ simple r) (e_rcpts m) /\ Forall wraps (e_rcpts m) /\
  encm_encode toy n m true true = (s, Ok b) /\ m1 = snd s /\ encm_encode toy n1 m1 true true = (s1, Ok b1) /\
  decode toy None true (VBytes b1) = Ok (MEnc m') /\
  nth_error (e_rcpts m) 0 = Some r /\ holder toy r k [] /\ nth_error (e_rcpts m') 0 = Some r' /\
  snd (encm_decrypt toy (equip_msg m' (aad (e_core m)) 0 (equip_rcpt r' k [])) (equip_rcpt r' k [])) = Err InvalidTag.
Proof.
  exists 0%N, (ex_enc [ex_preset (ex_kw 0 (Some ex_sym) []) (repeat x11 16); ex_preset (ex_kw 1 (Some ex_sym) []) (repeat x22 16)]).
  do 3 eexists. exists 1%N. do 5 eexists. exists ex_sym. split; [apply ex_enc_ok|].
  split; [repeat (apply Forall_cons; [rcpt_ok|]); apply Forall_nil|].
  split; [repeat (apply Forall_cons; [left; reflexivity|]); apply Forall_nil|].
  split; [vm_compute; reflexivity|]. split; [reflexivity|]. split; [vm_compute; reflexivity|]. split; [vm_compute; reflexivity|]. split; [reflexivity|].
  split; [apply (H_wrap toy _ _ _ (-3) ex_sym (repeat x2a 16)); first [reflexivity|left; reflexivity]|].
  split; [reflexivity|vm_compute; reflexivity].
Qed.
Print Assumptions C57_preset_keys_refuted.

(** After the first encoding the message's key and the content keys of its recipients stay,
    through any number of further calls with any arguments and outcomes. *)
Theorem C57_same_content_key_partial : forall X n m t n1 m1 b m2, law_urandom_len X -> Forall wraps (e_rcpts m) ->
  encm_encode X n m t true = ((n1, m1), Ok b) -> after_encodes X m1 m2 ->
  exists K k1 k2, ckey (e_core m1) = Some k1 /\ secret k1 K /\ ckey (e_core m2) = Some k2 /\ secret k2 K /\
    map (fun r => payload (r_core r)) (e_rcpts m2) = map (fun r => payload (r_core r)) (e_rcpts m1) /\
    (one_content_key (e_rcpts m) -> Forall (fun r => payload (r_core r) = Some K) (e_rcpts m2)).
Proof. exact same_content_key. Qed.
Print Assumptions C57_same_content_key_partial.

(** After any number of encodings, every recipient can still read the next one. *)
Theorem C57_every_encoding_partial : forall X m m1 n s b e,
  law_gcm X -> law_ccm X -> law_wrap X -> law_wrap_some X -> law_oaep X -> law_oaep_some X -> law_ecdh X -> law_urandom_len X ->
  headers_ok X (e_core m) -> Forall (fun r => headers_ok X (r_core r) /\ simple r) (e_rcpts m) ->
  Forall wraps (e_rcpts m) -> one_content_key (e_rcpts m) -> e = None \/ e = Some 96%N ->
  after_sends X m m1 -> encm_encode X n m1 true true = (s, Ok b) ->
  exists m', decode X e true (VBytes b) = Ok (MEnc m') /\ arrived (e_core m) (e_core m') /\
    length (e_rcpts m') = length (e_rcpts m) /\ recipients_arrive (e_rcpts (snd s)) (e_rcpts m') /\
    forall i r k lo, nth_error (e_rcpts m) i = Some r -> holder X r k lo ->
      exists r' pl, nth_error (e_rcpts m') i = Some r' /\ payload (e_core m) = Some pl /\
        snd (encm_decrypt X (equip_msg m' (aad (e_core m)) i (equip_rcpt r' k lo)) (equip_rcpt r' k lo)) = Ok pl.
Proof. exact every_send_trip. Qed.
Print Assumptions C57_every_encoding_partial.

Example C57_example : exists m1 s b, law_urandom_len toy /\ Forall wraps (e_rcpts ex_mixed) /\ one_content_key (e_rcpts ex_mixed) /\
  after_sends toy ex_mixed m1 /\ after_encodes toy m1 m1 /\ m1 <> ex_mixed /\ encm_encode toy 9 m1 true true = (s, Ok b).
Proof.
  destruct (encm_encode toy 3 ex_mixed true true) as [s1 x1] eqn:E1. pose proof E1 as E. vm_compute in E. injection E as <- <-.
  do 3 eexists. split; [exact toy_urandom_len|]. destruct ex_mixed_rcpts as (_ & H2 & H3). split; [exact H2|]. split; [exact H3|].
  split; [eapply AS_more; [apply AS_none|exact E1]|]. split; [apply AE_none|]. split; [discriminate|]. vm_compute. reflexivity.
Qed.
